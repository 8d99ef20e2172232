(** Proofs about the phase center catalog *)
From Coq Require Import List ZArith Bool Arith String QArith Qabs Lia.
From Verif Require Import Lib.Py Lib.Np Lib.Slice Lib.Cube Lib.Dict Model.Tools Model.Hdf5 Model.PhaseCenter
  Spec.PhaseSpec.
Import ListNotations.
Open Scope Z_scope.
Open Scope list_scope.
Notation length := List.length.

(** * Dictionaries as sets of pairs *)
Lemma in_dset (c : catalog) j v k e : NoDup (map fst c) ->
  In (k, e) (dset Z.eqb j v c) <-> (k = j /\ e = v) \/ (k <> j /\ In (k, e) c).
Proof.
  intros Hnd. assert (Hnd' : NoDup (dkeys (dset Z.eqb j v c))) by (apply (dset_NoDup Z.eqb Z.eqb_eq); exact Hnd).
  assert (Hg : forall x, dget Z.eqb k (dset Z.eqb j v c) = Ok x <-> In (k, x) (dset Z.eqb j v c)).
  { intros x. split; [apply (dget_In Z.eqb Z.eqb_eq)|apply (In_dget Z.eqb Z.eqb_eq); exact Hnd']. }
  rewrite <- Hg, (dget_dset Z.eqb Z.eqb_eq). destruct (k =? j) eqn:E.
  - apply Z.eqb_eq in E. split; [intros H; injection H as ->; auto|]. intros [[_ ->]|[H _]]; [reflexivity|contradiction].
  - apply Z.eqb_neq in E. split.
    + intros H. right. split; [exact E|]. apply (dget_In Z.eqb Z.eqb_eq). exact H.
    + intros [[H _]|[_ H]]; [contradiction|]. apply (In_dget Z.eqb Z.eqb_eq); [exact Hnd|exact H].
Qed.

Lemma in_ddel (c : catalog) j k e : In (k, e) (ddel Z.eqb j c) <-> k <> j /\ In (k, e) c.
Proof.
  unfold ddel. rewrite filter_In. simpl. rewrite negb_true_iff, Z.eqb_neq. split; intros [A B]; split; auto.
Qed.

Lemma in_update f j (c : catalog) k e :
  In (k, e) (update_entry f j c) <-> exists e0, In (k, e0) c /\ e = if k =? j then f e0 else e0.
Proof.
  unfold update_entry. rewrite in_map_iff. split.
  - intros ([k0 e0] & H & Hin). simpl in H. destruct (k0 =? j) eqn:E; injection H as <- <-;
      exists e0; rewrite E; auto.
  - intros (e0 & Hin & ->). exists (k, e0). simpl. destruct (k =? j); auto.
Qed.

Lemma update_keys f j c : map fst (update_entry f j c) = map fst c.
Proof.
  unfold update_entry. rewrite map_map. apply map_ext. intros [k e]. simpl. destruct (k =? j); reflexivity.
Qed.

Lemma in_keys {B} (c : list (Z * B)) k : In k (map fst c) <-> exists e, In (k, e) c.
Proof.
  rewrite in_map_iff. split.
  - intros ([k0 e] & <- & H). exists e. exact H.
  - intros (e & H). exists (k, e). auto.
Qed.

Lemma cat_unique (c : catalog) k e1 e2 : NoDup (map fst c) -> In (k, e1) c -> In (k, e2) c -> e1 = e2.
Proof.
  intros Hnd H1 H2. apply (In_dget Z.eqb Z.eqb_eq _ _ _ Hnd) in H1.
  apply (In_dget Z.eqb Z.eqb_eq _ _ _ Hnd) in H2. congruence.
Qed.

Lemma cat_get_In c k e : cat_get k c = Ok e -> In (k, e) c.
Proof. apply (dget_In Z.eqb Z.eqb_eq). Qed.
Lemma cat_In_get c k e : NoDup (map fst c) -> In (k, e) c -> cat_get k c = Ok e.
Proof. apply (In_dget Z.eqb Z.eqb_eq). Qed.

Lemma dmem_keys (c : catalog) k : dmem Z.eqb k c = true <-> In k (map fst c).
Proof. apply (dmem_In Z.eqb Z.eqb_eq). Qed.
Lemma dmem_keys_false (c : catalog) k : dmem Z.eqb k c = false <-> ~ In k (map fst c).
Proof. rewrite <- dmem_keys. destruct (dmem Z.eqb k c); split; congruence. Qed.

Notation isinZ_In := isinZ_spec.

(** * Matching *)
Lemma qabs_Qabs q : qabs q == Qabs q.
Proof.
  unfold qabs. destruct (Qle_bool 0 q) eqn:E.
  - apply Qle_bool_iff in E. rewrite Qabs_pos by exact E. reflexivity.
  - assert (H : ~ (0 <= q)%Q) by (rewrite <- Qle_bool_iff; congruence).
    rewrite Qabs_neg; [reflexivity|]. apply Qnot_le_lt in H. apply Qlt_le_weak. exact H.
Qed.

Lemma isclose_near tol a b : isclose a b (fst tol) (snd tol) = true <-> near tol a b.
Proof. unfold isclose, near. rewrite Qle_bool_iff, !qabs_Qabs. reflexivity. Qed.

Lemma cval_close_near tol a b : cval_close tol a b = true <-> cval_near tol a b.
Proof.
  destruct a as [x|x], b as [y|y]; simpl; try (split; [discriminate|tauto]).
  - apply isclose_near.
  - rewrite andb_true_iff, Nat.eqb_eq, forallb_forall. revert y. induction x as [|a x IH]; intros [|b y]; simpl.
    + split; [constructor|]. intros _. split; [reflexivity|tauto].
    + split; [intros [H _]; discriminate|inversion 1].
    + split; [intros [H _]; discriminate|inversion 1].
    + split.
      * intros [Hl H]. constructor; [apply isclose_near; apply (H (a, b)); auto|]. apply IH. split; [congruence|].
        intros p Hp. apply H. auto.
      * intros H. inversion H as [|? ? ? ? Hab Hr]; subst. apply IH in Hr as [Hl Hf]. split; [congruence|].
        intros p [<-|Hp]; [apply isclose_near; exact Hab|auto].
Qed.

Lemma key_diff_zero {A} (same : A -> A -> bool) (R : A -> A -> Prop) p c :
  (forall x y, same x y = true <-> R x y) -> (key_diff same p c = 0)%nat <-> both R p c.
Proof.
  intros H. destruct p, c; simpl; try (split; [discriminate|tauto]); try tauto.
  rewrite <- H. destruct (same a a0); split; congruence.
Qed.

Lemma both_eq {A} (a b : option A) : both eq a b <-> a = b.
Proof. destruct a, b; simpl; split; try congruence; tauto. Qed.

Lemma cat_diffs_zero p c : (cat_diffs p c = 0)%nat <-> same_place p c.
Proof.
  unfold cat_diffs, same_place. rewrite !Nat.eq_add_0.
  rewrite !(key_diff_zero (cval_close _) _ _ _ (cval_close_near _)).
  rewrite !(key_diff_zero String.eqb eq _ _ String.eqb_eq).
  rewrite (key_diff_zero Qeq_bool Qeq _ _ Qeq_bool_iff). rewrite !both_eq. tauto.
Qed.

Lemma near_refl tol a : (0 <= fst tol)%Q -> (0 <= snd tol)%Q -> near tol a a.
Proof.
  intros H1 H2. unfold near. setoid_replace (a - a)%Q with 0%Q by ring. simpl.
  apply Qle_trans with (0 + 0)%Q; [discriminate|]. apply Qplus_le_compat; [exact H2|].
  apply Qmult_le_0_compat; [exact H1|apply Qabs_nonneg].
Qed.
Lemma cval_near_refl tol v : (0 <= fst tol)%Q -> (0 <= snd tol)%Q -> cval_near tol v v.
Proof.
  intros H1 H2. destruct v as [q|l]; simpl; [apply near_refl; auto|].
  induction l; constructor; [apply near_refl; auto|auto].
Qed.
Lemma both_refl {A} (R : A -> A -> Prop) v : (forall x, R x x) -> both R v v.
Proof. intros H. destruct v; simpl; auto. Qed.
Lemma same_place_refl p : same_place p p.
Proof.
  assert (Hr : (0 <= fst radian_tols)%Q /\ (0 <= snd radian_tols)%Q) by (split; discriminate).
  assert (Hd : (0 <= fst default_tols)%Q /\ (0 <= snd default_tols)%Q) by (split; discriminate).
  destruct Hr, Hd. unfold same_place.
  repeat split; try (apply both_refl; intros; try reflexivity; apply cval_near_refl; assumption).
Qed.

Definition name_ok (nm : option string) (e : pentry) : Prop :=
  match nm with None => True | Some s => s = e_name e end.

(** The search gives an exact match if and only if there is one, and the first entry
    of the same name otherwise. *)
Lemma look_loop_spec nm p l mid md : 0 < md ->
  let r := look_loop nm p l mid md in
  (snd r = 0 -> exists k e, fst r = Some k /\ In (k, e) l /\ name_ok nm e /\ same_place p (e_coords e)) /\
  (snd r <> 0 -> forall k e, In (k, e) l -> name_ok nm e -> same_place p (e_coords e) -> False).
Proof.
  revert mid md. induction l as [|[k e] l IH]; intros mid md Hmd; cbn zeta.
  { simpl. split; [lia|tauto]. }
  assert (Hskip : forall m d, 0 < d -> (name_ok nm e -> ~ same_place p (e_coords e)) ->
     (snd (look_loop nm p l m d) = 0 -> exists k0 e0, fst (look_loop nm p l m d) = Some k0 /\
        In (k0, e0) ((k, e) :: l) /\ name_ok nm e0 /\ same_place p (e_coords e0)) /\
     (snd (look_loop nm p l m d) <> 0 -> forall k0 e0, In (k0, e0) ((k, e) :: l) -> name_ok nm e0 ->
        same_place p (e_coords e0) -> False)).
  { intros m d Hd Hno. destruct (IH m d Hd) as [I1 I2]. split.
    - intros H. destruct (I1 H) as (k0 & e0 & A & B & C). exists k0, e0. split; [exact A|]. split; [right; exact B|exact C].
    - intros H k0 e0 [Heq|Hin] Hn Hp; [injection Heq as -> ->; exact (Hno Hn Hp)|exact (I2 H k0 e0 Hin Hn Hp)]. }
  cbn [look_loop].
  set (sn := match nm with Some s => String.eqb s (e_name e) | None => false end).
  destruct (match nm with Some _ => negb sn | None => false end) eqn:Enm.
  { apply Hskip; [exact Hmd|]. intros Hn _. destruct nm as [s|]; [|discriminate]. simpl in Hn, sn. subst sn s.
    rewrite String.eqb_refl in Enm. discriminate. }
  assert (Hok : name_ok nm e).
  { destruct nm as [s|]; simpl; [|exact I]. simpl in sn. subst sn. apply negb_false_iff in Enm.
    apply String.eqb_eq in Enm. exact Enm. }
  set (d := Z.of_nat (cat_diffs p (e_coords e))).
  destruct (d =? 0) eqn:Ed.
  - apply Z.eqb_eq in Ed. cbn [orb]. assert (E : d <? md = true) by (apply Z.ltb_lt; lia). rewrite E.
    rewrite Ed. cbn [Z.eqb]. cbn [fst snd]. split; [|intros H; contradiction]. intros _.
    exists k, e. split; [reflexivity|]. split; [left; reflexivity|]. split; [exact Hok|].
    apply cat_diffs_zero. unfold d in Ed. lia.
  - apply Z.eqb_neq in Ed. assert (Hno : ~ same_place p (e_coords e)).
    { intros H. apply cat_diffs_zero in H. unfold d in Ed. lia. }
    cbn [orb]. destruct sn.
    + destruct (d <? md) eqn:El.
      * assert (E0 : d =? 0 = false) by (apply Z.eqb_neq; exact Ed). rewrite E0. apply Hskip; [unfold d in *; lia|auto].
      * assert (E0 : md =? 0 = false) by (apply Z.eqb_neq; lia). rewrite E0. apply Hskip; [exact Hmd|auto].
    + apply Hskip; [exact Hmd|auto].
Qed.

(** the search only answers with ids of entries it may consider *)
Lemma look_loop_key nm p l mid md m : fst (look_loop nm p l mid md) = Some m ->
  mid = Some m \/ exists e, In (m, e) l /\ name_ok nm e.
Proof.
  revert mid md. induction l as [|[k e] l IH]; intros mid md; cbn [look_loop]; [auto|].
  assert (Hskip : forall a b, fst (look_loop nm p l a b) = Some m ->
     a = Some m \/ exists e0, In (m, e0) ((k, e) :: l) /\ name_ok nm e0).
  { intros a b H. apply IH in H as [H|(e0 & H & Hn)]; [auto|]. right. exists e0. split; [right; exact H|exact Hn]. }
  set (sn := match nm with Some s => String.eqb s (e_name e) | None => false end).
  destruct (match nm with Some _ => negb sn | None => false end) eqn:Enm; [apply Hskip|].
  assert (Hok : name_ok nm e).
  { destruct nm as [s|]; simpl; [|exact I]. simpl in sn. subst sn. apply negb_false_iff in Enm.
    apply String.eqb_eq in Enm. exact Enm. }
  destruct ((_ =? 0) || sn); [|apply Hskip].
  destruct (_ <? md) eqn:El.
  - destruct (Z.of_nat _ =? 0).
    + simpl. intros H. injection H as <-. right. exists e. split; [left; reflexivity|exact Hok].
    + intros H. apply Hskip in H as [H|H]; [|auto]. injection H as <-. right. exists e. split; [left; reflexivity|exact Hok].
  - destruct (md =? 0); [simpl; auto|apply Hskip].
Qed.

Lemma look_cases nm p c :
  (exists k e, look_loop nm p c None 99999 = (Some k, 0) /\ In (k, e) c /\ name_ok nm e /\ same_place p (e_coords e)) \/
  (exists mid md, look_loop nm p c None 99999 = (mid, md) /\ md <> 0 /\
     (forall k e, In (k, e) c -> name_ok nm e -> same_place p (e_coords e) -> False) /\
     (forall m, mid = Some m -> exists e, In (m, e) c /\ name_ok nm e)).
Proof.
  pose proof (look_loop_spec nm p c None 99999 ltac:(lia)) as H. cbn zeta in H.
  pose proof (look_loop_key nm p c None 99999) as Hk.
  destruct (look_loop nm p c None 99999) as [mid md]. simpl in H, Hk. destruct H as [H1 H2].
  destruct (Z.eq_dec md 0) as [->|Hne].
  - left. destruct (H1 eq_refl) as (k & e & -> & Hin & Hn & Hp). exists k, e. auto.
  - right. exists mid, md. split; [reflexivity|]. split; [exact Hne|]. split; [exact (H2 Hne)|].
    intros m ->. destruct (Hk m eq_refl) as [H|H]; [discriminate|exact H].
Qed.

(** * Free ids *)
Lemma free_ids_In n used i : In i (free_ids n used) <-> (0 <= i <= Z.of_nat n /\ ~ In i used).
Proof.
  unfold free_ids. rewrite filter_In, negb_true_iff, isinZ_false, in_map_iff. split.
  - intros [(k & <- & Hk) Hn]. apply in_seq in Hk. split; [lia|exact Hn].
  - intros [H Hn]. split; [|exact Hn]. exists (Z.to_nat i). split; [lia|]. apply in_seq. lia.
Qed.

Lemma uniqueZ_same l x : In x (uniqueZ l) <-> In x l.
Proof. apply uniqueZ_In. Qed.

Lemma free_ids_exist n used : (length (uniqueZ used) <= n)%nat -> free_ids n used <> [].
Proof.
  intros H Hnil.
  assert (Hincl : incl (map Z.of_nat (seq 0 (S n))) (uniqueZ used)).
  { intros i Hi. apply in_map_iff in Hi as (k & <- & Hk). apply in_seq in Hk.
    apply uniqueZ_same. destruct (isinZ (Z.of_nat k) used) eqn:E; [apply isinZ_In; exact E|].
    apply isinZ_false in E. assert (Hin : In (Z.of_nat k) (free_ids n used)) by (apply free_ids_In; split; [lia|exact E]).
    rewrite Hnil in Hin. destruct Hin. }
  assert (Hnd : NoDup (map Z.of_nat (seq 0 (S n)))).
  { apply FinFun.Injective_map_NoDup; [intros a b; apply Nat2Z.inj|apply seq_NoDup]. }
  pose proof (NoDup_incl_length Hnd Hincl) as Hl. rewrite map_length, seq_length in Hl. lia.
Qed.

Lemma free_ids_pop pop n used : picks pop -> (length (uniqueZ used) <= n)%nat ->
  0 <= pop (free_ids n used) <= Z.of_nat n /\ ~ In (pop (free_ids n used)) used.
Proof. intros Hp Hn. apply free_ids_In. apply Hp. apply free_ids_exist. exact Hn. Qed.

Definition used_of (cat : option (list Z)) (old : option Z) (reserved : option (list Z)) : list Z :=
  (match cat with
   | None => []
   | Some keys => match old with None => keys | Some o => filter (fun k => negb (k =? o)) keys end
   end) ++ match reserved with None => [] | Some r => r end.

Lemma used_of_In cat old reserved i : In i (used_of cat old reserved) <-> in_use cat old reserved i.
Proof.
  unfold used_of, in_use. rewrite in_app_iff. split.
  - intros [H|H].
    + left. destruct cat as [keys|]; [|destruct H]. exists keys. split; [reflexivity|]. destruct old as [o|].
      * apply filter_In in H as [H1 H2]. apply negb_true_iff, Z.eqb_neq in H2. split; [exact H1|congruence].
      * split; [exact H|discriminate].
    + right. destruct reserved as [r|]; [|destruct H]. exists r. auto.
  - intros [(keys & -> & Hin & Ho)|(r & -> & Hin)].
    + left. destruct old as [o|]; [|exact Hin]. apply filter_In. split; [exact Hin|].
      apply negb_true_iff, Z.eqb_neq. congruence.
    + right. exact Hin.
Qed.

Definition old_known (cat : option (list Z)) (old : option Z) : Prop :=
  match old with None => True | Some o => exists keys, cat = Some keys /\ In o keys end.

Lemma generate_unfold pop cat cat_id old reserved : old_known cat old ->
  generate_new_phase_center_id pop cat cat_id old reserved =
  let used := used_of cat old reserved in
  match cat_id with
  | Some c => if isinZ c used then Err ValueError else Ok c
  | None => match old with
            | Some o => if isinZ o used then Ok (pop (free_ids (length (uniqueZ used)) used)) else Ok o
            | None => Ok (pop (free_ids (length (uniqueZ used)) used))
            end
  end.
Proof.
  intros Hk. unfold generate_new_phase_center_id, used_of. cbn zeta.
  destruct cat as [keys|], old as [o|]; simpl in Hk.
  - destruct Hk as (ks & Hks & Hin). injection Hks as <-. rewrite (proj2 (isinZ_In o keys) Hin). cbn [bind].
    destruct reserved; [|rewrite app_nil_r]; reflexivity.
  - cbn [bind]. destruct reserved; [|rewrite app_nil_r]; reflexivity.
  - destruct Hk as (ks & Hks & _). discriminate.
  - cbn [bind]. destruct reserved; reflexivity.
Qed.

Lemma generate_err pop cat cat_id old reserved : ~ old_known cat old ->
  generate_new_phase_center_id pop cat cat_id old reserved = Err ValueError.
Proof.
  intros Hk. unfold generate_new_phase_center_id. destruct old as [o|]; [|exfalso; apply Hk; exact I].
  destruct cat as [keys|]; [|reflexivity]. destruct (isinZ o keys) eqn:E; [|reflexivity].
  exfalso. apply Hk. exists keys. split; [reflexivity|]. apply isinZ_In. exact E.
Qed.

Lemma generate_requested pop cat c old reserved : old_known cat old ->
  (generate_new_phase_center_id pop cat (Some c) old reserved = Ok c /\ ~ in_use cat old reserved c) \/
  (generate_new_phase_center_id pop cat (Some c) old reserved = Err ValueError /\ in_use cat old reserved c).
Proof.
  intros Hk. rewrite generate_unfold by exact Hk. cbn zeta. destruct (isinZ c _) eqn:E.
  - right. split; [reflexivity|]. apply used_of_In. apply isinZ_In. exact E.
  - left. split; [reflexivity|]. rewrite <- used_of_In. apply isinZ_false. exact E.
Qed.

Lemma generate_fresh pop cat old reserved : picks pop -> old_known cat old ->
  exists n, generate_new_phase_center_id pop cat None old reserved = Ok n /\ ~ in_use cat old reserved n /\
    (forall o, old = Some o -> ~ in_use cat old reserved o -> n = o) /\
    ((old = None \/ exists o, old = Some o /\ in_use cat old reserved o) ->
       0 <= n /\ exists l, (forall i, In i l -> in_use cat old reserved i) /\ NoDup l /\ n <= Z.of_nat (length l)).
Proof.
  intros Hp Hk. rewrite generate_unfold by exact Hk. cbn zeta. set (used := used_of cat old reserved).
  pose proof (free_ids_pop pop (length (uniqueZ used)) used Hp (le_n _)) as [Hr Hf].
  assert (Hl : 0 <= pop (free_ids (length (uniqueZ used)) used) /\ exists l, (forall i, In i l -> in_use cat old reserved i) /\ NoDup l /\
     pop (free_ids (length (uniqueZ used)) used) <= Z.of_nat (length l)).
  { split; [lia|]. exists (uniqueZ used). split.
    - intros i Hi. apply used_of_In. apply uniqueZ_same. exact Hi.
    - split; [apply uniqueZ_NoDup|lia]. }
  assert (Hf' : ~ in_use cat old reserved (pop (free_ids (length (uniqueZ used)) used))).
  { rewrite <- used_of_In. exact Hf. }
  destruct old as [o|].
  - destruct (isinZ o used) eqn:E.
    + eexists. split; [reflexivity|]. split; [exact Hf'|]. split; [|intros _; exact Hl].
      intros o' Ho Hno. injection Ho as <-. exfalso. apply Hno. apply used_of_In. apply isinZ_In. exact E.
    + apply isinZ_false in E. exists o. split; [reflexivity|]. split; [rewrite <- used_of_In; exact E|].
      split; [congruence|]. intros [H|(o' & Ho & Hin)]; [discriminate|]. injection Ho as <-. apply used_of_In in Hin. contradiction.
  - eexists. split; [reflexivity|]. split; [exact Hf'|]. split; [discriminate|]. intros _. exact Hl.
Qed.

(** * Entries stay storable *)
Lemma as_float_idem v w : as_float v = Ok w -> as_float w = Ok w.
Proof. destruct v as [[q|[|q [|q' l]]]|]; simpl; intros H; try discriminate; injection H as <-; reflexivity. Qed.
Lemma as_array_idem n v w : as_array n v = Ok w -> as_array n w = Ok w.
Proof.
  destruct v as [[q|l]|]; simpl.
  - destruct (n =? 1)%nat eqn:E; [|discriminate]. intros H. injection H as <-. simpl. apply Nat.eqb_eq in E. subst. reflexivity.
  - destruct (length l =? n)%nat eqn:E; [|discriminate]. intros H. injection H as <-. simpl. rewrite E. reflexivity.
  - intros H. injection H as <-. reflexivity.
Qed.
Lemma as_float_none v w : as_float v = Ok w -> is_none w = is_none v.
Proof. destruct v as [[q|[|q [|q' l]]]|]; simpl; intros H; try discriminate; injection H as <-; reflexivity. Qed.
Lemma as_array_none n v w : as_array n v = Ok w -> is_none w = is_none v.
Proof.
  destruct v as [[q|l]|]; simpl; [destruct (n =? 1)%nat|destruct (length l =? n)%nat|]; intros H; try discriminate;
    injection H as <-; reflexivity.
Qed.
Lemma as_float_scalar q v w : as_float v = Ok w -> scalar_is q w = scalar_is q v.
Proof. destruct v as [[x|[|x [|x' l]]]|]; simpl; intros H; try discriminate; injection H as <-; reflexivity. Qed.

Lemma query_defaults_cases p q : query_defaults p = Ok q ->
  c_type q = c_type p /\ c_epoch q = c_epoch p /\ c_times q = c_times p /\ c_pm_ra q = c_pm_ra p /\
  c_pm_dec q = c_pm_dec p /\ c_dist q = c_dist p /\ c_vrad q = c_vrad p /\
  (c_lon p <> None -> c_lon q = c_lon p) /\ (c_lat p <> None -> c_lat q = c_lat p) /\
  (c_frame p <> None -> c_frame q = c_frame p).
Proof.
  unfold query_defaults. destruct (match c_type p with Some t => _ | None => false end); [discriminate|].
  destruct (type_in _ _); intros H; injection H as <-; simpl.
  - repeat split; intros; destruct (c_lon p), (c_lat p), (c_frame p); congruence.
  - repeat split.
Qed.

Lemma query_defaults_full p : match c_type p with Some t => str_in t allowed_cat_types = true | None => True end ->
  c_lon p <> None -> c_lat p <> None -> c_frame p <> None -> query_defaults p = Ok p.
Proof.
  intros Ht Hlon Hlat Hf. unfold query_defaults. destruct (c_type p) as [t|] eqn:Et; [rewrite Ht|]; simpl.
  - destruct (_ || _); [|reflexivity]. destruct p as [ty lon lat fr ep ti ra de di vr]; simpl in *. subst.
    destruct lon, lat, fr; try congruence; reflexivity.
  - reflexivity.
Qed.

Lemma is_none_neq {A} (v : option A) : is_none v = false <-> v <> None.
Proof. destruct v; simpl; split; congruence. Qed.

Lemma generate_entry_name name info p e : generate_entry name info p = Ok e -> e_name e = name /\ e_info e = info.
Proof.
  unfold generate_entry. cbn zeta.
  repeat match goal with |- context [if ?b then _ else _] => lazymatch b with context [query_defaults] => fail | _ => idtac end; destruct b; try discriminate end;
  intros H; apply bind_Ok in H as (q & _ & H);
  repeat match type of H with (if ?b then Err _ else _) = _ => destruct b; try discriminate end;
  apply bind_Ok in H as (r & _ & H); injection H as <-; split; reflexivity.
Qed.

(** the coordinates after normalisation *)
Definition finish (ty : option string) (p : coords) : result coords :=
  if type_in ty ["ephem"%string] then
    let times := match c_times p with Some (Arr l) => l | Some (Num q) => [q] | None => [] end in
    let n := length times in
    do lon <- as_array n (c_lon p); do lat <- as_array n (c_lat p);
    do dist <- as_array n (c_dist p); do vrad <- as_array n (c_vrad p);
    Ok (mkcoords ty lon lat (c_frame p) (c_epoch p) (Some (Arr times)) (c_pm_ra p) (c_pm_dec p) dist vrad)
  else
    do lon <- as_float (c_lon p); do lat <- as_float (c_lat p);
    do ra <- as_float (c_pm_ra p); do dec <- as_float (c_pm_dec p);
    do dist <- as_float (c_dist p); do vrad <- as_float (c_vrad p);
    Ok (mkcoords ty lon lat (c_frame p) (c_epoch p) (c_times p) ra dec dist vrad).

Lemma finish_facts ty q r : finish ty q = Ok r ->
  c_type r = ty /\ c_frame r = c_frame q /\ c_epoch r = c_epoch q /\
  is_none (c_lon r) = is_none (c_lon q) /\ is_none (c_lat r) = is_none (c_lat q) /\
  is_none (c_pm_ra r) = is_none (c_pm_ra q) /\ is_none (c_pm_dec r) = is_none (c_pm_dec q) /\
  (is_none (c_times q) = negb (type_in ty ["ephem"%string]) -> is_none (c_times r) = is_none (c_times q)) /\
  (type_in ty ["ephem"%string] = false -> forall x, scalar_is x (c_lon r) = scalar_is x (c_lon q) /\
      scalar_is x (c_lat r) = scalar_is x (c_lat q)) /\
  (is_none (c_times q) = negb (type_in ty ["ephem"%string]) -> finish ty r = Ok r).
Proof.
  unfold finish. destruct (type_in ty ["ephem"%string]).
  - cbn zeta. intros H.
    apply bind_Ok in H as (lon & Hlon & H). apply bind_Ok in H as (lat & Hlat & H).
    apply bind_Ok in H as (dist & Hdist & H). apply bind_Ok in H as (vrad & Hvrad & H). injection H as <-.
    cbn [c_type c_lon c_lat c_frame c_epoch c_times c_pm_ra c_pm_dec c_dist c_vrad].
    rewrite (as_array_none _ _ _ Hlon), (as_array_none _ _ _ Hlat). repeat split; try discriminate.
    + intros E. rewrite E. reflexivity.
    + intros _. set (n := length match c_times q with Some (Arr l) => l | Some (Num q) => [q] | None => [] end) in *.
      rewrite (as_array_idem _ _ _ Hlon), (as_array_idem _ _ _ Hlat), (as_array_idem _ _ _ Hdist),
        (as_array_idem _ _ _ Hvrad). reflexivity.
  - intros H.
    apply bind_Ok in H as (lon & Hlon & H). apply bind_Ok in H as (lat & Hlat & H).
    apply bind_Ok in H as (ra & Hra & H). apply bind_Ok in H as (dec & Hdec & H).
    apply bind_Ok in H as (dist & Hdist & H). apply bind_Ok in H as (vrad & Hvrad & H). injection H as <-.
    cbn [c_type c_lon c_lat c_frame c_epoch c_times c_pm_ra c_pm_dec c_dist c_vrad].
    rewrite (as_float_none _ _ Hlon), (as_float_none _ _ Hlat), (as_float_none _ _ Hra), (as_float_none _ _ Hdec).
    repeat split.
    + apply (as_float_scalar _ _ _ Hlon).
    + apply (as_float_scalar _ _ _ Hlat).
    + intros _. rewrite (as_float_idem _ _ Hlon), (as_float_idem _ _ Hlat), (as_float_idem _ _ Hra), (as_float_idem _ _ Hdec),
        (as_float_idem _ _ Hdist), (as_float_idem _ _ Hvrad). reflexivity.
Qed.

Definition frame_altaz (f : option string) : bool :=
  match f with Some f => String.eqb f "altaz"%string | None => false end.

(** what a successful construction of an entry means *)
Lemma generate_entry_inv name info p e : generate_entry name info p = Ok e ->
  exists q, query_defaults p = Ok q /\ finish (c_type p) q = Ok (e_coords e) /\
    e = mkentry name info (e_coords e) /\
    type_in (c_type p) allowed_cat_types = true /\
    Bool.eqb (is_none (c_pm_ra p)) (is_none (c_pm_dec p)) = true /\
    is_none (c_times q) = negb (type_in (c_type p) ["ephem"%string]) /\
    is_none (c_lon q) = false /\ is_none (c_lat q) = false /\ is_none (c_frame q) = false /\
    (negb (frame_altaz (c_frame q)) && type_in (c_type p) ["driftscan"; "unprojected"]%string) = false /\
    (type_in (c_type p) ["unprojected"%string] && negb (scalar_is 0 (c_lon q))) = false /\
    (type_in (c_type p) ["unprojected"%string] && negb (scalar_is half_pi (c_lat q))) = false /\
    (negb (type_in (c_type p) ["sidereal"%string]) && (negb (is_none (c_pm_ra q)) || negb (is_none (c_pm_dec q)))) = false.
Proof.
  unfold generate_entry. cbn zeta.
  destruct (type_in (c_type p) allowed_cat_types) eqn:E1; [|discriminate]. cbn [negb].
  destruct (Bool.eqb (is_none (c_pm_ra p)) (is_none (c_pm_dec p))) eqn:E2; [|discriminate]. cbn [negb].
  intros H. apply bind_Ok in H as (q & Hq & H).
  destruct (is_none (c_times q) && type_in (c_type p) ["ephem"%string]) eqn:E3; [discriminate|].
  destruct (negb (is_none (c_times q)) && negb (type_in (c_type p) ["ephem"%string])) eqn:E4; [discriminate|].
  destruct (is_none (c_lon q) || is_none (c_lat q) || is_none (c_frame q)) eqn:E5; [discriminate|].
  destruct (negb (match c_frame q with Some f => String.eqb f "altaz"%string | None => false end) &&
            type_in (c_type p) ["driftscan"; "unprojected"]%string) eqn:E6; [discriminate|].
  destruct (type_in (c_type p) ["unprojected"%string] && negb (scalar_is 0 (c_lon q))) eqn:E7; [discriminate|].
  destruct (type_in (c_type p) ["unprojected"%string] && negb (scalar_is half_pi (c_lat q))) eqn:E8; [discriminate|].
  destruct (negb (type_in (c_type p) ["sidereal"%string]) && (negb (is_none (c_pm_ra q)) || negb (is_none (c_pm_dec q)))) eqn:E9; [discriminate|].
  apply bind_Ok in H as (r & Hr & H). injection H as <-.
  apply orb_false_elim in E5 as [E5 E5c]. apply orb_false_elim in E5 as [E5a E5b].
  exists q. split; [exact Hq|]. split; [exact Hr|]. split; [reflexivity|]. split; [reflexivity|].
  split; [reflexivity|]. split.
  { destruct (is_none (c_times q)), (type_in (c_type p) ["ephem"%string]); simpl in *; congruence. }
  split; [exact E5a|]. split; [exact E5b|]. split; [exact E5c|]. split; [exact E6|]. split; [exact E7|].
  split; [exact E8|exact E9].
Qed.

Lemma type_in_sub t l l' : (forall s, In s l -> In s l') -> type_in t l = true -> type_in t l' = true.
Proof.
  destruct t as [t|]; simpl; [|discriminate]. unfold str_in. rewrite !existsb_exists.
  intros H (x & Hx & E). exists x. split; [apply H; exact Hx|exact E].
Qed.

Lemma generate_storable name info p e : generate_entry name info p = Ok e -> storable e.
Proof.
  intros H. apply generate_entry_inv in H as (q & Hq & Hf & He & E1 & E2 & E3 & E4 & E5 & E6 & E7 & E8 & E9 & E10).
  pose proof (finish_facts _ _ _ Hf) as (F1 & F2 & F3 & F4 & F5 & F6 & F7 & F8 & F9 & F10).
  destruct (query_defaults_cases _ _ Hq) as (Q1 & Q2 & Q3 & Q4 & Q5 & Q6 & Q7 & _).
  specialize (F8 E3). specialize (F10 E3).
  rewrite He. unfold storable. cbn [e_name e_info e_coords]. set (r := e_coords e) in *.
  unfold generate_entry. cbn zeta. rewrite F1, E1. cbn [negb]. rewrite F6, F7, Q4, Q5, E2. cbn [negb].
  rewrite query_defaults_full.
  2:{ rewrite F1. destruct (c_type p) as [t|]; [exact E1|exact I]. }
  2:{ apply is_none_neq. rewrite F4. exact E4. }
  2:{ apply is_none_neq. rewrite F5. exact E5. }
  2:{ rewrite F2. apply is_none_neq. exact E6. }
  cbn [bind]. rewrite F8, E3, F4, F5, F2, E4, E5, E6. cbn [orb].
  change (match c_frame q with Some f => String.eqb f "altaz"%string | None => false end) with (frame_altaz (c_frame q)).
  rewrite E7, F6, F7, E10.
  assert (Hun : forall x, (type_in (c_type p) ["unprojected"%string] && negb (scalar_is x (c_lon r))) =
                          (type_in (c_type p) ["unprojected"%string] && negb (scalar_is x (c_lon q)))
              /\ (type_in (c_type p) ["unprojected"%string] && negb (scalar_is x (c_lat r))) =
                          (type_in (c_type p) ["unprojected"%string] && negb (scalar_is x (c_lat q)))).
  { intros x. destruct (type_in (c_type p) ["unprojected"%string]) eqn:Eu; [|split; reflexivity].
    assert (Ee : type_in (c_type p) ["ephem"%string] = false).
    { clear - Eu. destruct (c_type p) as [t|]; [|reflexivity]. simpl in Eu |- *. unfold str_in in Eu |- *. simpl in Eu |- *.
      destruct (String.eqb_spec t "unprojected") as [E|]; [rewrite E; reflexivity|discriminate]. }
    destruct (F9 Ee x) as [-> ->]. split; reflexivity. }
  rewrite (proj1 (Hun 0%Q)), (proj2 (Hun half_pi)), E8, E9.
  unfold finish in F10. rewrite F2 in F10. destruct (type_in (c_type p) ["ephem"%string]) eqn:Ee; cbn [negb andb];
    rewrite F10; reflexivity.
Qed.
