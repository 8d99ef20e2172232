(** The operations on the phase center catalog *)
From Coq Require Import List ZArith Bool Arith String QArith Lia.
From Verif Require Import Lib.Py Lib.Np Lib.Slice Lib.Cube Lib.Dict Model.Tools Model.Hdf5 Model.PhaseCenter
  Spec.PhaseSpec Proofs.PhaseProofs.
Import ListNotations.
Open Scope Z_scope.
Open Scope list_scope.
Notation length := List.length.

Lemma consistent_keys s : pc_consistent s <->
  (NoDup (map fst (pc_cat s)) /\ Forall (fun p => storable (snd p)) (pc_cat s)) /\
  pc_n s = length (pc_cat s) /\ (forall k, In k (pc_ids s) -> In k (map fst (pc_cat s))).
Proof.
  unfold pc_consistent, catalog_ok, points, stored. split; intros (H1 & H2 & H3); split; [exact H1| |exact H1|]; split; [exact H2| |exact H2|].
  - intros k Hk. apply In_nth_error in Hk as [i Hi]. assert (Hl : (i < length (pc_ids s))%nat) by (apply nth_error_Some; congruence).
    destruct (H3 i Hl) as (e & k' & Hk' & He). assert (k = k') by congruence. subst. apply in_keys. exists e. exact He.
  - intros i Hi. apply nth_error_Some in Hi. destruct (nth_error (pc_ids s) i) as [k|] eqn:E; [|contradiction].
    assert (Hk : In k (pc_ids s)) by (eapply nth_error_In; exact E). apply H3 in Hk. apply in_keys in Hk as (e & He).
    exists e, k. auto.
Qed.

Lemma storable_In s k e : pc_consistent s -> In (k, e) (pc_cat s) -> storable e.
Proof. intros ((_ & H) & _) Hin. rewrite Forall_forall in H. apply (H (k, e) Hin). Qed.

Lemma storable_name nm e : storable e -> storable (set_name nm e).
Proof.
  unfold storable. intros H. apply generate_entry_inv in H as H0.
  destruct e as [n i c]. simpl in *. unfold generate_entry in *. cbn zeta in *.
  repeat match goal with |- (if ?b then Err _ else _) = _ => destruct b; [discriminate|] end.
  apply bind_Ok in H as (q & Hq & H). rewrite Hq. cbn [bind].
  repeat match goal with |- (if ?b then Err _ else _) = _ => destruct b; [discriminate|] end.
  apply bind_Ok in H as (r & Hr & H). injection H as ->. rewrite Hr. reflexivity.
Qed.
Lemma storable_info nm e : storable e -> storable (set_info nm e).
Proof.
  unfold storable. intros H.
  destruct e as [n i c]. simpl in *. unfold generate_entry in *. cbn zeta in *.
  repeat match goal with |- (if ?b then Err _ else _) = _ => destruct b; [discriminate|] end.
  apply bind_Ok in H as (q & Hq & H). rewrite Hq. cbn [bind].
  repeat match goal with |- (if ?b then Err _ else _) = _ => destruct b; [discriminate|] end.
  apply bind_Ok in H as (r & Hr & H). injection H as ->. rewrite Hr. reflexivity.
Qed.

(** * Adding *)
Lemma add_spec pop name info p force id s s' k : picks pop ->
  add_phase_center pop name info p force id s = Ok (s', k) ->
  exists e, generate_entry name info p = Ok e /\ e_name e = name /\
   ((s' = s /\ exists e0, In (k, e0) (pc_cat s) /\ e_name e0 = name /\ same_place (e_coords e) (e_coords e0)) \/
    ((forall k0 e0, In (k0, e0) (pc_cat s) -> e_name e0 = name -> ~ same_place (e_coords e) (e_coords e0)) /\
     s' = mkpc (dset Z.eqb k e (pc_cat s)) (length (dset Z.eqb k e (pc_cat s))) (pc_ids s) /\
     (forall c, id = Some c -> k = c) /\
     ((id = None \/ force = false) -> ~ In k (map fst (pc_cat s))))).
Proof.
  intros Hp. unfold add_phase_center. intros H. apply bind_Ok in H as (e & He & H). apply bind_Ok in H as (i & Hi & H).
  destruct (generate_entry_name _ _ _ _ He) as [Hn _]. exists e. split; [exact He|]. split; [exact Hn|].
  assert (Hid : (forall c, id = Some c -> i = c) /\ ((id = None \/ force = false) -> ~ In i (map fst (pc_cat s)))).
  { assert (Hkn : old_known (Some (dkeys (pc_cat s))) None) by exact I.
    assert (Hnot : forall c, ~ in_use (Some (dkeys (pc_cat s))) None None c -> ~ In c (map fst (pc_cat s))).
    { intros c Hc Hin. apply Hc. left. exists (dkeys (pc_cat s)). split; [reflexivity|]. split; [exact Hin|discriminate]. }
    destruct id as [c|].
    - destruct force.
      + injection Hi as <-. split; [congruence|]. intros [H0|H0]; discriminate.
      + destruct (generate_requested pop (Some (dkeys (pc_cat s))) c None None Hkn) as [[Hg Hu]|[Hg _]]; rewrite Hg in Hi; [|discriminate].
        injection Hi as <-. split; [congruence|]. intros _. apply Hnot. exact Hu.
    - destruct (generate_fresh pop (Some (dkeys (pc_cat s))) None None Hp Hkn) as (n & Hg & Hu & _). rewrite Hg in Hi.
      injection Hi as <-. split; [discriminate|]. intros _. apply Hnot. exact Hu. }
  destruct Hid as [Hid1 Hid2].
  destruct (look_cases (Some name) (e_coords e) (pc_cat s)) as [(m & e0 & Hl & Hin & Hname & Hsame)|(mid & md & Hl & Hne & Hno & _)]; rewrite Hl in H.
  - simpl in H. injection H as <- <-. left. split; [reflexivity|]. exists e0. split; [exact Hin|]. split; [symmetry; exact Hname|exact Hsame].
  - right. split. { intros k0 e0 Hin Hnm Hs. apply (Hno k0 e0 Hin); [simpl; congruence|exact Hs]. }
    assert (Hc : Ok (mkpc (dset Z.eqb i e (pc_cat s)) (length (dset Z.eqb i e (pc_cat s))) (pc_ids s), i) = Ok (s', k)).
    { destruct mid; [rewrite (proj2 (Z.eqb_neq md 0) Hne) in H|]; exact H. }
    injection Hc as <- <-. auto.
Qed.

Lemma dset_consistent s k e n ids : pc_consistent s -> storable e -> n = length (dset Z.eqb k e (pc_cat s)) ->
  (forall j, In j ids -> j = k \/ In j (map fst (pc_cat s))) ->
  pc_consistent (mkpc (dset Z.eqb k e (pc_cat s)) n ids).
Proof.
  intros Hc He Hn Hids. apply consistent_keys in Hc as ((Hnd & Hst) & _ & _). apply consistent_keys. simpl.
  split; [|split].
  - split; [apply (dset_NoDup Z.eqb Z.eqb_eq); exact Hnd|]. apply Forall_forall. intros [k0 e0] Hin.
    apply in_dset in Hin as [[_ ->]|[_ Hin]]; [exact He| |exact Hnd]. rewrite Forall_forall in Hst. apply (Hst _ Hin).
  - exact Hn.
  - intros j Hj. apply (dset_In_keys Z.eqb Z.eqb_eq). apply Hids. exact Hj.
Qed.

Lemma add_consistent pop name info p force id s s' k : picks pop -> pc_consistent s ->
  add_phase_center pop name info p force id s = Ok (s', k) ->
  pc_consistent s' /\ pc_ids s' = pc_ids s /\ In k (map fst (pc_cat s')).
Proof.
  intros Hp Hc H. apply add_spec in H as (e & He & _ & [[-> (e0 & Hin & _)]|(_ & -> & _)]); [| |exact Hp].
  - split; [exact Hc|]. split; [reflexivity|]. apply in_keys. exists e0. exact Hin.
  - split; [|split; [reflexivity|]].
    + apply dset_consistent; [exact Hc|apply (generate_storable _ _ _ _ He)|reflexivity|].
      intros j Hj. right. apply consistent_keys in Hc as (_ & _ & Hk). apply Hk. exact Hj.
    + apply (dset_In_keys Z.eqb Z.eqb_eq). left. reflexivity.
Qed.

(** * Removing *)
Lemma remove_all_spec l s s' : NoDup l -> remove_all l s = Ok s' ->
  pc_ids s' = pc_ids s /\ pc_cat s' = filter (fun p => negb (isinZ (fst p) l)) (pc_cat s) /\
  (l <> [] -> pc_n s' = length (pc_cat s')) /\ (l = [] -> s' = s) /\ (forall k, In k l -> In k (map fst (pc_cat s))).
Proof.
  unfold remove_all, foldM. revert s. induction l as [|k l IH]; intros s Hnd H.
  - simpl in H. injection H as <-. split; [reflexivity|]. split.
    + symmetry. clear. induction (pc_cat s) as [|x c IHc]; [reflexivity|]. simpl. f_equal. exact IHc.
    + split; [congruence|]. split; [reflexivity|]. intros k [].
  - cbn [fold_left bind] in H. inversion Hnd as [|? ? Hni Hnd']; subst.
    assert (Herr : forall e, fold_left (fun acc x => do a <- acc; remove_phase_center x a) l (Err e) = Err e).
    { clear. induction l as [|x l IHl]; [reflexivity|]. intros e. simpl. apply IHl. }
    destruct (remove_phase_center k s) as [s1|e] eqn:E; [|rewrite Herr in H; discriminate].
    apply IH in H as (H1 & H2 & H3 & H4 & H5); [|exact Hnd'].
    unfold remove_phase_center in E. destruct (dmem Z.eqb k (pc_cat s)) eqn:Em; [|discriminate]. injection E as <-.
    cbn [pc_cat pc_n pc_ids] in *. split; [exact H1|]. split.
    + rewrite H2. unfold ddel. clear. induction (pc_cat s) as [|[k0 e0] c IHc]; [reflexivity|]. simpl.
      unfold isinZ in *. simpl. rewrite (Z.eqb_sym k0 k). destruct (k =? k0); simpl; [exact IHc|].
      destruct (memb Z.eqb k0 l); simpl; [exact IHc|f_equal; exact IHc].
    + split; [|split].
      * intros _. destruct l; [rewrite H4 by reflexivity; reflexivity|apply H3; discriminate].
      * discriminate.
      * intros j [<-|Hj]; [apply dmem_keys; exact Em|]. apply H5 in Hj. apply (ddel_keys Z.eqb Z.eqb_eq) in Hj. apply Hj.
Qed.

Lemma remove_all_ok l s : NoDup l -> (forall k, In k l -> In k (map fst (pc_cat s))) ->
  exists s', remove_all l s = Ok s'.
Proof.
  unfold remove_all, foldM. revert s. induction l as [|k l IH]; intros s Hnd H; [exists s; reflexivity|].
  inversion Hnd as [|? ? Hni Hnd']; subst. cbn [fold_left bind]. unfold remove_phase_center at 2.
  rewrite (proj2 (dmem_keys _ _)) by (apply H; left; reflexivity). apply IH; [exact Hnd'|].
  intros j Hj. cbn [pc_cat]. apply (ddel_keys Z.eqb Z.eqb_eq). split; [congruence|]. apply H. right. exact Hj.
Qed.

(** * Clearing *)
Lemma filter_split {A} (f : A -> bool) l : (length (filter f l) + length (filter (fun x => negb (f x)) l) = length l)%nat.
Proof. induction l as [|x l IH]; [reflexivity|]. simpl. destruct (f x); simpl; lia. Qed.

Lemma filter_all {A} (f : A -> bool) l : (forall x, In x l -> f x = true) -> filter f l = l.
Proof.
  induction l as [|x l IH]; [reflexivity|]. simpl. intros H. rewrite (H x) by auto. f_equal. apply IH. auto.
Qed.

Lemma NoDup_filter' {A} (f : A -> bool) l : NoDup l -> NoDup (filter f l).
Proof. apply NoDup_filter. Qed.

Lemma clear_spec s : pc_consistent s -> exists s', clear_unused_phase_centers s = Ok s' /\
  pc_ids s' = pc_ids s /\ pc_cat s' = filter (fun p => isinZ (fst p) (pc_ids s)) (pc_cat s) /\
  pc_n s' = length (pc_cat s').
Proof.
  intros Hc. apply consistent_keys in Hc as ((Hnd & _) & Hn & _). unfold clear_unused_phase_centers. cbn zeta.
  assert (Hsame : forall k, isinZ k (uniqueZ (pc_ids s)) = isinZ k (pc_ids s)).
  { intros k. destruct (isinZ k (pc_ids s)) eqn:E.
    - apply isinZ_spec. apply uniqueZ_In. apply isinZ_spec. exact E.
    - apply isinZ_false. rewrite uniqueZ_In. apply isinZ_false. exact E. }
  set (u := uniqueZ (pc_ids s)) in *.
  pose proof (filter_split (fun k => isinZ k u) (dkeys (pc_cat s))) as Hsplit.
  assert (Hdk : length (dkeys (pc_cat s)) = length (pc_cat s)) by apply map_length.
  destruct (length (filter (fun k => isinZ k u) (dkeys (pc_cat s))) =? pc_n s)%nat eqn:E.
  - apply Nat.eqb_eq in E. exists s. split; [reflexivity|]. split; [reflexivity|]. split; [|exact Hn].
    symmetry. apply filter_all. intros [k e] Hin. simpl. rewrite <- Hsame.
    destruct (isinZ k u) eqn:Ek; [reflexivity|]. exfalso.
    assert (Hz : In k (filter (fun x => negb (isinZ x u)) (dkeys (pc_cat s)))).
    { apply filter_In. split; [apply in_keys; exists e; exact Hin|]. rewrite Ek. reflexivity. }
    destruct (filter (fun x => negb (isinZ x u)) (dkeys (pc_cat s))); [destruct Hz|simpl in Hsplit; lia].
  - apply Nat.eqb_neq in E. set (d := filter (fun k => negb (isinZ k u)) (dkeys (pc_cat s))) in *.
    assert (Hd : NoDup d) by (apply NoDup_filter'; exact Hnd).
    destruct (remove_all_ok d s Hd) as [s' Hs'].
    { intros k Hk. apply filter_In in Hk. apply Hk. }
    exists s'. split; [exact Hs'|]. destruct (remove_all_spec _ _ _ Hd Hs') as (H1 & H2 & H3 & _).
    split; [exact H1|]. split; [|apply H3; intros Hnil; rewrite Hnil in Hsplit; simpl in Hsplit; lia].
    rewrite H2. apply filter_ext_in. intros [k e] Hin. simpl. unfold d.
    destruct (isinZ k (pc_ids s)) eqn:Ek.
    + apply negb_true_iff, isinZ_false. intros Hin'. apply filter_In in Hin' as [_ Hx]. rewrite Hsame, Ek in Hx. discriminate.
    + apply negb_false_iff, isinZ_spec. apply filter_In. split; [apply in_keys; exists e; exact Hin|]. rewrite Hsame, Ek. reflexivity.
Qed.

Lemma filter_keys (f : Z * pentry -> bool) c : NoDup (map fst c) -> NoDup (map fst (filter f c)).
Proof.
  induction c as [|[k e] c IH]; simpl; [constructor|]. intros H. inversion H as [|? ? Hni Hnd]; subst.
  destruct (f (k, e)); simpl; [|auto]. constructor; [|auto]. intros Hin. apply Hni. apply in_keys in Hin as (e' & He').
  apply filter_In in He' as [He' _]. apply in_keys. exists e'. exact He'.
Qed.

Lemma filter_consistent s f ids : pc_consistent s ->
  (forall k, In k ids -> exists e, In (k, e) (pc_cat s) /\ f (k, e) = true) ->
  pc_consistent (mkpc (filter f (pc_cat s)) (length (filter f (pc_cat s))) ids).
Proof.
  intros Hc H. apply consistent_keys in Hc as ((Hnd & Hst) & _ & _). apply consistent_keys. simpl.
  split; [split|split].
  - apply filter_keys. exact Hnd.
  - apply Forall_forall. intros p Hp. apply filter_In in Hp as [Hp _]. rewrite Forall_forall in Hst. apply Hst. exact Hp.
  - reflexivity.
  - intros k Hk. destruct (H k Hk) as (e & He & Hf). apply in_keys. exists e. apply filter_In. auto.
Qed.

Lemma clear_consistent s s' : pc_consistent s -> clear_unused_phase_centers s = Ok s' -> pc_consistent s'.
Proof.
  intros Hc H. destruct (clear_spec s Hc) as (s1 & H1 & Hids & Hcat & Hn). rewrite H in H1. injection H1 as <-.
  destruct s' as [cat' n' ids']. simpl in *. subst.
  apply filter_consistent; [exact Hc|]. intros k Hk. pose proof Hk as Hk'. apply consistent_keys in Hc as (_ & _ & H3).
  apply H3 in Hk. apply in_keys in Hk as (e & He). exists e. split; [exact He|]. simpl. apply isinZ_spec. exact Hk'.
Qed.

(** * Renaming *)
Lemma fold_update_keys f l c : map fst (fold_left (fun c k => update_entry f k c) l c) = map fst c.
Proof. revert c. induction l as [|k l IH]; intros c; [reflexivity|]. simpl. rewrite IH. apply update_keys. Qed.

Lemma fold_update_storable (f : pentry -> pentry) l c : (forall e, storable e -> storable (f e)) ->
  Forall (fun p => storable (snd p)) c -> Forall (fun p => storable (snd p)) (fold_left (fun c k => update_entry f k c) l c).
Proof.
  intros Hf. revert c. induction l as [|k l IH]; intros c Hc; [exact Hc|]. simpl. apply IH.
  apply Forall_forall. intros [k0 e0] Hin. apply in_update in Hin as (e1 & Hin & ->). rewrite Forall_forall in Hc.
  simpl. specialize (Hc _ Hin). destruct (k0 =? k); [apply Hf|]; exact Hc.
Qed.

Lemma fold_rename_In nm l c k e : In (k, e) (fold_left (fun c k => update_entry (set_name nm) k c) l c) <->
  exists e0, In (k, e0) c /\ e = if isinZ k l then set_name nm e0 else e0.
Proof.
  revert c. induction l as [|j l IH]; intros c.
  - simpl. split; [intros H; exists e; auto|]. intros (e0 & H & ->). exact H.
  - cbn [fold_left]. rewrite IH. unfold isinZ. simpl. split.
    + intros (e0 & H & ->). apply in_update in H as (e1 & H & ->). exists e1. split; [exact H|].
      destruct (k =? j); simpl; [destruct (memb Z.eqb k l)|]; reflexivity.
    + intros (e0 & H & ->). eexists. split; [apply in_update; exists e0; split; [exact H|reflexivity]|].
      destruct (k =? j); simpl; [destruct (memb Z.eqb k l)|]; reflexivity.
Qed.

Lemma rename_consistent i nm s s' : pc_consistent s -> rename_phase_center i nm s = Ok s' -> pc_consistent s'.
Proof.
  intros Hc H. unfold rename_phase_center in H. apply bind_Ok in H as (ids & _ & H).
  destruct (_ || _); injection H as <-; [exact Hc|]. apply consistent_keys in Hc as ((Hnd & Hst) & Hn & Hk).
  apply consistent_keys. cbn [pc_cat pc_n pc_ids]. rewrite fold_update_keys. split; [split|split].
  - exact Hnd.
  - apply fold_update_storable; [apply storable_name|exact Hst].
  - rewrite <- (map_length fst), fold_update_keys, map_length. exact Hn.
  - exact Hk.
Qed.

(** * Changing an id *)
Lemma update_id_spec pop k n r s s' : picks pop -> NoDup (map fst (pc_cat s)) ->
  update_phase_center_id pop k n r s = Ok s' ->
  exists e m, In (k, e) (pc_cat s) /\
    s' = mkpc (dset Z.eqb m e (ddel Z.eqb k (pc_cat s))) (pc_n s) (map (fun j => if j =? k then m else j) (pc_ids s)) /\
    ~ In m (map fst (ddel Z.eqb k (pc_cat s))) /\ (forall c, n = Some c -> m = c) /\
    (forall l, r = Some l -> ~ In m l).
Proof.
  intros Hp Hnd H. unfold update_phase_center_id in H. apply bind_Ok in H as (m & Hm & H). apply bind_Ok in H as (e & He & H).
  injection H as <-. apply cat_get_In in He. exists e, m. split; [exact He|]. split; [reflexivity|].
  assert (Hkn : old_known (Some (dkeys (pc_cat s))) (Some k)).
  { exists (dkeys (pc_cat s)). split; [reflexivity|]. apply in_keys. exists e. exact He. }
  assert (Hu : ~ in_use (Some (dkeys (pc_cat s))) (Some k) r m /\ (forall c, n = Some c -> m = c)).
  { destruct n as [c|].
    - destruct (generate_requested pop _ c _ r Hkn) as [[Hg Hu]|[Hg _]]; rewrite Hg in Hm; [|discriminate].
      injection Hm as <-. split; [exact Hu|congruence].
    - destruct (generate_fresh pop _ _ r Hp Hkn) as (m' & Hg & Hu & _). rewrite Hg in Hm. injection Hm as <-.
      split; [exact Hu|discriminate]. }
  destruct Hu as [Hu Hc]. split; [|split; [exact Hc|]].
  - intros Hin. apply (ddel_keys Z.eqb Z.eqb_eq) in Hin as [Hne Hin]. apply Hu. left.
    exists (dkeys (pc_cat s)). split; [reflexivity|]. split; [exact Hin|congruence].
  - intros l -> Hin. apply Hu. right. exists l. auto.
Qed.

Lemma update_id_ok pop k n r s : picks pop -> NoDup (map fst (pc_cat s)) -> In k (map fst (pc_cat s)) ->
  match n with
  | None => True
  | Some c => (In c (map fst (pc_cat s)) -> c = k) /\ (forall l, r = Some l -> ~ In c l)
  end ->
  exists s', update_phase_center_id pop k n r s = Ok s'.
Proof.
  intros Hp Hnd Hk Hn. unfold update_phase_center_id.
  assert (Hkn : old_known (Some (dkeys (pc_cat s))) (Some k)).
  { exists (dkeys (pc_cat s)). split; [reflexivity|exact Hk]. }
  apply in_keys in Hk as (e & He). apply (cat_In_get _ _ _ Hnd) in He.
  assert (Hg : exists m, generate_new_phase_center_id pop (Some (dkeys (pc_cat s))) n (Some k) r = Ok m).
  { destruct n as [c|].
    - destruct (generate_requested pop _ c _ r Hkn) as [[Hg _]|[_ Hu]]; [exists c; exact Hg|]. exfalso.
      destruct Hn as [H1 H2]. destruct Hu as [(keys & Hkeys & Hin & Hne)|(l & Hl & Hin)].
      + injection Hkeys as <-. apply Hne. rewrite (H1 Hin). reflexivity.
      + exact (H2 l Hl Hin).
    - destruct (generate_fresh pop _ _ r Hp Hkn) as (m & Hg & _). exists m. exact Hg. }
  destruct Hg as (m & ->). cbn [bind]. rewrite He. cbn [bind]. eexists. reflexivity.
Qed.

Lemma ddel_len k (c : catalog) : NoDup (map fst c) -> In k (map fst c) -> S (length (ddel Z.eqb k c)) = length c.
Proof.
  intros Hnd Hin. unfold ddel. induction c as [|[k0 e0] c IH]; [destruct Hin|]. simpl in *. inversion Hnd as [|? ? Hni Hnd']; subst.
  destruct (k =? k0) eqn:E; simpl.
  - apply Z.eqb_eq in E. subst. f_equal. rewrite filter_all; [reflexivity|]. intros [k1 e1] H1. simpl.
    apply negb_true_iff, Z.eqb_neq. intros <-. apply Hni. apply in_keys. exists e1. exact H1.
  - f_equal. apply IH; [exact Hnd'|]. apply Z.eqb_neq in E. destruct Hin; [congruence|assumption].
Qed.

Lemma dset_len k e (c : catalog) : ~ In k (map fst c) -> length (dset Z.eqb k e c) = S (length c).
Proof. intros H. rewrite (dset_keys_new Z.eqb Z.eqb_eq) by exact H. rewrite app_length. simpl. lia. Qed.

(** the state after an id change *)
Lemma moved_consistent s k m e : pc_consistent s -> In (k, e) (pc_cat s) -> ~ In m (map fst (ddel Z.eqb k (pc_cat s))) ->
  pc_consistent (mkpc (dset Z.eqb m e (ddel Z.eqb k (pc_cat s))) (pc_n s) (map (fun j => if j =? k then m else j) (pc_ids s))).
Proof.
  intros Hc He Hm. pose proof (storable_In _ _ _ Hc He) as Hse.
  apply consistent_keys in Hc as ((Hnd & Hst) & Hn & Hids). apply consistent_keys. cbn [pc_cat pc_n pc_ids].
  assert (Hdd : NoDup (map fst (ddel Z.eqb k (pc_cat s)))) by (apply (ddel_NoDup Z.eqb); exact Hnd).
  split; [split|split].
  - apply (dset_NoDup Z.eqb Z.eqb_eq). exact Hdd.
  - apply Forall_forall. intros [k0 e0] Hin. apply in_dset in Hin; [|exact Hdd]. rewrite Forall_forall in Hst.
    destruct Hin as [[_ ->]|[_ Hin]]; [exact Hse|]. apply in_ddel in Hin as [_ Hin]. apply (Hst _ Hin).
  - rewrite dset_len by exact Hm. rewrite ddel_len; [exact Hn|exact Hnd|]. apply in_keys. exists e. exact He.
  - intros j Hj. apply in_map_iff in Hj as (j0 & <- & Hj0). apply (dset_In_keys Z.eqb Z.eqb_eq).
    destruct (j0 =? k) eqn:E; [left; reflexivity|right]. apply Z.eqb_neq in E.
    apply (ddel_keys Z.eqb Z.eqb_eq). split; [exact E|]. apply Hids. exact Hj0.
Qed.

Lemma moved_In s k m e k0 e0 : NoDup (map fst (pc_cat s)) -> In (k, e) (pc_cat s) ->
  In (k0, e0) (dset Z.eqb m e (ddel Z.eqb k (pc_cat s))) <->
  (k0 = m /\ e0 = e) \/ (k0 <> m /\ k0 <> k /\ In (k0, e0) (pc_cat s)).
Proof.
  intros Hnd He. rewrite in_dset by (apply (ddel_NoDup Z.eqb); exact Hnd). rewrite in_ddel. tauto.
Qed.
