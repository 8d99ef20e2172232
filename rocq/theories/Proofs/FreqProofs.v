(** Lemmas about the frequency axis. *)
From Coq Require Import List ZArith Bool Arith Lia Sorted Permutation ZifyBool ZifyNat.
From Verif Require Import Lib.Py Lib.Np Lib.Sorting Lib.Cube Spec.UVDataSpec Spec.FreqSpec
  Model.UVData Model.Reorder Model.Freq.
Import ListNotations.
Open Scope Z_scope.

(** ** Contiguity *)
Lemma listZ_eqb_eq a b : listZ_eqb a b = true <-> a = b.
Proof.
  revert b; induction a as [|x a IH]; intros [|y b]; simpl; try (split; congruence).
  rewrite andb_true_iff, Z.eqb_eq, IH. split; [intros [-> ->]; reflexivity|intros H; injection H; auto].
Qed.

Lemma uniqueZ_cons_in a l : In a l -> uniqueZ (a :: l) = uniqueZ l.
Proof.
  intros H. apply uniqueZ_char; [apply uniqueZ_sorted|]. intros x. rewrite uniqueZ_In. simpl. split; [|tauto].
  intros [<-|]; assumption.
Qed.

Lemma insert_uniqZ_len a l : ~ In a l -> length (insert_uniqZ a l) = S (length l).
Proof.
  induction l as [|y t IH]; intros H; [reflexivity|]. cbn [insert_uniqZ].
  destruct (a <? y); [reflexivity|]. destruct (a =? y) eqn:E; [exfalso; apply H; left; lia|].
  simpl. rewrite IH; [reflexivity|]. intros Hin. apply H. right. exact Hin.
Qed.

Lemma uniqueZ_cons_out a l : ~ In a l -> length (uniqueZ (a :: l)) = S (length (uniqueZ l)).
Proof. intros H. simpl. apply insert_uniqZ_len. rewrite uniqueZ_In. exact H. Qed.

Lemma contiguous_tail a l : contiguous (a :: l) -> contiguous l.
Proof. intros H i j k Hij Hk E. apply (H (S i) (S j) (S k)); simpl; lia || assumption. Qed.

Lemma breaks_unique l : l <> [] ->
  (length (uniqueZ l) <= S (count_breaks l))%nat /\
  (length (uniqueZ l) = S (count_breaks l) <-> contiguous l).
Proof.
  induction l as [|a l IH]; [congruence|]. intros _. destruct l as [|b t].
  { split; [simpl; lia|]. split; [|reflexivity]. intros _ i j k H Hk. simpl in Hk. lia. }
  destruct (IH ltac:(discriminate)) as [Hle Heq]. clear IH.
  change (count_breaks (a :: b :: t)) with (if a =? b then count_breaks (b :: t) else S (count_breaks (b :: t))).
  destruct (a =? b) eqn:E.
  - apply Z.eqb_eq in E. subst b. rewrite uniqueZ_cons_in by (left; reflexivity).
    split; [exact Hle|]. rewrite Heq. split; [|apply contiguous_tail].
    intros H i j k Hij Hk En. destruct i as [|i].
    + destruct j as [|j]; [lia|]. destruct k as [|k]; [lia|]. destruct j as [|j]; [reflexivity|].
      apply (H 0%nat (S j) k); simpl in *; lia || assumption.
    + destruct j as [|j]; [lia|]. destruct k as [|k]; [lia|]. apply (H i j k); simpl in *; lia || assumption.
  - apply Z.eqb_neq in E. destruct (in_dec Z.eq_dec a (b :: t)) as [Hin|Hout].
    + rewrite uniqueZ_cons_in by exact Hin. split; [lia|]. split; [intros HH; exfalso; lia|]. intros H. exfalso.
      destruct Hin as [|Hin]; [congruence|]. destruct (In_nth _ _ 0 Hin) as (k & Hk & Ek).
      specialize (H 0%nat 1%nat (S (S k)) ltac:(lia) ltac:(simpl; lia)). simpl in H. apply E. symmetry. apply H. auto.
    + rewrite uniqueZ_cons_out by exact Hout. split; [lia|].
      split.
      * intros H i j k Hij Hk En. destruct j as [|j]; [lia|]. destruct k as [|k]; [lia|].
        destruct i as [|i].
        -- exfalso. apply Hout. simpl in En. rewrite En. apply (nth_In (b :: t)). simpl in *. lia.
        -- apply (proj1 Heq ltac:(lia) i j k); simpl in *; lia || assumption.
      * intros H. f_equal. apply Heq. apply contiguous_tail in H. exact H.
Qed.

Lemma all_equal_unique a b : a <> [] -> b <> [] ->
  all_equal (uniqueZ a) (uniqueZ b) = true <-> (forall w, In w a <-> In w b).
Proof.
  intros Ha Hb. transitivity (uniqueZ a = uniqueZ b).
  - pose proof (uniqueZ_NoDup a) as Na. pose proof (uniqueZ_NoDup b) as Nb.
    assert (Ha' : uniqueZ a <> []) by (rewrite uniqueZ_nil; exact Ha).
    assert (Hb' : uniqueZ b <> []) by (rewrite uniqueZ_nil; exact Hb).
    revert Na Nb Ha' Hb'. generalize (uniqueZ a) (uniqueZ b). clear. intros a b Na Nb Ha Hb.
    destruct a as [|x a]; [congruence|]. destruct b as [|y b]; [congruence|].
    destruct a as [|x' a].
    + cbn [all_equal]. split.
      * intros H. rewrite forallb_forall in H. assert (x = y) as <- by (apply Z.eqb_eq, H; left; reflexivity).
        destruct b as [|y' b]; [reflexivity|]. assert (x = y') as <- by (apply Z.eqb_eq, H; right; left; reflexivity).
        inversion Nb as [|? ? N _]. exfalso. apply N. left. reflexivity.
      * intros H. injection H as <- <-. simpl. rewrite Z.eqb_refl. reflexivity.
    + destruct b as [|y' b].
      * cbn [all_equal]. split; [|discriminate]. intros H. exfalso. rewrite forallb_forall in H.
        assert (x = y) as -> by (apply Z.eqb_eq, H; left; reflexivity).
        assert (x' = y) as -> by (apply Z.eqb_eq, H; right; left; reflexivity).
        inversion Na as [|? ? N _]. apply N. left. reflexivity.
      * change (all_equal (x :: x' :: a) (y :: y' :: b)) with (listZ_eqb (x :: x' :: a) (y :: y' :: b)).
        apply listZ_eqb_eq.
  - split.
    + intros H w. rewrite <- (uniqueZ_In w a), H, uniqueZ_In. reflexivity.
    + intros H. apply uniqueZ_char; [apply uniqueZ_sorted|]. intros w. rewrite uniqueZ_In. apply H.
Qed.

Lemma NoDup_unique_length l : NoDup l -> length (uniqueZ l) = length l.
Proof.
  intros H. apply Permutation_length. apply NoDup_Permutation; [apply uniqueZ_NoDup|exact H|intros x; apply uniqueZ_In].
Qed.

Lemma contiguity_exact spws flex : flex <> [] -> spws <> [] -> NoDup spws ->
  (check_flex_spw_contiguous spws flex = Ok tt <-> contiguous flex /\ (forall w, In w flex <-> In w spws)).
Proof.
  intros Hf Hs Hn. unfold check_flex_spw_contiguous.
  pose proof (all_equal_unique flex spws Hf Hs) as HA.
  destruct (all_equal _ _) eqn:E; cbn [negb].
  - pose proof (proj1 HA eq_refl) as Hm.
    assert (HU : length (uniqueZ flex) = length spws).
    { rewrite <- (NoDup_unique_length spws Hn). f_equal. apply uniqueZ_char; [apply uniqueZ_sorted|].
      intros w. rewrite uniqueZ_In. apply Hm. }
    destruct (breaks_unique flex Hf) as [_ HB]. rewrite HU in HB.
    destruct (_ =? _)%nat eqn:E2; cbn [negb].
    + split; [|reflexivity]. intros _. split; [|exact Hm]. apply HB. lia.
    + split; [discriminate|]. intros [Hc _]. apply HB in Hc. lia.
  - split; [discriminate|]. intros [_ Hm]. apply HA in Hm. discriminate.
Qed.

Lemma contiguity_errors spws flex : flex <> [] -> spws <> [] -> NoDup spws ->
  (check_flex_spw_contiguous spws flex = Err ValueError <-> ~ contiguous flex /\ (forall w, In w flex <-> In w spws)) /\
  (check_flex_spw_contiguous spws flex = Err AssertionError <-> ~ (forall w, In w flex <-> In w spws)).
Proof.
  intros Hf Hs Hn. pose proof (contiguity_exact spws flex Hf Hs Hn) as HE.
  pose proof (all_equal_unique flex spws Hf Hs) as HA. revert HE. unfold check_flex_spw_contiguous.
  destruct (all_equal _ _) eqn:E; cbn [negb].
  - pose proof (proj1 HA eq_refl) as Hm. destruct (_ =? _)%nat; cbn [negb]; intros HE.
    + destruct (proj1 HE eq_refl) as [Hc _]. split; (split; [discriminate|]); tauto.
    + split; (split; [|]); try discriminate; try tauto. intros _. split; [|exact Hm]. intros Hc.
      assert (Err (A:=unit) ValueError = Ok tt) by (apply HE; auto). discriminate.
  - intros _. assert (Hm : ~ (forall w, In w flex <-> In w spws)) by (intros H; apply HA in H; discriminate).
    split; (split; [|]); try discriminate; try tauto.
Qed.

(** ** Permutations of positions *)
Lemma perm_seq_of ix n : length ix = n -> NoDup ix -> (forall p, (p < n)%nat -> (nth p ix 0 < n)%nat) ->
  Permutation ix (seq 0 n).
Proof.
  intros L N B. apply NoDup_Permutation_bis; [exact N|rewrite seq_length; lia|].
  intros x Hx. destruct (In_nth _ _ 0%nat Hx) as (p & Hp & <-). apply in_seq. specialize (B p). lia.
Qed.

Lemma perm_seq_facts ix n : Permutation ix (seq 0 n) ->
  length ix = n /\ NoDup ix /\ (forall p, (p < n)%nat -> (nth p ix 0 < n)%nat) /\ (forall x, In x ix <-> (x < n)%nat).
Proof.
  intros H. assert (L : length ix = n) by (rewrite (Permutation_length H), seq_length; reflexivity).
  assert (I : forall x, In x ix <-> (x < n)%nat).
  { intros x. split; intros Hx.
    - apply (Permutation_in _ H), in_seq in Hx. lia.
    - apply (Permutation_in _ (Permutation_sym H)), in_seq. lia. }
  split; [exact L|]. split; [apply (Permutation_NoDup (Permutation_sym H)), seq_NoDup|]. split; [|exact I].
  intros p Hp. apply I. apply nth_In. lia.
Qed.

Lemma increasing_sorted l : increasing l = true -> StronglySorted lt l.
Proof.
  intros H. apply Sorted_StronglySorted; [intros x y z; lia|].
  induction l as [|a [|b t] IH]; [constructor|repeat constructor|]. cbn [increasing] in H.
  apply andb_true_iff in H as [Hab Ht]. constructor; [apply IH, Ht|]. constructor. apply Nat.ltb_lt, Hab.
Qed.

Lemma increasing_perm ix n : increasing ix = true -> Permutation ix (seq 0 n) -> ix = seq 0 n.
Proof.
  intros Hi Hp. apply (sorted_unique lt); try (intros; lia).
  - apply increasing_sorted, Hi.
  - apply seq_sorted.
  - intros x. split; apply Permutation_in; [|symmetry]; exact Hp.
Qed.

Lemma StronglySorted_rev {A} (R : A -> A -> Prop) l : StronglySorted (fun x y => R y x) l -> StronglySorted R (rev l).
Proof.
  induction 1 as [|a l H IH Hf]; [constructor|]. simpl. apply StronglySorted_app.
  split; [exact IH|]. split; [repeat constructor|].
  intros x y Hx [<-|[]]. rewrite Forall_forall in Hf. apply Hf. apply in_rev in Hx. exact Hx.
Qed.

Lemma is_index_array_spec n idx : is_index_array n idx = true ->
  Permutation (map Z.to_nat idx) (seq 0 n) /\ Forall (fun i => 0 <= i < Z.of_nat n) idx.
Proof.
  unfold is_index_array. rewrite andb_true_iff, listZ_eqb_eq. intros [_ H].
  assert (HP : Permutation idx (map Z.of_nat (seq 0 n))) by (rewrite <- H; apply isort_perm).
  split.
  - apply (Permutation_map Z.to_nat) in HP. rewrite map_map in HP.
    rewrite (map_ext _ (fun x => x)) in HP by (intros; apply Nat2Z.id). rewrite map_id in HP. exact HP.
  - apply Forall_forall. intros i Hi. apply (Permutation_in _ HP) in Hi. apply in_map_iff in Hi as (k & <- & Hk).
    apply in_seq in Hk. lia.
Qed.

Lemma is_index_array_complete n idx : Permutation idx (map Z.of_nat (seq 0 n)) -> is_index_array n idx = true.
Proof.
  intros HP. unfold is_index_array. rewrite (Permutation_length HP), map_length, seq_length, Nat.eqb_refl. simpl.
  apply listZ_eqb_eq.
  assert (Hs : StronglySorted Z.lt (map Z.of_nat (seq 0 n))).
  { apply (proj1 (StronglySorted_map _ _ _)). eapply StronglySorted_impl; [|apply seq_sorted]. simpl. lia. }
  assert (HN : NoDup idx) by (apply (Permutation_NoDup (Permutation_sym HP)), StronglySorted_Zlt_NoDup, Hs).
  apply (sorted_unique Z.lt); try (intros; lia); [|exact Hs|].
  - assert (HN' : NoDup (isort Z.leb idx)) by (apply (Permutation_NoDup (isort_perm Z.leb idx)), HN).
    assert (HS : StronglySorted Z.le (isort Z.leb idx)).
    { eapply StronglySorted_impl; [|apply isort_sorted]; unfold le; intros; lia. }
    clear - HN' HS. induction HS as [|a l HS IH Hf]; constructor.
    + apply IH. inversion HN'; assumption.
    + rewrite Forall_forall in *. intros x Hx. specialize (Hf x Hx). inversion HN'; subst.
      assert (a <> x) by (intros ->; contradiction). lia.
  - intros x. rewrite isort_In. split; apply Permutation_in; [|symmetry]; exact HP.
Qed.

(** ** Fancy assignment at distinct positions *)
Lemma set_nth_ge {A} i (v : A) l : (length l <= i)%nat -> set_nth i v l = l.
Proof.
  revert i. induction l as [|y l IH]; intros i H; [destruct i; reflexivity|].
  destruct i as [|i]; simpl in *; [lia|]. f_equal. apply IH. lia.
Qed.

Lemma nth_assign_in {A} pos (vals : list A) arr d q : NoDup pos -> Forall (fun i => (i < length arr)%nat) pos ->
  length vals = length pos -> (q < length pos)%nat -> nth (nth q pos 0%nat) (assign_at pos vals arr) d = nth q vals d.
Proof.
  unfold assign_at. revert vals arr q. induction pos as [|x pos IH]; intros vals arr q N B L Hq; [simpl in Hq; lia|].
  destruct vals as [|v vals]; [discriminate|]. inversion N as [|? ? Nx N']; subst. inversion B as [|? ? Bx B']; subst.
  cbn [combine fold_left fst snd]. destruct q as [|q]; cbn [nth].
  - clear IH L Hq. assert (H : forall l (a : list A), ~ In x (map fst l) -> nth x (fold_left (fun a p => set_nth (fst p) (snd p) a) l a) d = nth x a d).
    { induction l as [|p l IHl]; intros a Hn; [reflexivity|]. cbn [fold_left]. rewrite IHl by (intros Hc; apply Hn; right; exact Hc).
      destruct (Nat.lt_ge_cases (fst p) (length a)) as [Hlt|Hge].
      - rewrite nth_set_nth by exact Hlt. destruct (Nat.eqb_spec (fst p) x) as [Ee|]; [exfalso; apply Hn; left; exact Ee|reflexivity].
      - f_equal. apply set_nth_ge, Hge. }
    rewrite H; [rewrite nth_set_nth by exact Bx; rewrite Nat.eqb_refl; reflexivity|].
    intros Hc. apply in_map_iff in Hc as ((i & w) & E & Hc). simpl in E. subst i. apply in_combine_l in Hc. contradiction.
  - apply IH; [exact N'| |simpl in L; lia|simpl in Hq; lia].
    rewrite set_nth_length. exact B'.
Qed.

Lemma nth_assign_out {A} pos (vals : list A) arr d p : ~ In p pos -> nth p (assign_at pos vals arr) d = nth p arr d.
Proof.
  unfold assign_at. revert vals arr. induction pos as [|x pos IH]; intros vals arr H; [reflexivity|].
  destruct vals as [|v vals]; [reflexivity|]. cbn [combine fold_left fst snd]. rewrite IH by (intros Hc; apply H; right; exact Hc).
  destruct (Nat.lt_ge_cases x (length arr)) as [Hlt|Hge].
  - rewrite nth_set_nth by exact Hlt. destruct (Nat.eqb_spec x p) as [->|]; [exfalso; apply H; left; reflexivity|reflexivity].
  - f_equal. apply set_nth_ge, Hge.
Qed.

Lemma assign_at_len {A} pos (vals : list A) arr : length (assign_at pos vals arr) = length arr.
Proof.
  unfold assign_at. generalize (combine pos vals). intros l. revert arr.
  induction l as [|p l IH]; intros arr; [reflexivity|]. cbn [fold_left]. rewrite IH. apply set_nth_length.
Qed.

(** ** Sorting the channels *)
Section Chan.
Variables (freqs flex : list Z) (idx0 : list nat) (n : nat) (desc : bool).
Hypothesis Hf : length freqs = n.
Hypothesis Hx : length flex = n.
Hypothesis H0 : Permutation idx0 (seq 0 n).
Let tf := take 0 freqs idx0.
Let ts := take 0 flex idx0.

Definition freq_le (x y : nat) : Prop :=
  if desc then nth y freqs 0 <= nth x freqs 0 else nth x freqs 0 <= nth y freqs 0.

Definition chan_inv (done : list Z) (ix : list nat) : Prop :=
  length ix = n /\ NoDup ix /\
  (forall p, (p < n)%nat -> (nth p ix 0 < n)%nat /\ nth (nth p ix 0%nat) flex 0 = nth p ts 0) /\
  (forall p, (p < n)%nat -> ~ In (nth p ts 0) done -> nth p ix 0%nat = nth p idx0 0%nat) /\
  (forall p q, (p < q < n)%nat -> nth p ts 0 = nth q ts 0 -> In (nth p ts 0) done ->
    freq_le (nth p ix 0%nat) (nth q ix 0%nat)).

Lemma chan_inv_start : chan_inv [] idx0.
Proof.
  destruct (perm_seq_facts _ _ H0) as (L & N & B & _).
  split; [exact L|]. split; [exact N|]. split.
  - intros p Hp. split; [apply B, Hp|]. unfold ts. rewrite nth_take by lia. reflexivity.
  - split; [reflexivity|]. intros p q _ _ [].
Qed.

Lemma chan_inv_step done ix w : chan_inv done ix -> ~ In w done -> chan_inv (w :: done) (chan_step desc tf ts ix w).
Proof.
  intros (L & N & B & U & S) Hw. unfold chan_step.
  destruct (perm_seq_facts _ _ H0) as (L0 & N0 & B0 & _).
  assert (Lts : length ts = n) by (unfold ts; rewrite take_length; exact L0).
  set (pos := nonzero (Z.eqb w) ts).
  assert (Hpos : forall p, In p pos <-> (p < n)%nat /\ nth p ts 0 = w).
  { intros p. unfold pos. rewrite (nonzero_spec 0), Lts. rewrite Z.eqb_eq. intuition. }
  assert (Npos : NoDup pos) by apply nonzero_NoDup.
  assert (Spos : StronglySorted lt pos) by apply nonzero_sorted.
  set (sub := take 0%nat ix pos). set (ord := argsortZ (take 0 tf pos)).
  assert (Lsub : length sub = length pos) by apply take_length.
  assert (Pord : Permutation ord (seq 0 (length sub))).
  { unfold ord. rewrite Lsub. rewrite <- (take_length 0 tf pos). apply argsortZ_perm. }
  set (srt := take 0%nat sub ord). set (vals := if desc then rev srt else srt).
  assert (Pv : Permutation vals sub).
  { unfold vals. transitivity srt; [destruct desc; [symmetry; apply Permutation_rev|reflexivity]|].
    apply take_perm, Pord. }
  assert (Lv : length vals = length pos) by (rewrite (Permutation_length Pv); exact Lsub).
  assert (Bpos : Forall (fun i => (i < length ix)%nat) pos).
  { apply Forall_forall. intros p Hp. apply Hpos in Hp. lia. }
  assert (Hsub : forall x, In x sub -> exists p, In p pos /\ nth p ix 0%nat = x).
  { intros x Hx'. unfold sub, take in Hx'. apply in_map_iff in Hx' as (p & <- & Hp). exists p. auto. }
  set (res := assign_at pos vals ix).
  assert (Rin : forall q, (q < length pos)%nat -> nth (nth q pos 0%nat) res 0%nat = nth q vals 0%nat).
  { intros q Hq. apply nth_assign_in; assumption. }
  assert (Rout : forall p, ~ In p pos -> nth p res 0%nat = nth p ix 0%nat).
  { intros p Hp. apply nth_assign_out, Hp. }
  assert (Rin' : forall p, In p pos -> exists p', In p' pos /\ nth p res 0%nat = nth p' ix 0%nat).
  { intros p Hp. destruct (In_nth _ _ 0%nat Hp) as (q & Hq & <-). rewrite Rin by exact Hq.
    assert (Hin : In (nth q vals 0%nat) sub) by (apply (Permutation_in _ Pv), nth_In; lia).
    destruct (Hsub _ Hin) as (p' & Hp' & E). exists p'. auto. }
  assert (Lres : length res = n) by (unfold res; rewrite assign_at_len; exact L).
  assert (Dsub : NoDup sub).
  { apply (NoDup_nth sub 0%nat). intros i j Hi Hj E. unfold sub in E. rewrite !nth_take in E by lia.
    rewrite Lsub in Hi, Hj.
    assert (Hpi : In (nth i pos 0%nat) pos) by (apply nth_In, Hi). assert (Hpj : In (nth j pos 0%nat) pos) by (apply nth_In, Hj).
    apply Hpos in Hpi, Hpj.
    apply (proj1 (NoDup_nth ix 0%nat) N) in E; [|lia|lia].
    apply (proj1 (NoDup_nth pos 0%nat) Npos) in E; [exact E|exact Hi|exact Hj]. }
  assert (Dv : NoDup vals) by (apply (Permutation_NoDup (Permutation_sym Pv)), Dsub).
  assert (Dec : forall p, In p pos \/ ~ In p pos) by (intros p; destruct (in_dec Nat.eq_dec p pos); auto).
  split; [exact Lres|]. split; [|split; [|split]].
  - apply (NoDup_nth res 0%nat). intros i j Hi Hj E. rewrite Lres in Hi, Hj.
    destruct (Dec i) as [Di|Di], (Dec j) as [Dj|Dj].
    + destruct (In_nth _ _ 0%nat Di) as (a & Ha & Ea), (In_nth _ _ 0%nat Dj) as (b & Hb & Eb). subst i j.
      rewrite !Rin in E by assumption. f_equal. apply (proj1 (NoDup_nth vals 0%nat) Dv); [lia|lia|exact E].
    + exfalso. destruct (Rin' i Di) as (p' & Hp' & Ep). rewrite (Rout j Dj), Ep in E.
      apply (proj1 (NoDup_nth ix 0%nat) N) in E; [subst; contradiction| |lia]. apply Hpos in Hp'. lia.
    + exfalso. destruct (Rin' j Dj) as (p' & Hp' & Ep). rewrite (Rout i Di), Ep in E.
      apply (proj1 (NoDup_nth ix 0%nat) N) in E; [subst; contradiction|lia|]. apply Hpos in Hp'. lia.
    + rewrite !Rout in E by assumption. apply (proj1 (NoDup_nth ix 0%nat) N); [lia|lia|exact E].
  - intros p Hp. destruct (Dec p) as [Dp|Dp].
    + destruct (Rin' p Dp) as (p' & Hp' & ->). apply Hpos in Hp'. destruct Hp' as [Hp' E]. apply Hpos in Dp.
      destruct (B p' Hp') as [B1 B2]. split; [exact B1|]. rewrite B2, E. symmetry. tauto.
    + rewrite Rout by exact Dp. apply B, Hp.
  - intros p Hp Hnd. rewrite Rout; [apply U; [exact Hp|]|].
    + intros Hc. apply Hnd. right. exact Hc.
    + intros Hc. apply Hpos in Hc as [_ E]. apply Hnd. left. symmetry. exact E.
  - intros p q Hpq E [Hd|Hd].
    + assert (Dp : In p pos) by (apply Hpos; split; [lia|symmetry; exact Hd]).
      assert (Dq : In q pos) by (apply Hpos; split; [lia|rewrite <- E; symmetry; exact Hd]).
      destruct (In_nth _ _ 0%nat Dp) as (a & Ha & Ea), (In_nth _ _ 0%nat Dq) as (b & Hb & Eb). subst p q.
      rewrite !Rin by assumption.
      assert (Hab : (a < b)%nat).
      { destruct (Nat.lt_ge_cases a b) as [|Hge]; [assumption|]. exfalso.
        destruct (Nat.eq_dec a b) as [->|]; [lia|].
        pose proof (proj1 (StronglySorted_nth lt 0%nat pos) Spos b a ltac:(lia) Ha). lia. }
      (* the frequencies of [srt] *)
      assert (Hs : StronglySorted (fun x y => nth x freqs 0 <= nth y freqs 0) srt).
      { apply StronglySorted_map.
        replace (map (fun x => nth x freqs 0) srt) with (take 0 (take 0 tf pos) ord); [apply argsortZ_sorted|].
        transitivity (map (fun k => nth k (take 0 tf pos) 0) ord); [reflexivity|].
        change srt with (map (fun k => nth k sub 0%nat) ord). rewrite map_map. apply map_ext_in. intros k Hk.
        assert (Hk' : (k < length pos)%nat).
        { apply (Permutation_in _ Pord), in_seq in Hk. lia. }
        rewrite nth_take by exact Hk'. unfold sub. rewrite nth_take by exact Hk'.
        assert (Hin : In (nth k pos 0%nat) pos) by (apply nth_In, Hk'). apply Hpos in Hin as [Hin Ew].
        unfold tf. rewrite nth_take by lia. rewrite U; [reflexivity|exact Hin|rewrite Ew; exact Hw]. }
      assert (Hv : StronglySorted freq_le vals).
      { unfold vals, freq_le. destruct desc; [apply StronglySorted_rev; exact Hs|exact Hs]. }
      apply (proj1 (StronglySorted_nth freq_le 0%nat vals) Hv); lia.
    + assert (Dp : ~ In p pos) by (intros Hc; apply Hpos in Hc as [_ Ec]; rewrite Ec in Hd; contradiction).
      assert (Dq : ~ In q pos) by (intros Hc; apply Hpos in Hc as [_ Ec]; rewrite E, Ec in Hd; contradiction).
      rewrite !Rout by assumption. apply S; assumption.
Qed.

Lemma chan_inv_fold (sel : Z -> bool) spws : NoDup spws ->
  chan_inv (filter sel spws) (fold_left (fun ix w => if sel w then chan_step desc tf ts ix w else ix) spws idx0).
Proof.
  intros Hn.
  assert (H : forall l done ix, NoDup l -> (forall w, In w l -> ~ In w done) -> chan_inv done ix ->
    exists done', (forall w, In w done' <-> In w done \/ (In w l /\ sel w = true)) /\
    chan_inv done' (fold_left (fun ix w => if sel w then chan_step desc tf ts ix w else ix) l ix)).
  { induction l as [|w l IH]; intros done ix Nl Hd HI.
    - exists done. split; [|exact HI]. intros w. simpl. tauto.
    - inversion Nl as [|? ? Nw Nl']; subst. cbn [fold_left]. destruct (sel w) eqn:E.
      + destruct (IH (w :: done) _ Nl' ltac:(intros v Hv [->|Hc]; [contradiction|apply (Hd v); [right; exact Hv|exact Hc]])
          (chan_inv_step done ix w HI (Hd w (or_introl eq_refl)))) as (done' & Hm & HI').
        exists done'. split; [|exact HI']. intros v. rewrite Hm. simpl. split.
        * intros [[<-|]|[]]; tauto.
        * intros [|[[<-|] ]]; tauto.
      + destruct (IH done ix Nl' ltac:(intros v Hv; apply Hd; right; exact Hv) HI) as (done' & Hm & HI').
        exists done'. split; [|exact HI']. intros v. rewrite Hm. simpl. split.
        * intros [|[]]; tauto.
        * intros [|[[<-|] ]]; try tauto. congruence. }
  destruct (H spws [] idx0 Hn ltac:(auto) chan_inv_start) as (done' & Hm & (L & N & B & U & S)).
  assert (Hm' : forall w, In w done' <-> In w (filter sel spws)).
  { intros w. rewrite Hm, filter_In. simpl. tauto. }
  split; [exact L|]. split; [exact N|]. split; [exact B|]. split.
  - intros p Hp Hnd. apply U; [exact Hp|]. rewrite Hm'. exact Hnd.
  - intros p q Hpq E Hd. apply S; [exact Hpq|exact E|]. rewrite Hm'. exact Hd.
Qed.
End Chan.
