(** Bytes and positions in Mir files. *)
From Coq Require Import List ZArith Bool Arith Lia Permutation Sorted.
From Verif Require Import Lib.Py Lib.Np Lib.Dict Model.Hdf5 Model.Mir Spec.MirSpec Proofs.Hdf5Proofs Proofs.SelectTotal.
Import ListNotations.
Open Scope Z_scope.
Open Scope list_scope.

(** ** Bytes *)
Lemma enc_length n : forall z, length (enc n z) = n.
Proof. induction n as [|n IH]; intros z; [reflexivity|]. cbn [enc length]. rewrite IH. reflexivity. Qed.
Lemma dec_u_enc n : forall z, dec_u (enc n z) = z mod 256 ^ Z.of_nat n.
Proof.
  induction n as [|n IH]; intros z; [cbn; rewrite Z.mod_1_r; reflexivity|].
  cbn [enc dec_u]. rewrite IH. rewrite Nat2Z.inj_succ, Z.pow_succ_r by lia. rewrite Z.rem_mul_r by lia. lia.
Qed.
Lemma dec_enc n z : (0 < n)%nat -> - 2 ^ (8 * Z.of_nat n - 1) <= z < 2 ^ (8 * Z.of_nat n - 1) -> dec (enc n z) = z.
Proof.
  intros Hn Hz. unfold dec. rewrite enc_length, dec_u_enc.
  assert (E : 256 ^ Z.of_nat n = 2 * 2 ^ (8 * Z.of_nat n - 1)).
  { change 256 with (2 ^ 8). rewrite <- Z.pow_mul_r by lia. rewrite <- Z.pow_succ_r by lia. f_equal. lia. }
  rewrite E. set (h := 2 ^ (8 * Z.of_nat n - 1)) in *.
  assert (C : 0 <= z \/ z < 0) by lia. destruct C as [C|C].
  - rewrite Z.mod_small by lia. rewrite (proj2 (Z.ltb_lt _ _)); [reflexivity|lia].
  - assert (M : z mod (2 * h) = z + 2 * h) by (symmetry; apply (Z.mod_unique _ _ (-1)); lia).
    rewrite M. rewrite (proj2 (Z.ltb_ge _ _)); lia.
Qed.
Lemma dec_enc4 z : int32 z -> dec (enc 4 z) = z.
Proof. intros H. apply dec_enc; [lia|]. exact H. Qed.

Lemma firstn_app_exact {A} (a b : list A) n : length a = n -> firstn n (a ++ b) = a.
Proof. intros <-. rewrite firstn_app, firstn_all, Nat.sub_diag, firstn_O, app_nil_r. reflexivity. Qed.
Lemma skipn_app_exact {A} (a b : list A) n : length a = n -> skipn n (a ++ b) = b.
Proof. intros <-. rewrite skipn_app, skipn_all, Nat.sub_diag, skipn_O. reflexivity. Qed.

Lemma view_enc f l rest : (0 < val_size f)%nat -> Forall (fits f) l ->
  view (val_size f) (length l) (flat_map (enc (val_size f)) l ++ rest) = l.
Proof.
  intros Hv H. induction H as [|z l Hz H IH]; [reflexivity|].
  cbn [length view flat_map]. rewrite <- app_assoc. rewrite firstn_app_exact, skipn_app_exact by apply enc_length.
  rewrite IH, dec_enc; [reflexivity|exact Hv|exact Hz].
Qed.
Lemma flat_enc_length n l : length (flat_map (enc n) l) = (length l * n)%nat.
Proof. induction l as [|z l IH]; [reflexivity|]. cbn [flat_map length Nat.mul]. rewrite app_length, enc_length, IH. reflexivity. Qed.

(** ** Sums *)
Fixpoint starts (a : nat) (l : list nat) : list nat := match l with [] => [] | n :: t => a :: starts (a + n) t end.
Lemma minus_cumsum l : forall a, minus_each (cumsum a l) l = starts a l.
Proof.
  induction l as [|n l IH]; intros a; [reflexivity|]. unfold minus_each in *. cbn [cumsum combine map starts fst snd].
  rewrite IH. f_equal. lia.
Qed.
Lemma starts_length l : forall a, length (starts a l) = length l.
Proof. induction l as [|n l IH]; intros a; [reflexivity|]. cbn. rewrite IH. reflexivity. Qed.
Lemma cumsum_length l : forall a, length (cumsum a l) = length l.
Proof. induction l as [|n l IH]; intros a; [reflexivity|]. cbn. rewrite IH. reflexivity. Qed.
Lemma starts_scale k l : forall a, starts (k * a) (map (fun n => (k * n)%nat) l) = map (fun n => (k * n)%nat) (starts a l).
Proof. induction l as [|n l IH]; intros a; [reflexivity|]. cbn [map starts]. rewrite <- IH. do 2 f_equal. lia. Qed.
Lemma cumsum_starts l : forall a, map (fun p => (fst p + snd p)%nat) (combine (starts a l) l) = cumsum a l.
Proof. induction l as [|n l IH]; intros a; [reflexivity|]. cbn [starts combine map cumsum fst snd]. rewrite IH. reflexivity. Qed.
Lemma cumsum_max l : forall a, l <> [] -> list_max (cumsum a l) = (a + list_sum l)%nat.
Proof.
  induction l as [|n l IH]; intros a H; [contradiction|]. change (Nat.max (a + n) (list_max (cumsum (a + n) l)) = (a + (n + list_sum l))%nat).
  destruct l as [|m l]; [cbn; lia|]. rewrite IH by discriminate. lia.
Qed.

(** ** Grouping *)
Lemma group_take recs h : take spec0 recs (nonzero (fun s => s_inhid s =? h) recs) = of_integration h recs.
Proof. apply take_nonzero_filter. Qed.

Lemma take_where {A} (p : A -> bool) (l : list A) (off : list nat) : length off = length l ->
  take 0%nat off (nonzero p l) = map snd (filter (fun x => p (fst x)) (combine l off)).
Proof.
  unfold nonzero. intros L.
  assert (G : forall pre, take 0%nat (pre ++ off) (where_from (length pre) p l) = map snd (filter (fun x => p (fst x)) (combine l off))).
  { revert off L. induction l as [|x l IH]; intros [|o off] L pre; try discriminate; [reflexivity|].
    cbn [where_from combine filter fst]. specialize (IH off ltac:(cbn in L; lia) (pre ++ [o])).
    rewrite <- app_assoc, app_length in IH. cbn [app length] in IH. rewrite Nat.add_1_r in IH.
    destruct (p x); cbn [map snd]; [|exact IH]. unfold take in *. cbn [map]. rewrite IH. f_equal.
    rewrite app_nth2, Nat.sub_diag by lia. reflexivity. }
  exact (G []).
Qed.

(** The offsets of an entry are where the earlier entries of its integration end. *)
Definition offs_ok (f : fmt) (recs : list spec) (off : list nat) : Prop :=
  length off = length recs /\
  forall h, map snd (filter (fun x => s_inhid (fst x) =? h) (combine recs off)) =
            map (fun n => (val_size f * n)%nat) (starts 0 (map (rec_size f) (of_integration h recs))).

Lemma scatter_length idx : forall vals a, length (scatter idx vals a) = length a.
Proof.
  unfold scatter. induction idx as [|i idx IH]; intros vals a; [reflexivity|]. destruct vals as [|v vals]; [reflexivity|].
  cbn [combine fold_left fst snd]. rewrite IH. apply set_nth_length.
Qed.
Lemma scatter_other idx : forall vals a i, (forall j, In j idx -> (j < length a)%nat) -> ~ In i idx -> nth i (scatter idx vals a) 0%nat = nth i a 0%nat.
Proof.
  unfold scatter. induction idx as [|k idx IH]; intros vals a i Hb Hi; [reflexivity|]. destruct vals as [|v vals]; [reflexivity|].
  cbn [combine fold_left fst snd]. rewrite IH.
  - rewrite nth_set_nth by (apply Hb; left; reflexivity). destruct (Nat.eqb_spec k i); [exfalso; apply Hi; left; assumption|reflexivity].
  - intros j Hj. rewrite set_nth_length. apply Hb. right; exact Hj.
  - intros K. apply Hi. right; exact K.
Qed.
Lemma scatter_take idx : forall vals a, length vals = length idx -> NoDup idx -> (forall j, In j idx -> (j < length a)%nat) ->
  take 0%nat (scatter idx vals a) idx = vals.
Proof.
  induction idx as [|k idx IH]; intros vals a L ND Hb; destruct vals as [|v vals]; try discriminate; [reflexivity|].
  apply NoDup_cons_iff in ND. destruct ND as [Nk ND]. change (scatter (k :: idx) (v :: vals) a) with (scatter idx vals (set_nth k v a)).
  cbn [take map]. unfold take in *. f_equal.
  - rewrite scatter_other; [|intros j Hj; rewrite set_nth_length; apply Hb; right; exact Hj|exact Nk].
    rewrite nth_set_nth by (apply Hb; left; reflexivity). rewrite Nat.eqb_refl. reflexivity.
  - apply IH; [cbn in L; lia|exact ND|]. intros j Hj. rewrite set_nth_length. apply Hb. right; exact Hj.
Qed.

Lemma recalc_ok f recs : offs_ok f recs (recalc_dataoff f recs).
Proof.
  unfold recalc_dataoff. set (sizes := map (fun s => (val_size f * rec_size f s)%nat) recs).
  assert (LS : length sizes = length recs) by apply map_length.
  set (step := fun a (g : Z * list nat) => let t := take 0%nat sizes (snd g) in scatter (snd g) (minus_each (cumsum 0 t) t) a).
  assert (Len : forall gs a, length (fold_left step gs a) = length a).
  { induction gs as [|g gs IH]; intros a; [reflexivity|]. cbn [fold_left]. rewrite IH. apply scatter_length. }
  assert (L0 : length (fold_left step (group_by recs) (map (fun _ => 0%nat) recs)) = length recs) by (rewrite Len; apply map_length).
  split; [exact L0|]. intros h. rewrite <- (take_where (fun s => s_inhid s =? h)) by exact L0.
  rewrite <- starts_scale, Nat.mul_0_r. rewrite map_map.
  replace (map (fun x => (val_size f * rec_size f x)%nat) (of_integration h recs)) with (take 0%nat sizes (nonzero (fun s => s_inhid s =? h) recs)).
  2:{ rewrite take_where by exact LS. unfold of_integration, sizes.
      clear. induction recs as [|s recs IH]; [reflexivity|]. cbn [map combine filter fst]. destruct (s_inhid s =? h); cbn [map snd]; rewrite IH; reflexivity. }
  set (idx := fun h => nonzero (fun s => s_inhid s =? h) recs).
  assert (G : forall hs a, NoDup hs -> length a = length recs ->
             (forall h, In h hs -> take 0%nat (fold_left step (map (fun h => (h, idx h)) hs) a) (idx h) = starts 0 (take 0%nat sizes (idx h))) /\
             (forall i, (forall h, In h hs -> ~ In i (idx h)) -> nth i (fold_left step (map (fun h => (h, idx h)) hs) a) 0%nat = nth i a 0%nat)).
  { assert (B : forall h j, In j (idx h) -> (j < length recs)%nat) by (intros k j Hj; eapply nonzero_lt; exact Hj).
    induction hs as [|k hs IH]; intros a ND La; [split; [intros k []|reflexivity]|].
    apply NoDup_cons_iff in ND. destruct ND as [Nk ND]. cbn [map fold_left].
    assert (La' : length (step a (k, idx k)) = length recs) by (unfold step; cbn [snd]; rewrite scatter_length; exact La).
    destruct (IH (step a (k, idx k)) ND La') as [I1 I2]. split.
    - intros h' [<-|Hh]; [|apply I1, Hh].
      assert (E : take 0%nat (fold_left step (map (fun h => (h, idx h)) hs) (step a (k, idx k))) (idx k) = take 0%nat (step a (k, idx k)) (idx k)).
      { unfold take. apply map_ext_in. intros j Hj. apply I2. intros h' Hh' Hj'. apply Nk.
        assert (h' = k); [|congruence]. apply (nonzero_spec spec0) in Hj, Hj'. destruct Hj as [_ Hj], Hj' as [_ Hj']. apply Z.eqb_eq in Hj, Hj'. congruence. }
      rewrite E. unfold step. cbn [snd]. rewrite scatter_take.
      + rewrite minus_cumsum. reflexivity.
      + rewrite minus_cumsum, starts_length. apply take_length.
      + apply nonzero_NoDup.
      + intros j Hj. rewrite La. eapply B; exact Hj.
    - intros i Hi. rewrite I2 by (intros h' Hh'; apply Hi; right; exact Hh'). unfold step. cbn [snd].
      apply scatter_other; [intros j Hj; rewrite La; eapply B; exact Hj|]. apply Hi. left; reflexivity. }
  destruct (in_dec Z.eq_dec h (uniqueZ (map s_inhid recs))) as [Hin|Hin].
  - destruct (G (uniqueZ (map s_inhid recs)) (map (fun _ => 0%nat) recs) (uniqueZ_NoDup _) (map_length _ _)) as [G1 _]. apply (G1 h Hin).
  - assert (E : nonzero (fun s => s_inhid s =? h) recs = []).
    { destruct (nonzero _ recs) as [|j t] eqn:E; [reflexivity|]. exfalso. apply Hin. apply uniqueZ_In.
      assert (K : In j (nonzero (fun s => s_inhid s =? h) recs)) by (rewrite E; left; reflexivity). apply (nonzero_spec spec0) in K. destruct K as [K1 K2].
      apply Z.eqb_eq in K2. rewrite <- K2. apply in_map, nth_In, K1. }
    rewrite E. reflexivity.
Qed.

Lemma combine_app {A B} (a a' : list A) (b b' : list B) : length a = length b -> combine (a ++ a') (b ++ b') = combine a b ++ combine a' b'.
Proof. revert b. induction a as [|x a IH]; intros [|y b] L; try discriminate; [reflexivity|]. cbn. rewrite IH by (cbn in L; lia). reflexivity. Qed.

Lemma offs_app f r1 o1 r2 o2 : offs_ok f r1 o1 -> offs_ok f r2 o2 ->
  (forall a b, In a r1 -> In b r2 -> s_inhid a <> s_inhid b) -> offs_ok f (r1 ++ r2) (o1 ++ o2).
Proof.
  intros [L1 H1] [L2 H2] D. split; [rewrite !app_length; lia|]. intros h. rewrite combine_app by lia.
  unfold of_integration. rewrite !filter_app, map_app, H1, H2. fold (of_integration h r1). fold (of_integration h r2).
  destruct (of_integration h r1) as [|a t] eqn:E; [reflexivity|].
  assert (Ia : In a r1 /\ s_inhid a = h).
  { assert (K : In a (of_integration h r1)) by (rewrite E; left; reflexivity). apply filter_In in K. rewrite Z.eqb_eq in K. exact K. }
  replace (of_integration h r2) with (@nil spec); [rewrite !app_nil_r; reflexivity|].
  symmetry. destruct (of_integration h r2) as [|b t2] eqn:E2; [reflexivity|].
  assert (K : In b (of_integration h r2)) by (rewrite E2; left; reflexivity). apply filter_In in K. rewrite Z.eqb_eq in K.
  exfalso. apply (D a b); [tauto|tauto|]. destruct Ia, K; congruence.
Qed.
