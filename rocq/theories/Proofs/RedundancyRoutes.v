(** The statements about redundant baselines in the form of the properties. *)
From Coq Require Import List ZArith Bool Lia Permutation Sorted QArith Qcanon.
From Verif Require Import Lib.Py Lib.Np Lib.QSum Model.Bls Model.Redundancy Spec.RedundancySpec
  Proofs.RedundancyProofs Proofs.RedundancyGrid Proofs.RedundancyBaselines.
Import ListNotations.
Open Scope Z_scope.

Lemma redundant_partition baselines vecs tol inc grid gps centers conj :
  get_baseline_redundancies baselines vecs tol inc grid = Ok (gps, centers, conj) ->
  Permutation (concat gps) baselines /\ NoDup baselines
  /\ Forall (fun g => g <> [] /\ StronglySorted Z.le g) gps.
Proof.
  intros H. destruct (baseline_redundancies_spec _ _ _ _ _ _ _ _ H) as (_ & ND & (igs & A & _ & C & D) & _).
  split; [|split; [exact ND|]].
  - assert (E : concat gps = map (fun i => nth i baselines 0) (concat igs)).
    { clear - A. induction A as [|g gp igs gps [-> _] _ IH]; [reflexivity|]. simpl. rewrite map_app, IH. reflexivity. }
    rewrite E, C, map_nth_seq. reflexivity.
  - clear - A D. induction A as [|g gp igs gps [-> Hs] _ IH]; constructor.
    + split; [|exact Hs]. destruct (D g (or_introl eq_refl)) as [Hne _]. destruct g; [congruence|discriminate].
    + apply IH. intros; apply D; right; assumption.
Qed.

Lemma redundant_conjugates baselines vecs tol grid gps centers conj :
  get_baseline_redundancies baselines vecs tol true grid = Ok (gps, centers, conj) ->
  forall b, In b conj <->
    exists i, (i < length baselines)%nat /\ nth i baselines 0 = b /\ points_back tol (nth i vecs (0, 0, 0)).
Proof.
  intros H b. destruct (baseline_redundancies_spec _ _ _ _ _ _ _ _ H) as (_ & _ & _ & HC).
  rewrite HC. tauto.
Qed.

Lemma mean_coords vs : mean_vec vs =
  (qmean (map (fun v => qz (nth 0 (xyz v) 0)) vs), qmean (map (fun v => qz (nth 1 (xyz v) 0)) vs),
   qmean (map (fun v => qz (nth 2 (xyz v) 0)) vs)).
Proof.
  unfold mean_vec. f_equal; [f_equal|]; f_equal; apply map_ext; intros [[x y] z]; reflexivity.
Qed.

Lemma redundant_groups baselines vecs tol grid gps centers conj : 0 < tol ->
  get_baseline_redundancies baselines vecs tol true grid = Ok (gps, centers, conj) ->
  exists fwd : list (Z * Z * Z),
    Forall2 (fun v w => (~ points_back tol v /\ w = v) \/ (points_back tol v /\ w = opposite v)) vecs fwd
    /\ exists igs, Forall2 (fun g gp => gp = map (fun i => nth i baselines 0) g) igs gps
    /\ Permutation (concat igs) (seq 0 (length baselines))
    /\ Forall2 (fun g c => c =
         (qmean (map (fun i => qz (nth 0 (xyz (nth i fwd (0, 0, 0))) 0)) g),
          qmean (map (fun i => qz (nth 1 (xyz (nth i fwd (0, 0, 0))) 0)) g),
          qmean (map (fun i => qz (nth 2 (xyz (nth i fwd (0, 0, 0))) 0)) g))) igs centers
    /\ forall g, In g igs ->
       if grid then exists first, In first g /\
         forall i, In i g -> near tol (xyz (nth i fwd (0, 0, 0))) (xyz (nth first fwd (0, 0, 0)))
       else forall i j, In i g -> (j < length baselines)%nat ->
         (In j g <-> (i = j \/ near tol (xyz (nth i fwd (0, 0, 0))) (xyz (nth j fwd (0, 0, 0))))).
Proof.
  intros Ht H. destruct (baseline_redundancies_spec _ _ _ _ _ _ _ _ H) as (Hl & _ & (igs & A & B & C & D) & _).
  exists (map (forward tol) vecs). split.
  { clear. induction vecs as [|v vecs IH]; simpl; constructor; [|exact IH].
    unfold forward. destruct (is_conjugate tol v) eqn:E.
    - right. split; [apply is_conjugate_spec; exact E|destruct v as [[x y] z]; reflexivity].
    - left. split; [rewrite <- is_conjugate_spec; congruence|reflexivity]. }
  exists igs. split; [|split; [exact C|split]].
  - clear - A. induction A as [|g gp igs gps [E _] _ IH]; constructor; assumption.
  - assert (Hb : forall g i, In g igs -> In i g -> (i < length vecs)%nat).
    { intros g i Hg Hi. assert (Hin : In i (seq 0 (length baselines))).
      { apply (Permutation_in _ C). apply in_concat. eauto. }
      apply in_seq in Hin. lia. }
    clear - B Hb. induction B as [|g c igs cs E _ IH]; constructor.
    + rewrite E, mean_coords, !map_map.
      assert (X : forall i, In i g -> seen tol true (nth i vecs zero3) = nth i (map (forward tol) vecs) (0, 0, 0)).
      { intros i Hi. symmetry. apply (nth_map (forward tol) vecs i zero3 zero3). apply (Hb g); [left; reflexivity|exact Hi]. }
      f_equal; [f_equal|]; f_equal; apply map_ext_in; intros i Hi; rewrite (X i Hi); reflexivity.
    + apply IH. intros; eapply Hb; [right|]; eassumption.
  - intros g Hg. destruct (D g Hg) as [_ HD]. unfold close_group in HD. destruct grid.
    + exact (HD Ht).
    + rewrite map_length, Hl in HD. exact HD.
Qed.

Lemma antenna_pairs_once numbers positions tol autos grid gps centers : 0 <= tol ->
  get_antenna_redundancies numbers positions tol autos grid = Ok (gps, centers) ->
  let n := length numbers in
  let vec p := sub3 (nth (snd p) positions (0, 0, 0)) (nth (fst p) positions (0, 0, 0)) in
  exists pgps : list (list (nat * nat)),
    Forall2 (Forall2 (fun p bl => baseline_to_antnums [bl] (Z.of_nat n)
                                  = Ok ([nth (fst p) numbers 0], [nth (snd p) numbers 0]))) pgps gps
    /\ (forall p, In p (concat pgps) -> ~ points_back tol (vec p))
    /\ NoDup (map (fun p => (Nat.min (fst p) (snd p), Nat.max (fst p) (snd p))) (concat pgps))
    /\ (forall i j, (i <= j)%nat ->
         In (i, j) (map (fun p => (Nat.min (fst p) (snd p), Nat.max (fst p) (snd p))) (concat pgps))
         <-> (j < n)%nat /\ (autos = true \/ i <> j))
    /\ Forall2 (fun g c => c = mean_vec (map vec g)) pgps centers
    /\ (forall g, In g pgps -> g <> [] /\
          if grid then 0 < tol -> exists first, In first g /\
               forall p, In p g -> near tol (xyz (vec p)) (xyz (vec first))
          else forall p q, In p g -> In q (concat pgps) ->
               (In q g <-> (p = q \/ near tol (xyz (vec p)) (xyz (vec q))))).
Proof.
  intros Ht H n vec. destruct (antenna_redundancies_spec _ _ _ _ _ _ _ Ht H) as (pgps & A & B & C & D & E).
  exists pgps. split; [exact A|]. split; [exact B|]. split; [|split; [|split; [exact D|exact E]]].
  - apply (Permutation_NoDup (Permutation_sym C)), ant_pairs_NoDup.
  - intros i j Hij.
    assert (X : In (i, j) (map (fun p => (Nat.min (fst p) (snd p), Nat.max (fst p) (snd p))) (concat pgps))
                <-> In (i, j) (ant_pairs (length numbers) autos)).
    { split; apply Permutation_in; [exact C|symmetry; exact C]. }
    rewrite X, ant_pairs_In. fold n. destruct autos; split.
    + intros [? ?]. split; [lia|left; reflexivity].
    + intros [? _]. lia.
    + intros [? ?]. split; [lia|right; lia].
    + intros [? [?|?]]; [discriminate|lia].
Qed.
