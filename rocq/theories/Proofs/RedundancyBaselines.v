(** Redundant groups of baselines and of antenna pairs. *)
From Coq Require Import List ZArith Bool Lia Permutation Sorted QArith Qcanon.
From Verif Require Import Lib.Py Lib.Sorting Lib.Np Lib.Dict Lib.QSum Model.Bls Model.Redundancy
  Spec.RedundancySpec Proofs.RedundancyProofs Proofs.RedundancyGrid Proofs.BlsProofs.
Import ListNotations.
Open Scope Z_scope.

Lemma coords_xyz v : coords v = xyz v.
Proof. destruct v as [[x y] z]. reflexivity. Qed.

Lemma shaped_coords vecs : shaped 3 (map coords vecs).
Proof.
  split; [lia|]. intros v Hv. apply in_map_iff in Hv. destruct Hv as ([[x y] z] & <- & _). reflexivity.
Qed.

Lemma nth_xyz vecs i : (i < length vecs)%nat -> nth i (map coords vecs) [] = xyz (nth i vecs zero3).
Proof. intros H. rewrite (nth_map coords _ _ zero3 []) by exact H. apply coords_xyz. Qed.

(** What the members of a group have in common. *)
Definition close_group (tol : Z) (grid : bool) (vecs : list vec3) (g : list nat) : Prop :=
  if grid then
    0 < tol -> exists first, In first g
      /\ forall i, In i g -> near tol (xyz (nth i vecs zero3)) (xyz (nth first vecs zero3))
  else
    forall i j, In i g -> (j < length vecs)%nat ->
      (In j g <-> (i = j \/ near tol (xyz (nth i vecs zero3)) (xyz (nth j vecs zero3)))).

Lemma close_group_perm tol grid vecs g g' :
  Permutation g g' -> close_group tol grid vecs g -> close_group tol grid vecs g'.
Proof.
  intros HP. assert (HI : forall i, In i g <-> In i g').
  { intros i. split; apply Permutation_in; [exact HP|symmetry; exact HP]. }
  unfold close_group. destruct grid.
  - intros H Ht. destruct (H Ht) as (f & Hf & Hc). exists f. split; [apply HI; exact Hf|].
    intros i Hi. apply Hc, HI. exact Hi.
  - intros H i j Hi Hj. rewrite <- HI. apply H; [apply HI; exact Hi|exact Hj].
Qed.

Lemma groups_found (baselines : list Z) (vecs : list vec3) (tol : Z) (grid : bool) gps : length vecs = length baselines ->
  (if grid then find_clusters_grid baselines vecs tol
   else find_clusters baselines (map coords vecs) tol true) = Ok gps ->
  exists igs, Forall2 (fun g gp => gp = map (fun i => nth i baselines 0) g /\ StronglySorted Z.le gp) igs gps
    /\ Permutation (concat igs) (seq 0 (length baselines))
    /\ (forall g, In g igs -> g <> [] /\ close_group tol grid vecs g).
Proof.
  intros Hl H.
  assert (X : exists igs, Forall2 (ids_of baselines) igs gps
    /\ Permutation (concat igs) (seq 0 (length baselines))
    /\ (forall g, In g igs -> g <> [] /\ close_group tol grid vecs g)).
  { destruct grid.
    - destruct (Z.ltb_spec 0 tol) as [Ht|Ht].
      + destruct (grid_spec baselines vecs tol gps Ht H) as (igs & A & B & C). exists igs.
        split; [exact A|]. split; [exact B|]. intros g Hg.
        destruct (C g Hg) as (_ & first & rest & -> & D & _). split; [discriminate|].
        intros _. exists first. split; [left; reflexivity|exact D].
      + unfold find_clusters_grid in H. destruct (Z.eqb_spec tol 0); [discriminate|].
        destruct (Nat.ltb_spec (length vecs) (length baselines)) as [|Hl']; [discriminate|].
        injection H as <-. rewrite (combine_items baselines vecs Hl'), (grid_map (fun i => nth i baselines 0)).
        destruct (grid_invariant tol vecs (length baselines)) as [HP HG].
        set (d := grid_groups tol (items_upto vecs (length baselines))) in *.
        exists (map snd d). split; [|split; [exact HP|]].
        * rewrite map_map. clear. induction d as [|[k g] d IH]; simpl; constructor; [apply isort_ids|exact IH].
        * intros g Hg. apply in_map_iff in Hg. destruct Hg as ([key g'] & E & Hin). simpl in E. subst g'.
          destruct (HG key g Hin) as (_ & i0 & rest & -> & _). split; [discriminate|]. intros Hp. lia.
    - destruct (clusters_spec 3 baselines (map coords vecs) tol true gps (shaped_coords vecs) H)
        as (igs & A & B & C & D).
      exists igs. split; [exact A|]. rewrite map_length, Hl in D. split; [apply D; reflexivity|].
      intros g Hg. apply C in Hg. destruct Hg as (Hne & _ & Hb & Hc & Hi). split; [exact Hne|].
      rewrite map_length in *.
      intros i j Hig Hj. specialize (Hb i Hig). split.
      + intros Hjg. specialize (Hc i j Hig Hjg). unfold linked in Hc. rewrite !nth_xyz in Hc by assumption. exact Hc.
      + intros HL. apply (Hi i j Hig Hj). unfold linked. rewrite !nth_xyz by assumption. exact HL. }
  clear H. destruct X as (igs & A & B & C).
  revert B C. assert (Y : exists igs', Forall2 (@Permutation nat) igs igs'
    /\ Forall2 (fun g gp => gp = map (fun i => nth i baselines 0) g /\ StronglySorted Z.le gp) igs' gps).
  { induction A as [|g gp igs gps [Hp Hs] _ IH]; [exists []; split; constructor|].
    destruct IH as (igs' & P & Q). apply Permutation_map_inv in Hp. destruct Hp as (g' & E & Hp).
    exists (g' :: igs'). split; constructor; auto. }
  destruct Y as (igs' & P & Q). intros B C. exists igs'. split; [exact Q|]. split.
  - rewrite <- B. clear - P. induction P; [constructor|]. simpl. symmetry. apply Permutation_app; [exact H|symmetry; exact IHP].
  - clear - P C. induction P as [|g g' igs igs' Hp _ IH]; intros h Hh; [destruct Hh|].
    destruct Hh as [<-|Hh]; [|apply IH; [intros; apply C; right; assumption|exact Hh]].
    destruct (C g (or_introl eq_refl)) as [H1 H2]. split.
    + intros ->. apply H1. apply Permutation_nil. symmetry. exact Hp.
    + apply (close_group_perm _ _ _ _ _ Hp H2).
Qed.

(** ** Centers *)

Lemma center_rows baselines vecs g c :
  (forall i, In i g -> (i < length baselines)%nat) ->
  group_center baselines vecs (map (fun i => nth i baselines 0) g) = Ok c ->
  c = mean_vec (map (fun i => nth i vecs zero3) g)
  /\ forall i k, In i g -> (k < length baselines)%nat -> nth i baselines 0 = nth k baselines 0 -> i = k.
Proof.
  intros Hb H. unfold group_center in H.
  destruct (mapM _ _) as [rows|] eqn:E in H; [|discriminate]. cbn [bind] in H. injection H as <-.
  apply mapM_Ok_Forall2 in E.
  assert (X : rows = map (fun i => nth i vecs zero3) g
    /\ forall i k, In i g -> (k < length baselines)%nat -> nth i baselines 0 = nth k baselines 0 -> i = k).
  { revert rows E. induction g as [|i g IH]; intros rows E; inversion E as [|? r ? rows' Hr Ht]; subst.
    - split; [reflexivity|]. intros i k [].
    - destruct (IH ltac:(intros; apply Hb; right; assumption) rows' Ht) as [-> IH2].
      assert (Hi : (i < length baselines)%nat) by (apply Hb; left; reflexivity).
      destruct (filter _ _) as [|k0 [|? ?]] eqn:EF in Hr; try discriminate.
      assert (Hk0 : forall k, (k < length baselines)%nat -> nth i baselines 0 = nth k baselines 0 -> k = k0).
      { intros k Hk Ek. assert (Hin : In k [k0]).
        { rewrite <- EF. apply filter_In. split; [apply in_seq; lia|]. apply Z.eqb_eq. exact Ek. }
        destruct Hin as [->|[]]. reflexivity. }
      pose proof (Hk0 i Hi eq_refl) as Ei. subst k0. injection Hr as <-. split; [reflexivity|].
      intros i' k [<-|Hi'] Hk Ek; [symmetry; apply Hk0; assumption|]. apply IH2; assumption. }
  destruct X as [-> X]. split; [reflexivity|exact X].
Qed.

Lemma plain_spec baselines vecs tol grid gps centers : length vecs = length baselines ->
  redundancies_plain baselines vecs tol grid = Ok (gps, centers) ->
  NoDup baselines /\
  exists igs, Forall2 (fun g gp => gp = map (fun i => nth i baselines 0) g /\ StronglySorted Z.le gp) igs gps
    /\ Forall2 (fun g c => c = mean_vec (map (fun i => nth i vecs zero3) g)) igs centers
    /\ Permutation (concat igs) (seq 0 (length baselines))
    /\ (forall g, In g igs -> g <> [] /\ close_group tol grid vecs g).
Proof.
  intros Hl H. unfold redundancies_plain in H.
  destruct (if grid then _ else _) as [gps0|] eqn:EG in H; [|discriminate]. cbn [bind] in H.
  destruct (mapM _ gps0) as [cs|] eqn:EM in H; [|discriminate]. cbn [bind] in H. inversion H; subst gps0 cs.
  destruct (groups_found baselines vecs tol grid gps Hl EG) as (igs & A & B & C).
  apply mapM_Ok_Forall2 in EM.
  assert (Hb : forall g i, In g igs -> In i g -> (i < length baselines)%nat).
  { intros g i Hg Hi. assert (Hin : In i (seq 0 (length baselines))).
    { apply (Permutation_in _ B). apply in_concat. eauto. }
    apply in_seq in Hin. lia. }
  assert (X : Forall2 (fun g c => c = mean_vec (map (fun i => nth i vecs zero3) g)) igs centers
    /\ forall g i k, In g igs -> In i g -> (k < length baselines)%nat ->
         nth i baselines 0 = nth k baselines 0 -> i = k).
  { clear - A EM Hb. revert centers EM. induction A as [|g gp igs gps [-> _] _ IH]; intros centers EM.
    - inversion EM. split; [constructor|]. intros g i k [].
    - inversion EM as [|? c ? cs Hc Ht]; subst.
      destruct (IH ltac:(intros; eapply Hb; [right|]; eassumption) cs Ht) as [I1 I2].
      destruct (center_rows baselines vecs g c) as [E1 E2]; [intros i Hi; apply (Hb g); [left; reflexivity|exact Hi]|exact Hc|].
      split; [constructor; assumption|]. intros g' i k [<-|Hg']; [apply E2|apply I2; exact Hg']. }
  destruct X as [X1 X2]. split.
  - apply (NoDup_nth baselines 0). intros i j Hi Hj E.
    assert (Hin : In i (concat igs)).
    { apply (Permutation_in _ (Permutation_sym B)). apply in_seq. lia. }
    apply in_concat in Hin. destruct Hin as (g & Hg & Hig). apply (X2 g); assumption.
  - exists igs. auto.
Qed.

(** ** Conjugates *)

Lemma is_conjugate_spec tol v : is_conjugate tol v = true <-> points_back tol v.
Proof.
  destruct v as [[x y] z]. unfold is_conjugate, points_back.
  rewrite !Bool.orb_true_iff, !Bool.andb_true_iff, !Z.ltb_lt, !Z.leb_le. tauto.
Qed.

(** The vector with the orientation that does not point back. *)
Definition forward (tol : Z) (v : vec3) : vec3 := if is_conjugate tol v then neg3 v else v.

Lemma neg3_opposite v : neg3 v = opposite v.
Proof. destruct v as [[x y] z]. reflexivity. Qed.

Lemma opposite_involutive v : opposite (opposite v) = v.
Proof. destruct v as [[x y] z]. unfold opposite. rewrite !Z.opp_involutive. reflexivity. Qed.

Lemma forward_opposite tol v : 0 <= tol -> oriented tol v -> forward tol (opposite v) = forward tol v.
Proof.
  intros Ht Ho. unfold forward. change neg3 with opposite. rewrite opposite_involutive.
  destruct (is_conjugate tol v) eqn:E, (is_conjugate tol (opposite v)) eqn:F; try reflexivity; exfalso.
  - apply is_conjugate_spec in E, F. destruct v as [[x y] z]. unfold points_back, opposite in *. lia.
  - apply Bool.not_true_iff_false in E, F. rewrite is_conjugate_spec in E, F.
    destruct v as [[x y] z]. unfold points_back, opposite, oriented in *. lia.
Qed.

Lemma points_back_xor tol v : 0 <= tol -> oriented tol v ->
  (points_back tol v /\ ~ points_back tol (opposite v)) \/ (points_back tol (opposite v) /\ ~ points_back tol v).
Proof. intros Ht. destruct v as [[x y] z]. unfold points_back, opposite, oriented. lia. Qed.

Lemma forward_not_back tol v : 0 <= tol -> ~ points_back tol (forward tol v).
Proof.
  intros Ht. unfold forward. destruct (is_conjugate tol v) eqn:E.
  - apply is_conjugate_spec in E. change neg3 with opposite. destruct v as [[x y] z].
    unfold points_back, opposite in *. lia.
  - rewrite <- is_conjugate_spec. congruence.
Qed.

Lemma flipped_forward tol vecs :
  map (fun p : bool * vec3 => if fst p then neg3 (snd p) else snd p)
      (combine (map (is_conjugate tol) vecs) vecs) = map (forward tol) vecs.
Proof. induction vecs as [|v vecs IH]; [reflexivity|]. simpl. rewrite IH. reflexivity. Qed.

Lemma conj_list_spec tol vecs baselines b : length vecs = length baselines ->
  In b (map snd (filter fst (combine (map (is_conjugate tol) vecs) baselines))) <->
  exists i, (i < length baselines)%nat /\ nth i baselines 0 = b /\ points_back tol (nth i vecs zero3).
Proof.
  revert baselines; induction vecs as [|v vecs IH]; intros [|x baselines] Hl; try discriminate.
  - simpl. split; [tauto|]. intros (i & Hi & _). lia.
  - injection Hl as Hl. simpl. destruct (is_conjugate tol v) eqn:E; simpl; rewrite (IH baselines Hl).
    + split.
      * intros [->|(i & Hi & Eb & Hp)]; [exists O|exists (S i)]; simpl; repeat split; auto; try lia.
        apply is_conjugate_spec. exact E.
      * intros ([|i] & Hi & Eb & Hp); [left; exact Eb|right; exists i; simpl in *; repeat split; auto; lia].
    + split.
      * intros (i & Hi & Eb & Hp). exists (S i). simpl. repeat split; auto; lia.
      * intros ([|i] & Hi & Eb & Hp); [|exists i; simpl in *; repeat split; auto; lia].
        simpl in Hp. apply is_conjugate_spec in Hp. congruence.
Qed.

Definition seen (tol : Z) (include_conjugates : bool) (v : vec3) : vec3 :=
  if include_conjugates then forward tol v else v.

Lemma baseline_redundancies_spec baselines vecs tol inc grid gps centers conj :
  get_baseline_redundancies baselines vecs tol inc grid = Ok (gps, centers, conj) ->
  length vecs = length baselines /\ NoDup baselines /\
  (exists igs, Forall2 (fun g gp => gp = map (fun i => nth i baselines 0) g /\ StronglySorted Z.le gp) igs gps
    /\ Forall2 (fun g c => c = mean_vec (map (fun i => seen tol inc (nth i vecs zero3)) g)) igs centers
    /\ Permutation (concat igs) (seq 0 (length baselines))
    /\ (forall g, In g igs -> g <> [] /\ close_group tol grid (map (seen tol inc) vecs) g))
  /\ (forall b, In b conj <-> inc = true /\
       exists i, (i < length baselines)%nat /\ nth i baselines 0 = b /\ points_back tol (nth i vecs zero3)).
Proof.
  unfold get_baseline_redundancies. intros H.
  destruct (Nat.eqb_spec (length vecs) (length baselines)) as [Hl|]; [|discriminate]. cbn [negb] in H.
  split; [exact Hl|].
  assert (Hrows : forall g, (forall i, In i g -> (i < length baselines)%nat) ->
     map (fun i => nth i (map (seen tol inc) vecs) zero3) g = map (fun i => seen tol inc (nth i vecs zero3)) g).
  { intros g Hg. apply map_ext_in. intros i Hi. apply nth_map. rewrite Hl. apply Hg. exact Hi. }
  assert (X : redundancies_plain baselines (map (seen tol inc) vecs) tol grid = Ok (gps, centers)
     /\ (forall b, In b conj <-> inc = true /\
       exists i, (i < length baselines)%nat /\ nth i baselines 0 = b /\ points_back tol (nth i vecs zero3))).
  { destruct inc.
    - rewrite flipped_forward in H. change (map (seen tol true) vecs) with (map (forward tol) vecs).
      destruct (redundancies_plain _ _ _ _) as [[g c]|]; [|discriminate]. cbn [bind] in H.
      inversion H; subst. split; [reflexivity|]. intros b. rewrite conj_list_spec by exact Hl. tauto.
    - replace (map (seen tol false) vecs) with vecs by (symmetry; apply map_id).
      destruct (redundancies_plain _ _ _ _) as [[g c]|]; [|discriminate]. cbn [bind] in H.
      inversion H; subst. split; [reflexivity|]. intros b. split; [intros []|intros [? _]; discriminate]. }
  destruct X as [HP HC].
  destruct (plain_spec baselines (map (seen tol inc) vecs) tol grid gps centers) as (ND & igs & A & B & C & D).
  { rewrite map_length. exact Hl. }
  { exact HP. }
  split; [exact ND|]. split; [|exact HC]. exists igs. split; [exact A|]. split; [|split; [exact C|exact D]].
  assert (Hb : forall g i, In g igs -> In i g -> (i < length baselines)%nat).
  { intros g i Hg Hi. assert (Hin : In i (seq 0 (length baselines))).
    { apply (Permutation_in _ C). apply in_concat. eauto. }
    apply in_seq in Hin. lia. }
  clear - B Hb Hrows. induction B as [|g c igs cs E _ IH]; constructor.
  - rewrite E. rewrite Hrows; [reflexivity|]. intros i Hi. apply (Hb g); [left; reflexivity|exact Hi].
  - apply IH. intros; eapply Hb; [right|]; eassumption.
Qed.

Lemma orientation_independent baselines (vecs vecs' : list vec3) tol grid :
  0 <= tol ->
  Forall2 (fun v v' => v' = v \/ (v' = opposite v /\ oriented tol v)) vecs vecs' ->
  match get_baseline_redundancies baselines vecs tol true grid,
        get_baseline_redundancies baselines vecs' tol true grid with
  | Ok (gps, centers, _), Ok (gps', centers', _) => gps = gps' /\ centers = centers'
  | Err e, Err e' => e = e'
  | _, _ => False
  end.
Proof.
  intros Ht HF. unfold get_baseline_redundancies. rewrite !flipped_forward.
  assert (E : map (forward tol) vecs' = map (forward tol) vecs).
  { induction HF as [|v v' l l' H _ IH]; [reflexivity|]. simpl. rewrite IH. f_equal.
    destruct H as [->|[-> Ho]]; [reflexivity|]. apply forward_opposite; assumption. }
  assert (El : length vecs' = length vecs) by (rewrite <- (map_length (forward tol)), E, map_length; reflexivity).
  rewrite E, El. destruct (negb _); [reflexivity|].
  destruct (redundancies_plain _ _ _ _) as [[g c]|]; cbn [bind]; auto.
Qed.

(** ** Antenna pairs *)

Lemma ant_pairs_In n autos i j : In (i, j) (ant_pairs n autos) <->
  (i < n /\ j < n)%nat /\ (if autos then (i <= j)%nat else (i < j)%nat).
Proof.
  unfold ant_pairs. rewrite in_flat_map. split.
  - intros (aj & Ha & Hi). apply in_seq in Ha. apply in_map_iff in Hi. destruct Hi as (ai & E & Hi).
    inversion E; subst. apply in_seq in Hi. destruct autos; lia.
  - intros [[Hi Hj] H]. exists i. split; [apply in_seq; lia|]. apply in_map_iff. exists j.
    split; [reflexivity|]. apply in_seq. destruct autos; lia.
Qed.

Lemma ant_pairs_NoDup n autos : NoDup (ant_pairs n autos).
Proof.
  unfold ant_pairs. generalize (seq_NoDup n 0). generalize (seq 0 n) as l.
  induction l as [|a l IH]; intros Hl; [constructor|]. inversion Hl; subst. simpl.
  set (m := if autos then a else S a).
  assert (H : forall l2 : list (nat * nat), (forall p, In p l2 -> fst p <> a) -> NoDup l2 ->
     forall s, NoDup s -> NoDup (map (fun ai => (a, ai)) s ++ l2)).
  { intros l2 Hd Hn s Hs. induction Hs as [|x s Hx Hs IHs]; [exact Hn|]. simpl. constructor; [|exact IHs].
    rewrite in_app_iff. intros [Hi|Hi].
    - apply in_map_iff in Hi. destruct Hi as (y & E & Hy). inversion E; subst. contradiction.
    - apply (Hd _ Hi). reflexivity. }
  apply H; [|apply IH; assumption|apply seq_NoDup].
  intros p Hp E. apply in_flat_map in Hp. destruct Hp as (aj & Ha & Hi).
  apply in_map_iff in Hi. destruct Hi as (ai & <- & _). simpl in E. subst. contradiction.
Qed.

Lemma scalar_decodes a b n bl : n <= 2147483648 -> scalar_baseline a b n = Ok bl ->
  baseline_to_antnums [bl] n = Ok ([a], [b]).
Proof.
  intros Hn H. unfold scalar_baseline in H.
  destruct (antnums_to_baseline [a] [b] (Some n) false false) as [l|] eqn:E; [|discriminate].
  cbn [bind] in H. destruct l as [|x [|? ?]]; try discriminate. injection H as ->.
  apply (round_trip [a] [b] (Some n) false [bl] n); auto.
Qed.

Lemma flip_decodes a b n bl fl : n <= 2147483648 -> scalar_baseline a b n = Ok bl ->
  scalar_flip bl n = Ok fl -> baseline_to_antnums [fl] n = Ok ([b], [a]).
Proof.
  intros Hn H F. unfold scalar_baseline in H.
  destruct (antnums_to_baseline [a] [b] (Some n) false false) as [l|] eqn:E; [|discriminate].
  cbn [bind] in H. destruct l as [|x [|? ?]]; try discriminate. injection H as ->.
  destruct (flip_swaps [a] [b] (Some n) false [bl] n eq_refl Hn E) as (fl' & E1 & E2 & _).
  unfold scalar_flip in F. rewrite E1 in F. cbn [bind] in F.
  destruct fl' as [|x [|? ?]]; try discriminate. injection F as ->. apply E2. exact Hn.
Qed.

Lemma scalar_bound a b n bl : scalar_baseline a b n = Ok bl -> n <= 2147483648.
Proof.
  unfold scalar_baseline, antnums_to_baseline. destruct (Z.gtb_spec n 2147483648); [discriminate|lia].
Qed.

Definition turn (p : nat * nat) : nat * nat := (snd p, fst p).

Lemma flip_encodes a b n bl fl : n <= 2147483648 -> scalar_baseline a b n = Ok bl ->
  scalar_flip bl n = Ok fl -> scalar_baseline b a n = Ok fl.
Proof.
  intros Hn H F. pose proof (scalar_decodes _ _ _ _ Hn H) as D. unfold scalar_flip, baseline_index_flip in F. rewrite D in F. exact F.
Qed.

Lemma antenna_redundancies_numbers numbers positions tol autos grid gps vecs : 0 <= tol ->
  get_antenna_redundancies numbers positions tol autos grid = Ok (gps, vecs) ->
  let n := length numbers in
  let vec p := sub3 (nth (snd p) positions zero3) (nth (fst p) positions zero3) in
  exists pgps : list (list (nat * nat)),
    Forall2 (Forall2 (fun p bl => scalar_baseline (nth (fst p) numbers 0) (nth (snd p) numbers 0) (Z.of_nat n) = Ok bl)) pgps gps
    /\ (forall p, In p (concat pgps) -> ~ points_back tol (vec p))
    /\ Permutation (map (fun p => (Nat.min (fst p) (snd p), Nat.max (fst p) (snd p))) (concat pgps))
                   (ant_pairs n autos)
    /\ Forall2 (fun g c => c = mean_vec (map vec g)) pgps vecs
    /\ (forall g, In g pgps -> g <> [] /\
          if grid then 0 < tol -> exists first, In first g /\
               forall p, In p g -> near tol (xyz (vec p)) (xyz (vec first))
          else forall p q, In p g -> In q (concat pgps) ->
               (In q g <-> (p = q \/ near tol (xyz (vec p)) (xyz (vec q))))).
Proof.
  intros Ht H n vec. unfold get_antenna_redundancies in H. fold n in H.
  set (pairs := ant_pairs n autos) in *.
  destruct (mapM _ pairs) as [bls|] eqn:EB in H; [|discriminate]. cbn [bind] in H.
  destruct (Nat.eqb (length pairs) 0) eqn:E0; [discriminate|].
  destruct (get_baseline_redundancies _ _ _ _ _) as [[[gps0 vecs0] conjs]|] eqn:EG in H; [|discriminate].
  cbn [bind] in H. destruct (mapM _ gps0) as [gps1|] eqn:EF in H; [|discriminate]. cbn [bind] in H.
  inversion H; subst gps1 vecs0. clear H.
  destruct (baseline_redundancies_spec _ _ _ _ _ _ _ _ EG) as (Hl & ND & (igs & A & B & C & D) & HC).
  assert (Hlb : length bls = length pairs) by (apply (mapM_Ok_length _ _ _ EB)).
  assert (HB : forall i, (i < length pairs)%nat ->
     scalar_baseline (nth (fst (nth i pairs (O, O))) numbers 0) (nth (snd (nth i pairs (O, O))) numbers 0) (Z.of_nat n)
       = Ok (nth i bls 0)).
  { intros i Hi. apply (mapM_Ok_nth _ _ _ (O, O) 0 EB i Hi). }
  assert (Hn : Z.of_nat n <= 2147483648).
  { apply Nat.eqb_neq in E0. apply (scalar_bound _ _ _ _ (HB O ltac:(lia))). }
  set (bv := map _ pairs) in *.
  assert (Hbv : forall i, (i < length pairs)%nat -> nth i bv zero3 = vec (nth i pairs (O, O))).
  { intros i Hi. unfold bv. rewrite (nth_map _ _ _ (O, O) zero3) by exact Hi. reflexivity. }
  set (op := fun i => let p := nth i pairs (O, O) in if is_conjugate tol (vec p) then turn p else p).
  assert (Hvt : forall p, vec (turn p) = neg3 (vec p)).
  { intros p. unfold vec, turn. cbn [fst snd].
    destruct (nth (fst p) positions zero3) as [[a b] c], (nth (snd p) positions zero3) as [[x y] z].
    unfold sub3, neg3. f_equal; [f_equal|]; lia. }
  assert (Hop : forall i, (i < length pairs)%nat -> vec (op i) = forward tol (nth i bv zero3)).
  { intros i Hi. rewrite Hbv by exact Hi. unfold op, forward. cbv zeta.
    destruct (is_conjugate tol (vec (nth i pairs (O, O)))); [apply Hvt|reflexivity]. }
  assert (Hb : forall g i, In g igs -> In i g -> (i < length pairs)%nat).
  { intros g i Hg Hi. assert (Hin : In i (seq 0 (length bls))).
    { apply (Permutation_in _ C). apply in_concat. eauto. }
    apply in_seq in Hin. lia. }
  assert (Hcat : concat (map (map op) igs) = map op (concat igs)) by (symmetry; apply concat_map).
  assert (Hcin : forall p, In p (concat (map (map op) igs)) <-> exists i, (i < length pairs)%nat /\ op i = p).
  { intros p. rewrite Hcat, in_map_iff. split.
    - intros (i & E & Hi). exists i. split; [|exact E]. apply in_concat in Hi. destruct Hi as (g & Hg & Hi).
      apply (Hb g i Hg Hi).
    - intros (i & Hi & E). exists i. split; [exact E|]. apply (Permutation_in _ (Permutation_sym C)).
      apply in_seq. lia. }
  assert (Hord : forall i, (i < length pairs)%nat ->
      (fst (nth i pairs (O, O)) <= snd (nth i pairs (O, O)))%nat).
  { intros i Hi. pose proof (nth_In pairs (O, O) Hi) as Hin. destruct (nth i pairs (O, O)) as [a b].
    unfold pairs in Hin. apply ant_pairs_In in Hin. simpl. destruct autos; lia. }
  assert (Hsort : forall i, (i < length pairs)%nat ->
      (Nat.min (fst (op i)) (snd (op i)), Nat.max (fst (op i)) (snd (op i))) = nth i pairs (O, O)).
  { intros i Hi. specialize (Hord i Hi). unfold op. cbv zeta. destruct (nth i pairs (O, O)) as [a b]. simpl in Hord.
    destruct (is_conjugate _ _); cbn [turn fst snd]; f_equal; lia. }
  exists (map (map op) igs). split; [|split; [|split; [|split]]].
  - (* numbers *)
    apply mapM_Ok_Forall2 in EF. revert gps EF. clear - A Hb HB Hn HC Hlb Hbv ND.
    induction A as [|g gp igs gps0 [-> _] _ IH]; intros gps EF.
    + inversion EF. constructor.
    + inversion EF as [|? h ? t Hh Htl]; subst. cbn [map]. constructor.
      * apply mapM_Ok_Forall2 in Hh. assert (Hg : forall i, In i g -> (i < length pairs)%nat).
        { intros i Hi. apply (Hb g); [left; reflexivity|exact Hi]. }
        clear - Hh Hg HB Hn HC Hlb Hbv ND. revert h Hh.
        induction g as [|i g IH]; intros h Hh; inversion Hh as [|? fl ? h' Hf Hrest]; subst; [constructor|].
        cbn [map]. constructor; [|apply IH; [intros; apply Hg; right; assumption|assumption]].
        assert (Hi : (i < length pairs)%nat) by (apply Hg; left; reflexivity).
        specialize (HB i Hi).
        assert (Hcj : isinZ (nth i bls 0) conjs = is_conjugate tol (vec (nth i pairs (O, O)))).
        { apply Bool.eq_iff_eq_true. rewrite isinZ_spec, HC, is_conjugate_spec. split.
          - intros (_ & k & Hk & Ek & Hp).
            assert (k = i) by (apply (proj1 (NoDup_nth bls 0) ND); auto; rewrite Hlb; exact Hi). subst k.
            rewrite Hbv in Hp by exact Hi. exact Hp.
          - intros Hp. split; [reflexivity|]. exists i. rewrite Hlb, Hbv by exact Hi. auto. }
        rewrite Hcj in Hf. unfold op. cbv zeta.
        destruct (is_conjugate tol (vec (nth i pairs (O, O)))); cbn [turn fst snd].
        -- apply (flip_encodes _ _ _ _ _ Hn HB Hf).
        -- injection Hf as <-. exact HB.
      * apply IH; [intros; eapply Hb; [right|]; eassumption|exact Htl].
  - intros p Hp. apply Hcin in Hp. destruct Hp as (i & Hi & <-). rewrite Hop by exact Hi.
    apply forward_not_back. exact Ht.
  - rewrite Hcat, map_map.
    transitivity (map (fun i => nth i pairs (O, O)) (concat igs)).
    + replace (map _ (concat igs)) with (map (fun i => nth i pairs (O, O)) (concat igs)); [reflexivity|].
      apply map_ext_in. intros i Hi. symmetry. apply Hsort. apply in_concat in Hi. destruct Hi as (g & Hg & Hi).
      apply (Hb g i Hg Hi).
    + rewrite C, Hlb. replace (map _ (seq 0 (length pairs))) with pairs; [reflexivity|].
      clear. induction pairs as [|p l IH]; [reflexivity|]. simpl. f_equal. rewrite <- seq_shift, map_map. exact IH.
  - clear - B Hb Hop. induction B as [|g c igs cs E _ IH]; [constructor|]. cbn [map]. constructor.
    + rewrite E, map_map. f_equal. apply map_ext_in. intros i Hi. symmetry. apply Hop.
      apply (Hb g); [left; reflexivity|exact Hi].
    + apply IH. intros; eapply Hb; [right|]; eassumption.
  - intros pg Hpg. apply in_map_iff in Hpg. destruct Hpg as (g & <- & Hg).
    destruct (D g Hg) as [Hne Hcl].
    split; [destruct g; [congruence|discriminate]|].
    assert (Hrow : forall i, (i < length pairs)%nat ->
       nth i (map (seen tol true) bv) zero3 = vec (op i)).
    { intros i Hi. rewrite (nth_map _ _ _ zero3 zero3) by (rewrite Hl, Hlb; exact Hi).
      symmetry. apply Hop. exact Hi. }
    unfold close_group in Hcl. destruct grid.
    + intros Hpos. destruct (Hcl Hpos) as (f & Hf & Hcf). exists (op f). split; [apply in_map; exact Hf|].
      intros p Hp. apply in_map_iff in Hp. destruct Hp as (i & <- & Hi). specialize (Hcf i Hi).
      rewrite !Hrow in Hcf by (eapply Hb; eassumption). exact Hcf.
    + intros p q Hp Hq. apply in_map_iff in Hp. destruct Hp as (i & <- & Hi).
      apply Hcin in Hq. destruct Hq as (j & Hj & <-).
      assert (Hi' : (i < length pairs)%nat) by (apply (Hb g); assumption).
      specialize (Hcl i j Hi). rewrite map_length, Hl, Hlb in Hcl. specialize (Hcl Hj).
      rewrite !Hrow in Hcl by assumption.
      assert (Hinj : forall k, (k < length pairs)%nat -> op k = op j -> k = j).
      { intros k Hk E. apply (proj1 (NoDup_nth pairs (O, O)) (ant_pairs_NoDup n autos)); auto.
        rewrite <- (Hsort k Hk), <- (Hsort j Hj), E. reflexivity. }
      split.
      * intros Hin. apply in_map_iff in Hin. destruct Hin as (k & Ek & Hk).
        rewrite <- (Hinj k (Hb g k Hg Hk) Ek) in *. destruct (proj1 Hcl Hk) as [->|?]; auto.
      * intros HL. apply in_map. apply Hcl. destruct HL as [E|?]; [left; apply (Hinj i Hi' E)|auto].
Qed.

Lemma antenna_redundancies_spec numbers positions tol autos grid gps vecs : 0 <= tol ->
  get_antenna_redundancies numbers positions tol autos grid = Ok (gps, vecs) ->
  let n := length numbers in
  let vec p := sub3 (nth (snd p) positions zero3) (nth (fst p) positions zero3) in
  exists pgps : list (list (nat * nat)),
    Forall2 (Forall2 (fun p bl => baseline_to_antnums [bl] (Z.of_nat n)
                                  = Ok ([nth (fst p) numbers 0], [nth (snd p) numbers 0]))) pgps gps
    /\ (forall p, In p (concat pgps) -> ~ points_back tol (vec p))
    /\ Permutation (map (fun p => (Nat.min (fst p) (snd p), Nat.max (fst p) (snd p))) (concat pgps))
                   (ant_pairs n autos)
    /\ Forall2 (fun g c => c = mean_vec (map vec g)) pgps vecs
    /\ (forall g, In g pgps -> g <> [] /\
          if grid then 0 < tol -> exists first, In first g /\
               forall p, In p g -> near tol (xyz (vec p)) (xyz (vec first))
          else forall p q, In p g -> In q (concat pgps) ->
               (In q g <-> (p = q \/ near tol (xyz (vec p)) (xyz (vec q))))).
Proof.
  intros Ht H n vec. destruct (antenna_redundancies_numbers _ _ _ _ _ _ _ Ht H) as (pgps & A & R).
  exists pgps. split; [|exact R]. clear -A. induction A as [|g gp pgps gps Hg A IH]; constructor; [|exact IH].
  clear -Hg. induction Hg as [|p bl g gp E Hg IH]; constructor; [|exact IH]. apply scalar_decodes; [|exact E].
  apply (scalar_bound _ _ _ _ E).
Qed.

