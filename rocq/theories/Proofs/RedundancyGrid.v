(** The grid algorithm puts every id in one group, near the group's first baseline. *)
From Coq Require Import List ZArith Bool Lia Permutation Sorted.
From Verif Require Import Lib.Py Lib.Sorting Lib.Np Lib.Dict Model.Redundancy Spec.RedundancySpec
  Proofs.RedundancyProofs.
Import ListNotations.
Open Scope Z_scope.

Lemma key_eqb_eq a b : key_eqb a b = true <-> a = b.
Proof.
  destruct a as [[a1 a2] a3], b as [[b1 b2] b3]. unfold key_eqb.
  rewrite !Bool.andb_true_iff, !Z.eqb_eq. split; [intros [[-> ->] ->]; reflexivity|].
  intros E. inversion E. auto.
Qed.

Lemma round_even_close num den : 0 < den -> Z.abs (num - den * round_even num den) * 2 <= den.
Proof.
  intros Hd. unfold round_even. pose proof (Z.div_mod num den ltac:(lia)) as E.
  pose proof (Z.mod_pos_bound num den Hd) as B.
  destruct (Z.ltb_spec (2 * (num mod den)) den); [nia|].
  destruct (Z.ltb_spec den (2 * (num mod den))); [nia|].
  destruct (Z.even _); nia.
Qed.

Definition cell_near (c key : vec3) : Prop :=
  let '(a, b, c) := c in let '(x, y, z) := key in
  Z.abs (a - x) <= 1 /\ Z.abs (b - y) <= 1 /\ Z.abs (c - z) <= 1.

Lemma epsilons_small e : In e epsilons -> forall v, cell_near v (shift v e).
Proof.
  intros He [[x y] z]. unfold epsilons, p_or_m in He. cbn in He.
  repeat (destruct He as [<-|He]; [cbn; lia|]). destruct He.
Qed.

Lemma check_some {A} (d : list (vec3 * list A)) delta key :
  check_neighbors d delta = Some key -> dmem key_eqb key d = true /\ cell_near delta key.
Proof.
  unfold check_neighbors. intros H. apply find_some in H. destruct H as [H1 H2]. split; [exact H2|].
  apply in_map_iff in H1. destruct H1 as (e & <- & He). apply epsilons_small. exact He.
Qed.

Lemma shift_zero v : shift v (0, 0, 0) = v.
Proof. destruct v as [[x y] z]. unfold shift. rewrite !Z.add_0_r. reflexivity. Qed.

Lemma check_none {A} (d : list (vec3 * list A)) delta :
  check_neighbors d delta = None -> dmem key_eqb delta d = false.
Proof.
  unfold check_neighbors. intros H. apply (find_none _ _ H).
  apply in_map_iff. exists (0, 0, 0). split; [apply shift_zero|]. left. reflexivity.
Qed.

(** The dictionary after appending to the group of a key. *)
Lemma dset_split {A} key (d : list (vec3 * list A)) : dmem key_eqb key d = true ->
  exists l gv r, d = l ++ (key, gv) :: r /\ dget key_eqb key d = Ok gv
    /\ forall v, dset key_eqb key v d = l ++ (key, v) :: r.
Proof.
  induction d as [|[k v] d IH]; simpl; [discriminate|].
  destruct (key_eqb key k) eqn:E; simpl.
  - intros _. apply key_eqb_eq in E. subst k. exists [], v, d. auto.
  - intros H. destruct (IH H) as (l & gv & r & -> & Hg & Hs). exists ((k, v) :: l), gv, r.
    split; [reflexivity|]. split; [exact Hg|]. intros v'. rewrite Hs. reflexivity.
Qed.

Lemma dset_new {A} key (v : list A) d : dmem key_eqb key d = false ->
  dset key_eqb key v d = d ++ [(key, v)].
Proof.
  induction d as [|[k w] d IH]; simpl; [reflexivity|].
  destruct (key_eqb key k) eqn:E; simpl; [discriminate|]. intros H. rewrite IH by exact H. reflexivity.
Qed.

Lemma grid_map {A B} (f : A -> B) tol items :
  grid_groups tol (map (fun p => (f (fst p), snd p)) items)
  = map (fun kv => (fst kv, map f (snd kv))) (grid_groups tol items).
Proof.
  unfold grid_groups.
  set (h := fun kv : vec3 * list A => (fst kv, map f (snd kv))).
  change (@nil (vec3 * list B)) with (map h []).
  generalize (@nil (vec3 * list A)) as d. induction items as [|[a v] items IH]; intros d; [reflexivity|].
  cbn [map fold_left]. rewrite <- IH. f_equal.
  assert (Hm : forall key, dmem key_eqb key (map h d) = dmem key_eqb key d).
  { intros key. unfold dmem. clear. induction d as [|[k w] d IH]; [reflexivity|]. simpl. rewrite IH. reflexivity. }
  unfold grid_step. cbn [fst snd].
  assert (Hc : check_neighbors (map h d) (grid_cell tol v) = check_neighbors d (grid_cell tol v)).
  { unfold check_neighbors. induction (map (shift _) epsilons) as [|k t IHk]; [reflexivity|].
    simpl. rewrite Hm, IHk. reflexivity. }
  assert (Hs : forall key w, dset key_eqb key (map f w) (map h d) = map h (dset key_eqb key w d)).
  { intros key w. clear. induction d as [|[k x] d IH]; [reflexivity|]. simpl.
    destruct (key_eqb key k); [reflexivity|]. simpl. rewrite IH. reflexivity. }
  assert (Hg : forall key, dget key_eqb key (map h d)
                 = match dget key_eqb key d with Ok w => Ok (map f w) | Err e => Err e end).
  { intros key. clear. induction d as [|[k x] d IH]; [reflexivity|]. simpl.
    destruct (key_eqb key k); [reflexivity|]. exact IH. }
  rewrite Hc. destruct (check_neighbors d (grid_cell tol v)) as [key|].
  - rewrite Hg. destruct (dget key_eqb key d) as [w|]; [|reflexivity].
    rewrite <- Hs, map_app. reflexivity.
  - apply (Hs _ [a]).
Qed.

(** ** The groups of indices *)

Definition zero3 : vec3 := (0, 0, 0).
Definition items_upto (vecs : list vec3) (n : nat) : list (nat * vec3) :=
  map (fun i => (i, nth i vecs zero3)) (seq 0 n).

Definition grid_inv (tol : Z) (vecs : list vec3) (n : nat) (d : list (vec3 * list nat)) : Prop :=
  Permutation (concat (map snd d)) (seq 0 n)
  /\ forall key g, In (key, g) d ->
       StronglySorted lt g
       /\ exists i0 rest, g = i0 :: rest /\ grid_cell tol (nth i0 vecs zero3) = key
       /\ forall i, In i g -> cell_near (grid_cell tol (nth i vecs zero3)) key.

Lemma cell_near_refl c : cell_near c c.
Proof. destruct c as [[x y] z]. cbn. lia. Qed.

Lemma sorted_snoc l n : StronglySorted lt l -> (forall i, In i l -> (i < n)%nat) -> StronglySorted lt (l ++ [n]).
Proof.
  induction 1 as [|x l Hs IH HF]; intros H; simpl; [repeat constructor|].
  constructor; [apply IH; intros; apply H; right; assumption|].
  apply Forall_app. split; [exact HF|]. constructor; [apply H; left; reflexivity|constructor].
Qed.

Lemma grid_invariant tol vecs n : grid_inv tol vecs n (grid_groups tol (items_upto vecs n)).
Proof.
  induction n as [|n IH].
  - split; [constructor|]. intros key g [].
  - unfold items_upto, grid_groups. rewrite seq_S, map_app, fold_left_app. cbn [map fold_left].
    change (fold_left (grid_step tol) (map (fun i => (i, nth i vecs zero3)) (seq 0 n)) [])
      with (grid_groups tol (items_upto vecs n)).
    set (d := grid_groups tol (items_upto vecs n)) in *. destruct IH as [HP HG].
    assert (Hlt : forall key g i, In (key, g) d -> In i g -> (i < n)%nat).
    { intros key g i Hd Hi.
      assert (H : In i (seq 0 n)).
      { apply (Permutation_in _ HP). apply in_concat. exists g. split; [|exact Hi].
        apply in_map_iff. exists (key, g). auto. }
      apply in_seq in H. lia. }
    unfold grid_step. destruct (check_neighbors d _) as [key|] eqn:E.
    + apply check_some in E. destruct E as [E Hcell].
      destruct (dset_split key d E) as (l & gv & r & Ed & -> & Hs). rewrite Hs. split.
      * rewrite seq_S, <- HP, Ed, !map_app, !concat_app. cbn [map snd concat].
        rewrite <- !app_assoc. apply Permutation_app_head. rewrite (Permutation_app_comm _ (concat _ ++ [0 + n]%nat)).
        rewrite !app_assoc. rewrite <- !app_assoc.
        rewrite (Permutation_app_comm gv). rewrite <- !app_assoc.
        apply Permutation_sym. rewrite app_assoc. rewrite (Permutation_app_comm (concat (map snd r)) [(0 + n)%nat]).
        rewrite <- app_assoc. simpl. constructor.
        apply Permutation_refl || apply Permutation_app_comm.
      * intros k g Hin. apply in_app_iff in Hin.
        assert (Hold : forall k' g', In (k', g') l \/ In (k', g') r -> In (k', g') d).
        { intros k' g' [?|?]; rewrite Ed, in_app_iff; simpl; auto. }
        destruct Hin as [Hin|[Hin|Hin]]; [apply HG, Hold; auto| |apply HG, Hold; auto].
        inversion Hin; subst k g. clear Hin.
        assert (Hd : In (key, gv) d) by (rewrite Ed, in_app_iff; simpl; auto).
        destruct (HG key gv Hd) as (Hsort & i0 & rest & -> & Hk & Hm). split.
        -- apply sorted_snoc; [exact Hsort|]. intros i Hi. eapply Hlt; eassumption.
        -- exists i0, (rest ++ [n]). split; [reflexivity|]. split; [exact Hk|].
           intros i Hi. apply in_app_iff in Hi. destruct Hi as [Hi|[<-|[]]]; [apply Hm; exact Hi|exact Hcell].
    + apply check_none in E. rewrite dset_new by exact E. split.
      * rewrite map_app, concat_app, seq_S. simpl. apply Permutation_app; [exact HP|reflexivity].
      * intros k g Hin. apply in_app_iff in Hin. destruct Hin as [Hin|[Hin|[]]]; [apply HG; exact Hin|].
        inversion Hin; subst k g. split; [repeat constructor|].
        exists n, []. split; [reflexivity|]. split; [reflexivity|].
        intros i [<-|[]]. apply cell_near_refl.
Qed.

(** ** Distances inside a group *)

Lemma coord_close tol x : 0 < tol -> Z.abs (4 * x - tol * grid_coord tol x) * 2 <= tol.
Proof.
  intros Ht. unfold grid_coord. rewrite (proj2 (Z.ltb_lt 0 tol) Ht). apply round_even_close. exact Ht.
Qed.

Lemma coord_diff tol p q m : 0 < tol -> Z.abs (grid_coord tol p - grid_coord tol q) <= m ->
  4 * Z.abs (p - q) <= (m + 1) * tol.
Proof.
  intros Ht Hd. pose proof (coord_close tol p Ht) as Hp. pose proof (coord_close tol q Ht) as Hq.
  assert (H : Z.abs (tol * grid_coord tol p - tol * grid_coord tol q) <= m * tol).
  { rewrite <- Z.mul_sub_distr_l, Z.abs_mul, (Z.abs_eq tol) by lia.
    rewrite Z.mul_comm. apply Z.mul_le_mono_nonneg_r; [lia|exact Hd]. }
  rewrite Z.mul_add_distr_r. set (a := tol * grid_coord tol p) in *. set (b := tol * grid_coord tol q) in *.
  clearbody a b. set (c := m * tol) in *. clearbody c. clear Hd. lia.
Qed.

Lemma half_square t d : 4 * Z.abs d <= 2 * t -> 4 * d ^ 2 <= t ^ 2.
Proof.
  intros H. assert (E : 0 <= 2 * Z.abs d <= t) by lia.
  assert (S : (2 * Z.abs d) * (2 * Z.abs d) <= t * t) by (apply Z.mul_le_mono_nonneg; lia).
  rewrite !Z.pow_2_r. rewrite <- (Z.abs_square d). lia.
Qed.

Lemma founder_close tol v w : 0 < tol -> cell_near (grid_cell tol w) (grid_cell tol v) ->
  near tol (xyz w) (xyz v).
Proof.
  intros Ht. destruct v as [[x y] z], w as [[a b] c]. unfold grid_cell, cell_near, near, xyz, sqdist.
  intros (H1 & H2 & H3). split; [exact Ht|].
  apply (coord_diff tol) in H1; [|exact Ht]. apply (coord_diff tol) in H2; [|exact Ht].
  apply (coord_diff tol) in H3; [|exact Ht].
  apply half_square in H1. apply half_square in H2. apply half_square in H3.
  assert (0 < tol ^ 2) by (apply Z.pow_pos_nonneg; lia). lia.
Qed.

Lemma members_close tol k v w : 0 < tol -> cell_near (grid_cell tol v) k -> cell_near (grid_cell tol w) k ->
  forall i, 4 * Z.abs (nth i (xyz v) 0 - nth i (xyz w) 0) <= 3 * tol.
Proof.
  intros Ht. destruct v as [[x y] z], w as [[a b] c], k as [[k1 k2] k3]. unfold grid_cell, cell_near, xyz.
  intros (H1 & H2 & H3) (G1 & G2 & G3).
  intros [|[|[|i]]]; cbn [nth]; [| | |destruct i; cbn [nth]; lia];
    apply (coord_diff tol _ _ 2 Ht); [clear - H1 G1|clear - H2 G2|clear - H3 G3]; lia.
Qed.

(** ** find_clusters_grid *)

Lemma combine_items (ids : list Z) (vecs : list vec3) : (length ids <= length vecs)%nat ->
  combine ids vecs = map (fun p => (nth (fst p) ids 0, snd p)) (items_upto vecs (length ids)).
Proof.
  revert vecs; induction ids as [|x ids IH]; intros vecs H; [reflexivity|].
  destruct vecs as [|v vecs]; simpl in H; [lia|]. unfold items_upto. simpl. f_equal.
  rewrite IH by lia. unfold items_upto. rewrite <- seq_shift, !map_map. reflexivity.
Qed.

Lemma grid_spec ids vecs tol gps : 0 < tol ->
  find_clusters_grid ids vecs tol = Ok gps ->
  exists igs, Forall2 (ids_of ids) igs gps
    /\ Permutation (concat igs) (seq 0 (length ids))
    /\ forall g, In g igs -> StronglySorted lt g /\
         exists first rest, g = first :: rest
         /\ (forall i, In i g -> near tol (xyz (nth i vecs (0, 0, 0))) (xyz (nth first vecs (0, 0, 0))))
         /\ (forall i j c, In i g -> In j g ->
               4 * Z.abs (nth c (xyz (nth i vecs (0, 0, 0))) 0 - nth c (xyz (nth j vecs (0, 0, 0))) 0) <= 3 * tol).
Proof.
  intros Ht H. unfold find_clusters_grid in H. destruct (Z.eqb_spec tol 0); [lia|].
  destruct (Nat.ltb_spec (length vecs) (length ids)) as [|Hl]; [discriminate|].
  injection H as <-. rewrite (combine_items ids vecs Hl).
  rewrite (grid_map (fun i => nth i ids 0)).
  destruct (grid_invariant tol vecs (length ids)) as [HP HG].
  set (d := grid_groups tol (items_upto vecs (length ids))) in *.
  exists (map snd d). split; [|split; [exact HP|]].
  - rewrite map_map. clear. induction d as [|[k g] d IH]; simpl; constructor; [apply isort_ids|exact IH].
  - intros g Hg. apply in_map_iff in Hg. destruct Hg as ([key g'] & E & Hin). simpl in E. subst g'.
    destruct (HG key g Hin) as (Hs & i0 & rest & -> & Hk & Hm). split; [exact Hs|].
    exists i0, rest. split; [reflexivity|]. split.
    + intros i Hi. apply founder_close; [exact Ht|]. change (0, 0, 0) with zero3. rewrite Hk. apply Hm. exact Hi.
    + intros i j c Hi Hj. apply (members_close tol key); [exact Ht|apply Hm; exact Hi|apply Hm; exact Hj].
Qed.

Lemma grid_partition ids vecs tol gps :
  find_clusters_grid ids vecs tol = Ok gps ->
  Permutation (concat gps) ids /\ Forall (fun g => g <> []) gps.
Proof.
  intros H. unfold find_clusters_grid in H. destruct (Z.eqb_spec tol 0); [discriminate|].
  destruct (Nat.ltb_spec (length vecs) (length ids)) as [|Hl]; [discriminate|].
  injection H as <-. rewrite (combine_items ids vecs Hl).
  rewrite (grid_map (fun i => nth i ids 0)).
  destruct (grid_invariant tol vecs (length ids)) as [HP HG].
  set (d := grid_groups tol (items_upto vecs (length ids))) in *. split.
  - assert (HF : Forall2 (ids_of ids) (map snd d)
        (map (fun kv => isort Z.leb (snd kv)) (map (fun kv => (fst kv, map (fun i => nth i ids 0) (snd kv))) d))).
    { rewrite map_map. clear. induction d as [|[k g] d IH]; simpl; constructor; [apply isort_ids|exact IH]. }
    rewrite (ids_of_concat _ _ _ HF), HP, map_nth_seq. reflexivity.
  - rewrite map_map. apply Forall_forall. intros g Hg. apply in_map_iff in Hg.
    destruct Hg as ([key g'] & <- & Hin). destruct (HG key g' Hin) as (_ & i0 & rest & -> & _).
    cbn [snd fst]. intros E. apply (f_equal (@length Z)) in E. rewrite isort_length in E. discriminate.
Qed.

Lemma grid_total ids vecs tol : 0 < tol -> (length ids <= length vecs)%nat ->
  exists gps, find_clusters_grid ids vecs tol = Ok gps.
Proof.
  intros Ht Hl. unfold find_clusters_grid. destruct (Z.eqb_spec tol 0); [lia|].
  rewrite (proj2 (Nat.ltb_ge _ _) Hl). eauto.
Qed.
