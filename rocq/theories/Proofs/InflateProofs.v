(** inflate_by_redundancy: which row each row of the result is a copy of. *)
From Coq Require Import List ZArith Bool Lia Permutation.
From Verif Require Import Lib.Py Lib.Np Lib.Cube Spec.BltSpec Spec.BlsSpec Spec.UVDataSpec Spec.RedundancySpec Spec.ConjSpec Spec.InflateSpec.
From Verif Require Import Model.Bls Model.UVData Model.Reorder Model.Redundancy Model.Hdf5 Model.Inflate.
From Verif Require Import Proofs.BlsProofs Proofs.ReorderProofs Proofs.RedundancyProofs Proofs.RedundancyBaselines.
Import ListNotations.
Open Scope Z_scope.

Definition group_source (bls gp : list Z) : list (Z * nat) :=
  match group_rows bls gp with
  | None => []
  | Some r => flat_map (fun bl => map (fun i => (bl, i)) r) gp
  end.
Definition source (gps : list (list Z)) (bls : list Z) : list (Z * nat) := flat_map (group_source bls) gps.

Definition fill_out (rows : list (option (list nat))) (p : nat * Z) : list (Z * nat) :=
  match nth (fst p) rows None with
  | None => []
  | Some r => map (fun i => (snd p, i)) r
  end.

Lemma slice_assign_zeros {A} (d : A) done vals n : (length vals <= n)%nat ->
  slice_assign (length done) vals (done ++ repeat d n) = Ok (done ++ vals ++ repeat d (n - length vals)).
Proof.
  intros H. unfold slice_assign. rewrite app_length, repeat_length.
  replace (length done + length vals <=? length done + n)%nat with true by (symmetry; apply Nat.leb_le; lia).
  rewrite firstn_app, Nat.sub_diag, firstn_all. cbn [firstn]. rewrite app_nil_r. do 3 f_equal.
  rewrite skipn_app. rewrite skipn_all2 by lia. cbn [app].
  replace (length done + length vals - length done)%nat with (length vals) by lia.
  replace n with (length vals + (n - length vals))%nat at 1 by lia. rewrite repeat_app.
  rewrite skipn_app, skipn_all2, repeat_length, Nat.sub_diag by (rewrite repeat_length; lia). reflexivity.
Qed.

Lemma map_const_repeat {A B} (f : A -> B) (b : B) l : (forall x, In x l -> f x = b) -> map f l = repeat b (length l).
Proof. induction l as [|x l IH]; intros H; [reflexivity|]. cbn. rewrite H by (left; reflexivity). f_equal. apply IH. intros; apply H; right; assumption. Qed.

Lemma fill_loop rows l : forall done n, (length (flat_map (fill_out rows) l) <= n)%nat ->
  foldM (fill_step rows) l (map snd done ++ repeat 0%nat n, map fst done ++ repeat 0 n, length done)
  = Ok (map snd (done ++ flat_map (fill_out rows) l) ++ repeat 0%nat (n - length (flat_map (fill_out rows) l)),
        map fst (done ++ flat_map (fill_out rows) l) ++ repeat 0 (n - length (flat_map (fill_out rows) l)),
        length (done ++ flat_map (fill_out rows) l)).
Proof.
  induction l as [|p l IH]; intros done n H.
  - cbn [flat_map]. cbn. rewrite app_nil_r, Nat.sub_0_r. reflexivity.
  - cbn [flat_map] in *. rewrite app_length in H. unfold foldM in *. cbn [fold_left bind].
    set (o := fill_out rows p) in *.
    assert (E : fill_step rows (map snd done ++ repeat 0%nat n, map fst done ++ repeat 0 n, length done) p
      = Ok (map snd (done ++ o) ++ repeat 0%nat (n - length o), map fst (done ++ o) ++ repeat 0 (n - length o), length (done ++ o))).
    { unfold fill_step. unfold o, fill_out in *. destruct (nth (fst p) rows None) as [r|].
      - rewrite map_length in H |- *.
        assert (L1 : length done = length (map snd done)) by (rewrite map_length; reflexivity).
        assert (L2 : length done = length (map fst done)) by (rewrite map_length; reflexivity).
        rewrite L1 at 1. rewrite slice_assign_zeros by lia. cbn [bind].
        rewrite L2 at 1. rewrite slice_assign_zeros by (rewrite repeat_length; lia). cbn [bind].
        rewrite repeat_length, !map_app, !map_map, app_length, map_length, <- !app_assoc. cbn [fst snd].
        rewrite map_id. rewrite (map_const_repeat (fun _ : nat => snd p) (snd p)) by reflexivity. reflexivity.
      - cbn [length]. rewrite app_nil_r, Nat.sub_0_r. reflexivity. }
    rewrite E. rewrite IH by lia. rewrite <- app_assoc, !app_length. 
    replace (n - length o - length (flat_map (fill_out rows) l))%nat with (n - (length o + length (flat_map (fill_out rows) l)))%nat by lia.
    reflexivity.
Qed.

Lemma full_size_from gps : forall rows n, length rows = length gps ->
  fold_left (fun n (p : list Z * option (list nat)) =>
    match snd p with Some r => (n + length r * length (fst p))%nat | None => n end) (combine gps rows) n
  = (n + fold_left (fun n (p : list Z * option (list nat)) =>
    match snd p with Some r => (n + length r * length (fst p))%nat | None => n end) (combine gps rows) 0)%nat.
Proof.
  induction gps as [|gp gps IH]; intros rows n L; destruct rows as [|r rows]; try discriminate; [cbn; lia|].
  cbn [combine fold_left fst snd]. rewrite IH by (simpl in L; lia). rewrite (IH rows (match r with Some _ => _ | None => _ end)) by (simpl in L; lia).
  destruct r; lia.
Qed.

Lemma flat_map_length_const {A B} (f : A -> list B) c l : (forall x, In x l -> length (f x) = c) ->
  length (flat_map f l) = (c * length l)%nat.
Proof.
  induction l as [|x l IH]; intros H; [cbn; lia|]. cbn [flat_map length]. rewrite app_length, H by (left; reflexivity).
  rewrite IH; [lia|]. intros; apply H; right; assumption.
Qed.

Lemma full_size_source gps bls : full_size gps (map (group_rows bls) gps) = length (source gps bls).
Proof.
  unfold full_size. induction gps as [|gp gps IH]; [reflexivity|].
  cbn [map combine fold_left fst snd]. rewrite full_size_from by apply map_length. rewrite IH.
  unfold source. cbn [flat_map]. rewrite app_length. f_equal. unfold group_source.
  destruct (group_rows bls gp) as [r|]; [|reflexivity].
  rewrite (flat_map_length_const _ (length r)) by (intros; apply map_length). reflexivity.
Qed.

Lemma stacked_from gps rows pre : 
  flat_map (fill_out (pre ++ rows)) (flat_map (fun p : nat * list Z => map (fun bl => (fst p, bl)) (snd p))
     (combine (seq (length pre) (length gps)) gps))
  = flat_map (fun p : list Z * option (list nat) => match snd p with None => [] | Some r => flat_map (fun bl => map (fun i => (bl, i)) r) (fst p) end)
      (combine gps (map (fun k => nth k rows None) (seq 0 (length gps)))).
Proof.
  revert rows pre. induction gps as [|gp gps IH]; intros rows pre; [reflexivity|].
  cbn [length seq combine flat_map map fst snd]. rewrite flat_map_app. f_equal.
  - assert (E : forall bl : Z, fill_out (pre ++ rows) (length pre, bl) = match nth 0 rows None with None => [] | Some r => map (fun i => (bl, i)) r end).
    { intros bl. unfold fill_out. cbn [fst snd]. rewrite app_nth2, Nat.sub_diag by lia. reflexivity. }
    destruct (nth 0 rows None) as [r|].
    + clear -E. induction gp as [|bl gp IH]; [reflexivity|]. cbn [map flat_map]. rewrite E, IH. reflexivity.
    + clear -E. induction gp as [|bl gp IH]; [reflexivity|]. cbn [map flat_map]. rewrite E, IH. reflexivity.
  - destruct rows as [|r rows].
    + specialize (IH [] (pre ++ [None])). rewrite app_nil_r in IH. rewrite app_length in IH. cbn [length] in IH.
      rewrite Nat.add_1_r in IH. rewrite app_nil_r. rewrite <- (seq_shift (length gps) 0), map_map.
      assert (X : forall k, nth (S k) (@nil (option (list nat))) None = nth k [] None) by (intros [|k]; reflexivity).
      rewrite (map_ext (fun x => nth (S x) [] None) (fun k => nth k [] None)) by (intros; apply X).
      rewrite <- IH. apply flat_map_ext. intros p. unfold fill_out.
      destruct (Nat.ltb_spec (fst p) (length pre)).
      * rewrite app_nth1 by lia. reflexivity.
      * rewrite app_nth2 by lia. rewrite nth_overflow by lia.
        destruct (fst p - length pre)%nat as [|[|k]]; reflexivity.
    + specialize (IH rows (pre ++ [r])). rewrite app_length in IH. cbn [length] in IH. rewrite Nat.add_1_r in IH.
      rewrite <- app_assoc in IH. cbn [app] in IH. rewrite IH. rewrite <- (seq_shift (length gps) 0), map_map. reflexivity.
Qed.

Lemma map_nth_id {A} (l : list A) d : map (fun k => nth k l d) (seq 0 (length l)) = l.
Proof. induction l as [|x l IH]; [reflexivity|]. cbn [length seq map nth]. f_equal. rewrite <- (seq_shift (length l) 0), map_map. exact IH. Qed.

Lemma stacked_source gps bls : flat_map (fill_out (map (group_rows bls) gps)) (stacked gps) = source gps bls.
Proof.
  unfold stacked. pose proof (stacked_from gps (map (group_rows bls) gps) []) as E. cbn [app length] in E. rewrite E. clear E.
  unfold source.
  replace (map (fun k => nth k (map (group_rows bls) gps) None) (seq 0 (length gps))) with (map (group_rows bls) gps).
  - induction gps as [|gp gps IH]; [reflexivity|]. cbn [map combine flat_map fst snd]. rewrite IH. reflexivity.
  - symmetry. replace (length gps) with (length (map (group_rows bls) gps)) by apply map_length. apply map_nth_id.
Qed.

Lemma inflate_map_source gps bls : inflate_map gps bls = Ok (map snd (source gps bls), map fst (source gps bls)).
Proof.
  unfold inflate_map. rewrite full_size_source.
  pose proof (fill_loop (map (group_rows bls) gps) (stacked gps) [] (length (source gps bls))) as E.
  cbn [map app length] in E. rewrite stacked_source in E. rewrite E by lia. cbn [bind].
  rewrite Nat.sub_diag, !app_nil_r. reflexivity.
Qed.

(** ** What the source list contains *)
Lemma find_first bls gp b0 : find (fun bl => isinZ bl bls) gp = Some b0 -> first_present gp bls b0.
Proof.
  induction gp as [|b gp IH]; [discriminate|]. cbn [find]. destruct (isinZ b bls) eqn:E.
  - intros [= <-]. exists [], gp. split; [reflexivity|]. split; [apply isinZ_spec; exact E|]. intros ? [].
  - intros H. destruct (IH H) as (p & q & -> & Hin & Hp). exists (b :: p), q. split; [reflexivity|]. split; [exact Hin|].
    intros x [<-|Hx]; [|auto]. intros C. apply isinZ_spec in C. congruence.
Qed.
Lemma first_present_unique gp bls b b' : first_present gp bls b -> first_present gp bls b' -> b = b'.
Proof.
  intros (p & q & -> & Hin & Hp) (p' & q' & E & Hin' & Hp'). revert p' E Hp'. induction p as [|x p IH]; intros p' E Hp'.
  - destruct p' as [|y p']; [cbn in E; congruence|]. cbn in E. injection E as -> _. exfalso. apply (Hp' y); [left; reflexivity|exact Hin].
  - destruct p' as [|y p']; cbn in E; injection E as -> E.
    + exfalso. apply (Hp b'); [left; reflexivity|exact Hin'].
    + apply (IH) with p'; [intros; apply Hp; right; assumption|exact E|intros; apply Hp'; right; assumption].
Qed.
Lemma first_find bls gp b0 : first_present gp bls b0 -> find (fun bl => isinZ bl bls) gp = Some b0.
Proof.
  intros H. destruct (find (fun bl => isinZ bl bls) gp) as [b|] eqn:E.
  - f_equal. apply (first_present_unique gp bls); [apply find_first; exact E|exact H].
  - destruct H as (p & q & -> & Hin & _). exfalso.
    pose proof (find_none _ _ E b0 ltac:(apply in_or_app; right; left; reflexivity)) as C. cbn in C.
    apply isinZ_spec in Hin. congruence.
Qed.

Lemma source_spec gps bls b r : In (b, r) (source gps bls) <->
  exists gp b0, In gp gps /\ In b gp /\ first_present gp bls b0 /\ (r < length bls)%nat /\ nth r bls 0 = b0.
Proof.
  unfold source. rewrite in_flat_map. split.
  - intros (gp & Hgp & H). unfold group_source, group_rows in H.
    destruct (find (fun bl => isinZ bl bls) gp) as [b0|] eqn:E; [|destruct H]. apply in_flat_map in H as (b' & Hb' & H).
    apply in_map_iff in H as (r' & [= -> ->] & Hr). apply filter_In in Hr as [Hr Eb]. apply in_seq in Hr.
    exists gp, b0. split; [exact Hgp|]. split; [exact Hb'|]. split; [apply find_first; exact E|]. split; lia.
  - intros (gp & b0 & Hgp & Hb & Hf & Hr & Er). exists gp. split; [exact Hgp|].
    unfold group_source, group_rows. rewrite (first_find _ _ _ Hf). apply in_flat_map. exists b. split; [exact Hb|].
    apply in_map_iff. exists r. split; [reflexivity|]. apply filter_In. split; [apply in_seq; lia|lia].
Qed.

Lemma NoDup_app_intro {A} (l l' : list A) : NoDup l -> NoDup l' -> (forall x, In x l -> ~ In x l') -> NoDup (l ++ l').
Proof.
  induction l as [|x l IH]; intros H H' D; [exact H'|]. cbn. inversion H; subst. constructor.
  - rewrite in_app_iff. intros [C|C]; [contradiction|]. apply (D x); [left; reflexivity|exact C].
  - apply IH; [assumption|assumption|]. intros; apply D; right; assumption.
Qed.
Lemma NoDup_flat_pairs {A B} (gp : list A) (r : list B) : NoDup gp -> NoDup r ->
  NoDup (flat_map (fun b => map (fun i => (b, i)) r) gp).
Proof.
  intros H Hr. induction H as [|b gp Hn H IH]; [constructor|]. cbn [flat_map]. apply NoDup_app_intro; [|exact IH|].
  - apply FinFun.Injective_map_NoDup; [intros x y [= ->]; reflexivity|exact Hr].
  - intros [b' i] H1 H2. apply in_map_iff in H1 as (? & [= <- <-] & _). apply in_flat_map in H2 as (b' & Hb' & H2).
    apply in_map_iff in H2 as (? & [= -> ->] & _). contradiction.
Qed.
Lemma NoDup_concat_in {A} (l : list (list A)) x : NoDup (concat l) -> In x l -> NoDup x.
Proof.
  induction l as [|y l IH]; [intros _ []|]. cbn. intros H [->|Hx].
  - clear -H. induction x as [|a x IH]; [constructor|]. cbn in H. inversion H; subst. constructor; [|auto]. intros C. apply H2. apply in_or_app; auto.
  - apply IH; [|exact Hx]. clear -H. induction y as [|a y IH]; [exact H|]. cbn in H. inversion H; auto.
Qed.

Lemma source_NoDup gps bls : NoDup (concat gps) -> NoDup (source gps bls).
Proof.
  unfold source. induction gps as [|gp gps IH]; intros H; [constructor|]. cbn [flat_map]. apply NoDup_app_intro.
  - unfold group_source. destruct (group_rows bls gp) as [r|] eqn:E; [|constructor]. apply NoDup_flat_pairs.
    + apply (NoDup_concat_in (gp :: gps)); [exact H|left; reflexivity].
    + unfold group_rows in E. destruct (find _ gp); [|discriminate]. injection E as <-. apply NoDup_filter, seq_NoDup.
  - apply IH. cbn in H. clear -H. induction gp as [|a y IH]; [exact H|]. cbn in H. inversion H; auto.
  - intros [b r] H1 H2. pose proof (proj1 (source_spec [gp] bls b r)) as S1. pose proof (proj1 (source_spec gps bls b r) H2) as (gp2 & ? & G2 & B2 & _).
    unfold source in S1. cbn [flat_map] in S1. rewrite app_nil_r in S1. destruct (S1 H1) as (gp1 & ? & [<-|[]] & B1 & _).
    cbn in H. clear -H B1 B2 G2. induction gp as [|a y IH]; [destruct B1|]. cbn in H. inversion H; subst. destruct B1 as [->|B1]; [|auto].
    apply H2. apply in_or_app. right. apply in_concat. exists gp2. auto.
Qed.

(** ** The groups have no baseline twice *)
Lemma groups_NoDup numbers positions tol grid gps cs : NoDup numbers -> 0 <= tol ->
  get_antenna_redundancies numbers positions tol true grid = Ok (gps, cs) -> NoDup (concat gps).
Proof.
  intros ND Ht H. destruct (antenna_redundancies_spec _ _ _ _ _ _ _ Ht H) as (pgps & F & _ & P & _ & _).
  assert (NP : NoDup (concat pgps)).
  { apply (NoDup_map_inv (fun p => (Nat.min (fst p) (snd p), Nat.max (fst p) (snd p)))).
    eapply Permutation_NoDup; [symmetry; exact P|]. apply ant_pairs_NoDup. }
  assert (F' : Forall2 (fun p bl => baseline_to_antnums [bl] (Z.of_nat (length numbers))
       = Ok ([nth (fst p) numbers 0], [nth (snd p) numbers 0])) (concat pgps) (concat gps)).
  { clear -F. induction F; cbn; [constructor|]. apply Forall2_app; assumption. }
  assert (B : forall p, In p (concat pgps) -> (fst p < length numbers)%nat /\ (snd p < length numbers)%nat).
  { intros p Hp. apply (in_map (fun p => (Nat.min (fst p) (snd p), Nat.max (fst p) (snd p)))) in Hp.
    apply (Permutation_in _ P) in Hp. apply ant_pairs_In in Hp. lia. }
  clear -ND NP F' B. induction F' as [|p bl ps bls E F' IH]; [constructor|]. inversion NP; subst. constructor.
  - intros C. apply H1. clear IH.
    assert (exists q, In q ps /\ baseline_to_antnums [bl] (Z.of_nat (length numbers)) = Ok ([nth (fst q) numbers 0], [nth (snd q) numbers 0])) as (q & Hq & Eq).
    { clear -F' C. induction F' as [|q b' ps bls Hq F' IH]; [destruct C|]. destruct C as [->|C]; [exists q; split; [left; reflexivity|exact Hq]|].
      destruct (IH C) as (q' & ? & ?). exists q'. split; [right; assumption|assumption]. }
    rewrite E in Eq. injection Eq as E1 E2.
    destruct (B p ltac:(left; reflexivity)), (B q ltac:(right; exact Hq)).
    apply (proj1 (NoDup_nth numbers 0) ND) in E1; [|assumption|assumption]. apply (proj1 (NoDup_nth numbers 0) ND) in E2; [|assumption|assumption].
    replace p with q; [exact Hq|]. destruct p, q. cbn in *. congruence.
  - apply IH; [assumption|]. intros; apply B; right; assumption.
Qed.

(** ** The rows of the result *)
Lemma apply_rows src u v : blt_shaped u -> inflate_apply (map snd src) (map fst src) u = Ok v ->
  (forall p, In p src -> (snd p < Nblts u)%nat) ->
  Nblts v = length src /\ baseline_array v = map fst src /\
  baseline_to_antnums (map fst src) (Nants_telescope u) = Ok (ant_1_array v, ant_2_array v) /\
  blt_shaped v /\ Nbls v = length (uniqueZ (map fst src)) /\ Ntimes v = Ntimes u /\ Nants_telescope v = Nants_telescope u /\
  polarization_array v = polarization_array u /\ same_freq_axis u v /\
  forall i, (i < length src)%nat -> row_renamed u (snd (nth i src (0, 0%nat))) v i (fst (nth i src (0, 0%nat))).
Proof.
  intros Hsh H Hb. unfold inflate_apply in H. apply bind_Ok in H as ((a1 & a2) & E & H). injection H as <-.
  assert (L1 : length a1 = length src /\ length a2 = length src).
  { unfold baseline_to_antnums in E. destruct (_ >? _); [discriminate|]. destruct (existsb _ _); [discriminate|].
    destruct (existsb _ _); [discriminate|]. unfold pyx_baseline_to_antnums in E. apply bind_Ok in E as (mn & _ & E).
    injection E as <- <-. rewrite !map_length. auto. }
  assert (T : forall (A : Type) (d : A) l, length (take d l (map snd src)) = length src) by (intros; rewrite take_length, map_length; reflexivity).
  split. { unfold Nblts. cbn [time_array]. apply T. }
  split; [reflexivity|]. split; [exact E|].
  split. { unfold blt_shaped. cbn. rewrite !T, map_length. destruct L1; repeat split; congruence. }
  do 4 (split; [reflexivity|]). split; [repeat split|].
  intros i Hi.
  assert (Hs : nth i (map snd src) 0%nat = snd (nth i src (0, 0%nat))) by (rewrite (nth_map _ _ _ (0, 0%nat) 0%nat) by exact Hi; reflexivity).
  assert (Hi' : (i < length (map snd src))%nat) by (rewrite map_length; exact Hi).
  unfold row_renamed. cbn.
  rewrite !nth_take by exact Hi'. unfold take0. rewrite !Hs.
  repeat split. rewrite (nth_map _ _ _ (0, 0%nat) 0) by exact Hi. reflexivity.
Qed.
