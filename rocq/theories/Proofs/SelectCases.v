(** Baselines written either way round; channel numbers; concrete cases. *)
From Coq Require Import List ZArith Bool Arith QArith String Lia Sorted.
From Verif Require Import Lib.Py Lib.Np Lib.Cube Lib.Sorting Model.Bls Model.Tools Model.Pol Model.UVData Model.Reorder Model.Freq Model.PhaseCenter Model.FlexPol Model.Times Model.Select
  Spec.BltSpec Spec.BlsSpec Spec.UVDataSpec Spec.FreqSpec Spec.TimesSpec Spec.AccessSpec Spec.SelectSpec
  Proofs.BlsProofs Proofs.TimesProofs Proofs.AccessProofs Proofs.ReorderProofs Proofs.PhaseSplit Proofs.SelectRows Proofs.SelectProofs Proofs.SelectTotal.
Import ListNotations.
Notation length := List.length.
Open Scope Z_scope.
Open Scope list_scope.

(** * C36 *)
Section Turned.
Variable o : selobj.
Let u := so_uvd o.
Hypothesis OK : sel_ok o.
Hypothesis OO : one_orientation u.

Lemma rows_of_one a b : a <> b -> rows_of u a b = [] \/ rows_of u b a = [].
Proof.
  intros N. destruct (rows_of u a b) as [|x l] eqn:E; [auto|]. right. apply (rows_of_nil o OK). apply OO; [exact N|].
  destruct (rows_of u b a) as [|y l'] eqn:E'.
  - exists x. apply (rows_of_spec o OK). fold u. rewrite E. left; reflexivity.
  - exists x. apply (rows_of_spec o OK). fold u. rewrite E. left; reflexivity.
Qed.

Lemma bls_rows_turned l l' : Forall2 same_baseline l l' -> bls_rows u l = bls_rows u l'.
Proof.
  intros H. induction H as [|t t' l l' T _ IH]; [reflexivity|].
  destruct T as [[[a b] p] | a b | a b s c N C1 C2]; cbn [bls_rows]; rewrite IH; [reflexivity| |].
  - destruct (Z.eq_dec a b) as [<- | N]; [reflexivity|].
    destruct (rows_of_one a b N) as [E | E]; rewrite E.
    + destruct (rows_of u b a); reflexivity.
    + destruct (rows_of u a b); reflexivity.
  - destruct (rows_of_one a b N) as [E | E]; rewrite E.
    + destruct (rows_of u b a); [reflexivity|]. rewrite C1. reflexivity.
    + destruct (rows_of u a b); [reflexivity|]. rewrite C2. reflexivity.
Qed.

Theorem select_turned two_pi tols lst_tols cr keep_all l l' : Forall2 same_baseline l l' ->
  select two_pi tols lst_tols (with_bls cr (BlTuples l)) keep_all o = select two_pi tols lst_tols (with_bls cr (BlTuples l')) keep_all o.
Proof.
  intros H.
  assert (E : bls_inds (with_bls cr (BlTuples l)) u = bls_inds (with_bls cr (BlTuples l')) u).
  { unfold bls_inds. cbn [with_bls cr_bls cr_polarizations bls_tuples bind]. rewrite <- (bls_rows_turned _ _ H).
    assert (F : forallb (fun t : Z * Z * option string => match snd t with Some _ => true | None => false end) l =
                forallb (fun t : Z * Z * option string => match snd t with Some _ => true | None => false end) l').
    { clear - H. induction H as [|t t' l l' T _ IH]; [reflexivity|]. cbn [forallb]. rewrite IH. destruct T; reflexivity. }
    rewrite F. destruct H; reflexivity. }
  unfold select, select_rows. fold u.
  change (phase_inds (with_bls cr (BlTuples l))) with (phase_inds (with_bls cr (BlTuples l'))).
  change (antenna_list (with_bls cr (BlTuples l))) with (antenna_list (with_bls cr (BlTuples l'))).
  change (time_inds two_pi tols lst_tols (with_bls cr (BlTuples l))) with (time_inds two_pi tols lst_tols (with_bls cr (BlTuples l'))).
  change (select_freqs (with_bls cr (BlTuples l))) with (select_freqs (with_bls cr (BlTuples l'))).
  rewrite E. reflexivity.
Qed.
End Turned.

(** * C37 *)
Theorem chans_exact cr u L j : NoDup (freq_array u) -> (j < Nfreqs u)%nat -> cr_frequencies cr = None -> cr_freq_chans cr = Some L ->
  (freq_wanted cr u j <-> exists c, In c L /\ denotes (Nfreqs u) c j).
Proof.
  intros ND Lj E1 E2. unfold freq_wanted. rewrite E1, E2. split.
  - intros [(_ & E) | [(l & E & _) | (l & c & j' & E & I & D & X)]]; [discriminate | discriminate |]. injection E as <-.
    exists c. split; [exact I|]. assert (j' = j) as <-; [|exact D]. apply (proj1 (NoDup_nth (freq_array u) 0) ND); [apply D | exact Lj | exact X].
  - intros (c & I & D). right; right. exists L, c, j. auto.
Qed.

Theorem select_chans two_pi tols lst_tols cr keep_all o o' L : sel_ok o -> flex_spw_polarization_array (so_freq o) = None ->
  select two_pi tols lst_tols cr keep_all o = Ok o' -> NoDup (freq_array (so_uvd o)) ->
  cr_frequencies cr = None -> cr_freq_chans cr = Some L ->
  exists ri rj rk, positions_of (Nfreqs (so_uvd o)) (fun j => exists c, In c L /\ denotes (Nfreqs (so_uvd o)) c j) rj /\ parts_picked ri rj rk o o'.
Proof.
  intros OK FP S ND E1 E2. destruct (select_keeps _ _ _ _ _ _ _ OK S FP) as (ri & rj & rk & _ & P & _ & Q & _).
  exists ri, rj, rk. split; [|exact Q]. apply (positions_ext _ _ _ _ P). intros j Lj. apply chans_exact; assumption.
Qed.

(** * A concrete object: two times, three antennas, two windows of two channels *)
Definition sel_uvd (ants : list (Z * Z)) (freqs : list Z) (pols : list Z) : uvd :=
  let rows := map (fun p => (1, p)) ants ++ map (fun p => (2, p)) ants in
  {| time_array := map fst rows; lst_array := map (fun r => 10 * fst r) rows;
     ant_1_array := map (fun r => fst (snd r)) rows; ant_2_array := map (fun r => snd (snd r)) rows;
     baseline_array := map (fun r => 2048 * fst (snd r) + snd (snd r) + 65536) rows;
     integration_time := map (fun _ => 10) rows; uvw_array := map (fun r => (fst (snd r), snd (snd r), 7)) rows;
     phase_center_id_array := map (fun r => fst r - 1) rows; phase_center_app_ra := map (fun _ => 3) rows;
     phase_center_app_dec := map (fun _ => 4) rows; phase_center_frame_pa := map (fun _ => 5) rows;
     freq_array := freqs; channel_width := [100; 100; 100; 100]; flex_spw_id_array := [5; 5; 7; 7]; spw_array := [7; 5];
     polarization_array := pols;
     data_array := fun i j k => (Z.of_nat (100 * i + 10 * j + k), 1); flag_array := fun i j k => Nat.eqb i j;
     nsample_array := fun i j k => Z.of_nat (i + k);
     Nbls := length ants; Ntimes := 2; blt_order := None; blts_are_rectangular := Some true; time_axis_faster_than_bls := false;
     Nants_telescope := 4 |}.
Definition sel_obj (ants : list (Z * Z)) (freqs pols : list Z) (fp : option (list Z)) : selobj :=
  mkSelobj (mkFreqobj (sel_uvd ants freqs pols) (Some (fun a j => Z.of_nat (10 * a + j))) fp) None [] [0; 1; 2; 9] ["a"; "b"; "c"; "d"]%string 4 3.
Definition three : list (Z * Z) := [(0, 1); (0, 2); (1, 2)].

Lemma sel_obj_ok ants freqs pols fp : length freqs = 4%nat -> NoDup ants -> (forall a b, In (a, b) ants -> 0 <= a < 2048 /\ 0 <= b < 2048) ->
  ants <> [] -> (forall f, fp = Some f -> length f = 2%nat) -> sel_ok (sel_obj ants freqs pols fp).
Proof.
  intros LF ND HA NE HP. unfold sel_ok, so_uvd, sel_obj. cbn [so_freq fo_uvd so_antenna_names so_antenna_numbers].
  split; [repeat split; cbn; rewrite ?map_length; reflexivity|]. split.
  { exists 2048, 65536. split; [constructor|].
    intros i L. unfold sel_uvd in *. cbn [time_array ant_1_array ant_2_array baseline_array] in *. rewrite map_length in L.
    set (rows := map (fun p => (1, p)) ants ++ map (fun p => (2, p)) ants) in *.
    rewrite (nth_map (fun r : Z * (Z * Z) => fst (snd r)) rows i (0, (0, 0)) 0) by exact L.
    rewrite (nth_map (fun r : Z * (Z * Z) => snd (snd r)) rows i (0, (0, 0)) 0) by exact L.
    rewrite (nth_map (fun r : Z * (Z * Z) => 2048 * fst (snd r) + snd (snd r) + 65536) rows i (0, (0, 0)) 0) by exact L.
    assert (I : In (nth i rows (0, (0, 0))) rows) by (apply nth_In, L).
    destruct (nth i rows (0, (0, 0))) as [t [a b]]. cbn [fst snd].
    assert (In (a, b) ants) as I' by (apply in_app_iff in I as [I | I]; apply in_map_iff in I as (p & E & I); injection E as _ <-; exact I).
    apply HA in I'. lia. }
  split.
  { split.
    - exists (map (fun p => 2048 * fst p + snd p + 65536) ants). split; [|split].
      + clear - ND HA. induction ND as [|[a b] l N ND IH]; cbn [map]; constructor.
        * intros I. apply in_map_iff in I as ([c d] & E & I). cbn [fst snd] in E.
          pose proof (HA a b (or_introl eq_refl)). pose proof (HA c d (or_intror I)).
          assert (c = a /\ d = b) as (-> & ->) by lia. contradiction.
        * apply IH. intros c d I. apply HA. right; exact I.
      + intros x. unfold sel_uvd. cbn [baseline_array]. rewrite map_app, !map_map, in_app_iff. cbn [fst snd]. tauto.
      + rewrite map_length. reflexivity.
    - exists [1; 2]. split; [repeat constructor; simpl; lia|]. split; [|reflexivity].
      intros x. unfold sel_uvd. cbn [time_array]. rewrite map_app, !map_map, in_app_iff, !in_map_iff. simpl. split.
      + destruct ants as [|p l]; [congruence|]. intros [<- | [<- | []]]; [left | right]; exists p; simpl; auto.
      + intros [(p & <- & _) | (p & <- & _)]; auto. }
  split.
  { split; [split; [|split]|].
    - split; cbn; symmetry; exact LF.
    - cbn. repeat constructor; simpl; lia.
    - intros w. cbn. lia.
    - intros f E. cbn in E. apply HP in E. exact E. }
  split; [cbn; lia|]. split; [reflexivity|]. cbn. repeat constructor; simpl; intuition discriminate.
Qed.
