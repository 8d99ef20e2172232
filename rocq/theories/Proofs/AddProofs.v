(** What __add__ does, in terms of labels. *)
From Coq Require Import List ZArith Bool Arith Lia Permutation Sorted.
From Verif Require Import Lib.Py Lib.Np Lib.Cube Lib.Sorting Lib.Dict Spec.UVDataSpec Spec.BltSpec Spec.FreqSpec Spec.PhaseSpec Spec.AddSpec Model.Hdf5
  Model.UVData Model.Reorder Model.Freq Model.PhaseCenter Model.Add
  Proofs.Hdf5Proofs Proofs.FreqProofs Proofs.FreqReorder Proofs.ReorderProofs Proofs.PhaseConsolidate Proofs.AddAxis Proofs.AddMove Proofs.AddJoin.
Import ListNotations.
Notation length := List.length.
Open Scope Z_scope.

Section Add.
Variables (pop : list Z -> Z) (str_le : Z * Z -> Z * Z -> bool) (t : tolerances) (same_cat : catalog -> catalog -> bool) (ign : bool).
Variables (a b : addobj).
Hypothesis Ha : addable a.
Hypothesis Hb : addable b.
Let u := ad_uvd a.
Let v := ad_uvd b.
Let rows := intersect1d pair_eqb str_le (blt_labels u) (blt_labels v).
Let chans := intersect_channels u v.
Let pols := intersect1d Z.eqb Z.leb (polarization_array u) (polarization_array v).

Lemma a_lists : NoDup (blt_labels u) /\ NoDup (chan_labels u) /\ NoDup (polarization_array u).
Proof.
  destruct Ha as (S & O & D1 & D2 & D3). fold u in S, D1, D2, D3.
  split; [|split].
  - apply (distinct_list (0, 0) (blt_labels u) (row_label u) (Nblts u)); [apply blt_labels_len, S| |exact D1]. intros i _. symmetry. apply blt_labels_nth, S.
  - apply (distinct_list (0, 0) (chan_labels u) (chan_label u) (Nfreqs u)); [apply chan_labels_len, O| |exact D2]. intros i _. symmetry. apply chan_labels_nth, O.
  - apply (distinct_list 0 (polarization_array u) (pol_label u) (Npols u)); [reflexivity|reflexivity|exact D3].
Qed.
Lemma b_lists : NoDup (blt_labels v) /\ NoDup (chan_labels v) /\ NoDup (polarization_array v).
Proof.
  destruct Hb as (S & O & D1 & D2 & D3). fold v in S, D1, D2, D3.
  split; [|split].
  - apply (distinct_list (0, 0) (blt_labels v) (row_label v) (Nblts v)); [apply blt_labels_len, S| |exact D1]. intros i _. symmetry. apply blt_labels_nth, S.
  - apply (distinct_list (0, 0) (chan_labels v) (chan_label v) (Nfreqs v)); [apply chan_labels_len, O| |exact D2]. intros i _. symmetry. apply chan_labels_nth, O.
  - apply (distinct_list 0 (polarization_array v) (pol_label v) (Npols v)); [reflexivity|reflexivity|exact D3].
Qed.

Lemma rows_paired : paired (0, 0) (blt_labels u) (blt_labels v) (fst rows) (snd rows).
Proof. apply intersect_paired. apply pair_eqb_spec. Qed.
Lemma pols_paired : paired 0 (polarization_array u) (polarization_array v) (fst pols) (snd pols).
Proof. apply intersect_paired. apply Z.eqb_eq. Qed.
Lemma chans_paired' : paired (0, 0) (chan_labels u) (chan_labels v) (fst chans) (snd chans).
Proof. apply chans_paired; [apply Ha|apply Hb]. Qed.

(** the object with renumbered phase centers *)
Lemma renumbered_ok ids : length ids = Nblts u ->
  let o := mkFreqobj (set_phase_center_id_array ids u) (eq_coeffs (ad_freq a)) (flex_spw_polarization_array (ad_freq a)) in
  blt_shaped (fo_uvd o) /\ obj_ok o.
Proof.
  intros L. destruct Ha as (S & O & _). fold u in S. split.
  - cbn [fo_uvd]. clear - S L. unfold blt_shaped in *. cbn. unfold Nblts in L. tauto.
  - apply obj_ok_same; [exact O|]. repeat split.
Qed.

Lemma add_inv r : add pop str_le t same_cat ign a b = Ok r ->
  exists s flexpol,
    overlap_check u (fst rows) (fst chans) (fst pols) = Ok tt /\
    consolidate pop (ad_catalog b) ign (centers a) = Ok s /\
    merge_flexpol a b = Ok flexpol /\
    ad_catalog r = pc_cat s /\ ad_Nphase r = pc_n s /\ length (pc_ids s) = Nblts u /\
    let a' := mkFreqobj (set_phase_center_id_array (pc_ids s) u) (eq_coeffs (ad_freq a)) (flex_spw_polarization_array (ad_freq a)) in
    summed a' (ad_freq b) flexpol rows chans pols (ad_freq r).
Proof.
  intros H. unfold add in H. fold u v rows chans pols in H.
  apply bind_Ok in H as ([] & H0 & H). apply bind_Ok in H as (fp & Hfp & H).
  destruct (negb _); [discriminate|]. apply bind_Ok in H as ((o1 & s) & Hm & H). apply bind_Ok in H as (o2 & Ho & H).
  apply bind_Ok in H as (o3 & Hj & H). injection H as <-. cbn [ad_catalog ad_Nphase ad_freq].
  unfold merge_catalogs in Hm. fold u in Hm. apply bind_Ok in Hm as (s' & Hs & E). injection E as <- <-.
  pose proof (consolidate_ids _ _ _ _ _ Hs) as Ls. cbn [pc_ids] in Ls.
  assert (Ln : length (pc_ids s') = Nblts u) by (rewrite Ls; destruct Ha as ((_ & _ & _ & _ & _ & _ & E & _) & _); exact E).
  exists s', fp. split; [exact H0|]. split; [exact Hs|]. split; [exact Hfp|].
  split; [reflexivity|]. split; [reflexivity|]. split; [exact Ln|]. cbv zeta.
  destruct (renumbered_ok (pc_ids s') Ln) as (Sh & Ok').
  set (a' := mkFreqobj (set_phase_center_id_array (pc_ids s') u) (eq_coeffs (ad_freq a)) (flex_spw_polarization_array (ad_freq a))) in *.
  destruct a_lists as (N1 & N2 & N3). destruct b_lists as (M1 & M2 & M3).
  assert (HM : moved (order_of (Nblts u) (fst rows) (snd rows)) (order_of (Nfreqs u) (fst chans) (snd chans))
                 (order_of (Npols u) (fst pols) (snd pols)) a' o2).
  { apply (match_orders_moved rows chans pols a' o2 Sh Ok'); [| | |exact Ho].
    - apply (sb_perm a' (ad_freq b) rows Sh N1 rows_paired).
    - apply (sf_perm a' (ad_freq b) chans Ok' N2 chans_paired').
    - apply (sp_perm a' (ad_freq b) pols N3 pols_paired). }
  apply (join_effect a' (ad_freq b) o2 str_le fp rows chans pols Sh ltac:(apply Hb) Ok' ltac:(apply Hb)
           N1 M1 N2 M2 N3 M3 rows_paired chans_paired' pols_paired HM o3). exact Hj.
Qed.

Hypothesis FB : shared_first (Nblts u) (Nblts v) (row_label u) (row_label v).
Hypothesis FF : shared_first (Nfreqs u) (Nfreqs v) (chan_label u) (chan_label v).
Hypothesis FP : shared_first (Npols u) (Npols v) (pol_label u) (pol_label v).

Lemma firsts : first_shared (0, 0) (blt_labels u) (blt_labels v) /\ first_shared (0, 0) (chan_labels u) (chan_labels v) /\
  first_shared 0 (polarization_array u) (polarization_array v).
Proof.
  destruct Ha as (S & O & _). destruct Hb as (S' & O' & _). split; [|split].
  - apply (shared_first_list (0, 0) (blt_labels u) (blt_labels v) (row_label u) (row_label v) (Nblts u) (Nblts v));
      [apply blt_labels_len, S|apply blt_labels_len, S'| | |exact FB]; intros; symmetry; apply blt_labels_nth; assumption.
  - apply (shared_first_list (0, 0) (chan_labels u) (chan_labels v) (chan_label u) (chan_label v) (Nfreqs u) (Nfreqs v));
      [apply chan_labels_len, O|apply chan_labels_len, O'| | |exact FF]; intros; symmetry; apply chan_labels_nth; [apply O|apply O'].
  - apply (shared_first_list 0 (polarization_array u) (polarization_array v) (pol_label u) (pol_label v) (Npols u) (Npols v));
      [reflexivity|reflexivity|reflexivity|reflexivity|exact FP].
Qed.
End Add.

(** from an axis to its labels *)
Section OneAxis.
Context {L : Type}.
Variables (d : L) (la lb lr : list L) (sg nw to tau : list nat) (fa fb fr : nat -> L) (na nb nr : nat).
Hypothesis X : axis d la lb lr sg nw to tau.
Hypothesis La : length la = na.
Hypothesis Ea : forall i, (i < na)%nat -> fa i = nth i la d.
Hypothesis Lb : length lb = nb.
Hypothesis Eb : forall i, (i < nb)%nat -> fb i = nth i lb d.
Hypothesis Lr : length lr = nr.
Hypothesis Er : forall i, (i < nr)%nat -> fr i = nth i lr d.

Lemma axis_is_union : axis_union na nb nr fa fb fr.
Proof.
  split; [apply (distinct_list d lr fr nr Lr Er), X|]. intros x.
  rewrite (on_axis_list d lr fr nr x Lr Er), (on_axis_list d la fa na x La Ea), (on_axis_list d lb fb nb x Lb Eb). apply X.
Qed.
Lemma axis_b i : (i < nr)%nat -> match index_of Nat.eqb (nth i tau 0%nat) to with
    | Some q => (q < nb)%nat /\ fb q = fr i
    | None => ~ on_axis nb fb (fr i)
    end.
Proof.
  intros Hi. pose proof (ax_b _ _ _ _ _ _ _ _ X i) as H. rewrite Lr in H. specialize (H Hi). rewrite <- Er in H by exact Hi.
  destruct (index_of _ _ _).
  - destruct H as [H1 H2]. rewrite Lb in H1. split; [exact H1|]. rewrite Eb by exact H1. exact H2.
  - intros Hc. apply H. apply (on_axis_list d lb fb nb _ Lb Eb), Hc.
Qed.
Lemma axis_a i : (i < nr)%nat ->
  if (nth i tau 0 <? na)%nat
  then (nth (nth i tau 0%nat) sg 0 < na)%nat /\ fa (nth (nth i tau 0%nat) sg 0%nat) = fr i
  else (nth (nth i tau 0 - na) nw 0 < nb)%nat /\ fb (nth (nth i tau 0 - na) nw 0)%nat = fr i /\ ~ on_axis na fa (fr i).
Proof.
  intros Hi. pose proof (ax_a _ _ _ _ _ _ _ _ X i) as H. rewrite Lr in H. specialize (H Hi). rewrite <- Er in H by exact Hi.
  rewrite La, Lb in H. destruct (Nat.ltb_spec (nth i tau 0%nat) na) as [Hl|Hg].
  - destruct H as [(_ & H1 & H2)|(H & _)]; [|lia]. split; [exact H1|]. rewrite Ea by exact H1. exact H2.
  - destruct H as [(H & _)|(_ & H1 & H2 & H3)]; [lia|]. split; [exact H1|]. rewrite Eb by exact H1. split; [exact H2|].
    intros Hc. apply H3. apply (on_axis_list d la fa na _ La Ea), Hc.
Qed.
End OneAxis.

Section Summed.
Variables (pop : list Z -> Z) (str_le : Z * Z -> Z * Z -> bool) (t : tolerances) (same_cat : catalog -> catalog -> bool) (ign : bool).
Variables (a b r : addobj).
Hypothesis Ha : addable a.
Hypothesis Hb : addable b.
Let u := ad_uvd a.
Let v := ad_uvd b.
Let w := ad_uvd r.
Hypothesis FB : shared_first (Nblts u) (Nblts v) (row_label u) (row_label v).
Hypothesis FF : shared_first (Nfreqs u) (Nfreqs v) (chan_label u) (chan_label v).
Hypothesis FP : shared_first (Npols u) (Npols v) (pol_label u) (pol_label v).
Hypothesis Hadd : add pop str_le t same_cat ign a b = Ok r.

(** everything about the sum, by position *)
Lemma by_position : exists (s : pcobj) (sb sf sp nb nf tb tf tp to_b to_f to_p : list nat),
  (axis_union (Nblts u) (Nblts v) (Nblts w) (row_label u) (row_label v) (row_label w) /\
   axis_union (Nfreqs u) (Nfreqs v) (Nfreqs w) (chan_label u) (chan_label v) (chan_label w) /\
   axis_union (Npols u) (Npols v) (Npols w) (pol_label u) (pol_label v) (pol_label w)) /\
  (forall i, (i < Nblts w)%nat -> match index_of Nat.eqb (nth i tb 0%nat) to_b with
    | Some q => (q < Nblts v)%nat /\ row_label v q = row_label w i | None => ~ on_axis (Nblts v) (row_label v) (row_label w i) end) /\
  (forall j, (j < Nfreqs w)%nat -> match index_of Nat.eqb (nth j tf 0%nat) to_f with
    | Some q => (q < Nfreqs v)%nat /\ chan_label v q = chan_label w j | None => ~ on_axis (Nfreqs v) (chan_label v) (chan_label w j) end) /\
  (forall k, (k < Npols w)%nat -> match index_of Nat.eqb (nth k tp 0%nat) to_p with
    | Some q => (q < Npols v)%nat /\ pol_label v q = pol_label w k | None => ~ on_axis (Npols v) (pol_label v) (pol_label w k) end) /\
  (forall i, (i < Nblts w)%nat -> if (nth i tb 0 <? Nblts u)%nat
     then (nth (nth i tb 0%nat) sb 0 < Nblts u)%nat /\ row_label u (nth (nth i tb 0%nat) sb 0%nat) = row_label w i
     else (nth (nth i tb 0 - Nblts u) nb 0 < Nblts v)%nat /\ row_label v (nth (nth i tb 0 - Nblts u) nb 0)%nat = row_label w i /\
          ~ on_axis (Nblts u) (row_label u) (row_label w i)) /\
  (forall j, (j < Nfreqs w)%nat -> if (nth j tf 0 <? Nfreqs u)%nat
     then (nth (nth j tf 0%nat) sf 0 < Nfreqs u)%nat /\ chan_label u (nth (nth j tf 0%nat) sf 0%nat) = chan_label w j
     else (nth (nth j tf 0 - Nfreqs u) nf 0 < Nfreqs v)%nat /\ chan_label v (nth (nth j tf 0 - Nfreqs u) nf 0)%nat = chan_label w j /\
          ~ on_axis (Nfreqs u) (chan_label u) (chan_label w j)) /\
  (forall k, (k < Npols w)%nat -> if (nth k tp 0 <? Npols u)%nat
     then (nth (nth k tp 0%nat) sp 0 < Npols u)%nat /\ pol_label u (nth (nth k tp 0%nat) sp 0%nat) = pol_label w k
     else ~ on_axis (Npols u) (pol_label u) (pol_label w k)) /\
  (forall i j k, (i < Nblts w)%nat -> (j < Nfreqs w)%nat -> (k < Npols w)%nat ->
     cell w i j k =
     match index_of Nat.eqb (nth i tb 0%nat) to_b, index_of Nat.eqb (nth j tf 0%nat) to_f, index_of Nat.eqb (nth k tp 0%nat) to_p with
     | Some i', Some j', Some k' => cell v i' j' k'
     | _, _, _ =>
       if (nth i tb 0 <? Nblts u)%nat && (nth j tf 0 <? Nfreqs u)%nat && (nth k tp 0 <? Npols u)%nat
       then cell u (nth (nth i tb 0%nat) sb 0%nat) (nth (nth j tf 0%nat) sf 0%nat) (nth (nth k tp 0%nat) sp 0%nat)
       else no_data
     end) /\
  (forall i, (i < Nblts w)%nat ->
     if (nth i tb 0 <? Nblts u)%nat
     then row_meta u (nth (nth i tb 0%nat) sb 0%nat) w i /\
          nth i (phase_center_id_array w) 0 = nth (nth (nth i tb 0%nat) sb 0%nat) (pc_ids s) 0
     else row_meta v (nth (nth i tb 0 - Nblts u) nb 0)%nat w i /\
          nth i (phase_center_id_array w) 0 = nth (nth (nth i tb 0 - Nblts u) nb 0)%nat (phase_center_id_array v) 0) /\
  (forall j, (j < Nfreqs w)%nat -> nth j (channel_width w) 0 =
     if (nth j tf 0 <? Nfreqs u)%nat then nth (nth (nth j tf 0%nat) sf 0%nat) (channel_width u) 0
     else nth (nth (nth j tf 0 - Nfreqs u) nf 0)%nat (channel_width v) 0) /\
  consolidate pop (ad_catalog b) ign (centers a) = Ok s /\ ad_catalog r = pc_cat s /\ ad_Nphase r = pc_n s /\ length (pc_ids s) = Nblts u /\
  blt_shaped w /\ obj_ok (ad_freq r).
Proof.
  destruct (add_inv pop str_le t same_cat ign a b Ha Hb r Hadd) as (s & fp & _ & Hs & _ & Ec & En & Ls & HS). cbv zeta in HS.
  destruct (firsts a b Ha Hb FB FF FP) as (G1 & G2 & G3).
  destruct (sm_axes _ _ _ _ _ _ _ HS) as (lrb & lrf & lrp & tb & tf & tp & to_b & to_f & to_p & X1 & X2 & X3 & (L1 & E1) & (L2 & E2) & (L3 & E3) & HR & HW & HC).
  specialize (X1 G1). specialize (X2 G2). specialize (X3 G3). cbn [fo_uvd] in *.
  fold (ad_uvd r) in *. fold (ad_uvd b) in *. fold u in Ls, X1, X2, X3, HR, HW, HC, G1, G2, G3. fold v in X1, X2, X3, HR, HW, HC, G1, G2, G3.
  fold w in L1, L2, L3, E1, E2, E3, HR, HW, HC.
  destruct Ha as (S & O & _). destruct Hb as (S' & O' & _). fold u in S. fold v in S'.
  assert (Ub : forall i, (i < Nblts u)%nat -> row_label u i = nth i (blt_labels u) (0, 0)) by (intros; symmetry; apply blt_labels_nth, S).
  assert (Uf : forall i, (i < Nfreqs u)%nat -> chan_label u i = nth i (chan_labels u) (0, 0)) by (intros; symmetry; apply chan_labels_nth, O).
  assert (Up : forall i, (i < Npols u)%nat -> pol_label u i = nth i (polarization_array u) 0) by reflexivity.
  assert (Vb : forall i, (i < Nblts v)%nat -> row_label v i = nth i (blt_labels v) (0, 0)) by (intros; symmetry; apply blt_labels_nth, S').
  assert (Vf : forall i, (i < Nfreqs v)%nat -> chan_label v i = nth i (chan_labels v) (0, 0)) by (intros; symmetry; apply chan_labels_nth, O').
  assert (Vp : forall i, (i < Npols v)%nat -> pol_label v i = nth i (polarization_array v) 0) by reflexivity.
  pose proof (blt_labels_len u S) as LUb. pose proof (blt_labels_len v S') as LVb.
  assert (LUf : length (chan_labels u) = Nfreqs u) by apply chan_labels_len, O.
  assert (LVf : length (chan_labels v) = Nfreqs v) by apply chan_labels_len, O'.
  do 12 eexists. split; [split; [|split]|].
  - exact (axis_is_union _ _ _ _ _ _ _ _ _ _ _ _ _ _ X1 LUb Ub LVb Vb L1 E1).
  - exact (axis_is_union _ _ _ _ _ _ _ _ _ _ _ _ _ _ X2 LUf Uf LVf Vf L2 E2).
  - exact (axis_is_union _ _ _ _ _ _ _ _ _ _ _ _ _ _ X3 eq_refl Up eq_refl Vp L3 E3).
  - split; [exact (axis_b _ _ _ _ _ _ _ _ _ _ _ _ X1 LVb Vb L1 E1)|].
    split; [exact (axis_b _ _ _ _ _ _ _ _ _ _ _ _ X2 LVf Vf L2 E2)|].
    split; [exact (axis_b _ _ _ _ _ _ _ _ _ _ _ _ X3 eq_refl Vp L3 E3)|].
    split; [exact (axis_a _ _ _ _ _ _ _ _ _ _ _ _ _ _ X1 LUb Ub LVb Vb L1 E1)|].
    split; [exact (axis_a _ _ _ _ _ _ _ _ _ _ _ _ _ _ X2 LUf Uf LVf Vf L2 E2)|].
    split; [|split; [exact HC|split; [exact HR|split; [exact HW|]]]].
    + intros k Hk. pose proof (axis_a _ _ _ _ _ _ _ _ _ _ _ _ _ _ X3 eq_refl Up eq_refl Vp L3 E3 k Hk) as H.
      change (length (polarization_array (set_phase_center_id_array (pc_ids s) u))) with (Npols u) in H. destruct (nth k tp 0 <? Npols u)%nat; [exact H|apply H].
    + split; [exact Hs|]. split; [exact Ec|]. split; [exact En|]. split; [exact Ls|]. split; [apply HS|apply HS].
Qed.
End Summed.
