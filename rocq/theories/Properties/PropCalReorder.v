(** C78: the reorder methods of calibration solutions. *)
From Coq Require Import List ZArith Bool Arith Lia Permutation Sorted String.
From Verif Require Import Lib.Py Lib.Np Lib.Cube Spec.FreqSpec Spec.AddSpec Spec.CalSpec Model.UVData Model.Freq Model.Pol Model.UVCal
  Proofs.CalArrange Proofs.CalMove Proofs.CalReorder.
Import ListNotations.
Notation length := List.length.
Open Scope list_scope.
Open Scope Z_scope.
Notation reorder_freqs := UVCal.reorder_freqs.

(** Whatever is asked for, a reordering that succeeds changes no solution, flag,
    quality or metadata: what is recorded for given labels stays the same, and the
    other axes are not touched. *)
Theorem C78_reorder_antennas :
  forall antenna_numbers antenna_names order u r,
  cal_ok u -> reorder_antennas antenna_numbers antenna_names order u = Ok r ->
  same_content u r /\ cal_ok r /\ same_times u r /\ same_chans u r /\ same_jones u r /\
  order_obeyed (antenna_name antenna_numbers antenna_names) order (c_ants u) (c_ants r).
Proof.
  intros numbers names req u r Hu H. destruct (reorder_antennas_arranged _ _ _ _ _ Hu H) as (idx & A & B).
  split; [apply (arranged_content _ _ _ _ _ _ Hu A)|]. split; [apply (ar_ok _ _ _ _ _ _ A)|exact B].
Qed.
Print Assumptions C78_reorder_antennas.

Theorem C78_reorder_times :
  forall order u r,
  cal_ok u -> reorder_times order u = Ok r ->
  same_content u r /\ cal_ok r /\ same_ants u r /\ same_chans u r /\ same_jones u r /\
  order_obeyed (fun _ => Err ValueError) order (time_keys u) (time_keys r).
Proof.
  intros req u r Hu H. destruct (reorder_times_arranged _ _ _ Hu H) as (idx & A & B1 & B2 & B3 & _ & B4).
  split; [apply (arranged_content _ _ _ _ _ _ Hu A)|]. split; [apply (ar_ok _ _ _ _ _ _ A)|auto].
Qed.
Print Assumptions C78_reorder_times.

Theorem C78_reorder_jones :
  forall x_orientation order u r,
  cal_ok u -> reorder_jones x_orientation order u = Ok r ->
  same_content u r /\ cal_ok r /\ same_times u r /\ same_chans u r /\ same_ants u r /\
  order_obeyed (jnum2str x_orientation) order (c_jones u) (c_jones r).
Proof.
  intros xo req u r Hu H. destruct (reorder_jones_arranged _ _ _ _ Hu H) as (idx & A & B).
  split; [apply (arranged_content _ _ _ _ _ _ Hu A)|]. split; [apply (ar_ok _ _ _ _ _ _ A)|exact B].
Qed.
Print Assumptions C78_reorder_jones.

Theorem C78_reorder_freqs :
  forall spw_order channel_order select_spw u r,
  cal_ok u -> reorder_freqs spw_order channel_order select_spw u = Ok r ->
  same_content u r /\ cal_ok r /\ same_ants u r /\ same_times u r /\ same_jones u r.
Proof.
  intros so co ss u r Hu H. destruct (reorder_freqs_arranged _ _ _ _ _ Hu H) as (idx & A & B1 & B2 & B3 & _).
  split; [apply (arranged_content _ _ _ _ _ _ Hu A)|]. split; [apply (ar_ok _ _ _ _ _ _ A)|auto].
Qed.
Print Assumptions C78_reorder_freqs.

(** The windows of a wide_band object are put into the order asked for, by
    default that of their numbers. *)
Theorem C78_wide_windows_in_order :
  forall spw_order channel_order select_spw u r,
  cal_ok u -> reorder_freqs spw_order channel_order select_spw u = Ok r ->
  c_wide u = true -> length (c_spws u) <> 1%nat ->
  windows_obeyed (match spw_order with Some request => request | None => SpwNumber false end) u (c_spws r).
Proof.
  intros so co ss u r Hu H W L. destruct (reorder_freqs_arranged _ _ _ _ _ Hu H) as (idx & _ & _ & _ & _ & B & _).
  apply B; [unfold Nchans; rewrite W; exact L|exact W].
Qed.
Print Assumptions C78_wide_windows_in_order.

(** The channels of other objects are put into the order asked for, unless there
    is just one. *)
Theorem C78_channels_in_order :
  forall spw_order channel_order select_spw u r,
  cal_ok u -> reorder_freqs spw_order channel_order select_spw u = Ok r -> c_wide u = false ->
  length (c_freqs u) = 1%nat /\ r = u \/
  (exists sigma, channels_obeyed spw_order channel_order select_spw u r sigma) /\
  (r = u \/ length (c_spws u) = 1%nat \/ appearance_order (c_flex r) (c_spws r)).
Proof.
  intros so co ss u r Hu H W. destruct (reorder_freqs_arranged _ _ _ _ _ Hu H) as (idx & _ & _ & _ & _ & _ & B & _).
  destruct (B W) as [(_ & B1 & B2)|(B1 & B2)]; [left; auto|right]. split; [exists idx; exact B1|exact B2].
Qed.
Print Assumptions C78_channels_in_order.

(** No legal request is refused. *)
Theorem C78_legal_orders_accepted :
  forall u, cal_ok u ->
  (forall numbers names order, order <> ByOther ->
     (forall idx, order = ByIndex idx -> Permutation idx (map Z.of_nat (seq 0 (Nants u)))) ->
     (forall desc, order = ByName desc -> Forall (fun a => exists s, antenna_name numbers names a = Ok s) (c_ants u)) ->
     exists r, reorder_antennas numbers names order u = Ok r) /\
  (forall order, order <> ByOther -> (forall desc, order <> ByName desc) ->
     (forall idx, order = ByIndex idx -> Permutation idx (map Z.of_nat (seq 0 (UVCal.Ntimes u)))) ->
     c_time_array u = None \/ c_time_range u = None ->
     exists r, reorder_times order u = Ok r) /\
  (forall xo order, order <> ByOther ->
     (forall idx, order = ByIndex idx -> Permutation idx (map Z.of_nat (seq 0 (Njones u)))) ->
     (forall desc, order = ByName desc -> Forall (fun a => exists s, jnum2str xo a = Ok s) (c_jones u)) ->
     exists r, reorder_jones xo order u = Ok r) /\
  (forall so co ss, c_spws u <> [] -> so <> Some SpwOther -> co <> Some ChanOther ->
     (forall idx, so = Some (SpwIndex idx) -> Permutation idx (map Z.of_nat (seq 0 (length (c_spws u))))) ->
     (forall idx, co = Some (ChanIndex idx) -> Permutation idx (map Z.of_nat (seq 0 (length (c_freqs u))))) ->
     exists r, reorder_freqs so co ss u = Ok r).
Proof.
  intros u Hu. split; [|split; [|split]].
  - intros numbers names order H1 H2 H3. unfold reorder_antennas, Nants. destruct (axis_order_total (antenna_name numbers names) order (c_ants u) H1 H2 H3) as (idx & ->). cbn [bind]. eauto.
  - intros order H1 H2 H3 H4. unfold reorder_times. destruct (axis_order_total (fun _ => Err ValueError) order (time_keys u) H1 H3) as (idx & E).
    { intros desc E. destruct (H2 desc E). }
    destruct order as [ix|desc|desc|]; [|destruct H4 as [H4|H4]; rewrite H4|destruct (H2 desc eq_refl)|congruence].
    + cbn [axis_order] in *. unfold UVCal.Ntimes. rewrite E. cbn [bind]. eauto.
    + cbn [axis_order] in *. cbn [bind]. eauto.
    + cbn [axis_order] in *. destruct (c_time_array u); cbn [bind]; eauto.
  - intros xo order H1 H2 H3. unfold reorder_jones, Njones. destruct (axis_order_total (jnum2str xo) order (c_jones u) H1 H2 H3) as (idx & ->). cbn [bind]. eauto.
  - intros so co ss Hne Hso Hco Hsi Hci. apply reorder_freqs_total; assumption.
Qed.
Print Assumptions C78_legal_orders_accepted.

(** An index array that does not list every position once is refused. *)
Theorem C78_bad_index_refused :
  forall u idx numbers names xo,
  (~ Permutation idx (map Z.of_nat (seq 0 (Nants u))) -> reorder_antennas numbers names (ByIndex idx) u = Err ValueError) /\
  (~ Permutation idx (map Z.of_nat (seq 0 (UVCal.Ntimes u))) -> reorder_times (ByIndex idx) u = Err ValueError) /\
  (~ Permutation idx (map Z.of_nat (seq 0 (Njones u))) -> reorder_jones xo (ByIndex idx) u = Err ValueError) /\
  (c_wide u = true -> length (c_spws u) <> 1%nat -> ~ Permutation idx (map Z.of_nat (seq 0 (length (c_spws u)))) ->
   forall co ss, reorder_freqs (Some (SpwIndex idx)) co ss u = Err ValueError) /\
  (c_wide u = false -> length (c_freqs u) <> 1%nat -> ~ Permutation idx (map Z.of_nat (seq 0 (length (c_freqs u)))) ->
   forall so ss, reorder_freqs so (Some (ChanIndex idx)) ss u = Err ValueError).
Proof.
  intros u idx numbers names xo. split; [|split; [|split; [|split]]].
  - intros H. unfold reorder_antennas. cbn [axis_order]. rewrite index_refused by exact H. reflexivity.
  - intros H. unfold reorder_times. cbn [axis_order]. rewrite index_refused by exact H. destruct (c_time_array u), (c_time_range u); reflexivity.
  - intros H. unfold reorder_jones. cbn [axis_order]. rewrite index_refused by exact H. reflexivity.
  - intros W L H co ss. unfold reorder_freqs. apply Nat.eqb_neq in L. rewrite W, L. cbn [andb]. cbn [window_order]. rewrite index_refused by exact H. reflexivity.
  - intros W L H so ss. unfold reorder_freqs. apply Nat.eqb_neq in L. rewrite W, L. cbn [orb]. rewrite andb_false_r.
    unfold sort_freq_helper. rewrite index_refused by exact H. destruct so; reflexivity.
Qed.
Print Assumptions C78_bad_index_refused.

(** A case: two windows of two channels, three antennas *)
Definition cal_sample : ucal :=
  {| c_gain := true; c_wide := false; c_compat := 7; c_ants := [4; 0; 2]; c_spws := [5; 2]; c_freq_range := [];
     c_freqs := [30; 40; 12; 10]; c_widths := [1; 2; 3; 4]; c_flex := [5; 5; 2; 2]; c_flex_jones := Some [-5; -6];
     c_time_array := Some [9; 3]; c_time_range := None; c_lst_array := Some [90; 30]; c_lst_range := None;
     c_ref_ant := Some [4; 2]; c_int_time := [8; 8]; c_jones := [-5; -6];
     c_sol := fun a f t j => (Z.of_nat (a + 10 * f), Z.of_nat (t + 10 * j)); c_flags := fun a f t j => Nat.eqb a 1;
     c_qual := Some (fun a f t j => Z.of_nat (a + f)); c_tqual := Some (fun f t j => Z.of_nat (f + t)) |}.

Lemma cal_sample_ok : cal_ok cal_sample.
Proof.
  apply cal_ok_lists. split.
  - split; [split; [reflexivity|]; split; [|split; [|split]]; intros l E; try discriminate; injection E as <-; reflexivity|].
    split; [split; [reflexivity|split; [reflexivity|]]; intros w; simpl; tauto|].
    split; [repeat constructor; simpl; lia|]. intros l E. injection E as <-. reflexivity.
  - cbn. repeat split; repeat constructor; simpl; intuition (try lia; try congruence).
Qed.

Example C78_case :
  cal_ok cal_sample /\
  (exists r, reorder_antennas [0; 2; 4] ["b"; "a"; "c"]%string (ByName false) cal_sample = Ok r /\ c_ants r = [2; 0; 4] /\
     c_sol r 0%nat 1%nat 0%nat 0%nat = (12, 0)) /\
  (exists r, reorder_freqs (Some (SpwNumber false)) (Some (ChanFreq true)) None cal_sample = Ok r /\
     c_freqs r = [12; 10; 40; 30] /\ c_flex r = [2; 2; 5; 5] /\ c_spws r = [2; 5] /\ c_flex_jones r = Some [-6; -5]) /\
  (exists r, reorder_times (ByNumber false) cal_sample = Ok r /\ c_time_array r = Some [3; 9] /\ c_ref_ant r = Some [2; 4]) /\
  (exists r, reorder_jones None (ByIndex [1; 0]) cal_sample = Ok r /\ c_jones r = [-6; -5]) /\
  reorder_jones None (ByIndex [1; 1]) cal_sample = Err ValueError.
Proof.
  split; [exact cal_sample_ok|]. split; [eexists; split; [vm_compute; reflexivity|split; reflexivity]|].
  split; [eexists; split; [vm_compute; reflexivity|repeat split]|]. split; [eexists; split; [vm_compute; reflexivity|split; reflexivity]|].
  split; [eexists; split; [vm_compute; reflexivity|reflexivity]|reflexivity].
Qed.
