(** C84: adding flags and metrics along an axis. *)
From Coq Require Import List ZArith Bool Arith QArith Lia Sorted String.
From Verif Require Import Lib.Py Lib.Np Lib.Cube Lib.Sorting Model.Pol Model.Select Model.UVCal Model.FlagSelect Model.FlagAdd
  Spec.SelectSpec Spec.FlagSelectSpec Spec.FlagAddSpec Proofs.SelectRows Proofs.SelectProofs Proofs.FlagSelectProofs Proofs.FlagAddProofs
  Properties.PropFlagSelect.
Import ListNotations.
Notation length := List.length.
Open Scope list_scope.
Open Scope Z_scope.

(** The sum is the first object followed by the second along the axis. *)
Theorem C84_joined :
  forall tols ax a b r, flag_ok a -> flag_ok b -> flag_add tols ax a b = Ok r -> flag_joined ax a b r.
Proof.
  intros tols ax a b r OKa OKb H. apply add_open in H as (A & B & _ & L & ->); [|exact OKa | exact OKb].
  apply (added_joined tols); assumption.
Qed.
Print Assumptions C84_joined.

(** It succeeds exactly if the objects are of the same type and mode and agree on the other axes, the
    axis is one of the type's, no frequency (and no time, unless the type is baseline) would be there
    twice, and the second object has the arrays of the first. *)
Theorem C84_when :
  forall tols ax a b, flag_ok a -> flag_ok b ->
  ((exists r, flag_add tols ax a b = Ok r) <->
   addable tols ax a b /\ axis_of_type ax a /\ no_overlap ax a b /\ (length (g_vals a) <= length (g_vals b))%nat).
Proof.
  intros tols ax a b OKa OKb. split.
  - intros (r & H). apply add_open in H as (A & B & C & L & _); auto.
  - intros (A & B & C & L). eexists. apply add_open; auto 10.
Qed.
Print Assumptions C84_when.

(** The sum is self-consistent, if no antenna is in both objects added along the antennas. *)
Theorem C84_valid :
  forall tols ax a b r, flag_ok a -> flag_ok b -> flag_add tols ax a b = Ok r -> (ax = AxAntenna -> apart (g_ants a) (g_ants b)) -> flag_ok r.
Proof.
  intros tols ax a b r OKa OKb H AP. apply add_open in H as (A & B & C & L & ->); [|exact OKa | exact OKb].
  apply (added_ok tols); assumption.
Qed.
Print Assumptions C84_valid.

Lemma positions_unique n (P : nat -> Prop) l l' : positions_of n P l -> positions_of n P l' -> l = l'.
Proof.
  intros (S1 & M1) (S2 & M2). apply (sorted_unique lt); [lia | lia | exact S1 | exact S2|]. intros x. rewrite M1, M2. reflexivity.
Qed.
Lemma seq_strictly k n : StronglySorted lt (seq k n).
Proof.
  revert k. induction n as [|n IH]; intros k; cbn [seq]; constructor; [apply IH|]. apply Forall_forall. intros x I. apply in_seq in I. lia.
Qed.
Lemma first_part l l' : apart l l' ->
  positions_of (length (l ++ l')) (fun i => In (nth i (l ++ l') 0) l) (seq 0 (length l)).
Proof.
  intros A. split; [apply seq_strictly|]. intros i. rewrite in_seq, app_length. split.
  - intros (_ & L). split; [lia|]. rewrite app_nth1 by lia. apply nth_In. lia.
  - intros (L & I). split; [lia|]. destruct (Nat.lt_ge_cases i (length l)) as [X | X]; [lia|]. rewrite app_nth2 in I by lia.
    exfalso. apply (A _ I). apply nth_In. lia.
Qed.
Lemma second_part l l' : apart l l' ->
  positions_of (length (l ++ l')) (fun i => In (nth i (l ++ l') 0) l') (seq (length l) (length l')).
Proof.
  intros A. split; [apply seq_strictly|]. intros i. rewrite in_seq, app_length. split.
  - intros (L1 & L2). split; [lia|]. rewrite app_nth2 by lia. apply nth_In. lia.
  - intros (L & I). destruct (Nat.lt_ge_cases i (length l)) as [X | X]; [|lia]. rewrite app_nth1 in I by lia.
    exfalso. apply (A (nth i l 0)); [apply nth_In; lia | exact I].
Qed.
Lemma picked_first (l l' r : list Z) n : picked 0 (seq 0 n) (l ++ l') r -> length l = n -> r = l.
Proof.
  intros -> <-. apply (nth_ext _ _ 0 0); [rewrite map_length, seq_length; reflexivity|]. rewrite map_length, seq_length. intros i L.
  rewrite (nth_map _ _ _ 0%nat 0) by (rewrite seq_length; exact L). rewrite seq_nth by exact L. apply app_nth1. exact L.
Qed.
Lemma picked_second (l l' r : list Z) n n' : picked 0 (seq n n') (l ++ l') r -> length l = n -> length l' = n' -> r = l'.
Proof.
  intros -> <- <-. apply (nth_ext _ _ 0 0); [rewrite map_length, seq_length; reflexivity|]. rewrite map_length, seq_length. intros i L.
  rewrite (nth_map _ _ _ 0%nat 0) by (rewrite seq_length; exact L). rewrite seq_nth by exact L. rewrite app_nth2 by lia. f_equal. lia.
Qed.
Lemma picked_whole (l r : list Z) n : picked 0 (seq 0 n) l r -> length l = n -> r = l.
Proof. intros P L. apply (picked_first l [] r n); [rewrite app_nil_r; exact P | exact L]. Qed.

Lemma kept_windows (u r : uflag) sa sf st sp : flag_ok u -> flag_picked sa sf st sp u r -> sf <> [] -> (forall f, In f sf -> (f < nchans u)%nat) ->
  same_members (g_spws r) (g_flex r).
Proof.
  intros OK K NE B x. destruct (fp_windows _ _ _ _ _ _ K NE) as (rw & (_ & W) & E). rewrite E, in_map_iff. split.
  - intros (k & <- & I). apply W, I.
  - intros I. assert (J : In x (g_spws u)).
    { apply (fo_windows u OK). destruct (fp_chans _ _ _ _ _ _ K) as (_ & _ & K8). rewrite K8 in I. apply in_map_iff in I as (f & <- & I). apply nth_In.
      apply B in I. rewrite (proj2 (fo_chans u OK)). exact I. }
    apply (In_nth _ _ 0) in J as (k & L & <-). exists k. split; [reflexivity|]. apply W. auto.
Qed.

(** Selecting the frequencies of one object out of the sum gives back what it recorded. *)
Theorem C84_freqs_back :
  forall tols a b r xo, flag_ok a -> flag_ok b -> flag_add tols AxFrequency a b = Ok r ->
  exists ra rb, flag_select xo (just_freqs (g_freq a)) r = Ok ra /\ flag_select xo (just_freqs (g_freq b)) r = Ok rb /\
    same_record a ra (values a) /\
    same_record (relabel_freq a b) rb (fun i f t p => firstn (length (g_vals a)) (values b i f t p)).
Proof.
  intros tols a b r xo OKa OKb H. pose proof (C84_joined _ _ _ _ _ OKa OKb H) as J.
  assert (OK : flag_ok r) by (apply (C84_valid _ _ _ _ _ OKa OKb H); discriminate).
  destruct (proj1 (C84_when tols AxFrequency a b OKa OKb) (ex_intro _ r H)) as ((TE & _ & _ & EP & ET & EA & EB) & _ & (NO & _) & _).
  specialize (NO eq_refl). destruct NO as (NA & NB & AP). clear H.
  destruct J as [J1 (J2 & J3) J4 J5 (J6 & J7 & J8) J9 J10 J11].
  apply proj1 in J6, J7, J8; specialize (J6 eq_refl); specialize (J7 eq_refl); specialize (J8 eq_refl).
  apply proj2 in J2, J3, J9. specialize (J2 ltac:(discriminate) ltac:(discriminate)). specialize (J3 ltac:(discriminate) ltac:(discriminate)). specialize (J9 ltac:(discriminate)).
  assert (S : forall l, (forall x, In x l -> In x (g_freq r)) -> exists r', flag_select xo (just_freqs l) r = Ok r').
  { intros l I. apply C83_when; [exact OK|]. unfold flag_all_there, flag_goes, some_row, restricts_otherwise, flag_pol_named, pairs_have_pols, just_freqs.
    cbn [fc_antenna_nums fc_ant_inds fc_bls fc_frequencies fc_freq_chans fc_times fc_polarizations fc_blt_inds].
    split; [|split].
    - split; [intros l' x E; injection E as <-; apply I|].
      repeat (split; [intros; discriminate|]). intros q [(l' & t & s & E & _) | (_ & l' & E & _)]; discriminate E.
    - repeat split; intros; congruence.
    - split; [intros [E | [E | (_ & [E | E])]]; congruence | intros; discriminate]. }
  assert (W : forall l f, flag_chan_wanted (just_freqs l) r f <-> In (nth f (g_freq r) 0) l).
  { intros l f. unfold flag_chan_wanted, just_freqs. cbn [fc_frequencies fc_freq_chans]. split.
    - intros [(E & _) | [(l' & E & I) | (l' & c & f' & E & _)]]; try discriminate E. injection E as <-. exact I.
    - intros I. right; left. exists l. auto. }
  assert (RW : forall l t, flag_row_wanted (just_freqs l) r t).
  { intros l t. unfold flag_row_wanted, just_freqs. cbn [fc_blt_inds fc_times fc_antenna_nums fc_bls]. repeat split; intros; discriminate. }
  assert (PW : forall l k, flag_pol_wanted xo (just_freqs l) r k).
  { intros l k [(l' & x & y & s & E & _) | E]; [discriminate E | cbn [just_freqs fc_polarizations] in E; congruence]. }
  assert (AW : forall l sa, antennas_chosen (just_freqs l) r sa -> sa = seq 0 (nants r)).
  { intros l sa. unfold antennas_chosen, nants, just_freqs. cbn [fc_antenna_nums fc_ant_inds]. destruct (g_type r); [auto | auto |]. intros (_ & E). exact E. }
  assert (NR : nrows r = nrows a) by (unfold nrows; congruence).
  assert (NP : npols r = npols a) by (unfold npols; congruence).
  assert (NN : nants r = nants a).
  { unfold nants. rewrite J1. destruct (g_type a) eqn:T; try reflexivity. destruct (J5 T) as (_ & E). rewrite E; [reflexivity | discriminate]. }
  (* the parts other than the channels *)
  assert (REST : forall l sf r', flag_select xo (just_freqs l) r = Ok r' -> positions_of (nchans r) (fun f => In (nth f (g_freq r) 0) l) sf ->
    g_type r' = g_type a /\ g_time r' = g_time a /\ g_lst r' = g_lst a /\ (is_baseline a -> same_pairs a r') /\ (is_antenna a -> g_ants r' = g_ants a) /\
    g_pols r' = g_pols a /\
    picked 0 sf (g_freq a ++ g_freq b) (g_freq r') /\ picked 0 sf (g_widths a ++ g_widths b) (g_widths r') /\ picked 0 sf (g_flex a ++ g_flex b) (g_flex r') /\
    (sf <> [] -> same_members (g_spws r') (g_flex r')) /\
    (forall i f t p, (i < nants a)%nat -> (f < length sf)%nat -> (t < nrows a)%nat -> (p < npols a)%nat -> values r' i f t p = values r i (nth f sf O) t p)).
  { intros l sf r' H P. destruct (C83_kept xo (just_freqs l) r r' OK H) as (sa & sf' & st & sp & A & F & T & Q & K).
    assert (sf' = sf) as -> by (apply (positions_unique (nchans r) (fun f => In (nth f (g_freq r) 0) l)); [apply (positions_ext _ _ _ _ F); intros f _; apply W | exact P]).
    assert (st = seq 0 (nrows r)) as -> by (apply (positions_unique (nrows r) (flag_row_wanted (just_freqs l) r)); [exact T | apply positions_all; intros; apply RW]).
    assert (sp = seq 0 (npols r)) as -> by (apply (positions_unique (npols r) (flag_pol_wanted xo (just_freqs l) r)); [exact Q | apply positions_all; intros; apply PW]).
    apply AW in A as ->. pose proof K as K'. destruct K as [K1 K2 (K3 & K4) K5 (K6 & K7 & K8) K9 K10 K11].
    split; [congruence|]. split; [rewrite (picked_whole _ _ _ K3 eq_refl); exact J2|]. split; [rewrite (picked_whole _ _ _ K4 (fo_rows r OK)); exact J3|].
    split.
    { intros B. assert (B' : is_baseline r) by (unfold is_baseline in *; congruence). destruct (fo_baseline r OK B') as (L1 & L2 & L3 & _).
      destruct (K5 B') as (P1 & P2 & P3). destruct (J4 B) as (Q1 & Q2 & Q3). apply proj2 in Q1, Q2, Q3.
      unfold same_pairs. rewrite (picked_whole _ _ _ P1 L1), (picked_whole _ _ _ P2 L2), (picked_whole _ _ _ P3 L3), Q1, Q2, Q3 by discriminate. auto. }
    split.
    { intros B. assert (B' : is_antenna r) by (unfold is_antenna in *; congruence). specialize (K2 B'). unfold nants in K2. unfold is_antenna in B'. rewrite B' in K2.
      rewrite (picked_whole _ _ _ K2 eq_refl). apply (J5 B). discriminate. }
    split; [rewrite (picked_whole _ _ _ K9 eq_refl); exact J9|].
    rewrite J6 in K6. rewrite J7 in K7. rewrite J8 in K8. split; [exact K6|]. split; [exact K7|]. split; [exact K8|].
    split; [intros NE; apply (kept_windows r r' (seq 0 (nants r)) sf (seq 0 (nrows r)) (seq 0 (npols r)) OK K' NE); intros f I; apply P, I|].
    intros i f t p Li Lf Lt Lp. rewrite K11; rewrite ?seq_length, ?NN, ?NR, ?NP; try assumption. rewrite !seq_nth by assumption. reflexivity. }
  destruct (S (g_freq a)) as (ra & Ra); [intros x I; rewrite J6; apply in_app_iff; auto|].
  destruct (S (g_freq b)) as (rb & Rb); [intros x I; rewrite J6; apply in_app_iff; auto|].
  assert (Pa : positions_of (nchans r) (fun f => In (nth f (g_freq r) 0) (g_freq a)) (seq 0 (nchans a))) by (unfold nchans; rewrite J6; apply first_part, AP).
  assert (Pb : positions_of (nchans r) (fun f => In (nth f (g_freq r) 0) (g_freq b)) (seq (nchans a) (nchans b))) by (unfold nchans; rewrite J6; apply second_part, AP).
  exists ra, rb. split; [exact Ra|]. split; [exact Rb|]. clear S W RW PW AW.
  destruct (fo_chans a OKa) as (A1 & A2). destruct (fo_chans b OKb) as (B1 & B2). split.
  - destruct (REST _ _ _ Ra Pa) as (X1 & X2 & X3 & X4 & X5 & X6 & X7 & X8 & X9 & X10 & X11). constructor; auto.
    + apply picked_first in X7; [|reflexivity]. apply picked_first in X8; [|exact A1]. apply picked_first in X9; [|exact A2].
      split; [exact X7|]. split; [exact X8|]. split; [exact X9|]. intros NE x. rewrite (X10 ltac:(unfold nchans; destruct (g_freq a); [congruence | discriminate]) x), X9.
      symmetry. apply (fo_windows a OKa).
    + intros i f t p Li Lf Lt Lp. rewrite X11; try assumption; [|rewrite seq_length; exact Lf]. rewrite seq_nth by exact Lf. apply J10; assumption.
  - destruct (REST _ _ _ Rb Pb) as (X1 & X2 & X3 & X4 & X5 & X6 & X7 & X8 & X9 & X10 & X11). constructor; auto.
    + cbn [relabel_freq g_freq g_widths g_flex g_spws]. apply picked_second in X7; [|reflexivity | reflexivity]. apply picked_second in X8; [|exact A1 | exact B1]. apply picked_second in X9; [|exact A2 | exact B2].
      split; [exact X7|]. split; [exact X8|]. split; [exact X9|]. intros NE x. rewrite (X10 ltac:(unfold nchans; destruct (g_freq b); [congruence | discriminate]) x), X9.
      symmetry. apply (fo_windows b OKb).
    + intros i f t p Li Lf Lt Lp. change (nants (relabel_freq a b)) with (nants a) in Li. change (nchans (relabel_freq a b)) with (nchans b) in Lf.
      change (nrows (relabel_freq a b)) with (nrows a) in Lt. change (npols (relabel_freq a b)) with (npols a) in Lp.
      rewrite X11; try assumption; [|rewrite seq_length; exact Lf]. rewrite seq_nth by exact Lf. apply (J11 i f t p); [|exact Lf | |].
      * unfold nants. rewrite <- TE. unfold nants in Li. destruct (g_type a) eqn:T; try assumption. rewrite <- EA; [exact Li | discriminate | exact T].
      * destruct (ET ltac:(discriminate)) as (E & _). apply within_length in E. unfold nrows in *. lia.
      * unfold npols in *. rewrite <- EP; [exact Lp | discriminate].
Qed.
Print Assumptions C84_freqs_back.

(** ** Cases *)
Definition no_slack : flag_tols := mkFlagTols 0 0 0 0.
Definition more_flags : uflag := base_flags [1; 1; 2; 1; 1; 2] [2; 3; 3; 2; 3; 3] [10; 10; 10; 20; 20; 20] [500; 600] [2; 3] [3; 2].
Definition later_metric : uflag := ant_flags [4; 2; 7] [30] [100; 200; 300; 400] [0; 0; 2; 2] [2; 0].

Lemma more_flags_ok : flag_ok more_flags.
Proof. unfold more_flags. fok. Qed.
Lemma later_metric_ok : flag_ok later_metric.
Proof. unfold later_metric. fok. Qed.

Example C84_case :
  flag_ok some_flags /\ flag_ok more_flags /\
  match flag_add no_slack AxFrequency some_flags more_flags with
  | Ok r => g_freq r = [100; 200; 300; 400; 500; 600] /\ g_flex r = [0; 0; 2; 2; 2; 3] /\ g_spws r = [0; 2; 3] /\
            values r 0 3 5 1 = [351; 5351] /\ values r 0 5 4 0 = [140; 5140]
  | Err _ => False
  end.
Proof. split; [exact some_flags_ok|]. split; [exact more_flags_ok|]. vm_compute. repeat split; reflexivity. Qed.

Example C84_times_case :
  flag_ok ant_metric /\ flag_ok later_metric /\
  match flag_add no_slack AxTime ant_metric later_metric with
  | Ok r => g_time r = [10; 20; 30] /\ g_Ntimes r = 3%nat /\ values r 2 3 1 1 = [2311] /\ values r 2 3 2 1 = [2301]
  | Err _ => False
  end /\
  addable no_slack AxTime ant_metric later_metric /\ no_overlap AxTime ant_metric later_metric.
Proof.
  split; [exact ant_metric_ok|]. split; [exact later_metric_ok|].
  assert (H : match flag_add no_slack AxTime ant_metric later_metric with
  | Ok r => g_time r = [10; 20; 30] /\ g_Ntimes r = 3%nat /\ values r 2 3 1 1 = [2311] /\ values r 2 3 2 1 = [2301]
  | Err _ => False
  end) by (vm_compute; repeat split; reflexivity).
  split; [exact H|]. destruct (flag_add no_slack AxTime ant_metric later_metric) as [r|] eqn:E; [|contradiction].
  destruct (proj1 (C84_when _ _ _ _ ant_metric_ok later_metric_ok) (ex_intro _ r E)) as (A & _ & N & _). auto.
Qed.

(** ** Findings *)

(** An object of type baseline can be added to itself: every baseline-time is then there twice. *)
Theorem C84_twice_refuted :
  exists a r, flag_ok a /\ is_baseline a /\ flag_add no_slack AxTime a a = Ok r /\
    g_time r = g_time a ++ g_time a /\ g_bl r = g_bl a ++ g_bl a /\ g_Ntimes r = g_Ntimes a.
Proof.
  assert (H : match flag_add no_slack AxTime some_flags some_flags with
              | Ok r => g_time r = g_time some_flags ++ g_time some_flags /\ g_bl r = g_bl some_flags ++ g_bl some_flags /\ g_Ntimes r = g_Ntimes some_flags
              | Err _ => False end) by (vm_compute; repeat split; reflexivity).
  destruct (flag_add no_slack AxTime some_flags some_flags) as [r|] eqn:E; [|contradiction].
  exists some_flags, r. split; [exact some_flags_ok|]. split; [reflexivity|]. split; [exact E | exact H].
Qed.
Print Assumptions C84_twice_refuted.

(** So can an object of type antenna along the antennas, and the sum is not self-consistent. *)
Theorem C84_antennas_refuted :
  exists a r, flag_ok a /\ is_antenna a /\ flag_add no_slack AxAntenna a a = Ok r /\ ~ NoDup (g_ants r).
Proof.
  assert (H : match flag_add no_slack AxAntenna ant_metric ant_metric with Ok r => g_ants r = [4; 2; 7; 4; 2; 7] | Err _ => False end) by (vm_compute; reflexivity).
  destruct (flag_add no_slack AxAntenna ant_metric ant_metric) as [r|] eqn:E; [|contradiction].
  exists ant_metric, r. split; [exact ant_metric_ok|]. split; [reflexivity|]. split; [exact E|]. rewrite H. intros N. inversion_clear N as [|? ? X _]. apply X. cbn. auto.
Qed.
Print Assumptions C84_antennas_refuted.

(** Objects of type baseline, with the same baselines at every time, cannot be added along
    time if they do not have the same number of times. *)
Theorem C84_times_refuted :
  exists a b, flag_ok a /\ flag_ok b /\ is_baseline a /\ is_baseline b /\ same_freqs no_slack a b /\ g_pols a = g_pols b /\
    same_members (g_bl a) (g_bl b) /\ apart (g_time a) (g_time b) /\ length (g_vals a) = length (g_vals b) /\
    flag_add no_slack AxTime a b = Err ValueError.
Proof.
  exists some_flags, (base_flags [1; 1; 2] [2; 3; 3] [30; 30; 30] [100; 200; 300; 400] [0; 0; 2; 2] [2; 0]).
  split; [exact some_flags_ok|]. split; [fok|]. split; [reflexivity|]. split; [reflexivity|].
  split; [unfold same_freqs; rewrite <- !all_near_within; repeat split; reflexivity|]. split; [reflexivity|].
  split; [intros x; cbn; tauto|]. split; [intros x I J; cbn in I, J; lia|]. split; [reflexivity | vm_compute; reflexivity].
Qed.
Print Assumptions C84_times_refuted.

(** Nor along the baselines if they do not have the same number of baselines. *)
Theorem C84_baselines_refuted :
  exists a b, flag_ok a /\ flag_ok b /\ is_baseline a /\ is_baseline b /\ same_freqs no_slack a b /\ g_pols a = g_pols b /\
    same_members (g_time a) (g_time b) /\ apart (g_bl a) (g_bl b) /\ length (g_vals a) = length (g_vals b) /\
    flag_add no_slack AxBaseline a b = Err ValueError.
Proof.
  exists some_flags, (base_flags [3; 3] [4; 4] [10; 20] [100; 200; 300; 400] [0; 0; 2; 2] [2; 0]).
  split; [exact some_flags_ok|]. split; [fok|]. split; [reflexivity|]. split; [reflexivity|].
  split; [unfold same_freqs; rewrite <- !all_near_within; repeat split; reflexivity|]. split; [reflexivity|].
  split; [intros x; cbn; tauto|]. split; [intros x I J; cbn in I, J; lia|]. split; [reflexivity | vm_compute; reflexivity].
Qed.
Print Assumptions C84_baselines_refuted.

(** Two windows that share a frequency cannot be added along frequency. *)
Theorem C84_windows_refuted :
  exists a b, flag_ok a /\ flag_ok b /\ addable no_slack AxFrequency a b /\ apart (g_spws a) (g_spws b) /\
    length (g_vals a) = length (g_vals b) /\ flag_add no_slack AxFrequency a b = Err ValueError.
Proof.
  exists (base_flags [1; 1] [2; 3] [10; 10] [100; 200] [0; 0] [0]), (base_flags [1; 1] [2; 3] [10; 10] [200; 300] [1; 1] [1]).
  split; [fok|]. split; [fok|]. split; [apply addable_spec; vm_compute; auto|]. split; [intros x I J; cbn in I, J; lia|]. split; [reflexivity | vm_compute; reflexivity].
Qed.
Print Assumptions C84_windows_refuted.
