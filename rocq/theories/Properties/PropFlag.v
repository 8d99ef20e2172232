(** Flag objects: waterfalls (C55), conversions (C56) and application (C51). *)
From Coq Require Import List ZArith Bool Arith Sorted Lia Qcanon QArith.
From Verif Require Import Lib.Py Lib.Np Lib.Cube Lib.QSum Model.UVData Model.Access Model.UVFlag
  Spec.BlsSpec Spec.AccessSpec Spec.FlagSpec Proofs.Samples Proofs.AccessRead Proofs.FlagProofs Proofs.FlagConvert
  Proofs.FlagApply Proofs.FlagCases.
Import ListNotations.
Open Scope Z_scope.
Open Scope list_scope.
Notation length := List.length.

(** * C55: rows and columns of waterfalls *)

(** A cell is set exactly when its whole column (all times) or its whole row (all
    channels) is set in the input. *)
Theorem C55_rows_and_columns : forall nt nf w i j, (i < nt)%nat -> (j < nf)%nat ->
  and_rows_cols nt nf w i j = true <->
  (forall i', (i' < nt)%nat -> w i' j = true) \/ (forall j', (j' < nf)%nat -> w i j' = true).
Proof. exact and_rows_cols_spec. Qed.
Print Assumptions C55_rows_and_columns.

Theorem C55_no_new_flags : forall nt nf w i j, (i < nt)%nat -> (j < nf)%nat ->
  and_rows_cols nt nf w i j = true -> w i j = true.
Proof. exact and_rows_cols_subset. Qed.
Print Assumptions C55_no_new_flags.

Theorem C55_idempotent : forall nt nf w i j, (i < nt)%nat -> (j < nf)%nat ->
  and_rows_cols nt nf (and_rows_cols nt nf w) i j = and_rows_cols nt nf w i j.
Proof. exact and_rows_cols_idem. Qed.
Print Assumptions C55_idempotent.

(** Row 1 and column 2 are complete, one more cell is not part of either. *)
Example C55_case :
  let w := fun i j : nat => (i =? 1)%nat || (j =? 2)%nat || ((i =? 0) && (j =? 0))%nat in
  map (fun i => map (fun j => and_rows_cols 3 4 w i j) (seq 0 4)) (seq 0 3) =
  [[false; false; true; false]; [true; true; true; true]; [false; false; true; false]].
Proof. reflexivity. Qed.

(** A cell of the waterfall of a UVData object is the fraction of flagged samples
    among those of its time and channel (and polarization if kept). *)
Theorem C55_fraction : forall u flags kp w, Ntimes u = length (uniqueZ (time_array u)) ->
  flags2waterfall u flags kp = Ok w ->
  forall i j p, (i < Ntimes u)%nat ->
  let s := cell_samples u (nth i (uniqueZ (time_array u)) 0) kp p in
  w i j p = (qnat (length (filter (fun x => flags (fst x) j (snd x)) s)) / qnat (length s))%Qc.
Proof. exact flags2waterfall_fraction. Qed.
Print Assumptions C55_fraction.

Theorem C55_extremes : forall u flags kp w, Ntimes u = length (uniqueZ (time_array u)) ->
  flags2waterfall u flags kp = Ok w ->
  forall i j p, (i < Ntimes u)%nat -> (p < Npols u)%nat ->
  let s := cell_samples u (nth i (uniqueZ (time_array u)) 0) kp p in
  (w i j p = 1%Qc <-> forall r q, In (r, q) s -> flags r j q = true) /\
  (w i j p = 0%Qc <-> forall r q, In (r, q) s -> flags r j q = false).
Proof. exact flags2waterfall_extremes. Qed.
Print Assumptions C55_extremes.

Theorem C55_total : forall u flags kp, Ntimes u = length (uniqueZ (time_array u)) -> exists w, flags2waterfall u flags kp = Ok w.
Proof. exact flags2waterfall_total. Qed.
Print Assumptions C55_total.

(** The same for the antennas (and Jones elements) of a UVCal object. *)
Theorem C55_cal_fraction : forall na nj flags (kp : bool) (t j p : nat),
  let s := list_prod (seq 0 na) (if kp then [p] else seq 0 nj) in
  flags2waterfall_cal na nj flags kp t j p =
  (qnat (length (filter (fun x => flags (fst x) j t (snd x)) s)) / qnat (length s))%Qc.
Proof. exact cal_fraction. Qed.
Print Assumptions C55_cal_fraction.

Example C55_fraction_case :
  Ntimes dark = length (uniqueZ (time_array dark)) /\ exists w,
  flags2waterfall dark (fun i _ p : nat => (i =? 0)%nat && (p =? 1)%nat) false = Ok w /\
  Qeq_bool (this (w 0 0 0)%nat) (1 # 4) = true /\ Qeq_bool (this (w 1 0 0)%nat) 0 = true.
Proof. split; [reflexivity|]. eexists. split; [reflexivity|]. split; reflexivity. Qed.

(** * C56: conversions *)

(** A waterfall whose times are in increasing order gives every row the flags of
    its time, for every polarization asked for, and no flags at other times. *)
Theorem C56_waterfall_to_baseline : forall ttol ftol force chk w u f, clear_times ttol (w_time w) ->
  to_baseline ttol ftol force chk (Waterfall w) u = Ok f ->
  rows_like f u /\ f_freq f = w_freq w /\
  forall i j p, (i < length (time_array u))%nat ->
    (forall k, same_time ttol (w_time w) (nth i (time_array u) 0) k -> f_flags f i j p = w_flags w k j (pol_of force (w_pol w) p)) /\
    ((forall k, ~ same_time ttol (w_time w) (nth i (time_array u) 0) k) -> f_flags f i j p = false).
Proof.
  exact (fun ttol ftol force chk w u f Hc H =>
    match to_baseline_waterfall ttol ftol force chk w u f Hc H with
    | conj A (conj B (conj _ (conj _ (conj _ (conj _ C))))) => conj A (conj B C)
    end).
Qed.
Print Assumptions C56_waterfall_to_baseline.

Theorem C56_waterfall_to_baseline_total : forall ttol ftol force chk w u,
  length (w_freq w) = length (freq_array u) -> (forall j, (j < length (w_freq w))%nat -> Z.abs (nth j (w_freq w) 0 - nth j (freq_array u) 0) <= ftol) ->
  pols_fit force (w_pol w) (polarization_array u) ->
  (chk = true -> length (w_time w) = length (uniqueZ (time_array u))) ->
  exists f, to_baseline ttol ftol force chk (Waterfall w) u = Ok f.
Proof. exact to_baseline_waterfall_total. Qed.
Print Assumptions C56_waterfall_to_baseline_total.

(** Collapsing back, with "or" as with "and", gives the waterfall. *)
Theorem C56_round_trip_baseline : forall ttol ftol force w u f m, clear_times ttol (w_time w) ->
  to_baseline ttol ftol force true (Waterfall w) u = Ok f ->
  (forall k, (k < length (w_time w))%nat -> Z.abs (nth k (uniqueZ (time_array u)) 0 - nth k (w_time w) 0) <= ttol) ->
  let w' := waterfall_of_baseline m true f in
  w_time w' = uniqueZ (time_array u) /\ length (w_time w') = length (w_time w) /\ w_freq w' = w_freq w /\ w_pol w' = Pols (polarization_array u) /\
  forall k j p, (k < length (w_time w))%nat -> w_flags w' k j p = w_flags w k j (pol_of force (w_pol w) p).
Proof. exact round_trip_baseline. Qed.
Print Assumptions C56_round_trip_baseline.

(** Collapsing any baseline type object: some row of the time, or every row. *)
Theorem C56_to_waterfall_or : forall f i j p, (i < length (uniqueZ (f_time f)))%nat ->
  w_flags (waterfall_of_baseline MOr true f) i j p = true <->
  exists r, In r (at_time (f_time f) (nth i (uniqueZ (f_time f)) 0)) /\ f_flags f r j p = true.
Proof. exact waterfall_or. Qed.
Print Assumptions C56_to_waterfall_or.

Theorem C56_to_waterfall_and : forall f i j p, (i < length (uniqueZ (f_time f)))%nat ->
  w_flags (waterfall_of_baseline MAnd true f) i j p = true <->
  forall r, In r (at_time (f_time f) (nth i (uniqueZ (f_time f)) 0)) -> f_flags f r j p = true.
Proof. exact waterfall_and. Qed.
Print Assumptions C56_to_waterfall_and.

Theorem C56_to_waterfall_or_pols : forall f pols i j p, (i < length (uniqueZ (f_time f)))%nat -> f_pol f = Pols pols -> (1 < length pols)%nat ->
  w_flags (waterfall_of_baseline MOr false f) i j p = true <->
  exists r q, In r (at_time (f_time f) (nth i (uniqueZ (f_time f)) 0)) /\ (q < length pols)%nat /\ f_flags f r j q = true.
Proof. exact waterfall_or_pols. Qed.
Print Assumptions C56_to_waterfall_or_pols.

Theorem C56_to_waterfall_and_pols : forall f pols i j p, (i < length (uniqueZ (f_time f)))%nat -> f_pol f = Pols pols -> (1 < length pols)%nat ->
  w_flags (waterfall_of_baseline MAnd false f) i j p = true <->
  forall r q, In r (at_time (f_time f) (nth i (uniqueZ (f_time f)) 0)) -> (q < length pols)%nat -> f_flags f r j q = true.
Proof. exact waterfall_and_pols. Qed.
Print Assumptions C56_to_waterfall_and_pols.

(** To antenna type: every antenna gets the waterfall, which comes back unchanged. *)
Theorem C56_waterfall_to_antenna : forall ftol force w ants freq pols a, to_antenna ftol force w ants freq pols = Ok a ->
  a_time a = w_time w /\ a_freq a = w_freq w /\ a_pol a = Pols pols /\ a_ants a = ants /\
  forall n j t p, a_flags a n j t p = w_flags w t j (pol_of force (w_pol w) p).
Proof. exact to_antenna_spec. Qed.
Print Assumptions C56_waterfall_to_antenna.

Theorem C56_waterfall_to_antenna_total : forall ftol force w ants freq pols,
  length (w_freq w) = length freq -> (forall j, (j < length (w_freq w))%nat -> Z.abs (nth j (w_freq w) 0 - nth j freq 0) <= ftol) ->
  pols_fit force (w_pol w) pols -> exists a, to_antenna ftol force w ants freq pols = Ok a.
Proof. exact to_antenna_total. Qed.
Print Assumptions C56_waterfall_to_antenna_total.

Theorem C56_round_trip_antenna : forall ftol force w ants freq pols a m, to_antenna ftol force w ants freq pols = Ok a -> ants <> [] ->
  let w' := waterfall_of_antenna m true a in
  w_time w' = w_time w /\ w_freq w' = w_freq w /\ w_pol w' = Pols pols /\
  forall k j p, w_flags w' k j p = w_flags w k j (pol_of force (w_pol w) p).
Proof. exact round_trip_antenna. Qed.
Print Assumptions C56_round_trip_antenna.

(** From antenna type: a row is flagged when one of its antennas is, or is unknown
    to the flag object; so is every row at a time the flag object lacks. *)
Theorem C56_antenna_to_baseline : forall ttol ftol force chk a u f, consistent u -> NoDup (a_ants a) ->
  to_baseline ttol ftol force chk (Antenna a) u = Ok f ->
  rows_like f u /\ f_freq f = a_freq a /\
  forall i j p, (i < length (time_array u))%nat ->
    (forall k, same_time ttol (a_time a) (nth i (time_array u) 0) k ->
       (f_flags f i j p = true <-> ant_flagged a (nth i (ant_1_array u) 0) j k (pol_of force (a_pol a) p) \/
                                   ant_flagged a (nth i (ant_2_array u) 0) j k (pol_of force (a_pol a) p))) /\
    ((forall k, ~ same_time ttol (a_time a) (nth i (time_array u) 0) k) -> f_flags f i j p = true).
Proof.
  exact (fun ttol ftol force chk a u f Hc ND H =>
    match to_baseline_antenna ttol ftol force chk a u f Hc ND H with conj A (conj B (conj _ (conj _ C))) => conj A (conj B C) end).
Qed.
Print Assumptions C56_antenna_to_baseline.

Theorem C56_antenna_to_baseline_total : forall ttol ftol force chk a u, consistent u -> NoDup (a_ants a) -> clear_times ttol (a_time a) ->
  length (a_freq a) = length (freq_array u) -> (forall j, (j < length (a_freq a))%nat -> Z.abs (nth j (a_freq a) 0 - nth j (freq_array u) 0) <= ftol) ->
  pols_fit force (a_pol a) (polarization_array u) ->
  (chk = true -> length (a_time a) = length (uniqueZ (time_array u))) ->
  exists f, to_baseline ttol ftol force chk (Antenna a) u = Ok f.
Proof. exact to_baseline_antenna_total. Qed.
Print Assumptions C56_antenna_to_baseline_total.

Example C56_case : clear_times 0 (w_time stripe) /\ consistent dark /\
  (exists f, to_baseline 0 0 false true (Waterfall stripe) dark = Ok f /\
     flag_list 4 3 1 (f_flags f) = [[[false]; [true]; [false]]; [[false]; [true]; [false]]; [[false]; [false]; [false]]; [[false]; [false]; [false]]]) /\
  (exists a, to_antenna 0 false stripe [0; 2] [100; 200; 300] [-5; -6] = Ok a /\
   exists f, to_baseline 0 0 false true (Antenna a) dark = Ok f /\
     flag_list 4 3 1 (f_flags f) = [[[true]; [true]; [true]]; [[false]; [true]; [false]]; [[true]; [true]; [true]]; [[false]; [false]; [false]]]).
Proof.
  split; [exact stripe_clear|]. split; [exact dark_consistent|]. split.
  - eexists. split; [reflexivity|]. vm_compute. reflexivity.
  - eexists. split; [reflexivity|]. eexists. split; [reflexivity|]. vm_compute. reflexivity.
Qed.

(** Finding: a waterfall whose times are not in increasing order (as after adding
    two objects along time) puts the flags at the wrong times. *)
Theorem C56_unsorted_times_refuted :
  exists w u f i k, NoDup (w_time w) /\ to_baseline 0 0 false true (Waterfall w) u = Ok f /\
    (i < length (time_array u))%nat /\ same_time 0 (w_time w) (nth i (time_array u) 0) k /\ f_flags f i 0%nat 0%nat <> w_flags w k 0%nat 0%nat.
Proof.
  exists (mkw [2; 1] [100; 200; 300] (Pols [-5; -6]) (fun i _ _ : nat => (i =? 0)%nat)), dark. eexists. exists 0%nat, 1%nat.
  split; [repeat constructor; simpl; intuition discriminate|]. split; [reflexivity|]. split; [cbn; lia|].
  split; [split; cbn; lia|]. vm_compute. discriminate.
Qed.
Print Assumptions C56_unsorted_times_refuted.

(** * C51: applying flags *)

(** Whatever the type of the flag object, only the flags change, and without
    unflag_first no flag is lost. *)
Theorem C51_only_flags : forall ttol ftol un miss force u g u', apply_uvflag ttol ftol un miss force u g = Ok u' ->
  u' = set_flag_array (flag_array u') u.
Proof. exact apply_frame. Qed.
Print Assumptions C51_only_flags.

Theorem C51_never_unflags : forall ttol ftol miss force u g u', apply_uvflag ttol ftol false miss force u g = Ok u' ->
  forall i j p, flag_array u i j p = true -> flag_array u' i j p = true.
Proof. exact apply_mono. Qed.
Print Assumptions C51_never_unflags.

(** Baseline type: the rows of a pair the flag object lacks are all flagged or left
    alone as asked; every other row is flagged exactly when it was (unless
    unflag_first) or the row of the flag object with the same rank in the pair (or
    the only one) is. *)
Theorem C51_baseline : forall ttol ftol un miss force u f u', consistent u -> flag_consistent f ->
  apply_uvflag ttol ftol un miss force u (Baseline f) = Ok u' ->
  forall i j p, (i < length (time_array u))%nat ->
  let rows := flag_rows f (nth i (ant_1_array u) 0) (nth i (ant_2_array u) 0) in
  (rows = [] -> flag_array u' i j p = (negb un && flag_array u i j p) || miss) /\
  (rows <> [] -> exists k, flag_source u f i k) /\
  (forall k, flag_source u f i k ->
     flag_array u' i j p = (negb un && flag_array u i j p) || f_flags f k (shared (length (f_freq f)) j) (shared (f_np f) p)).
Proof. exact apply_baseline. Qed.
Print Assumptions C51_baseline.

(** So if the pair has the same times in the same order in both objects, the flags
    applied are those of the same pair and time. *)
Theorem C51_baseline_by_time : forall ttol ftol un miss force u f u', consistent u -> flag_consistent f ->
  apply_uvflag ttol ftol un miss force u (Baseline f) = Ok u' ->
  forall i k j p, (i < length (time_array u))%nat -> (k < length (f_time f))%nat ->
    let a := nth i (ant_1_array u) 0 in let b := nth i (ant_2_array u) 0 in
    nth k (f_ant1 f) 0 = a -> nth k (f_ant2 f) 0 = b -> nth k (f_time f) 0 = nth i (time_array u) 0 ->
    map (fun r => nth r (time_array u) 0) (pair_rows u a b) = map (fun r => nth r (f_time f) 0) (flag_rows f a b) ->
    NoDup (map (fun r => nth r (f_time f) 0) (flag_rows f a b)) ->
    flag_array u' i j p = (negb un && flag_array u i j p) || f_flags f k (shared (length (f_freq f)) j) (shared (f_np f) p).
Proof. exact apply_same_times. Qed.
Print Assumptions C51_baseline_by_time.

Theorem C51_baseline_total : forall ttol ftol un miss force u f l, consistent u -> flag_consistent f -> 0 <= ttol -> 0 <= ftol ->
  f_pol f = Pols l -> (forall x, In x l <-> In x (polarization_array u)) -> length l = length (polarization_array u) -> NoDup l -> f_np f = length l ->
  (f_Ntimes f = 1%nat \/ (f_Ntimes f = Ntimes u /\ uniqueZ (f_time f) = uniqueZ (time_array u))) ->
  (length (f_freq f) = 1%nat \/ f_freq f = freq_array u) ->
  (forall a b, pair_rows u a b <> [] -> flag_rows f a b <> [] -> length (flag_rows f a b) = length (pair_rows u a b) \/ length (flag_rows f a b) = 1%nat) ->
  exists u', apply_uvflag ttol ftol un miss force u (Baseline f) = Ok u'.
Proof. exact apply_baseline_total. Qed.
Print Assumptions C51_baseline_total.

(** Waterfall: the flags of the time of the row. *)
Theorem C51_waterfall : forall ttol ftol un miss force u w u', consistent u -> clear_times ttol (w_time w) ->
  apply_uvflag ttol ftol un miss force u (Waterfall w) = Ok u' ->
  forall i j p, (i < length (time_array u))%nat -> (j < length (freq_array u))%nat -> (p < length (polarization_array u))%nat ->
  (forall k, same_time ttol (w_time w) (nth i (time_array u) 0) k ->
     flag_array u' i j p = (negb un && flag_array u i j p) || w_flags w k j (pol_of force (w_pol w) p)) /\
  ((forall k, ~ same_time ttol (w_time w) (nth i (time_array u) 0) k) -> flag_array u' i j p = (negb un && flag_array u i j p)).
Proof. exact apply_waterfall. Qed.
Print Assumptions C51_waterfall.

Theorem C51_waterfall_total : forall ttol ftol un miss force u w, consistent u -> 0 <= ttol -> 0 <= ftol -> clear_times ttol (w_time w) ->
  Ntimes u = length (uniqueZ (time_array u)) -> length (w_time w) = Ntimes u ->
  StronglySorted Z.lt (freq_array u) -> StronglySorted Z.lt (w_freq w) -> length (w_freq w) = length (freq_array u) ->
  (forall j, (j < length (w_freq w))%nat -> Z.abs (nth j (w_freq w) 0 - nth j (freq_array u) 0) <= ftol) ->
  pols_fit force (w_pol w) (polarization_array u) ->
  exists u', apply_uvflag ttol ftol un miss force u (Waterfall w) = Ok u'.
Proof. exact apply_waterfall_total. Qed.
Print Assumptions C51_waterfall_total.

(** Antenna type: flagged when either antenna is flagged or unknown, or the time is. *)
Theorem C51_antenna : forall ttol ftol un miss force u a u', consistent u -> NoDup (a_ants a) ->
  apply_uvflag ttol ftol un miss force u (Antenna a) = Ok u' ->
  forall i j p, (i < length (time_array u))%nat -> (j < length (freq_array u))%nat -> (p < length (polarization_array u))%nat ->
  (forall k, same_time ttol (a_time a) (nth i (time_array u) 0) k ->
     (flag_array u' i j p = true <-> (un = false /\ flag_array u i j p = true) \/
        ant_flagged a (nth i (ant_1_array u) 0) j k (pol_of force (a_pol a) p) \/
        ant_flagged a (nth i (ant_2_array u) 0) j k (pol_of force (a_pol a) p))) /\
  ((forall k, ~ same_time ttol (a_time a) (nth i (time_array u) 0) k) -> flag_array u' i j p = true).
Proof. exact apply_antenna. Qed.
Print Assumptions C51_antenna.

(** Flags for one of the two pairs, one time flagged; the other pair is missing. *)
Example C51_case :
  let f := flags_on [(1, 2, 0); (2, 2, 0)] [-5; -6] 2 (fun i j _ : nat => (i =? 1)%nat && (j =? 2)%nat) in
  consistent dark /\ flag_consistent f /\
  applied (apply_uvflag 0 0 false true false dark (Baseline f)) =
    Some [[[true; true]; [true; true]; [true; true]]; [[false; false]; [false; false]; [false; false]];
          [[true; true]; [true; true]; [true; true]]; [[false; false]; [false; false]; [true; true]]] /\
  applied (apply_uvflag 0 0 false false false dark (Waterfall stripe)) =
    Some [[[false; false]; [true; true]; [false; false]]; [[false; false]; [true; true]; [false; false]];
          [[false; false]; [false; false]; [false; false]]; [[false; false]; [false; false]; [false; false]]].
Proof.
  split; [exact dark_consistent|]. split; [apply flags_on_consistent; [discriminate|repeat constructor; simpl; lia]|].
  split; vm_compute; reflexivity.
Qed.

(** Finding: a flag object with the polarizations in another order flags the wrong
    polarization; only the list of polarizations is reordered, not the flags. *)
Theorem C51_polarization_order_refuted :
  exists u f u', consistent u /\ flag_consistent f /\ f_pol f = Pols [-6; -5] /\ polarization_array u = [-5; -6] /\
    apply_uvflag 0 0 false true true u (Baseline f) = Ok u' /\
    (forall i j p, flag_array u i j p = false) /\ (forall i j, f_flags f i j 0%nat = true /\ f_flags f i j 1%nat = false) /\
    flag_array u' 0%nat 0%nat 0%nat = true /\ flag_array u' 0%nat 0%nat 1%nat = false.
Proof.
  exists dark, (flags_on [(1, 0, 1); (1, 2, 0); (2, 0, 1); (2, 2, 0)] [-6; -5] 2 (fun _ _ p : nat => (p =? 0)%nat)). eexists.
  split; [exact dark_consistent|]. split; [apply flags_on_consistent; [discriminate|repeat constructor; simpl; lia]|].
  split; [reflexivity|]. split; [reflexivity|]. split; [reflexivity|]. split; [reflexivity|]. split; [split; reflexivity|].
  split; vm_compute; reflexivity.
Qed.
Print Assumptions C51_polarization_order_refuted.

(** Finding: rows of a pair are matched by rank, so a flag object with its times
    in another order flags the wrong time. *)
Theorem C51_time_order_refuted :
  exists u f u' i k, consistent u /\ flag_consistent f /\
    apply_uvflag 0 0 false true true u (Baseline f) = Ok u' /\
    (forall i j p, flag_array u i j p = false) /\
    nth k (f_time f) 0 = nth i (time_array u) 0 /\ nth k (f_ant1 f) 0 = nth i (ant_1_array u) 0 /\ nth k (f_ant2 f) 0 = nth i (ant_2_array u) 0 /\
    f_flags f k 0%nat 0%nat = true /\ flag_array u' i 0%nat 0%nat = false.
Proof.
  exists (clean [(1, 0, 1); (2, 0, 1)] [-5] 1 2), (flags_on [(2, 0, 1); (1, 0, 1)] [-5] 2 (fun i _ _ : nat => (i =? 0)%nat)). eexists. exists 1%nat, 0%nat.
  split; [apply clean_consistent; [discriminate|discriminate|repeat constructor; simpl; lia]|].
  split; [apply flags_on_consistent; [discriminate|repeat constructor; simpl; lia]|].
  split; [reflexivity|]. split; [reflexivity|]. split; [reflexivity|]. split; [reflexivity|]. split; [reflexivity|]. split; vm_compute; reflexivity.
Qed.
Print Assumptions C51_time_order_refuted.

(** Finding: the check of times is one-sided, so flags for earlier times are
    applied to the visibilities. *)
Theorem C51_earlier_times_refuted :
  exists u f u', consistent u /\ flag_consistent f /\
    (forall t, In t (f_time f) -> ~ In t (time_array u)) /\ f_Ntimes f = 2%nat /\
    apply_uvflag 1 0 false false true u (Baseline f) = Ok u' /\ flag_array u 0%nat 0%nat 0%nat = false /\ flag_array u' 0%nat 0%nat 0%nat = true.
Proof.
  exists (clean [(1000, 0, 1); (2000, 0, 1)] [-5] 1 2), (flags_on [(10, 0, 1); (20, 0, 1)] [-5] 2 (fun _ _ _ : nat => true)). eexists.
  split; [apply clean_consistent; [discriminate|discriminate|repeat constructor; simpl; lia]|].
  split; [apply flags_on_consistent; [discriminate|repeat constructor; simpl; lia]|].
  split; [intros t Ht; simpl in Ht |- *; lia|]. split; [reflexivity|]. split; [reflexivity|]. split; vm_compute; reflexivity.
Qed.
Print Assumptions C51_earlier_times_refuted.

(** Finding: a waterfall for entirely different times (of equal number) is accepted
    and no flag is applied. *)
Theorem C51_other_times_refuted :
  exists u w u', consistent u /\ clear_times 1 (w_time w) /\ (forall i j p, w_flags w i j p = true) /\
    (forall t, In t (w_time w) -> ~ In t (time_array u)) /\
    apply_uvflag 1 0 false true true u (Waterfall w) = Ok u' /\
    forall i j p, (i < 2)%nat -> (j < 3)%nat -> (p < 1)%nat -> flag_array u' i j p = false.
Proof.
  exists (clean [(1000, 0, 1); (2000, 0, 1)] [-5] 1 2), (mkw [10; 20] [100; 200; 300] (Pols [-5]) (fun _ _ _ : nat => true)). eexists.
  split; [apply clean_consistent; [discriminate|discriminate|repeat constructor; simpl; lia]|].
  split; [split; [repeat constructor|]; intros i j [H1 H2]; cbn in H2; destruct i as [|i]; destruct j as [|[|j]]; cbn; lia|].
  split; [reflexivity|]. split; [intros t Ht; simpl in Ht |- *; lia|]. split; [reflexivity|].
  intros i j p Hi Hj Hp. destruct i as [|[|i]]; [| |lia]; (destruct j as [|[|[|j]]]; [| | |lia]); (destruct p as [|p]; [|lia]); vm_compute; reflexivity.
Qed.
Print Assumptions C51_other_times_refuted.

(** Finding: a waterfall of one time is not broadcast over the times of the
    visibilities, as documented, but refused. *)
Theorem C51_single_time_refuted :
  exists u w, consistent u /\ length (w_time w) = 1%nat /\ clear_times 0 (w_time w) /\ w_freq w = freq_array u /\
    w_pol w = Pols (polarization_array u) /\ apply_uvflag 0 0 false true true u (Waterfall w) = Err ValueError.
Proof.
  exists dark, (mkw [1] [100; 200; 300] (Pols [-5; -6]) (fun _ _ _ : nat => true)).
  split; [exact dark_consistent|]. split; [reflexivity|].
  split; [split; [repeat constructor|]; intros i j [H1 H2]; cbn in H2; lia|]. repeat split; reflexivity.
Qed.
Print Assumptions C51_single_time_refuted.
