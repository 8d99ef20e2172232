(** Properties C17-C18: describing the baseline-time axis. *)
From Coq Require Import List ZArith Bool Sorted Lia.
From Verif Require Import Lib.Py Lib.Np Spec.BltSpec Model.BltAxis Proofs.BltProofs Proofs.ReorderProofs Proofs.BltComplete.
Import ListNotations.
Open Scope Z_scope.

(** C17: an axis declared rectangular is the product of a list of times and a
    list of baselines, in the declared layout.  The only thing trusted is a
    blt_order of (baseline, time) or (time, baseline) given by the caller. *)
Theorem C17_rectangular_is_product :
  forall times bls nbls ntimes order faster,
  length times = length bls -> distinct_count bls nbls -> distinct_count times ntimes ->
  declared_order_true times bls order ->
  determine_rectangularity times bls nbls ntimes order = Ok (true, faster) ->
  exists ts bs, length ts = ntimes /\ length bs = nbls /\ product_layout times bls ts bs faster.
Proof.
  exact (fun t b nb nt o f L Hb Ht =>
    eq_ind_r (fun n => declared_order_true t b o -> determine_rectangularity t b n nt o = Ok (true, f) -> exists ts bs, length ts = nt /\ length bs = n /\ product_layout t b ts bs f)
     (eq_ind_r (fun n => declared_order_true t b o -> determine_rectangularity t b (length (uniqueZ b)) n o = Ok (true, f) -> exists ts bs, length ts = n /\ length bs = length (uniqueZ b) /\ product_layout t b ts bs f)
       (rect_sound t b o f L) (proj1 (distinct_count_unique t nt) Ht)) (proj1 (distinct_count_unique b nb) Hb)).
Qed.
Print Assumptions C17_rectangular_is_product.

Example C17_case :
  determine_rectangularity [1; 2; 3; 1; 2; 3] [7; 7; 7; 9; 9; 9] 2 3 None = Ok (true, true) /\
  determine_rectangularity [3; 3; 1; 1] [7; 9; 7; 9] 2 2 (Some [KTime]) = Ok (true, false) /\
  determine_rectangularity [1; 2; 2; 1] [7; 7; 9; 9] 2 2 None = Ok (false, false).
Proof. repeat split. Qed.

(** Conversely every product axis is recognised, with its layout. *)
Theorem C17_products_are_recognised :
  forall times bls ts bs faster order,
  (2 <= length ts)%nat -> (2 <= length bs)%nat -> product_layout times bls ts bs faster ->
  order <> Some [KBaseline; KTime] -> order <> Some [KTime; KBaseline] ->
  determine_rectangularity times bls (length bs) (length ts) order = Ok (true, faster).
Proof. exact rect_complete_counts. Qed.
Print Assumptions C17_products_are_recognised.

Example C17_complete_case : product_layout [1; 2; 3; 1; 2; 3] [7; 7; 7; 9; 9; 9] [1; 2; 3] [7; 9] true.
Proof. repeat split; repeat (constructor; [simpl; lia|]); constructor. Qed.

Theorem C17_size_mismatch_is_not_rectangular :
  forall times bls nbls ntimes order,
  length times <> (nbls * ntimes)%nat -> determine_rectangularity times bls nbls ntimes order = Ok (false, false).
Proof. exact rect_size. Qed.
Print Assumptions C17_size_mismatch_is_not_rectangular.

(** A wrong declared order is believed. *)
Theorem C17_wrong_declared_order_refuted :
  exists times bls nbls ntimes order,
  length times = length bls /\ distinct_count bls nbls /\ distinct_count times ntimes /\
  determine_rectangularity times bls nbls ntimes order = Ok (true, true) /\
  ~ exists ts bs faster, length ts = ntimes /\ length bs = nbls /\ product_layout times bls ts bs faster.
Proof. exact rect_declared_refuted. Qed.
Print Assumptions C17_wrong_declared_order_refuted.

(** C18: a reported order is true. *)
Theorem C18_reported_order_is_true :
  forall rows nbls ntimes keys,
  distinct_count (map r_bl rows) nbls -> distinct_count (map r_time rows) ntimes ->
  determine_blt_order rows nbls ntimes = Ok (Some keys) -> sorted_by keys rows.
Proof. exact order_sorted_counts. Qed.
Print Assumptions C18_reported_order_is_true.

Definition row t a b := {| r_time := t; r_ant1 := a; r_ant2 := b; r_bl := 2048 * a + b + 65536 |}.
Example C18_case :
  determine_blt_order [row 1 0 1; row 1 1 2; row 2 0 1; row 2 1 2] 2 2 = Ok (Some [KTime; KBaseline]) /\
  determine_blt_order [row 1 0 2; row 2 0 2; row 1 1 1; row 2 1 1] 2 2 = Ok (Some [KBaseline; KTime]) /\
  determine_blt_order [row 2 0 2; row 1 0 2; row 1 1 1; row 3 0 1] 3 3 = Ok None.
Proof. repeat split. Qed.

(** Conversely the two orders a rectangular axis is normally in are recognised.
    Time-major: the distinct times and baseline numbers increase, the baseline
    number determines the antennas, and neither antenna array is constant. *)
Theorem C18_time_major_is_recognised :
  forall rows ts bs,
  product_layout (map r_time rows) (map r_bl rows) ts bs false ->
  StronglySorted Z.lt ts -> StronglySorted Z.lt bs -> (2 <= length ts)%nat -> (2 <= length bs)%nat ->
  (forall r s, In r rows -> In s rows -> r_bl r = r_bl s -> r_ant1 r = r_ant1 s /\ r_ant2 r = r_ant2 s) ->
  (exists r s, In r rows /\ In s rows /\ r_ant1 r <> r_ant1 s) ->
  (exists r s, In r rows /\ In s rows /\ r_ant2 r <> r_ant2 s) ->
  determine_blt_order rows (length bs) (length ts) = Ok (Some [KTime; KBaseline]).
Proof. exact time_major_recognised. Qed.
Print Assumptions C18_time_major_is_recognised.

Example C18_time_major_case :
  let rows := [row 1 0 1; row 1 0 2; row 1 1 2; row 4 0 1; row 4 0 2; row 4 1 2] in
  product_layout (map r_time rows) (map r_bl rows) [1; 4] [65537; 65538; 67586] false /\
  StronglySorted Z.lt [1; 4] /\ StronglySorted Z.lt [65537; 65538; 67586].
Proof. repeat split; repeat (constructor; try (simpl; lia)). Qed.

(** Baseline-major: some later row has a smaller antenna 1 or antenna 2 (when
    there is none the function fails its own assertion, see below). *)
Theorem C18_baseline_major_is_recognised :
  forall rows ts bs,
  product_layout (map r_time rows) (map r_bl rows) ts bs true ->
  StronglySorted Z.lt ts -> StronglySorted Z.lt bs -> (2 <= length ts)%nat -> (2 <= length bs)%nat ->
  (exists before r between s after, rows = before ++ r :: between ++ s :: after /\
     (r_ant1 s < r_ant1 r \/ r_ant2 s < r_ant2 r)) ->
  determine_blt_order rows (length bs) (length ts) = Ok (Some [KBaseline; KTime]).
Proof. exact baseline_major_split. Qed.
Print Assumptions C18_baseline_major_is_recognised.

Example C18_baseline_major_case :
  let rows := [row 1 0 2; row 4 0 2; row 1 1 1; row 4 1 1] in
  product_layout (map r_time rows) (map r_bl rows) [1; 4] [65538; 67585] true /\
  exists before r between s after, rows = before ++ r :: between ++ s :: after /\ r_ant2 s < r_ant2 r.
Proof.
  split; [repeat split; repeat (constructor; try (simpl; lia))|].
  exists [row 1 0 2], (row 4 0 2), [], (row 1 1 1), [row 4 1 1]. split; [reflexivity|simpl; lia].
Qed.

(** On well-formed data (a plain baseline-time ordered rectangular axis) the
    function can fail its own assertion. *)
Theorem C18_valid_axis_rejected_refuted :
  exists rows nbls ntimes ts bs,
  distinct_count (map r_bl rows) nbls /\ distinct_count (map r_time rows) ntimes /\
  product_layout (map r_time rows) (map r_bl rows) ts bs true /\
  (forall r, In r rows -> r_bl r = 2048 * r_ant1 r + r_ant2 r + 65536) /\
  sorted_by [KBaseline; KTime] rows /\
  determine_blt_order rows nbls ntimes = Err AssertionError.
Proof. exact order_assertion_refuted. Qed.
Print Assumptions C18_valid_axis_rejected_refuted.
