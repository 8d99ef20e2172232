(** C38: selecting by time and LST. *)
From Coq Require Import List ZArith Bool QArith Lia.
From Verif Require Import Lib.Py Lib.Np Model.Tools Model.Times Spec.TimesSpec Proofs.TimesProofs.
Import ListNotations.
Notation length := List.length.
Open Scope Z_scope.

(** On an object with a time array the indices found are exactly those of the
    times asked for. *)
Theorem C38_times_exact : forall two_pi rq times lsts time_tols lst_tols inds,
  length lsts = length times ->
  select_times_helper two_pi rq (TimeArray times) (TimeArray lsts) time_tols lst_tols = Ok (Some inds) ->
  forall i, In i inds <-> (i < length times)%nat /\ wanted_time two_pi rq time_tols lst_tols (nth i times 0) (nth i lsts 0).
Proof. exact times_exact. Qed.
Print Assumptions C38_times_exact.

(** There is an answer exactly if there is one criterion, each listed value is
    there, and something is in the range; no criterion means no restriction. *)
Theorem C38_times_found : forall two_pi rq times lsts time_tols lst_tols,
  (exists inds, select_times_helper two_pi rq (TimeArray times) (TimeArray lsts) time_tols lst_tols = Ok (Some inds)) <->
  one_time_criterion rq /\ request_met two_pi rq time_tols lst_tols times lsts.
Proof. exact times_total. Qed.
Print Assumptions C38_times_found.

Theorem C38_no_criterion : forall two_pi rq times lsts time_tols lst_tols,
  select_times_helper two_pi rq times lsts time_tols lst_tols = Ok None <-> no_time_criterion rq.
Proof. exact times_none. Qed.
Print Assumptions C38_no_criterion.

Example C38_times_case :
  let sel rq := select_times_helper 628 rq (TimeArray [10; 20; 20; 31]) (TimeArray [600; 620; 5; 30]) (0, 1)%Q (0, 1)%Q in
  sel (mkTimeRequest (Some [21; 30]) None None None) = Ok (Some [1; 2; 3]%nat) /\
  sel (mkTimeRequest (Some [21; 35]) None None None) = Err ValueError /\
  sel (mkTimeRequest None (Some [20; 31]) None None) = Ok (Some [1; 2; 3]%nat) /\
  sel (mkTimeRequest None None (Some [4]) None) = Ok (Some [2]%nat) /\
  sel (mkTimeRequest None None None (Some [610; 5])) = Ok (Some [1; 2]%nat) /\
  sel (mkTimeRequest None None None (Some [7; 29])) = Err ValueError /\
  sel (mkTimeRequest None (Some [20; 31]) None (Some [7; 29])) = Err ValueError.
Proof. vm_compute. repeat split. Qed.

(** On an object with time ranges, if none goes through 2 pi, the indices found
    are exactly those of the ranges that hold a listed value or overlap the
    requested range. *)
Theorem C38_ranges_exact : forall two_pi rq times lsts time_tols lst_tols inds,
  length lsts = length times ->
  (forall r, In r times -> fst r < snd r) -> (forall t0 t1, rq_time_range rq = Some [t0; t1] -> t0 < t1) -> nothing_wraps rq lsts ->
  select_times_helper two_pi rq (TimeRanges times) (TimeRanges lsts) time_tols lst_tols = Ok (Some inds) ->
  forall i, In i inds <-> (i < length times)%nat /\ wanted_range rq (nth i times (0, 0)) (nth i lsts (0, 0)).
Proof. exact ranges_exact. Qed.
Print Assumptions C38_ranges_exact.

Example C38_ranges_case :
  let sel rq := select_times_helper 628 rq (TimeRanges [(10, 20); (20, 30); (40, 50)]) (TimeRanges [(1, 2); (2, 3); (4, 5)]) (0, 1)%Q (0, 1)%Q in
  sel (mkTimeRequest (Some [20; 45]) None None None) = Ok (Some [0; 1; 2]%nat) /\
  sel (mkTimeRequest None (Some [5; 20]) None None) = Ok (Some [0]%nat) /\
  sel (mkTimeRequest None None (Some [3]) None) = Ok (Some [1]%nat) /\
  sel (mkTimeRequest None None None (Some [1; 3])) = Ok (Some [0; 1]%nat) /\
  nothing_wraps (mkTimeRequest None None None (Some [1; 3])) [(1, 2); (2, 3); (4, 5)].
Proof.
  repeat split; try (vm_compute; reflexivity).
  - intros r I. simpl in I. destruct I as [<- | [<- | [<- | []]]]; simpl; lia.
  - intros l0 l1 E. injection E as <- <-. lia.
Qed.

(** With ranges through 2 pi it goes wrong: a range that overlaps the requested
    one is left out, *)
Theorem C38_wrapped_range_missed_refuted : exists two_pi lsts l0 l1 inds i x,
  select_times_helper two_pi (mkTimeRequest None None None (Some [l0; l1])) (TimeRanges lsts) (TimeRanges lsts) (0, 0)%Q (0, 0)%Q = Ok (Some inds) /\
  (i < length lsts)%nat /\ 0 <= x < two_pi /\ in_circle_range two_pi x (nth i lsts (0, 0)) /\ in_lst_range two_pi l0 l1 x /\ ~ In i inds.
Proof.
  exists 628, [(500, 550); (600, 100)], 500, 620, [0%nat], 1%nat, 610.
  split; [vm_compute; reflexivity|]. split; [vm_compute; lia|]. split; [lia|].
  split; [left; simpl; lia|]. split; [unfold in_lst_range; simpl; lia|]. simpl. lia.
Qed.
Print Assumptions C38_wrapped_range_missed_refuted.

(** one that does not overlap it is taken, *)
Theorem C38_wrapped_range_taken_refuted : exists two_pi lsts l0 l1 inds i,
  select_times_helper two_pi (mkTimeRequest None None None (Some [l0; l1])) (TimeRanges lsts) (TimeRanges lsts) (0, 0)%Q (0, 0)%Q = Ok (Some inds) /\
  In i inds /\ (i < length lsts)%nat /\
  forall x, in_circle_range two_pi x (nth i lsts (0, 0)) -> ~ in_lst_range two_pi l0 l1 x.
Proof.
  exists 628, [(200, 300)], 500, 100, [0%nat], 0%nat.
  split; [vm_compute; reflexivity|]. split; [left; reflexivity|]. split; [vm_compute; lia|].
  intros x. unfold in_circle_range, in_lst_range. simpl. lia.
Qed.
Print Assumptions C38_wrapped_range_taken_refuted.

(** and of several ranges holding a listed LST, not all are taken. *)
Theorem C38_wrapped_lst_missed_refuted : exists two_pi lsts v inds i,
  select_times_helper two_pi (mkTimeRequest None None (Some [v]) None) (TimeRanges lsts) (TimeRanges lsts) (0, 0)%Q (0, 0)%Q = Ok (Some inds) /\
  (i < length lsts)%nat /\ 0 <= v < two_pi /\ in_circle_range two_pi v (nth i lsts (0, 0)) /\ ~ In i inds.
Proof.
  exists 628, [(600, 100); (610, 120)], 50, [1%nat], 0%nat.
  split; [vm_compute; reflexivity|]. split; [vm_compute; lia|]. split; [lia|].
  split; [right; simpl; lia|]. simpl. lia.
Qed.
Print Assumptions C38_wrapped_lst_missed_refuted.
