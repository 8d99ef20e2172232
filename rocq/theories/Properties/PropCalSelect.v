(** C80: selecting calibration solutions, and those of one antenna. *)
From Coq Require Import List ZArith Bool Arith QArith Lia Sorted String.
From Verif Require Import Lib.Py Lib.Np Lib.Cube Spec.AddSpec Spec.TimesSpec Spec.SelectSpec Spec.CalSpec Spec.CalSelectSpec
  Model.Pol Model.Times Model.Select Model.UVCal Model.CalSelect
  Proofs.SelectProofs Proofs.CalArrange Proofs.CalMove Proofs.CalSelectProofs Proofs.CalSelectTop Proofs.CalGet Properties.PropCalAdd.
Import ListNotations.
Notation length := List.length.
Open Scope list_scope.
Open Scope Z_scope.
Notation Ntimes := UVCal.Ntimes.

(** What is kept is exactly what is asked for, with everything recorded about it,
    in the old order; the result is valid. *)
Theorem C80_kept :
  forall two_pi tols lst_tols tel cr u r,
  cal_ok u -> tel_ok tel -> times_plain (cc_time cr) u -> no_negative cr -> cal_select two_pi tols lst_tols tel cr u = Ok r ->
  cal_ok r /\
  exists sa sf st sj,
    positions_of (Nants u) (ant_wanted tel cr u) sa /\ positions_of (Nchans u) (cal_chan_wanted tel cr u) sf /\
    positions_of (Ntimes u) (cal_time_wanted two_pi tols lst_tols cr u) st /\ positions_of (Njones u) (jones_wanted tel cr u) sj /\
    cal_picked sa sf st sj u r.
Proof.
  intros two_pi tols lst_tols tel cr u r OK T PL NN E. pose proof (select_picks _ _ _ _ _ _ OK T r E PL NN) as X. split; [|exact X].
  destruct X as (sa & sf & st & sj & (A1 & A2) & (F1 & F2) & (T1 & T2) & (J1 & J2) & P).
  apply (picked_ok sa sf st sj u r OK P); split; try assumption; intros i I; [apply A2 | apply F2 | apply T2 | apply J2]; exact I.
Qed.
Print Assumptions C80_kept.

(** The solutions of the result are those of the object for the labels kept. *)
Theorem C80_solutions :
  forall two_pi tols lst_tols tel cr u r x y z p c,
  cal_ok u -> tel_ok tel -> times_plain (cc_time cr) u -> no_negative cr -> cal_select two_pi tols lst_tols tel cr u = Ok r ->
  (solution r x y z p c <-> solution u x y z p c /\ has_solution r x y z p).
Proof.
  intros two_pi tols lst_tols tel cr u r x y z p c OK T PL NN E.
  destruct (select_picks _ _ _ _ _ _ OK T r E PL NN) as (sa & sf & st & sj & (A1 & A2) & (F1 & F2) & (T1 & T2) & (J1 & J2) & P).
  apply (picked_solutions sa sf st sj u r OK P); split; try assumption; intros i I; [apply A2 | apply F2 | apply T2 | apply J2]; exact I.
Qed.
Print Assumptions C80_solutions.

(** A request that can be met is met. *)
Theorem C80_met :
  forall two_pi tols lst_tols tel cr u,
  cal_ok u -> tel_ok tel -> cal_request_ok two_pi tols lst_tols tel cr u -> exists r, cal_select two_pi tols lst_tols tel cr u = Ok r.
Proof. exact select_total. Qed.
Print Assumptions C80_met.

(** A request that names something the object does not have is refused. *)
Theorem C80_absent_refused :
  forall two_pi tols lst_tols tel cr u,
  cal_ok u -> tel_ok tel -> no_negative cr -> ~ all_there tel cr u -> exists e, cal_select two_pi tols lst_tols tel cr u = Err e.
Proof.
  intros two_pi tols lst_tols tel cr u OK T NN N. destruct (cal_select two_pi tols lst_tols tel cr u) as [r|e] eqn:E; [|eauto].
  exfalso. apply N. apply (select_all_there _ _ _ _ _ _ OK T r E NN).
Qed.
Print Assumptions C80_absent_refused.

(** get_gains, get_flags and get_quality return the part of the array for the
    antenna and Jones term asked for, if these are there. *)
Theorem C80_get :
  forall xo u ant jpol squeeze,
  cal_ok u ->
  (forall s, get_gains xo u ant jpol squeeze = Ok s -> c_gain u = true /\ part_for xo u (c_sol u) ant jpol squeeze s) /\
  (forall s, get_flags xo u ant jpol squeeze = Ok s -> part_for xo u (c_flags u) ant jpol squeeze s) /\
  (forall s, get_quality xo u ant jpol squeeze = Ok s -> exists q, c_qual u = Some q /\ part_for xo u q ant jpol squeeze s) /\
  (has_ant u ant -> (forall p, jpol = Some p -> exists m, jones_number xo p = Ok m /\ has_jones u m) ->
   (c_gain u = true -> exists s, get_gains xo u ant jpol squeeze = Ok s) /\ (exists s, get_flags xo u ant jpol squeeze = Ok s) /\
   (c_qual u <> None -> exists s, get_quality xo u ant jpol squeeze = Ok s)).
Proof.
  intros xo u ant jpol squeeze OK. split; [|split; [|split]].
  - unfold get_gains. intros s H. destruct (c_gain u); [|discriminate]. split; [reflexivity|]. apply (slice_part xo u OK _ _ _ _ _ H).
  - intros s H. apply (slice_part xo u OK _ _ _ _ _ H).
  - unfold get_quality. intros s H. destruct (c_qual u) as [q|]; [|apply bind_Ok in H as (? & _ & H); discriminate].
    exists q. split; [reflexivity|]. apply (slice_part xo u OK _ _ _ _ _ H).
  - intros HA HJ. unfold get_gains, get_quality. split; [|split].
    + intros ->. apply (slice_total xo u OK); assumption.
    + apply (slice_total xo u OK); assumption.
    + destruct (c_qual u) as [q|]; [intros _ | congruence]. apply (slice_total xo u OK); assumption.
Qed.
Print Assumptions C80_get.

(** ** Cases *)
Definition no_time : time_request := mkTimeRequest None None None None.
Definition a_telescope : cal_telescope := mkCalTelescope [4; 2; 1; 7] ["A"; "B"; "C"; "D"]%string (Some "east"%string).
Lemma tel_fine : tel_ok a_telescope.
Proof. unfold tel_ok. cbn. repeat constructor; simpl; intuition discriminate. Qed.

(** three antennas, windows 0 and 2 with three and two channels, three times, two Jones terms *)
Definition several : ucal := small false [1; 4; 2] [2; 0] [10; 20; 30; 50; 60] [0; 0; 0; 2; 2] None [3; 5; 9] [-5; -6] 100 one (Some (fun f _ _ => Z.of_nat f)).
Definition a_request : cal_criteria :=
  mkCalCriteria None (Some ["B"; "C"]%string) (Some [20]) (Some [0]) None (mkTimeRequest None (Some [4; 10]) None None) (Some [PolStr "jyy"%string]).
Definition selected cr u := cal_select 100 (0, 0)%Q (0, 0)%Q a_telescope cr u.

Example C80_case :
  cal_ok several /\ tel_ok a_telescope /\ times_plain (cc_time a_request) several /\ no_negative a_request /\
  match selected a_request several with
  | Ok r => labels r = ([1; 2], [0], [(0, 10); (0, 20)], [5; 9], [-6], None) /\
            entries r = [(1, (0, 10), 5, -6, ((100, 110), false, Some 1)); (1, (0, 10), 9, -6, ((100, 120), false, Some 1));
                         (1, (0, 20), 5, -6, ((100, 111), false, Some 1)); (1, (0, 20), 9, -6, ((100, 121), false, Some 1));
                         (2, (0, 10), 5, -6, ((102, 110), false, Some 1)); (2, (0, 10), 9, -6, ((102, 120), false, Some 1));
                         (2, (0, 20), 5, -6, ((102, 111), false, Some 1)); (2, (0, 20), 9, -6, ((102, 121), false, Some 1))]
  | Err _ => False
  end.
Proof.
  split; [ok_tac|]. split; [exact tel_fine|]. split; [left; exists [3; 5; 9], [3; 5; 9]; repeat split|].
  split; [intros l c E I; injection E as <-; destruct I as [<-|[]]; lia|]. vm_compute. split; reflexivity.
Qed.

(** The request above satisfies the hypotheses of [C80_met]. *)
Example C80_met_case : cal_request_ok 100 (0, 0)%Q (0, 0)%Q a_telescope a_request several.
Proof.
  assert (LF : forall f, (f < 2)%nat -> chan_listed a_request several f).
  { intros f L. destruct f as [|[|f]]; [right; right; left; exists [0]; split; [reflexivity|left; reflexivity] | right; left; exists [20]; split; [reflexivity|left; reflexivity] | lia]. }
  split.
  { split; [intros; discriminate|]. split.
    { intros l s E I. injection E as <-. destruct I as [<-|[<-|[]]].
      - exists 2. split; [exists 1%nat; cbn; split; [lia|split; reflexivity]|exists 2%nat; split; [cbn; lia|reflexivity]].
      - exists 1. split; [exists 2%nat; cbn; split; [lia|split; reflexivity]|exists 0%nat; split; [cbn; lia|reflexivity]]. }
    split; [intros l x E I; injection E as <-; destruct I as [<-|[]]; cbn; auto|].
    split; [intros l c E I; injection E as <-; destruct I as [<-|[]]; cbn; lia|]. split; [intros l w W; discriminate|]. split.
    - intros p (l & E & H). injection E as <-. destruct H as [H | (s & H & N)]; [destruct H as [H|[]]; discriminate|].
      destruct H as [H|[]]. injection H as <-. vm_compute in N. injection N as <-. left. exists 1%nat. split; [cbn; lia|reflexivity].
    - intros l s E I. injection E as <-. destruct I as [H|[]]. injection H as <-. exists (-6). reflexivity. }
  split; [intros l c E I; injection E as <-; destruct I as [<-|[]]; lia|]. split; [left; reflexivity|]. split.
  { right. exists [3; 5; 9], [3; 5; 9]. do 4 (split; [reflexivity|]). split; [right; left; eexists; reflexivity|].
    split; [intros; discriminate|]. split; [|split; intros; discriminate]. intros r E. injection E as <-. exists 4, 10, 5. cbn. split; [reflexivity|]. lia. }
  split; [discriminate|]. split.
  - intros _. right. left. exists 0%nat, 1%nat. split; [cbn; lia|]. split; [apply LF; lia|]. split; [apply LF; lia|]. split; [intros; lia|reflexivity].
  - intros (p & (l & E & H) & N). exfalso. injection E as <-. apply N. destruct H as [H | (s & H & X)]; [destruct H as [H|[]]; discriminate|].
    destruct H as [H|[]]. injection H as <-. vm_compute in X. injection X as <-. exists 1%nat. split; [cbn; lia|reflexivity].
Qed.

(** windows with their own Jones terms, wide_band or not *)
Definition windowed (wide : bool) : ucal :=
  small wide [1; 4] [2; 0; 3] (if wide then [] else [10; 20; 30; 40]) (if wide then [] else [0; 2; 3; 2]) (Some [-5; -6; -5]) [3] [0] 100 None None.
Definition jones_request (l : list pol_name) : cal_criteria := mkCalCriteria None None None None None no_time (Some l).
Example C80_window_case :
  cal_ok (windowed false) /\ cal_ok (windowed true) /\
  match selected (jones_request [PolNum (-5)]) (windowed false) with
  | Ok r => labels r = ([1; 4], [2; 3], [(2, 20); (3, 30); (2, 40)], [3], [0], Some [-5; -5]) /\ c_sol r 1%nat 2%nat 0%nat 0%nat = (101, 3)
  | Err _ => False
  end /\
  match selected (jones_request [PolNum (-5)]) (windowed true) with
  | Ok r => labels r = ([1; 4], [2; 3], [], [3], [0], Some [-5; -5]) /\ c_sol r 1%nat 1%nat 0%nat 0%nat = (101, 2)
  | Err _ => False
  end /\
  (exists e, selected (jones_request [PolNum (-7)]) (windowed true) = Err e).
Proof. split; [ok_tac|]. split; [ok_tac|]. split; [vm_compute; split; reflexivity|]. split; [vm_compute; split; reflexivity|]. eexists; vm_compute; reflexivity. Qed.

Example C80_get_case :
  (exists g, get_gains (Some "east"%string) several 2 (Some (PolStr "jyy"%string)) true = Ok (Slice2 g) /\ g 4%nat 2%nat = (102, 124)) /\
  (exists g, get_gains (Some "east"%string) several 2 None true = Ok (Slice3 g) /\ g 4%nat 2%nat 1%nat = (102, 124)) /\
  (exists g, get_gains None (windowed true) 4 None true = Ok (Slice2 g) /\ g 1%nat 0%nat = (101, 1)) /\
  get_gains None several 3 None true = Err ValueError.
Proof. split; [|split; [|split]]; [eexists; split; [reflexivity|]; reflexivity .. | reflexivity]. Qed.

(** ** What goes wrong *)

(** A window that is not there is ignored if the object has channels, *)
Theorem C80_absent_window_refuted : exists u cr w r,
  cal_ok u /\ tel_ok a_telescope /\ (length (c_spws u) > 1)%nat /\ (exists l, cc_spws cr = Some l /\ In w l) /\ ~ In w (c_spws u) /\
  selected cr u = Ok r.
Proof.
  set (cr := mkCalCriteria None None None None (Some [0; 9]) no_time None).
  assert (H : match selected cr several with Ok r => True | Err _ => False end) by (vm_compute; exact I).
  destruct (selected cr several) as [r|] eqn:ES; [|contradiction].
  exists several, cr, 9, r. split; [ok_tac|]. split; [exact tel_fine|]. split; [cbn; lia|]. split; [exists [0; 9]; cbn; auto|]. split; [cbn; lia|exact ES].
Qed.
Print Assumptions C80_absent_window_refuted.

(** and one channel of each of two windows cannot be selected. *)
Theorem C80_two_windows_refuted : exists u cr,
  cal_ok u /\ cc_freq_chans cr = Some [0; 3] /\ all_there a_telescope cr u /\ (4 < Nchans u)%nat /\ selected cr u = Err ValueError.
Proof.
  exists several, (mkCalCriteria None None None (Some [0; 3]) None no_time None).
  split; [ok_tac|]. split; [reflexivity|]. split; [|split; [cbn; lia|reflexivity]].
  split; [intros; discriminate|]. split; [intros; discriminate|]. split; [intros; discriminate|].
  split; [intros l c E J; injection E as <-; destruct J as [<-|[<-|[]]]; cbn; lia|]. split; [intros l w W; discriminate|].
  split; [intros p (l & E & _); discriminate|intros; discriminate].
Qed.
Print Assumptions C80_two_windows_refuted.

(** With negative channel numbers a channel can be kept twice. *)
Theorem C80_negative_refuted : exists u cr r,
  cal_ok u /\ cc_freq_chans cr = Some [3; 4; -1] /\ Nchans u = 5%nat /\ selected cr u = Ok r /\ ~ cal_ok r.
Proof.
  set (cr := mkCalCriteria None None None (Some [3; 4; -1]) None no_time None).
  assert (H : match selected cr several with Ok r => Nchans r = 3%nat /\ chan_at r 0%nat = (2, 60) /\ chan_at r 2%nat = (2, 60) | Err _ => False end)
    by (vm_compute; repeat split).
  destruct (selected cr several) as [r|] eqn:ES; [|contradiction]. destruct H as (H1 & H2 & H3).
  exists several, cr, r. split; [ok_tac|]. do 2 (split; [reflexivity|]). split; [exact ES|].
  intros (_ & _ & _ & _ & _ & DF & _). specialize (DF 0%nat 2%nat). rewrite H1, H2, H3 in DF. specialize (DF ltac:(lia) ltac:(lia) eq_refl). discriminate.
Qed.
Print Assumptions C80_negative_refuted.
