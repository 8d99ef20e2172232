(** C89: writing and reading UVFITS files. *)
From Coq Require Import List ZArith Bool Arith Lia Sorting.Sorted Permutation QArith.
From Verif Require Import Lib.Py Lib.Np Lib.Cube Lib.Sorting Lib.Dict Spec.FreqSpec Model.Freq Model.Uvfits Spec.UvfitsSpec Proofs.UvfitsProofs.
Import ListNotations.
Open Scope Z_scope.

Ltac nd := repeat constructor; cbn; intuition discriminate.
Ltac fall := repeat constructor; cbn; lia.

(** Writing and reading: every visibility, nsample and flag comes back under its row, its
    channel and its polarization; windows are renumbered, polarizations ordered by size. *)
Theorem C89_round_trip miriad o f n : obj_ok o -> in_order n o -> write_uvfits miriad o = Ok f ->
  exists o', read_uvfits None None None f = Ok o' /\
    back (if miriad && existsb (Z.eqb 0) (o_ants o) && forallb (Z.leb 0) (o_ants o) then 1 else 0) o o'.
Proof. intros O IO W. eexists. split; [reflexivity|]. exact (there_and_back miriad o f n O W IO). Qed.
Print Assumptions C89_round_trip.

(** Exactly what can be written *)
Theorem C89_when miriad o : obj_ok o -> NoDup (map Z.abs (o_pols o)) -> ((exists f, write_uvfits miriad o = Ok f) <-> writable o).
Proof. apply write_exact. Qed.
Print Assumptions C89_when.

(** Reading a part: of one window by rows, channels and polarizations; of several windows by
    rows and polarizations *)
Theorem C89_part miriad o f n bi fi pi : obj_ok o -> in_order n o -> write_uvfits miriad o = Ok f ->
  length (o_spws o) = 1%nat \/ fi = None ->
  index_list (nrows o) bi -> index_list (nfreqs o) fi -> index_list (npols o) pi ->
  exists all o', read_uvfits None None None f = Ok all /\ read_uvfits bi fi pi f = Ok o' /\ cut_of bi fi pi all o'.
Proof.
  intros O IO W ONE Ib If Ip. destruct (f_facts miriad o f W) as (E1 & E2 & _).
  assert (ER : length (f_rows f) = nrows o). { pose proof (write_ok _ _ _ W) as H. do 13 destruct H as (_ & H). destruct H as (-> & _). apply map_length. }
  assert (EF : length (o_freqs (read_meta f)) = nfreqs o) by (rewrite (back_freqs miriad o f n O W IO); reflexivity).
  destruct (read_part f bi fi pi (written_ok miriad o f n O W IO)) as (o' & R & C).
  - rewrite E1. exact ONE.
  - rewrite ER. exact Ib.
  - rewrite EF. exact If.
  - rewrite E2. exact Ip.
  - eexists _, o'. split; [reflexivity|]. split; [exact R | exact C].
Qed.
Print Assumptions C89_part.

(** Two rows of three antennas, phased to a source with id 0, windows 3 and 7 of two channels
    each, the second one decreasing, and four polarizations in AIPS order but one *)
Definition vis (spws flex freqs widths pols ants : list Z) (ns : Z) : fobj :=
  {| o_rows := [mkRow (1, 2, 3) 10 100 0 1 5 0; mkRow (4, 5, 6) 11 101 0 2 5 8];
     o_freqs := freqs; o_widths := widths; o_flex := flex; o_spws := spws; o_pols := pols;
     o_data := fun b k p => (Z.of_nat (100 * b + 10 * k + p), nth p pols 0);
     o_flags := fun b k p => (k =? 1)%nat;
     o_ns := fun b k p => if (b =? 1)%nat then ns else 3;
     o_ants := ants; o_cat := [(0, 77); (8, 78)] |}.
Lemma vis_ok spws flex freqs widths pols ants ns : length widths = length freqs -> length flex = length freqs -> freqs <> [] ->
  spws <> [] /\ NoDup spws -> pols <> [] /\ NoDup pols -> Forall (fun w => 0 < w) widths -> 0 <= ns -> obj_ok (vis spws flex freqs widths pols ants ns).
Proof.
  intros. constructor; try assumption.
  - intros b k p _. cbn. destruct (b =? 1)%nat; lia.
  - repeat (constructor; [cbn; auto|]). constructor.
  - cbn. nd.
Qed.
Definition two : fobj := vis [3; 7] [3; 3; 7; 7] [100; 110; 300; 280] [10; 10; 20; 20] [-5; -7; -8; -6] [0; 1; 2] 2.
Lemma two_ok : obj_ok two.
Proof. apply vis_ok; try reflexivity; try discriminate; try (split; [discriminate | nd]); fall. Qed.
Lemma two_order : in_order 2 two.
Proof. reflexivity. Qed.
Definition ok_of {A} (r : result A) : bool := match r with Ok _ => true | Err _ => false end.
Lemma ok_of_true {A} (r : result A) : ok_of r = true -> exists x, r = Ok x.
Proof. destruct r as [x|]; [exists x; reflexivity | discriminate]. Qed.
Lemma two_writes m : exists f, write_uvfits m two = Ok f.
Proof. apply ok_of_true. destruct m; vm_compute; reflexivity. Qed.
Example C89_round_trip_example : obj_ok two /\ in_order 2 two /\
  match write_uvfits false two with
  | Ok f => match read_uvfits None None None f with
            | Ok r => o_freqs r = [100; 110; 300; 280] /\ o_widths r = [10; 10; 20; 20] /\ o_spws r = [0; 1] /\ o_pols r = [-5; -6; -7; -8] /\
                      map r_src (o_rows r) = [1; 9] /\ o_cat r = [(1, 77); (9, 78)] /\
                      o_data r 1%nat 2%nat 1%nat = (123, -6) /\ o_flags r 0%nat 1%nat 3%nat = true /\ o_ns r 1%nat 1%nat 3%nat = 2
            | Err _ => False end
  | Err _ => False
  end.
Proof. split; [exact two_ok|]. split; [reflexivity|]. vm_compute. repeat split. Qed.
Example C89_when_example : obj_ok two /\ NoDup (map Z.abs (o_pols two)) /\ writable two /\
  ~ writable (vis [3; 7] [3; 3; 7; 7] [100; 110; 300; 290] [10; 10; 20; 20] [-5; -7; -8; -6] [0; 1; 2] 2).
Proof.
  assert (N : NoDup (map Z.abs (o_pols two))) by (cbn; nd). split; [exact two_ok|]. split; [exact N|]. split.
  - apply (C89_when false two two_ok N). apply two_writes.
  - intros X. apply (C89_when false) in X as (f & X).
    + vm_compute in X. discriminate.
    + apply vis_ok; try reflexivity; try discriminate; try (split; [discriminate | nd]); fall.
    + cbn. nd.
Qed.
Definition one : fobj := vis [3] [3; 3; 3] [100; 110; 120] [10; 10; 10] [-5; -6] [0; 1; 2] 2.
Lemma one_ok : obj_ok one.
Proof. apply vis_ok; try reflexivity; try discriminate; try (split; [discriminate | nd]); fall. Qed.
Example C89_part_example : obj_ok one /\ in_order 3 one /\ length (o_spws one) = 1%nat /\
  index_list (nrows one) (Some [1%nat]) /\ index_list (nfreqs one) (Some [0; 2]%nat) /\ index_list (npols one) (Some [0; 1]%nat) /\
  match write_uvfits false one with
  | Ok f => match read_uvfits (Some [1%nat]) (Some [0; 2]%nat) (Some [0; 1]%nat) f with
            | Ok r => o_freqs r = [100; 120] /\ o_pols r = [-5; -6] /\ map r_time (o_rows r) = [11] /\ o_data r 0%nat 1%nat 1%nat = (121, -6)
            | Err _ => False end
  | Err _ => False
  end.
Proof.
  split; [exact one_ok|]. split; [reflexivity|]. split; [reflexivity|].
  split; [split; [discriminate|]; split; repeat constructor|]. split; [split; [discriminate|]; split; repeat constructor; cbn; lia|].
  split; [split; [discriminate|]; split; repeat constructor; cbn; lia|]. vm_compute. repeat split.
Qed.
Example C89_part_windows_example : index_list (nrows two) (Some [0%nat]) /\ index_list (npols two) (Some [1; 3]%nat) /\
  match write_uvfits false two with
  | Ok f => match read_uvfits (Some [0%nat]) None (Some [1; 3]%nat) f with
            | Ok r => o_freqs r = [100; 110; 300; 280] /\ o_pols r = [-6; -8] /\ o_data r 0%nat 3%nat 1%nat = (32, -8)
            | Err _ => False end
  | Err _ => False
  end.
Proof. split; [split; [discriminate|]; split; repeat constructor|]. split; [split; [discriminate|]; split; repeat constructor; cbn; lia|]. vm_compute. repeat split. Qed.

(** A choice of channels of a file with several windows is never granted: if something is read
    then it is all the channels. *)
Theorem C89_windows miriad o f n bi i pi r : obj_ok o -> in_order n o -> write_uvfits miriad o = Ok f ->
  (2 <= length (o_spws o))%nat -> index_list (nfreqs o) (Some i) -> (length i < nfreqs o)%nat ->
  read_uvfits bi (Some i) pi f = Ok r -> o_freqs r = o_freqs o.
Proof.
  intros O IO W TWO If L R. destruct (f_facts miriad o f W) as (E1 & _).
  assert (EF : length (o_freqs (read_meta f)) = nfreqs o) by (rewrite (back_freqs miriad o f n O W IO); reflexivity).
  rewrite <- (back_freqs miriad o f n O W IO). eapply (read_channels f bi i pi r); [exact (written_ok miriad o f n O W IO)| | | | |exact R].
  - rewrite E1. exact TWO.
  - rewrite (fq_is miriad o f W). replace (1 <? length (o_spws o))%nat with true by (symmetry; apply Nat.ltb_lt; lia). discriminate.
  - rewrite EF. exact If.
  - rewrite EF. exact L.
Qed.
Print Assumptions C89_windows.
Example C89_windows_example : index_list (nfreqs two) (Some [0; 1]%nat) /\
  match write_uvfits false two with
  | Ok f => match read_uvfits None (Some [0; 1]%nat) None f with Ok r => o_freqs r = o_freqs two | Err _ => False end /\
            read_uvfits None (Some [0%nat]) None f = Err AssertionError /\ read_uvfits None (Some [3%nat]) None f = Err IndexError /\
            read_uvfits (Some [0%nat]) (Some [0; 2]%nat) None f = Err ValueError
  | Err _ => False
  end.
Proof. split; [split; [discriminate|]; split; repeat constructor; cbn; lia|]. vm_compute. repeat split. Qed.
(** The first window of two is asked for and both are read, without any message. *)
Theorem C89_windows_refuted : exists o f r, obj_ok o /\ in_order 2 o /\ write_uvfits false o = Ok f /\
  index_list (nfreqs o) (Some [0; 1]%nat) /\ read_uvfits None (Some [0; 1]%nat) None f = Ok r /\ nfreqs r = 4%nat.
Proof.
  destruct (two_writes false) as (f & W). pose proof C89_windows_example as (I & X). rewrite W in X. destruct X as (X & _).
  destruct (read_uvfits None (Some [0; 1]%nat) None f) as [r|] eqn:R; [|contradiction]. exists two, f, r.
  split; [exact two_ok|]. split; [reflexivity|]. split; [exact W|]. split; [exact I|]. split; [exact R|]. unfold nfreqs. rewrite X. reflexivity.
Qed.
Print Assumptions C89_windows_refuted.

(** Windows listed in another order than their channels: the visibilities come back under the
    frequencies of other windows. *)
Theorem C89_order_refuted : exists o f r, obj_ok o /\ write_uvfits false o = Ok f /\ read_uvfits None None None f = Ok r /\
  o_freqs o = [100; 110; 300; 310] /\ o_freqs r = [300; 310; 100; 110] /\ forall b k, (b < 2)%nat -> (k < 4)%nat -> o_data r b k 0%nat = o_data o b k 0%nat.
Proof.
  set (o := vis [7; 3] [3; 3; 7; 7] [100; 110; 300; 310] [10; 10; 10; 10] [-5; -6] [0; 1; 2] 2).
  destruct (write_uvfits false o) as [f|] eqn:W; [|vm_compute in W; discriminate]. 
  exists o, f, (fill_data (read_meta f) (f_nchan f) (f_data f)). split; [apply vis_ok; try reflexivity; try discriminate; try (split; [discriminate | nd]); fall|].
  split; [exact W|]. split; [reflexivity|]. split; [reflexivity|]. injection W as <-. split; [vm_compute; reflexivity|].
  intros b k Lb Lk. destruct k as [|[|[|[|k]]]]; [..|lia]; destruct b as [|[|b]]; try lia; vm_compute; reflexivity.
Qed.
Print Assumptions C89_order_refuted.

(** One window with decreasing frequencies: the channel widths come back negative, and what
    was read cannot be written. *)
Theorem C89_decreasing_refuted : exists o f r, obj_ok o /\ in_order 3 o /\ write_uvfits false o = Ok f /\ read_uvfits None None None f = Ok r /\
  o_widths o = [10; 10; 10] /\ o_widths r = [-10; -10; -10] /\ write_uvfits false r = Err ValueError.
Proof.
  set (o := vis [3] [3; 3; 3] [120; 110; 100] [10; 10; 10] [-5; -6] [0; 1; 2] 2).
  destruct (write_uvfits false o) as [f|] eqn:W; [|vm_compute in W; discriminate].
  exists o, f, (fill_data (read_meta f) (f_nchan f) (f_data f)). split; [apply vis_ok; try reflexivity; try discriminate; try (split; [discriminate | nd]); fall|].
  split; [reflexivity|]. split; [exact W|]. split; [reflexivity|]. split; [reflexivity|]. injection W as <-. split; vm_compute; reflexivity.
Qed.
Print Assumptions C89_decreasing_refuted.

(** Visibilities with nsample 0 that are not flagged come back flagged; with
    use_miriad_convention the antenna numbers come back one higher. *)
Theorem C89_flags_refuted : exists o f r, obj_ok o /\ in_order 3 o /\ write_uvfits true o = Ok f /\ read_uvfits None None None f = Ok r /\
  o_flags o 1%nat 0%nat 0%nat = false /\ o_flags r 1%nat 0%nat 0%nat = true /\ o_ants o = [0; 1; 2] /\ o_ants r = [1; 2; 3].
Proof.
  set (o := vis [3] [3; 3; 3] [100; 110; 120] [10; 10; 10] [-5; -6] [0; 1; 2] 0).
  destruct (write_uvfits true o) as [f|] eqn:W; [|vm_compute in W; discriminate].
  exists o, f, (fill_data (read_meta f) (f_nchan f) (f_data f)). split; [apply vis_ok; try reflexivity; try discriminate; try (split; [discriminate | nd]); fall|].
  split; [reflexivity|]. split; [exact W|]. split; [reflexivity|]. split; [reflexivity|]. injection W as <-. split; [vm_compute; reflexivity|]. split; [reflexivity|]. vm_compute. reflexivity.
Qed.
Print Assumptions C89_flags_refuted.
