(** C88: UVBeam.__add__ puts two parts of a beam together. *)
From Coq Require Import List ZArith Bool Arith String Lia Sorting.Sorted.
From Verif Require Import Lib.Py Lib.Np Model.BeamSelect Model.BeamAdd Spec.BeamSelectSpec Spec.BeamAddSpec Proofs.BeamSelectProofs Proofs.BeamAddProofs Properties.PropBeamSelect.
Import ListNotations.
Notation length := List.length.
Open Scope list_scope.
Open Scope Z_scope.

(** Two beams of one kind without a common cell, the labels of the second in an order that
    the sum keeps: the sum has the labels of both, every number of either under its labels,
    and zeros elsewhere. *)
Theorem C88_add chk a b : beam_ok a -> beam_ok b -> combinable a b -> ~ overlap a b -> all_in_step a b ->
  (u_power a = true -> u_basis a = None) ->
  exists r, beam_add chk a b = Ok r /\ beam_ok r /\ sum_of a b r.
Proof. apply add_sums. Qed.
Print Assumptions C88_add.

(** Beams of different kinds or with a common cell are refused. *)
Theorem C88_accepts chk a b r : beam_add chk a b = Ok r -> combinable a b /\ ~ overlap a b.
Proof. apply add_accepts. Qed.
Print Assumptions C88_accepts.
Theorem C88_refuses chk a b : overlap a b \/ ~ combinable a b -> beam_add chk a b = Err ValueError.
Proof. apply add_refuses. Qed.
Print Assumptions C88_refuses.

(** A beam with increasing frequencies, split in two along frequency, is the sum of the parts. *)
Theorem C88_split chk1 chk2 chk fs gs u a b :
  let on := fun l => mkBeamRequest None None None (Some l) None None None in
  beam_ok u -> plain_power u -> StronglySorted Z.lt (u_freqs u) ->
  beam_select chk1 (on fs) u = (a, None) -> beam_select chk2 (on gs) u = (b, None) ->
  (forall x, In x (u_freqs u) -> (In x fs <-> ~ In x gs)) ->
  exists r, beam_add chk a b = Ok r /\ beam_ok r /\
    u_power r = u_power u /\ u_pix r = u_pix u /\ u_freqs r = u_freqs u /\
    (if u_power u then u_pols r = u_pols u else u_feeds r = u_feeds u) /\ same_numbers u r.
Proof.
  intros on O P S E1 E2 H.
  destruct (select_fits chk1 (on fs) u O P (select_accepts _ _ _ _ E1) I) as (v1 & X1 & O1 & C1). rewrite E1 in X1. apply pair_equal_spec in X1 as (<- & _).
  destruct (select_fits chk2 (on gs) u O P (select_accepts _ _ _ _ E2) I) as (v2 & X2 & O2 & C2). rewrite E2 in X2. apply pair_equal_spec in X2 as (<- & _).
  apply part_of in C1. apply part_of in C2.
  destruct (add_sums chk a b O1 O2 (parts_combinable fs gs u a b C1 C2) (parts_no_overlap fs gs u a b C1 C2 H) (parts_in_step fs gs u a b C1 C2 S H) (parts_basis fs u a C1 P)) as (r & E & Or & SO).
  exists r. split; [exact E|]. split; [exact Or|].
  split; [exact (whole_power fs u a b r C1 SO)|]. split; [exact (whole_pix fs gs u a b r C1 C2 SO)|].
  split; [exact (whole_freqs fs gs u a b r C1 C2 S H SO)|]. split; [exact (whole_pols fs gs u a b r C1 C2 SO)|].
  exact (whole_again fs gs u a b r C1 C2 H SO P).
Qed.
Print Assumptions C88_split.

(** A gridded beam with some azimuths and frequencies *)
Definition patch (az fr : list Z) (off : Z) : ubeam :=
  {| u_power := false; u_phased := false; u_nvec := 2;
     u_pix := Grid az [5; 7]; u_freqs := fr; u_feeds := ["x"; "y"]%string;
     u_pols := []; u_npols := 0; u_xo := Some "east"%string;
     u_data := fun v p f y x => (nth f fr 0 * 1000 + nth x az 0 + 1, off);
     u_basis := Some {| bv_ny := 2; bv_nx := length az; bv_at := fun v c y x => off |};
     u_bandpass := map (fun f => f + off) fr; u_rx := Some (map (fun f => f + off) fr); u_loss := None; u_mismatch := None; u_spar := None;
     u_coupling := fun d e a b f => (0, 0) |}.
Lemma patch_ok az fr off : NoDup az -> NoDup fr -> beam_ok (patch az fr off).
Proof.
  intros A F. constructor; cbn; try exact I; try discriminate; auto; try (rewrite map_length; reflexivity);
    try (split; [assumption|]); repeat constructor; cbn; intuition discriminate.
Qed.
Ltac nd := repeat constructor; cbn; intuition discriminate.

Example C88_add_example : let a := patch [10; 0] [100] 1 in let b := patch [20; 30] [100] 2 in
  beam_ok a /\ beam_ok b /\ combinable a b /\ ~ overlap a b /\ all_in_step a b /\ (u_power a = true -> u_basis a = None) /\
  match beam_add true a b with
  | Ok r => u_pix r = Grid [0; 10; 20; 30] [5; 7] /\
      map (fun x => u_data r 1 1 0 0 x) [0; 1; 2; 3]%nat = [(100001, 1); (100011, 1); (100021, 2); (100031, 2)] /\
      match u_basis r with Some z => map (fun x => bv_at z 0%nat 0%nat 1%nat x) [0; 1; 2; 3]%nat = [1; 1; 2; 2] | None => False end
  | Err _ => False
  end.
Proof.
  intros a b. split; [apply patch_ok; nd|]. split; [apply patch_ok; nd|]. split; [repeat split|]. split.
  { intros (_ & _ & M & _). destruct M as (x & I & J). cbn in I, J. intuition congruence. }
  split. { split; [apply in_step_same|]. split; [apply in_step_same|]. split; [|apply in_step_same]. right. split; [intros X; specialize (X 20); cbn in X; intuition discriminate|]. repeat constructor. }
  split; [intros W; discriminate W|]. vm_compute. repeat split; reflexivity.
Qed.
Example C88_accepts_example : exists r, beam_add true (patch [10; 0] [100] 1) (patch [20; 30] [100] 2) = Ok r.
Proof.
  assert (X : match beam_add true (patch [10; 0] [100] 1) (patch [20; 30] [100] 2) with Ok _ => True | Err _ => False end) by (vm_compute; exact I).
  destruct (beam_add true (patch [10; 0] [100] 1) (patch [20; 30] [100] 2)); [eauto | contradiction].
Qed.
Example C88_refuses_example : overlap (patch [10; 0] [100] 1) (patch [20; 10] [100; 110] 2) /\ ~ combinable (patch [10] [100] 1) (power None 2).
Proof.
  split.
  - split; [|split; [|split]]; [exists "x"%string | exists 100 | exists 10 | exists 5]; cbn; auto.
  - intros (X & _). discriminate X.
Qed.
Example C88_split_example : let on := fun l => mkBeamRequest None None None (Some l) None None None in
  beam_ok efield /\ plain_power efield /\ StronglySorted Z.lt (u_freqs efield) /\
  snd (beam_select true (on [120; 100]) efield) = None /\ snd (beam_select true (on [110]) efield) = None /\
  (forall x, In x (u_freqs efield) -> (In x [120; 100] <-> ~ In x [110])).
Proof.
  split; [apply efield_ok|]. split; [intros W; discriminate W|]. split; [repeat constructor; lia|].
  split; [vm_compute; reflexivity|]. split; [vm_compute; reflexivity|]. intros x Ix. cbn in *. intuition lia.
Qed.

(** The numbers of the second beam are copied in its order to labels that have been sorted:
    if its labels are not in increasing order, they come back under the wrong labels. *)
Theorem C88_order_refuted : exists a b r,
  beam_ok a /\ beam_ok b /\ combinable a b /\ ~ overlap a b /\ beam_add true a b = Ok r /\
  u_freqs b = [120; 110] /\ u_freqs r = [100; 110; 120] /\
  u_data r 0%nat 0%nat 1%nat 0%nat 0%nat = u_data b 0%nat 0%nat 0%nat 0%nat 0%nat /\ ~ data_from b r.
Proof.
  set (a := patch [0] [100] 0). set (b := patch [0] [120; 110] 0). exists a, b, (beam_sum a b).
  split; [apply patch_ok; nd|]. split; [apply patch_ok; nd|]. split; [repeat split|].
  split. { intros (_ & M & _). destruct M as (x & I & J). cbn in I, J. intuition congruence. }
  split; [rewrite beam_add_eq; reflexivity|]. split; [reflexivity|]. split; [vm_compute; reflexivity|].
  split.
  - vm_compute. reflexivity.
  - intros D. specialize (D 0%nat 0%nat 1%nat 0%nat 0%nat 0%nat 1%nat 0%nat 0%nat). 
    assert (E : u_data (beam_sum a b) 0%nat 0%nat 1%nat 0%nat 0%nat <> u_data b 0%nat 0%nat 1%nat 0%nat 0%nat) by (vm_compute; discriminate).
    apply E, D; repeat split; vm_compute; try reflexivity; try lia.
Qed.
Print Assumptions C88_order_refuted.

(** Only cells of data_array are protected from being overwritten: bandpass and basis vectors
    of the first beam are replaced by those of the second where both have them, even if they
    differ. *)
Theorem C88_overwrite_refuted : exists a b r,
  beam_ok a /\ beam_ok b /\ combinable a b /\ ~ overlap a b /\ all_in_step a b /\ beam_add true a b = Ok r /\
  u_freqs a = u_freqs b /\ u_bandpass a <> u_bandpass b /\ u_bandpass r = u_bandpass b.
Proof.
  set (a := patch [0] [100] 1). set (b := patch [10] [100] 2). exists a, b, (beam_sum a b).
  split; [apply patch_ok; nd|]. split; [apply patch_ok; nd|]. split; [repeat split|].
  split. { intros (_ & _ & M & _). destruct M as (x & I & J). cbn in I, J. intuition congruence. }
  split. { split; [apply in_step_same|]. split; [apply in_step_same|]. split; [|apply in_step_same]. right. split; [intros X; specialize (X 10); cbn in X; intuition discriminate|]. repeat constructor. }
  split; [rewrite beam_add_eq; reflexivity|]. split; [reflexivity|]. split; [vm_compute; discriminate|]. vm_compute. reflexivity.
Qed.
Print Assumptions C88_overwrite_refuted.
Theorem C88_overwrite_basis_refuted : exists a b r x y z,
  beam_ok a /\ beam_ok b /\ combinable a b /\ ~ overlap a b /\ all_in_step a b /\ beam_add true a b = Ok r /\
  u_pix a = u_pix b /\ u_basis a = Some x /\ u_basis b = Some y /\ u_basis r = Some z /\
  bv_at x 0%nat 0%nat 0%nat 0%nat = 1 /\ bv_at y 0%nat 0%nat 0%nat 0%nat = 2 /\ bv_at z 0%nat 0%nat 0%nat 0%nat = 2.
Proof.
  set (a := patch [0] [100] 1). set (b := patch [0] [110] 2). exists a, b, (beam_sum a b). eexists _, _, _.
  split; [apply patch_ok; nd|]. split; [apply patch_ok; nd|]. split; [repeat split|].
  split. { intros (_ & M & _). destruct M as (x & I & J). cbn in I, J. intuition congruence. }
  split. { split; [apply in_step_same|]. split; [|split; apply in_step_same]. right. split; [intros X; specialize (X 110); cbn in X; intuition discriminate|]. repeat constructor. }
  split; [rewrite beam_add_eq; reflexivity|]. split; [reflexivity|]. split; [reflexivity|]. split; [reflexivity|]. split; [reflexivity|].
  split; [reflexivity|]. split; [reflexivity|]. vm_compute. reflexivity.
Qed.
Print Assumptions C88_overwrite_basis_refuted.

(** Cells that neither beam has are zero, like a beam that is zero there. *)
Theorem C88_holes_refuted : exists a b r,
  beam_ok a /\ beam_ok b /\ combinable a b /\ ~ overlap a b /\ all_in_step a b /\ beam_add true a b = Ok r /\
  cell r 0 1 0 0 /\ lacks_cell a r 0 1 0 0 /\ lacks_cell b r 0 1 0 0 /\ u_data r 0%nat 0%nat 1%nat 0%nat 0%nat = (0, 0) /\
  (forall p f y x, cell a p f y x -> fst (u_data a 0%nat p f y x) > 0) /\ (forall p f y x, cell b p f y x -> fst (u_data b 0%nat p f y x) > 0).
Proof.
  set (a := patch [0] [100] 1). set (b := patch [10] [110] 2). exists a, b, (beam_sum a b).
  split; [apply patch_ok; nd|]. split; [apply patch_ok; nd|]. split; [repeat split|].
  split. { intros (_ & M & _). destruct M as (x & I & J). cbn in I, J. intuition congruence. }
  split. { split; [apply in_step_same|]. split; [|split; [|apply in_step_same]]; right; (split; [intros X|repeat constructor]).
    - specialize (X 110); cbn in X; intuition discriminate.
    - specialize (X 10); cbn in X; intuition discriminate. }
  split; [rewrite beam_add_eq; reflexivity|]. split; [repeat split; vm_compute; lia|].
  split. { intros p f y x ((_ & Lf & _) & _ & Ef & _). change (nfreq a) with 1%nat in Lf. assert (f = 0)%nat as -> by lia. vm_compute in Ef. discriminate. }
  split. { intros p f y x ((_ & _ & _ & Lx) & _ & _ & Es & _). change (px_nx (u_pix b)) with 1%nat in Lx. assert (x = 0)%nat as -> by lia. vm_compute in Es. discriminate. }
  split; [vm_compute; reflexivity|]. split.
  - intros p f y x (_ & Lf & _ & Lx). change (nfreq a) with 1%nat in Lf. change (px_nx (u_pix a)) with 1%nat in Lx. assert (f = 0)%nat as -> by lia. assert (x = 0)%nat as -> by lia. vm_compute. reflexivity.
  - intros p f y x (_ & Lf & _ & Lx). change (nfreq b) with 1%nat in Lf. change (px_nx (u_pix b)) with 1%nat in Lx. assert (f = 0)%nat as -> by lia. assert (x = 0)%nat as -> by lia. vm_compute. reflexivity.
Qed.
Print Assumptions C88_holes_refuted.

(** A healpix power beam with given pixels *)
Definition ring (pix : list Z) (bas : bool) (xo : option string) : ubeam :=
  {| u_power := true; u_phased := false; u_nvec := 1;
     u_pix := Healpix pix; u_freqs := [100]; u_feeds := []; u_pols := [-5; -6]; u_npols := 2; u_xo := xo;
     u_data := fun v p f y x => (nth x pix 0, 0);
     u_basis := if bas then Some {| bv_ny := 1; bv_nx := length pix; bv_at := fun v c y x => nth x pix 0 |} else None;
     u_bandpass := [1]; u_rx := None; u_loss := None; u_mismatch := None; u_spar := None;
     u_coupling := fun _ _ _ _ _ => (0, 0) |}.
Lemma ring_ok pix bas xo : NoDup pix -> beam_ok (ring pix bas xo).
Proof. intros N. constructor; cbn; try reflexivity; try exact I; try assumption; try nd. destruct bas; auto. Qed.
Lemma ring_step l m bas bas' xo xo' : in_step Z.leb l m -> all_in_step (ring l bas xo) (ring m bas' xo').
Proof. intros H. split; [apply in_step_same|]. split; [apply in_step_same | exact H]. Qed.
Example C88_add_power_example : let a := ring [9; 3] false None in let b := ring [1; 4] false None in
  beam_ok a /\ beam_ok b /\ combinable a b /\ ~ overlap a b /\ all_in_step a b /\ (u_power a = true -> u_basis a = None) /\
  match beam_add true a b with
  | Ok r => u_pix r = Healpix [1; 3; 4; 9] /\ map (fun x => u_data r 0 1 0 0 x) [0; 1; 2; 3]%nat = [(1, 0); (3, 0); (4, 0); (9, 0)]
  | Err _ => False
  end.
Proof.
  intros a b. split; [apply ring_ok; nd|]. split; [apply ring_ok; nd|]. split; [repeat split|]. split.
  { intros (_ & _ & M). destruct M as (x & I & J). cbn in I, J. intuition congruence. }
  split. { apply ring_step. right. split; [intros X; specialize (X 1); cbn in X; intuition discriminate|]. repeat constructor. }
  split; [reflexivity|]. vm_compute. split; reflexivity.
Qed.

(** Power beams that have kept their basis vectors cannot be added along the image: the basis
    vectors are not extended, and the check fails. *)
Theorem C88_power_basis_refuted : exists a b r,
  beam_ok a /\ beam_ok b /\ combinable a b /\ ~ overlap a b /\ all_in_step a b /\
  beam_add true a b = Err ValueError /\ beam_add false a b = Ok r /\ u_pix r = Healpix [3; 9] /\ u_basis r = u_basis a.
Proof.
  set (a := ring [3] true None). set (b := ring [9] true None). exists a, b, (beam_sum a b).
  split; [apply ring_ok; nd|]. split; [apply ring_ok; nd|]. split; [repeat split|]. split.
  { intros (_ & _ & M). destruct M as (x & I & J). cbn in I, J. intuition congruence. }
  split. { apply ring_step. right. split; [intros X; specialize (X 9); cbn in X; intuition discriminate|]. repeat constructor. }
  split; [vm_compute; reflexivity|]. split; [rewrite beam_add_eq; reflexivity|]. split; [vm_compute; reflexivity|]. reflexivity.
Qed.
Print Assumptions C88_power_basis_refuted.

(** The directions of the feeds are not compared. *)
Theorem C88_orientation_refuted : exists a b r,
  beam_ok a /\ beam_ok b /\ beam_add true a b = Ok r /\ u_xo a = Some "east"%string /\ u_xo b = Some "north"%string /\ u_xo r = Some "east"%string /\
  u_data r 0%nat 0%nat 0%nat 0%nat 1%nat = u_data b 0%nat 0%nat 0%nat 0%nat 0%nat.
Proof.
  set (a := ring [3] false (Some "east"%string)). set (b := ring [9] false (Some "north"%string)). exists a, b, (beam_sum a b).
  split; [apply ring_ok; nd|]. split; [apply ring_ok; nd|]. split; [rewrite beam_add_eq; reflexivity|]. split; [reflexivity|]. split; [reflexivity|]. split; reflexivity.
Qed.
Print Assumptions C88_orientation_refuted.
