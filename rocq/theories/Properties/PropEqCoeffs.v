(** C96: removal of equalization coefficients. *)
From Coq Require Import List ZArith QArith Qcanon Bool Arith String Lia.
From Verif Require Import Lib.Py Model.UVData Model.EqCoeffs Spec.AccessSpec Spec.EqCoeffsSpec
  Proofs.AccessRead Proofs.EqCoeffsProofs.
Import ListNotations.
Open Scope list_scope.
Open Scope nat_scope.

(** Every visibility is multiplied or divided, as the convention says, by the coefficients of its two
    antennas for its channel, each record exactly once; nothing else is changed. *)
Theorem C96_removed : forall o c conv,
  consistent (e_u o) -> known o -> e_coeffs o = Some c -> e_conv o = Some conv ->
  conv = "multiply"%string \/ conv = "divide"%string ->
  let o' := fst (remove_eq_coeffs o) in
  snd (remove_eq_coeffs o) = Ok tt /\ same_but_vis o o' /\
  forall r f p i1 i2, r < Nblts (e_u o) -> is_at o (first_ant o r) i1 -> is_at o (second_ant o r) i2 ->
    (conv = "multiply"%string -> e_vis o' r f p = by_real (e_vis o r f p) (c i1 f * c i2 f)%Qc) /\
    (conv = "divide"%string -> e_vis o' r f p = by_real (e_vis o r f p) (/ (c i1 f * c i2 f))%Qc).
Proof.
  intros o c conv Hc K Ec Ev Hv o'. destruct (removed o c conv Hc K Ec Ev Hv) as (A & B & V).
  split; [exact A|]. split; [exact B|]. intros r f p i1 i2 L H1 H2. specialize (V r f p i1 i2 L H1 H2).
  split; intros E; rewrite E in V; exact V.
Qed.
Print Assumptions C96_removed.

(** Without coefficients, without a convention or with an unknown one it is refused and nothing changes. *)
Theorem C96_refused : forall o,
  e_coeffs o = None \/ e_conv o = None \/
  (exists conv, e_conv o = Some conv /\ conv <> "multiply"%string /\ conv <> "divide"%string) ->
  remove_eq_coeffs o = (o, Err ValueError).
Proof. exact refused. Qed.
Print Assumptions C96_refused.

(** If no coefficient is zero, removal with the other convention gives the data before. *)
Theorem C96_inverse : forall o c conv conv',
  consistent (e_u o) -> known o -> e_coeffs o = Some c -> e_conv o = Some conv ->
  (conv = "multiply"%string /\ conv' = "divide"%string) \/ (conv = "divide"%string /\ conv' = "multiply"%string) ->
  (forall i f, c i f <> 0)%Qc ->
  let o1 := fst (remove_eq_coeffs o) in
  let o2 := {| e_u := e_u o1; e_vis := e_vis o1; e_numbers := e_numbers o1; e_coeffs := e_coeffs o1; e_conv := Some conv' |} in
  snd (remove_eq_coeffs o2) = Ok tt /\
  forall r f p, r < Nblts (e_u o) -> e_vis (fst (remove_eq_coeffs o2)) r f p = e_vis o r f p.
Proof. exact inverse. Qed.
Print Assumptions C96_inverse.

(** ** Examples *)
Definition two : Qc := Q2Qc 2.
Definition three : Qc := Q2Qc 3.

(** Two baselines, (0, 1) and (2, 0), at two times *)
Definition equalized (conv : string) : eqobj := {|
  e_u := square; e_vis := fun _ _ _ => (1, 0)%Qc; e_numbers := [2; 0; 1]%Z;
  e_coeffs := Some (fun i f => match i with 0 => two | 1 => three | _ => 1%Qc end); e_conv := Some conv |}.

Lemma equalized_known conv : known (equalized conv).
Proof.
  split; [cbn; repeat (apply NoDup_cons; [cbn; intuition discriminate|]); apply NoDup_nil|].
  intros r H. change (Nblts (e_u (equalized conv))) with 4 in H. unfold first_ant, second_ant.
  destruct r as [|[|[|[|r]]]]; try lia; cbn; auto.
Qed.

(** The record of baseline (2, 0) at the second time is multiplied by 2 * 3 *)
Example C96_removed_example :
  e_vis (fst (remove_eq_coeffs (equalized "multiply"))) 3 0 0 = by_real (1, 0)%Qc (two * three)%Qc.
Proof.
  destruct (C96_removed (equalized "multiply") _ "multiply" square_consistent (equalized_known _) eq_refl eq_refl (or_introl eq_refl))
    as (_ & _ & V).
  destruct (V 3 0 0 0 1) as [W _]; [cbn; lia|split; [cbn; lia|reflexivity]|split; [cbn; lia|reflexivity]|].
  exact (W eq_refl).
Qed.

Example C96_refused_example : remove_eq_coeffs (equalized "add") = (equalized "add", Err ValueError).
Proof. apply C96_refused. right. right. exists "add"%string. repeat split; discriminate. Qed.

Example C96_inverse_example :
  let o1 := fst (remove_eq_coeffs (equalized "divide")) in
  let o2 := {| e_u := e_u o1; e_vis := e_vis o1; e_numbers := e_numbers o1; e_coeffs := e_coeffs o1; e_conv := Some "multiply"%string |} in
  e_vis o1 0 0 0 <> (1, 0)%Qc /\ e_vis (fst (remove_eq_coeffs o2)) 0 0 0 = (1, 0)%Qc.
Proof.
  cbv zeta. split.
  - intros E. apply (f_equal fst) in E. apply (f_equal (fun q => Qden (this q))) in E. vm_compute in E. discriminate E.
  - refine (proj2 (C96_inverse (equalized "divide") _ "divide" "multiply" square_consistent (equalized_known _) eq_refl eq_refl
      (or_intror (conj eq_refl eq_refl)) _) 0 0 0 _); [|cbn; lia].
    intros [|[|i]] f E; apply (f_equal (fun q => Qnum (this q))) in E; vm_compute in E; discriminate E.
Qed.

(** ** Finding: the coefficients stay on the object, so a second removal is not refused and they are
    applied once more. *)
Theorem C96_again_refuted : exists o, consistent (e_u o) /\ known o /\
  snd (remove_eq_coeffs o) = Ok tt /\
  e_coeffs (fst (remove_eq_coeffs o)) = e_coeffs o /\
  snd (remove_eq_coeffs (fst (remove_eq_coeffs o))) = Ok tt /\
  e_vis (fst (remove_eq_coeffs (fst (remove_eq_coeffs o)))) 0 0 0 <> e_vis (fst (remove_eq_coeffs o)) 0 0 0.
Proof.
  exists (equalized "multiply"). split; [exact square_consistent|]. split; [apply equalized_known|].
  split; [vm_compute; reflexivity|]. split; [reflexivity|]. split; [vm_compute; reflexivity|].
  intros E. apply (f_equal fst) in E. apply (f_equal (fun q => Qnum (this q))) in E. vm_compute in E. discriminate E.
Qed.
Print Assumptions C96_again_refuted.
