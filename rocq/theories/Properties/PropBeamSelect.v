(** C87: UVBeam.select keeps what is asked for. *)
From Coq Require Import List ZArith Bool Arith String Lia.
From Verif Require Import Lib.Py Lib.Np Lib.Dict Model.Pol Model.Select Spec.SelectSpec Model.BeamSelect Spec.BeamSelectSpec Proofs.BeamSelectProofs.
Import ListNotations.
Notation length := List.length.
Open Scope list_scope.
Open Scope Z_scope.

(** A request that fits the beam is carried out, and the result is the beam cut down to
    what was asked for: every axis holds the elements asked for, in the order of the beam,
    and every number is the one the beam had under the same labels. *)
Theorem C87_select chk r u : beam_ok u -> plain_power u -> fits r u -> pols_in_order r u ->
  exists u', beam_select chk r u = (u', None) /\ beam_ok u' /\ cut_down r u u'.
Proof. apply select_fits. Qed.
Print Assumptions C87_select.

(** Nothing else is carried out. *)
Theorem C87_accepts chk r u u' : beam_select chk r u = (u', None) -> fits r u.
Proof. apply select_accepts. Qed.
Print Assumptions C87_accepts.

(** Two selections in a row keep what both ask for: here the frequencies. *)
Theorem C87_twice chk chk' fs gs u u' u'' :
  let on := fun l => mkBeamRequest None None None (Some l) None None None in
  beam_ok u -> plain_power u -> beam_select chk (on fs) u = (u', None) -> beam_select chk' (on gs) u' = (u'', None) ->
  keeps (fun v => In v fs /\ In v gs) (u_freqs u) (u_freqs u'').
Proof.
  intros on O P E1 E2. pose proof (select_accepts _ _ _ _ E1) as F1. pose proof (select_accepts _ _ _ _ E2) as F2.
  destruct (select_fits chk (on fs) u O P F1 I) as (v1 & X1 & O1 & C1). rewrite E1 in X1. apply pair_equal_spec in X1 as (<- & _).
  assert (P1 : plain_power u').
  { intros W. destruct (cd_same _ _ _ C1) as (A & B & C & D). rewrite A in W. destruct (P W) as (BN & PP). split.
    - pose proof (sn_basis _ _ (cd_numbers _ _ _ C1)) as Q. rewrite BN in Q. destruct (u_basis u'); tauto.
    - unfold beam_select in E1. apply and_then_ok in E1 as (u6 & E1 & E7). apply and_then_ok in E1 as (u5 & E1 & E6). apply and_then_ok in E1 as (u4 & E1 & E5).
      cbn [sel_axis1 sel_axis2 sel_pixels br_axis1 br_axis2 br_pixels on and_then fst snd] in E1. unfold and_then in E1. cbn [fst snd] in E1.
      cbn [on br_feeds br_pols sel_feeds sel_pols] in E5, E6. apply pair_equal_spec in E5 as (<- & _). apply pair_equal_spec in E6 as (<- & _).
      destruct (chk && negb (shapes_ok u4)); [apply pair_equal_spec in E7 as (_ & E7); discriminate E7|]. apply pair_equal_spec in E7 as (<- & _).
      destruct (freq_step (on fs) u O) as (w & Ew & _ & Cw & _).
      { cbn. destruct F1 as (_ & F1 & _). exact F1. } { exact I. }
      change (sel_freqs (Some fs) None u = (w, None)) in Ew. change (sel_freqs (Some fs) None u = (u4, None)) in E1. rewrite E1 in Ew. apply pair_equal_spec in Ew as (<- & _).
      apply (plain_cut _ _ Cw P). rewrite A. exact W. }
  destruct (select_fits chk' (on gs) u' O1 P1 F2 I) as (v2 & X2 & O2 & C2). rewrite E2 in X2. apply pair_equal_spec in X2 as (<- & _).
  destruct (cd_freqs _ _ _ C1) as (b1 & H1 & K1). destruct (cd_freqs _ _ _ C2) as (b2 & H2 & K2).
  exists (fun v => b1 v && b2 v). split.
  - intros x Ix. rewrite andb_true_iff.
    assert (W1 : wants_freq (on fs) u x <-> In x fs).
    { unfold wants_freq, on. cbn. split; [intros [(X & _) | [(l & X & J) | (l & c & j & X & _)]]; [discriminate | injection X as <-; exact J | discriminate] | intros J; right; left; eauto]. }
    assert (W2 : wants_freq (on gs) u' x <-> In x gs).
    { unfold wants_freq, on. cbn. split; [intros [(X & _) | [(l & X & J) | (l & c & j & X & _)]]; [discriminate | injection X as <-; exact J | discriminate] | intros J; right; left; eauto]. }
    split.
    + intros (B1 & B2). split; [apply W1, H1; assumption|]. apply W2, H2; [|exact B2]. rewrite K1. apply filter_In. auto.
    + intros (J1 & J2). assert (B1 : b1 x = true) by (apply H1, W1; assumption). split; [exact B1|]. apply H2; [|apply W2; exact J2]. rewrite K1. apply filter_In. auto.
  - rewrite K2, K1. clear. induction (u_freqs u) as [|a l IH]; [reflexivity|]. cbn [filter]. destruct (b1 a); cbn [andb filter]; rewrite IH; reflexivity.
Qed.
Print Assumptions C87_twice.

(** A dual-feed electric field beam of a phased array *)
Definition efield : ubeam :=
  {| u_power := false; u_phased := true; u_nvec := 2;
     u_pix := Grid [0; 10; 20] [5; 7]; u_freqs := [100; 110; 120]; u_feeds := ["x"; "y"]%string;
     u_pols := []; u_npols := 0; u_xo := Some "east"%string;
     u_data := fun v p f y x => (Z.of_nat ((((v * 10 + p) * 10 + f) * 10 + y) * 10 + x), 1);
     u_basis := Some {| bv_ny := 2; bv_nx := 3; bv_at := fun v c y x => Z.of_nat (((v * 10 + c) * 10 + y) * 10 + x) |};
     u_bandpass := [1; 2; 3]; u_rx := Some [7; 8; 9]; u_loss := None; u_mismatch := None;
     u_spar := Some [[1; 2; 3]; [4; 5; 6]; [7; 8; 9]; [0; 1; 2]];
     u_coupling := fun d e a b f => (Z.of_nat (a * 100 + b * 10 + f), 0) |}.
Definition ask : beam_request :=
  mkBeamRequest (Some [2; 0; 2]) None None (Some [120]) (Some [-3]) (Some ["N"%string]) None.
Lemma efield_ok : beam_ok efield.
Proof.
  constructor; cbn; try reflexivity; try exact I; try discriminate; auto; try (repeat constructor; cbn; intuition discriminate).
Qed.
Example C87_select_example : beam_ok efield /\ plain_power efield /\ fits ask efield /\ pols_in_order ask efield /\
  (let u := fst (beam_select true ask efield) in
   snd (beam_select true ask efield) = None /\ u_pix u = Grid [0; 20] [5; 7] /\ u_freqs u = [100; 120] /\ u_feeds u = ["y"%string] /\
   u_data u 1 0 1 1 1 = (11212, 1) /\ u_bandpass u = [1; 3] /\ u_rx u = Some [7; 9] /\
   u_spar u = Some [[1; 3]; [4; 6]; [7; 9]; [0; 2]] /\ u_coupling u 0%nat 0%nat 0%nat 0%nat 1%nat = (112, 0)).
Proof.
  split; [apply efield_ok|]. split; [intros W; discriminate W|]. split; [|split; [exact I|]].
  - eapply (select_accepts true _ _ (fst (beam_select true ask efield))). vm_compute. reflexivity.
  - vm_compute. repeat split; reflexivity.
Qed.
Example C87_accepts_example :
  snd (beam_select true (mkBeamRequest (Some []) None None None None None None) efield) = Some ValueError /\
  snd (beam_select true (mkBeamRequest (Some [3]) None None None None None None) efield) = Some ValueError /\
  snd (beam_select true (mkBeamRequest None (Some [-1]) None None None None None) efield) = Some ValueError /\
  snd (beam_select true (mkBeamRequest None None (Some [1]) None None None None) efield) = Some ValueError /\
  snd (beam_select true (mkBeamRequest None None None (Some [105]) None None None) efield) = Some ValueError /\
  snd (beam_select true (mkBeamRequest None None None None (Some [3]) None None) efield) = Some IndexError /\
  snd (beam_select true (mkBeamRequest None None None None None (Some ["r"%string]) None) efield) = Some ValueError /\
  snd (beam_select true (mkBeamRequest None None None None None None (Some [PolNum (-5)])) efield) = Some ValueError.
Proof. vm_compute. repeat split; reflexivity. Qed.
Example C87_twice_example : let on := fun l => mkBeamRequest None None None (Some l) None None None in
  beam_ok efield /\ plain_power efield /\
  snd (beam_select true (on [120; 100]) efield) = None /\
  snd (beam_select true (on [100]) (fst (beam_select true (on [120; 100]) efield))) = None.
Proof. split; [apply efield_ok|]. split; [intros W; discriminate W|]. vm_compute. split; reflexivity. Qed.

(** A power beam on a healpix grid *)
Definition power (b : option basis) (re : Z) : ubeam :=
  {| u_power := true; u_phased := false; u_nvec := 1;
     u_pix := Healpix [3; 4; 9]; u_freqs := [100]; u_feeds := []; u_pols := [-5; -6; -7; -8]; u_npols := 4; u_xo := None;
     u_data := fun v p f y x => (re * Z.of_nat (p * 10 + x + 1), 0);
     u_basis := b; u_bandpass := [1]; u_rx := None; u_loss := None; u_mismatch := None; u_spar := None;
     u_coupling := fun _ _ _ _ _ => (0, 0) |}.
Lemma power_ok b re : (forall v, b = Some v -> bv_ny v = 1%nat /\ bv_nx v = 3%nat) -> beam_ok (power b re).
Proof.
  intros H. constructor; cbn; try reflexivity; try exact I; try (repeat constructor; cbn; intuition discriminate).
  destruct b; [apply H|]; reflexivity.
Qed.
Lemma power_plain re : 0 <= re -> plain_power (power None re).
Proof. intros H _. split; [reflexivity|]. intros v p f y x _ _ _ _ _. cbn. lia. Qed.

Example C87_select_power_example :
  let r := mkBeamRequest None None (Some [9; 3]) None None None (Some [PolStr "xx"; PolNum (-6)]%string) in
  beam_ok (power None 2) /\ plain_power (power None 2) /\ fits r (power None 2) /\ pols_in_order r (power None 2) /\
  (let u := fst (beam_select true r (power None 2)) in
   u_pix u = Healpix [3; 9] /\ u_pols u = [-5; -6] /\ u_npols u = 2%nat /\ u_data u 0%nat 1%nat 0%nat 0%nat 1%nat = (26, 0)).
Proof.
  intros r. split; [apply power_ok; discriminate|]. split; [apply power_plain; lia|]. split; [|split].
  - eapply (select_accepts true _ _ (fst (beam_select true r (power None 2)))). vm_compute. reflexivity.
  - exists (fun p => (p =? -5) || (p =? -6)). cbn. repeat constructor.
  - vm_compute. repeat split; reflexivity.
Qed.

(** Polarizations asked for in another order: polarization_array follows the request and
    data_array the beam, so the numbers come back under the wrong labels. *)
Theorem C87_pol_order_refuted : exists r u u',
  beam_ok u /\ plain_power u /\ fits r u /\ beam_select true r u = (u', None) /\
  u_pols u' = [-6; -5] /\ nth 0 (u_pols u) 0 = -5 /\ u_data u' 0 1 0 0 0 <> u_data u 0 0 0 0 0 /\ ~ same_numbers u u'.
Proof.
  set (r := mkBeamRequest None None None None None None (Some [PolNum (-6); PolNum (-5)])).
  exists r, (power None 2), (fst (beam_select true r (power None 2))).
  assert (E : u_data (fst (beam_select true r (power None 2))) 0 1 0 0 0 <> u_data (power None 2) 0 0 0 0 0) by (vm_compute; discriminate).
  assert (S : beam_select true r (power None 2) = (fst (beam_select true r (power None 2)), None)) by (vm_compute; reflexivity).
  split; [apply power_ok; discriminate|]. split; [apply power_plain; lia|]. split; [exact (select_accepts _ _ _ _ S)|]. split; [exact S|].
  split; [vm_compute; reflexivity|]. split; [reflexivity|]. split; [exact E|]. intros N. apply E.
  apply (sn_data _ _ N); try (vm_compute; lia); try (split; vm_compute; lia); vm_compute; reflexivity.
Qed.
Print Assumptions C87_pol_order_refuted.

(** The same polarization twice: the check fails. *)
Theorem C87_pol_twice_refuted : exists r u, beam_ok u /\ plain_power u /\ fits r u /\
  snd (beam_select false r u) = None /\ snd (beam_select true r u) = Some ValueError.
Proof.
  set (r := mkBeamRequest None None None None None None (Some [PolNum (-5); PolNum (-5)])). exists r, (power None 2).
  split; [apply power_ok; discriminate|]. split; [apply power_plain; lia|].
  split; [|vm_compute; split; reflexivity]. eapply (select_accepts false _ _ (fst (beam_select false r (power None 2)))). vm_compute. reflexivity.
Qed.
Print Assumptions C87_pol_twice_refuted.

(** Power beams that have kept their basis vectors: these are not cut, and the check fails. *)
Theorem C87_power_basis_refuted : exists r u u',
  beam_ok u /\ u_power u = true /\ fits r u /\ pols_in_order r u /\
  beam_select false r u = (u', None) /\ u_pix u' = Healpix [9] /\ u_basis u' = u_basis u /\ u_basis u <> None /\
  snd (beam_select true r u) = Some ValueError.
Proof.
  set (b := {| bv_ny := 1; bv_nx := 3; bv_at := fun v c y x => Z.of_nat x |}).
  set (r := mkBeamRequest None None (Some [9]) None None None None).
  exists r, (power (Some b) 2), (fst (beam_select false r (power (Some b) 2))).
  assert (S : beam_select false r (power (Some b) 2) = (fst (beam_select false r (power (Some b) 2)), None)) by (vm_compute; reflexivity).
  split; [apply power_ok; intros v E; injection E as <-; auto|]. split; [reflexivity|]. split; [exact (select_accepts _ _ _ _ S)|]. split; [exact I|].
  split; [exact S|]. split; [vm_compute; reflexivity|]. split; [reflexivity|]. split; [discriminate|]. vm_compute. reflexivity.
Qed.
Print Assumptions C87_power_basis_refuted.

(** Dropping the cross polarizations takes absolute values: negative powers change sign. *)
Theorem C87_sign_refuted : exists r u u',
  beam_ok u /\ u_basis u = None /\ fits r u /\ pols_in_order r u /\ beam_select true r u = (u', None) /\
  u_pols u' = [-5] /\ u_data u 0%nat 0%nat 0%nat 0%nat 0%nat = (-2, 0) /\ u_data u' 0%nat 0%nat 0%nat 0%nat 0%nat = (2, 0).
Proof.
  set (r := mkBeamRequest None None None None None None (Some [PolNum (-5)])).
  exists r, (power None (-2)), (fst (beam_select true r (power None (-2)))).
  assert (S : beam_select true r (power None (-2)) = (fst (beam_select true r (power None (-2))), None)) by (vm_compute; reflexivity).
  split; [apply power_ok; discriminate|]. split; [reflexivity|]. split; [exact (select_accepts _ _ _ _ S)|].
  split; [exists (fun p => p =? -5); cbn; repeat constructor|]. split; [exact S|]. vm_compute. auto.
Qed.
Print Assumptions C87_sign_refuted.

(** A refused request in place leaves the beam half cut. *)
Theorem C87_half_done_refuted : exists r u u', beam_ok u /\ plain_power u /\ ~ fits r u /\
  beam_select true r u = (u', Some ValueError) /\ u_pix u' <> u_pix u.
Proof.
  set (r := mkBeamRequest (Some [1]) None None (Some [105]) None None None).
  exists r, efield, (fst (beam_select true r efield)).
  split; [apply efield_ok|]. split; [intros W; discriminate W|]. split; [|split; [vm_compute; reflexivity | vm_compute; discriminate]].
  intros (_ & F & _). cbn in F. specialize (F 105 (or_introl eq_refl)). cbn in F. intuition discriminate.
Qed.
Print Assumptions C87_half_done_refuted.
