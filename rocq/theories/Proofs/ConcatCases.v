(** Concrete concatenations *)
From Coq Require Import List ZArith Bool Arith QArith Lia String.
From Verif Require Import Lib.Py Lib.Np Lib.Cube Lib.Dict Model.UVData Model.Reorder Model.Freq Model.Tools Model.Times Model.PhaseCenter Model.Param Model.Add Model.Concat
  Spec.UVDataSpec Spec.BltSpec Spec.FreqSpec Spec.PhaseSpec Spec.AddSpec Spec.ConcatSpec
  Proofs.PhaseProofs Proofs.PhaseOps Proofs.PhaseCases Proofs.AddCases Proofs.ConcatProofs.
Import ListNotations.
Notation length := List.length.
Open Scope Z_scope.

Definition exact_ctols : concat_tols := mkCtols (0, 0)%Q (0, 0)%Q (0, 0)%Q (0, 0)%Q (0, 0)%Q (0, 0)%Q.
Lemma exact_ctols_ok : ctols_ok exact_ctols.
Proof. split; unfold Qle; cbn; lia. Qed.

(** three nights *)
Definition night_1 := obs 1000 [(1, 10); (1, 20)] [(0, 100); (5, 100)] [0; 5] [-5; -6] [0; 1] cat_a.
Definition night_2 := obs 2000 [(2, 10)] [(0, 100); (5, 100)] [0; 5] [-5; -6] [1] (rev cat_a).
Definition night_3 := obs 3000 [(3, 20); (3, 10)] [(0, 100); (5, 100)] [0; 5] [-5; -6] [1; 0] cat_a.
(** more channels, another polarization *)
Definition upper_band := obs 1000 [(1, 10); (1, 20)] [(7, 300); (0, 200); (5, 150)] [7; 0; 5] [-5; -6] [0; 1] cat_a.
Definition cross_hand := obs 1000 [(1, 10); (1, 20)] [(0, 100); (5, 100)] [0; 5] [-7] [0; 1] cat_a.
(** another catalog *)
Definition night_4 := obs 4000 [(4, 10); (4, 20)] [(0, 100); (5, 100)] [0; 5] [-5; -6] [0; 1] cat_b.

Lemma obs_shaped base rows chans spws pols ids cat : length ids = length rows -> blt_shaped (ad_uvd (obs base rows chans spws pols ids cat)).
Proof. intros H. unfold blt_shaped, obs, ad_uvd. cbn. rewrite !map_length. repeat split. exact H. Qed.
Lemma obs_freq_shaped base rows chans spws pols ids cat : freq_shaped (ad_uvd (obs base rows chans spws pols ids cat)).
Proof. unfold freq_shaped, obs, ad_uvd. cbn. rewrite !map_length. split; reflexivity. Qed.
Lemma obs_consistent base rows chans spws pols ids cat : NoDup (map fst cat) -> Forall (fun p => storable (snd p)) cat ->
  (forall k, In k ids -> In k (map fst cat)) -> pc_consistent (centers (obs base rows chans spws pols ids cat)).
Proof. intros H1 H2 H3. apply consistent_keys. split; [split; assumption|]. split; [reflexivity|exact H3]. Qed.

Ltac each := intros ? H; cbn [In] in H; repeat (destruct H as [<-|H]); try destruct H.
Ltac consist := apply obs_consistent; [nodupZ|storables|intros k Hk; simpl in *; intuition].

Lemma cat_a_clear : clear_catalog false cat_a.
Proof. intros k1 e1 k2 e2 H1 H2 [_ Hn]. specialize (Hn eq_refl). simpl in H1, H2. destruct H1 as [E1|[E1|[]]], H2 as [E2|[E2|[]]]; injection E1 as <- <-; injection E2 as <- <-; cbn in Hn; congruence. Qed.

Lemma nights_ok : (forall o, In o [night_1; night_2; night_3; upper_band; cross_hand] -> blt_shaped (ad_uvd o) /\ freq_shaped (ad_uvd o) /\
  pc_consistent (centers o) /\ same_catalog (ad_catalog o) cat_a).
Proof.
  each; (split; [apply obs_shaped; reflexivity|]); (split; [apply obs_freq_shaped|]); (split; [consist|]); intros k e; try reflexivity.
  simpl. tauto.
Qed.
Lemma fits_decide t axis a b : concat_compatible t axis a b = true -> fits t axis a b.
Proof. intros H. apply compatible_fits in H as [H _]. exact H. Qed.
Lemma nights_fit : forall b, In b [night_2; night_3] -> fits exact_ctols AxBlt night_1 b.
Proof. each; apply fits_decide; vm_compute; reflexivity. Qed.

Lemma night_4_ok : pc_consistent (centers night_4) /\ distinguishable false (centers night_1) (ad_catalog night_4).
Proof.
  split; [consist|]. intros k1 r1 k2 r2 e H1 H2 _ [_ N1] [_ N2]. specialize (N1 eq_refl). specialize (N2 eq_refl).
  simpl in H1, H2. destruct H1 as [E1|[E1|[]]], H2 as [E2|[E2|[]]]; injection E1 as <- <-; injection E2 as <- <-; cbn in N1, N2; congruence.
Qed.

(** one row each, with different phase centers of the same id *)
Definition target (tm : Z) (nm : string) (lon : Q) : addobj := obs tm [(tm, 10)] [(0, 100)] [0] [-5] [0] [(0, entry nm (star lon 0))].

(** flexible polarizations *)
Definition flexpol (o : addobj) (fp : list Z) : addobj :=
  mkAddobj (mkFreqobj (ad_uvd o) None (Some fp)) (ad_catalog o) (ad_Nphase o) (ad_telescope o) (ad_vis_units o).
(** a declared order and right counts *)
Definition declared (o : addobj) (order : option (list axis_key)) (nb nt : nat) : addobj :=
  let u := ad_uvd o in
  mkAddobj (mkFreqobj (mkUvd (time_array u) (lst_array u) (ant_1_array u) (ant_2_array u) (baseline_array u) (integration_time u) (uvw_array u)
    (phase_center_id_array u) (phase_center_app_ra u) (phase_center_app_dec u) (phase_center_frame_pa u) (freq_array u) (channel_width u)
    (flex_spw_id_array u) (spw_array u) (polarization_array u) (data_array u) (flag_array u) (nsample_array u) nb nt order
    (blts_are_rectangular u) (time_axis_faster_than_bls u) (Nants_telescope u)) None None) (ad_catalog o) (ad_Nphase o) (ad_telescope o) (ad_vis_units o).

(** The result of a successful concatenation *)
Definition is_ok {A} (x : result A) : bool := match x with Ok _ => true | Err _ => false end.
Definition joined_up (axis : concat_axis) (a : addobj) (l : list addobj) : addobj :=
  match fast_concat last_of exact_ctols false axis a l with Ok r => r | Err _ => a end.
Lemma joined_up_ok axis a l : is_ok (fast_concat last_of exact_ctols false axis a l) = true ->
  fast_concat last_of exact_ctols false axis a l = Ok (joined_up axis a l).
Proof. unfold joined_up. destruct (fast_concat _ _ _ _ _ _); [reflexivity|discriminate]. Qed.
