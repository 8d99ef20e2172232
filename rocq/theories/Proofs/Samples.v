(** Small concrete objects used in the examples beside the theorems. *)
From Coq Require Import List ZArith Bool Lia.
From Verif Require Import Lib.Py Lib.Np Lib.Cube Spec.BltSpec Spec.UVDataSpec Model.UVData.
Import ListNotations.
Open Scope Z_scope.

Definition bl0 (a b : Z) : Z := 2048 * a + b + 65536.

(** rows are (time, ant1, ant2) *)
Definition sample (rows : list (Z * Z * Z)) (pols : list Z) (nbls ntimes : nat)
    (order : option (list axis_key)) (rect : option bool) (faster : bool) : uvd :=
  let t := map (fun r => fst (fst r)) rows in
  {| time_array := t; lst_array := map (fun x => 10 * x) t;
     ant_1_array := map (fun r => snd (fst r)) rows; ant_2_array := map snd rows;
     baseline_array := map (fun r => bl0 (snd (fst r)) (snd r)) rows;
     integration_time := map (fun _ => 10) rows;
     uvw_array := map (fun r => (snd r - snd (fst r), 5, 1)) rows;
     phase_center_id_array := map (fun _ => 0) rows;
     phase_center_app_ra := t; phase_center_app_dec := t; phase_center_frame_pa := t;
     freq_array := [100; 200; 300]; channel_width := [100; 100; 100];
     flex_spw_id_array := [0; 0; 0]; spw_array := [0];
     polarization_array := pols;
     data_array := fun i j k => (Z.of_nat (100 * i + 10 * j + k), 1 + Z.of_nat i);
     flag_array := fun i j k => Nat.eqb i j;
     nsample_array := fun i j k => Z.of_nat (i + k);
     Nbls := nbls; Ntimes := ntimes; blt_order := order;
     blts_are_rectangular := rect; time_axis_faster_than_bls := faster;
     Nants_telescope := 4 |}.

Lemma sample_shaped rows pols nb nt o r f : blt_shaped (sample rows pols nb nt o r f).
Proof. repeat split; unfold sample; cbn; rewrite ?map_length; reflexivity. Qed.

Ltac distinct_by l := exists l; split; [repeat (constructor; [simpl; lia|]); constructor|split; [intros ?; simpl; tauto|reflexivity]].
Ltac records_by :=
  let i := fresh in let j := fresh in intros i j Hi Hj; unfold sample in *; simpl in Hi, Hj;
  do 8 (destruct i as [|i]; [do 8 (destruct j as [|j]; [try reflexivity; simpl; try lia; unfold bl0; lia|]); exfalso; lia|]); exfalso; lia.
