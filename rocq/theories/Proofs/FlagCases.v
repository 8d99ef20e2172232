(** Concrete flag objects. *)
From Coq Require Import List ZArith Bool Arith Sorted Lia.
From Verif Require Import Lib.Py Lib.Np Lib.Cube Model.UVData Model.Access Model.UVFlag
  Spec.BlsSpec Spec.AccessSpec Spec.FlagSpec Proofs.Samples Proofs.AccessRead Proofs.FlagConvert Proofs.FlagApply.
Import ListNotations.
Open Scope Z_scope.
Open Scope list_scope.

(** rows are (time, ant1, ant2) *)
Definition flags_on (rows : list (Z * Z * Z)) (pols : list Z) (nt : nat) (fl : cube bool) : bflag :=
  {| f_time := map (fun r => fst (fst r)) rows; f_ant1 := map (fun r => snd (fst r)) rows; f_ant2 := map snd rows;
     f_bl := map (fun r => bl0 (snd (fst r)) (snd r)) rows; f_freq := [100; 200; 300]; f_pol := Pols pols;
     f_Ntimes := nt; f_Nants := 10; f_np := List.length pols; f_flags := fl |}.
Lemma flags_on_consistent rows pols nt fl : rows <> [] ->
  Forall (fun r => 0 <= snd (fst r) < 2048 /\ 0 <= snd r < 2048) rows -> flag_consistent (flags_on rows pols nt fl).
Proof.
  intros Hne H. unfold flag_consistent, flags_on. cbn [f_time f_ant1 f_ant2 f_bl f_Nants]. rewrite !map_length.
  split; [reflexivity|]. split; [reflexivity|]. split; [reflexivity|]. split; [destruct rows; [congruence|discriminate]|]. split; [lia|].
  exists 2048, 65536. split; [constructor|]. intros i Hi. rewrite Forall_forall in H.
  specialize (H (nth i rows (0, 0, 0)) (nth_In _ _ Hi)).
  rewrite !(nth_indep _ 0 (snd (fst (0, 0, 0)))) by (rewrite map_length; exact Hi).
  rewrite (map_nth (fun r : Z * Z * Z => snd (fst r))).
  rewrite (nth_indep (map snd rows) 0 (snd (0, 0, 0))) by (rewrite map_length; exact Hi). rewrite (map_nth snd rows (0, 0, 0)).
  rewrite (nth_indep _ _ (bl0 (snd (fst (0, 0, 0))) (snd (0, 0, 0)))) by (rewrite map_length; exact Hi).
  rewrite (map_nth (fun r => bl0 (snd (fst r)) (snd r))). unfold bl0. lia.
Qed.

(** The flags of an object as nested lists *)
Definition flag_list (n nf np : nat) (c : cube bool) : list (list (list bool)) :=
  map (fun i => map (fun j => map (fun p => c i j p) (seq 0 np)) (seq 0 nf)) (seq 0 n).
Definition applied (r : result uvd) : option (list (list (list bool))) :=
  match r with Ok u => Some (flag_list (Nblts u) (Nfreqs u) (Npols u) (flag_array u)) | Err _ => None end.

(** two times of one pair, two polarizations, nothing flagged *)
Definition clean (rows : list (Z * Z * Z)) (pols : list Z) (nb nt : nat) : uvd :=
  set_flag_array (fun _ _ _ : nat => false) (sample rows pols nb nt None None false).
Lemma clean_consistent rows pols nb nt : rows <> [] -> pols <> [] ->
  Forall (fun r => 0 <= snd (fst r) < 2048 /\ 0 <= snd r < 2048) rows -> consistent (clean rows pols nb nt).
Proof. intros H1 H2 H3. pose proof (plain_consistent rows pols nb nt H1 H2 H3) as H. exact H. Qed.

Definition dark : uvd := clean [(1, 0, 1); (1, 2, 0); (2, 0, 1); (2, 2, 0)] [-5; -6] 2 2.
Lemma dark_consistent : consistent dark.
Proof. apply clean_consistent; [discriminate|discriminate|]. repeat constructor; simpl; lia. Qed.

(** channel 1 of the first time flagged *)
Definition stripe : wflag := mkw [1; 2] [100; 200; 300] (Pols [-5; -6]) (fun i j _ : nat => (i =? 0)%nat && (j =? 1)%nat).
Lemma stripe_clear : clear_times 0 (w_time stripe).
Proof.
  split; [repeat constructor|]. intros i j [H1 H2]. cbn in H2. destruct i as [|i]; destruct j as [|[|j]]; cbn; lia.
Qed.
