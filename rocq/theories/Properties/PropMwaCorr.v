(** C98: files of the MWA correlators. *)
From Coq Require Import List ZArith Bool Arith Lia Sorted.
From Verif Require Import Lib.Py Lib.Np Lib.Cube Model.MwaCorr Spec.MwaCorrSpec Proofs.MwaCorrProofs Proofs.MwaCorrMain.
Import ListNotations.
Notation length := List.length.
Open Scope list_scope.
Open Scope Z_scope.

(** Every input is carried by exactly one output, the one of the mapping. *)
Theorem C98_wiring : forall x, 0 <= x < 256 ->
  exists o, Dict.dget Z.eqb x input_output_mapping = Ok o /\ 0 <= o < 256 /\ forall o', carries o' x <-> o' = o.
Proof.
  intros x H. destruct (wired x H) as (o & E & C & O). exists o. split; [exact E|]. split; [exact O|].
  intros o'. split; [intros C'; exact (carries_inj _ _ _ C' C)|intros ->; exact C].
Qed.
Print Assumptions C98_wiring.

(** Row (i, k) of polarization (p1, p2) is the conjugate of the correlator's product of the outputs
    that carry the inputs of these antennas and feeds, however the antennas are listed; each pair of
    antennas has a row. *)
Theorem C98_visibilities : forall ants tiles raw product,
  all_antennas ants -> packed raw product -> hermitian product ->
  exists rows pols data, legacy_read ants tiles raw = Ok (rows, pols, data) /\ pols = [-5; -6; -7; -8] /\
  (forall row t1 t2, nth_error rows row = Some (t1, t2) ->
     exists i k, (i < 128)%nat /\ (k < 128)%nat /\ nth i ants 0 <= nth k ants 0 /\ t1 = nth i tiles 0 /\ t2 = nth k tiles 0 /\
     forall p1 p2 j, p1 = 0 \/ p1 = 1 -> p2 = 0 \/ p2 = 1 -> nth_error pols j = Some (pol_of p1 p2) ->
       exists o1 o2, carries o1 (2 * Z.of_nat i + p1) /\ carries o2 (2 * Z.of_nat k + p2) /\ data row j = product o2 o1) /\
  (forall i k, (i < 128)%nat -> (k < 128)%nat -> nth i ants 0 <= nth k ants 0 -> exists row, nth_error rows row = Some (nth i tiles 0, nth k tiles 0)) /\
  (2 * length rows = 128 * 129)%nat.
Proof. exact visibilities. Qed.
Print Assumptions C98_visibilities.

(** The data of each file go to the frequencies of its coarse channel, in the window of that
    channel; channels are in increasing order. *)
Theorem C98_channels : forall mwax chans included center cfine width n f c,
  StronglySorted Z.lt chans -> file_holds mwax chans f c -> In f included ->
  exists s, file_start mwax chans included n f = Ok s /\
  (consecutive chans -> forall k, (k < n)%nat ->
     nth_error (freq_array mwax chans included center cfine width n) (s + k) =
     Some (center + (c - nth (length chans / 2) chans 0) * cfine * width + Z.of_nat k * width)) /\
  (channel_missing mwax chans included -> forall k, (k < n)%nat -> nth_error (window_ids mwax chans included n) (s + k) = Some c) /\
  (~ channel_missing mwax chans included -> forall k, (k < n)%nat -> nth_error (window_ids mwax chans included n) (s + k) = Some 0) /\
  (forall g d t, file_holds mwax chans g d -> In g included -> c < d -> file_start mwax chans included n g = Ok t -> (s + n <= t)%nat).
Proof. exact channels. Qed.
Print Assumptions C98_channels.

(** Each file has one coarse channel and each coarse channel one file. *)
Theorem C98_files : forall mwax chans, StronglySorted Z.lt chans ->
  (forall f c d, file_holds mwax chans f c -> file_holds mwax chans f d -> c = d) /\
  (forall f g c, file_holds mwax chans f c -> file_holds mwax chans g c -> f = g).
Proof. intros mwax chans H. split; [intros f c d; apply holds_inj, H|intros f g c; apply holds_fun]. Qed.
Print Assumptions C98_files.

(** Routine flags: edges and centers of coarse channels, start and end of the observation. *)
Theorem C98_flags : forall ntimes ncoarse nfine width int_time edge_width start_flag end_flag dc flags,
  0 < width -> 0 < int_time -> 0 < nfine -> (width | edge_width) -> (int_time | start_flag) -> (int_time | end_flag) ->
  exists r, flag_init ntimes (nfine * ncoarse) nfine width int_time edge_width start_flag end_flag dc flags = Ok r /\
  forall t b c p, Z.of_nat t < ntimes -> Z.of_nat c < nfine * ncoarse ->
  let k := Z.of_nat c mod nfine in
  r t b c p = true <->
  flags t b c p = true \/ k * width < edge_width \/ (nfine - 1 - k) * width < edge_width \/ (dc = true /\ k = nfine / 2) \/
  Z.of_nat t * int_time < start_flag \/ (ntimes - 1 - Z.of_nat t) * int_time < end_flag.
Proof. exact flagged. Qed.
Print Assumptions C98_flags.
Theorem C98_flags_refused : forall ntimes nfreqs nfine width int_time edge_width start_flag end_flag dc flags,
  0 < width -> 0 < int_time -> ~ (width | edge_width) \/ ~ (int_time | start_flag) \/ ~ (int_time | end_flag) ->
  flag_init ntimes nfreqs nfine width int_time edge_width start_flag end_flag dc flags = Err ValueError.
Proof. exact flag_refused. Qed.
Print Assumptions C98_flags_refused.

(** Data that no file has are flagged. *)
Theorem C98_missing : forall ncoarse nfine have t i k, (i < ncoarse)%nat -> (k < nfine)%nat ->
  (coarse_flags false ncoarse nfine have t (i * nfine + k) = true <-> have t i = false) /\
  (coarse_flags true ncoarse nfine have t (i * nfine + k) = true <-> exists j, (j < ncoarse)%nat /\ have t j = false).
Proof.
  intros n m have t i k Hi Hk. unfold coarse_flags. split.
  - assert (E : ((i * m + k) / m)%nat = i) by (symmetry; apply (Nat.div_unique _ m _ k); [exact Hk|rewrite Nat.mul_comm; reflexivity]). rewrite E. destruct (have t i); cbn; intuition discriminate.
  - rewrite existsb_exists. setoid_rewrite in_seq. split; [intros (j & Hj & E); exists j; split; [lia|]; destruct (have t j); [discriminate E|reflexivity]|].
    intros (j & Hj & E); exists j; split; [lia|]; rewrite E; reflexivity.
Qed.
Print Assumptions C98_missing.

(** Rows of antennas marked in the metafits file are flagged, and no other row is. *)
Theorem C98_antennas : forall ants tiles marks flags row i k t c p,
  all_antennas ants -> length tiles = 128%nat -> NoDup tiles -> length marks = 128%nat -> (i < 128)%nat -> (k < 128)%nat ->
  nth_error (pairs_of (sorted_tiles ants tiles)) row = Some (nth i tiles 0, nth k tiles 0) ->
  flag_ants ants marks flags t row c p = true <-> flags t row c p = true \/ nth i marks false = true \/ nth k marks false = true.
Proof. exact bad_antennas. Qed.
Print Assumptions C98_antennas.

(** ** Cases *)
Definition listed : list Z := rev indices.
Definition products (a b : Z) : cplx := (a + b, a - b).
Definition file_data (k : Z) : cplx :=
  let A := (Z.sqrt (2 * k + 1) - 1) / 2 in
  let x := k - 2 * A * (A + 1) in products (2 * A + x mod 4 / 2) (2 * (x / 4) + x mod 2).
Example C98_packed_case : packed file_data products /\ hermitian products.
Proof.
  split; [|intros a b; unfold products, cconj; cbn; f_equal; lia].
  intros A B p q H L P Q. unfold file_data. set (x := 4 * B + 2 * p + q).
  replace (2 * A * (A + 1) + 4 * B + 2 * p + q) with (2 * A * (A + 1) + x) by lia.
  assert (X : 0 <= x <= 4 * A + 3) by lia.
  pose proof (Z.sqrt_spec (2 * (2 * A * (A + 1) + x) + 1) ltac:(nia)) as SQ. set (s := Z.sqrt (2 * (2 * A * (A + 1) + x) + 1)) in *. cbv zeta in SQ.
  assert (S1 : 2 * A + 1 <= s) by nia. assert (S2 : s < 2 * A + 3) by nia.
  assert (E : (s - 1) / 2 = A) by (Z.to_euclidean_division_equations; lia). rewrite E.
  replace (2 * A * (A + 1) + x - 2 * A * (A + 1)) with x by lia.
  f_equal; unfold x; Z.to_euclidean_division_equations; lia.
Qed.
Example C98_antennas_case : all_antennas listed /\ nth 0 listed 0 = 127.
Proof.
  split; [|reflexivity]. split; [reflexivity|]. split; [apply NoDup_rev, (Sorting.StronglySorted_Zlt_NoDup _ indices_sorted)|].
  intros a Ha. apply in_rev in Ha. apply in_map_iff in Ha as (i & <- & Hi). apply in_seq in Hi. lia.
Qed.
(** Channels 127 to 131: files 1 and 2 hold channels 127 and 128, files 3, 4 and 5 hold 131, 130
    and 129; without file 4 there are gaps, and windows. *)
Definition chans : list Z := [127; 128; 129; 130; 131].
Example C98_channels_case :
  StronglySorted Z.lt chans /\ consecutive chans /\ file_holds false chans 3 131 /\ file_holds false chans 5 129 /\ ordered_files false chans = [1; 2; 5; 4; 3] /\
  file_start false chans [1; 3; 5] 2 3 = Ok 4%nat /\ freq_array false chans [1; 3; 5] 1000 2 10 2 = [960; 970; 1000; 1010; 1040; 1050] /\
  window_ids false chans [1; 3; 5] 2 = [127; 127; 129; 129; 131; 131] /\ channel_missing false chans [1; 3; 5].
Proof.
  split; [apply increasing_sorted; reflexivity|].
  split; [intros i Hi; cbn in Hi; do 5 (destruct i as [|i]; [reflexivity|]); lia|].
  split; [split; [cbn; tauto|reflexivity]|]. split; [split; [cbn; tauto|reflexivity]|]. do 4 (split; [reflexivity|]).
  exists 129, 130, 131, 5, 3. split; [cbn; tauto|]. split; [lia|]. split; [split; [cbn; tauto|reflexivity]|]. split; [cbn; tauto|]. split; [split; [cbn; tauto|reflexivity]|]. split; [cbn; tauto|].
  intros h [_ Hh]. vm_compute in Hh. subst h. cbn. lia.
Qed.
Example C98_flags_case : exists r, flag_init 4 16 8 40 2 80 2 0 true (fun _ _ _ _ => false) = Ok r /\
  map (fun c => r 1%nat 0%nat c 0%nat) (seq 0 16) = [true; true; false; false; true; false; true; true; true; true; false; false; true; false; true; true] /\
  r 0%nat 0%nat 2%nat 0%nat = true.
Proof. eexists. split; [vm_compute; reflexivity|]. split; vm_compute; reflexivity. Qed.

(** Coarse channels that are not consecutive get the frequencies of consecutive ones. *)
Theorem C98_frequencies_refuted : exists chans included center cfine width n f c s,
  StronglySorted Z.lt chans /\ file_holds true chans f c /\ In f included /\ (forall d, In d chans -> In d included) /\
  file_start true chans included n f = Ok s /\
  nth_error (freq_array true chans included center cfine width n) s <> Some (center + (c - nth (length chans / 2) chans 0) * cfine * width) /\
  window_ids true chans included n = repeat 0 (length chans * n).
Proof.
  exists [60; 65; 90], [60; 65; 90], 2000, 4, 10, 4%nat, 90, 90, 8%nat.
  split; [apply increasing_sorted; reflexivity|]. split; [split; [cbn; tauto|reflexivity]|]. split; [cbn; tauto|]. split; [auto|].
  split; [reflexivity|]. split; [vm_compute; discriminate|]. reflexivity.
Qed.
Print Assumptions C98_frequencies_refuted.
