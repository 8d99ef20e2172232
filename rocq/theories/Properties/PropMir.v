(** C53: spectral records of Mir files. *)
From Coq Require Import List ZArith Bool Arith Permutation.
From Verif Require Import Lib.Py Model.Mir Spec.MirSpec Proofs.MirWrite Proofs.MirTop Proofs.MirSeq Proofs.MirCases.
Import ListNotations.
Open Scope Z_scope.
Open Scope list_scope.

(** The records are written without an exception, and the file does not depend on
    the contents of fresh memory. *)
Theorem C53_write : forall f recs data, (0 < val_size f)%nat -> storable f recs data ->
  exists file, forall junk, write_data f junk recs data = Ok file.
Proof. intros f recs data Hv H. eexists. intros junk. exact (write_ok f junk recs data Hv H). Qed.
Print Assumptions C53_write.
Example C53_write_nonvacuous : (0 < val_size cross)%nat /\ (0 < val_size auto_)%nat /\ storable cross (List.concat some_parts) some_data.
Proof. split; [repeat constructor|]. split; [repeat constructor|exact some_storable]. Qed.

(** Integrations follow each other in the file in increasing order, records follow each
    other in their integration and end within it. *)
Theorem C53_layout : forall f recs ints pos, (0 < val_size f)%nat -> (forall s, In s recs -> (0 < integration_size f recs (s_inhid s))%nat) ->
  generate_recpos f recs None = Ok (ints, pos) ->
  packed_ints ints /\ map fst ints = map fst pos /\ (forall h, In h (map fst ints) <-> exists s, In s recs /\ s_inhid s = h) /\
  (forall h i rp, In (h, i) ints -> In (h, rp) pos ->
     packed_recs rp /\
     i_size i = (val_size f * integration_size f recs h)%nat /\
     Forall2 (fun s e => fst e = s_hid s /\ snd (snd e) = (fst (snd e) + rec_size f s)%nat /\ (val_size f * snd (snd e) <= i_size i)%nat) (of_integration h recs) rp).
Proof. exact layout_ok. Qed.
Print Assumptions C53_layout.
Example C53_layout_nonvacuous : generate_recpos cross (List.concat some_parts) None =
  Ok ([(2, mkI 2 6 0); (3, mkI 3 16 14); (5, mkI 5 24 38)],
      [(2, [(11, (0, 3)%nat)]); (3, [(10, (0, 5)%nat); (12, (5, 8)%nat)]); (5, [(20, (0, 5)%nat); (21, (5, 12)%nat)])]).
Proof. vm_compute. reflexivity. Qed.

(** A file of any number of writes, each of integrations of its own, is read back
    through a memory map: any selection of records, with the values written. *)
Theorem C53_round_trip : forall f parts data file sel, (0 < val_size f)%nat -> storable f (List.concat parts) data -> separate parts ->
  (ordered parts \/ uniform f (List.concat parts)) -> written f parts data file -> incl sel (List.concat parts) ->
  exists out, read_data f true file (List.concat parts) (offsets f parts) sel = Ok out /\ Permutation out (map (stored f data) sel).
Proof. exact round_trip. Qed.
Print Assumptions C53_round_trip.
Example C53_round_trip_nonvacuous : separate some_parts /\ ordered some_parts /\ written cross some_parts some_data (file_of cross some_parts some_data) /\
  read_data cross true (file_of cross some_parts some_data) (List.concat some_parts) (offsets cross some_parts) [mkSpec 5 21 3; mkSpec 3 12 1] =
    Ok [(12, (0, [-32768; -32768])); (21, (1, [1; 1; 2; 3; 5; 8]))].
Proof. split; [apply ordered_separate, some_ordered|]. split; [exact some_ordered|]. split; [exact some_written|vm_compute; reflexivity]. Qed.

(** Without a memory map the same holds if the integrations are of one size and there
    is no gap between those selected. *)
Theorem C53_sequential : forall f parts data file sel, (0 < val_size f)%nat -> storable f (List.concat parts) data -> ordered parts ->
  uniform f (List.concat parts) -> written f parts data file -> incl sel (List.concat parts) -> contiguous sel (List.concat parts) ->
  read_data f false file (List.concat parts) (offsets f parts) sel = read_data f true file (List.concat parts) (offsets f parts) sel.
Proof. exact sequential. Qed.
Print Assumptions C53_sequential.
Example C53_sequential_nonvacuous : uniform cross (List.concat [four]) /\ ordered [four] /\ written cross [four] four_data (file_of cross [four] four_data) /\
  contiguous [mkSpec 3 12 1; mkSpec 2 11 1] (List.concat [four]).
Proof.
  split; [exact four_uniform|]. split; [apply one_ordered|]. split; [exact four_written|].
  intros a b c Ha Hb Hc L. cbn in Ha, Hb, Hc. in_cases; cbn in L; exfalso; Lia.lia.
Qed.

(** Without a memory map, a selection with a gap silently reads other data. *)
Theorem C53_gap_refuted : exists recs data file sel out, storable cross recs data /\ uniform cross recs /\ written cross [recs] data file /\ incl sel recs /\
  read_data cross false file recs (offsets cross [recs]) sel = Ok out /\ ~ Permutation out (map (stored cross data) sel).
Proof. exact gap_wrong. Qed.
Print Assumptions C53_gap_refuted.

(** Without a memory map, integrations of different sizes cannot be read. *)
Theorem C53_sizes_refuted : exists recs data file, storable cross recs data /\ written cross [recs] data file /\
  read_data cross false file recs (offsets cross [recs]) recs = Err KeyError.
Proof. exact sizes_wrong. Qed.
Print Assumptions C53_sizes_refuted.

(** Records of one integration written in two goes are not both read. *)
Theorem C53_split_refuted : exists lower upper data file out, storable cross (lower ++ upper) data /\ written cross [lower; upper] data file /\
  read_data cross true file (lower ++ upper) (offsets cross [lower; upper]) (lower ++ upper) = Ok out /\
  ~ Permutation out (map (stored cross data) (lower ++ upper)).
Proof. exact split_wrong. Qed.
Print Assumptions C53_split_refuted.
