(** Properties C26 to C30 and C64: the phase center catalog. *)
From Coq Require Import List ZArith Bool Arith String QArith Lia.
From Verif Require Import Lib.Py Lib.Np Lib.Slice Lib.Dict Model.PhaseCenter
  Spec.PhaseSpec Proofs.PhaseProofs Proofs.PhaseOps Proofs.PhaseSplit Proofs.PhaseMerge Proofs.PhasePhase Proofs.PhaseConsolidate
  Proofs.PhaseHistory Proofs.PhaseCases.
Import ListNotations.
Open Scope Z_scope.
Open Scope list_scope.
Notation length := List.length.

(** C26: along every history of successful operations no row refers to a missing
    entry, ids are distinct and the count is right. *)
Theorem C26_catalog_never_dangles :
  forall s s', pc_consistent s -> pc_history s s' -> pc_consistent s'.
Proof. exact history_consistent. Qed.
Print Assumptions C26_catalog_never_dangles.

(** split row 1 off "b", phase row 3 to "c", merge "a" with the split-off entry,
    and drop what is unused *)
Example C26_case : exists s', pc_history sky s' /\ pc_ids s' = [0; 0; 0; 4; 1] /\ map fst (pc_cat s') = [0; 1; 4] /\ pc_n s' = 3%nat.
Proof.
  eexists. split.
  { eapply Hist_cons.
    { apply (St_split first_of (ByName "b") (Some "b2"%string) (Rows [1]) None false). apply first_picks. vm_compute. reflexivity. }
    eapply Hist_cons.
    { apply (St_phase first_of "c" (star 3 0) (Some [false; false; false; true; false]) false). apply first_picks. vm_compute. reflexivity. }
    eapply Hist_cons.
    { apply (St_merge [ById 0; ById 3] true false).
      - intros [|[|a]] [|[|b]] i j k Hi Hj; simpl in *; try (destruct a; discriminate); try (destruct b; discriminate); try reflexivity;
          injection Hi as <-; injection Hj as <-; simpl; intros H1 H2; subst; discriminate.
      - vm_compute. reflexivity. }
    eapply Hist_cons.
    { apply St_clear. vm_compute. reflexivity. }
    apply Hist_nil. }
  repeat split.
Qed.

(** Merging a list that names an entry twice deletes the entry rows refer to. *)
Theorem C26_merge_named_twice_refuted :
  exists s l s', pc_consistent s /\ merge_phase_centers l false false s = Ok s' /\
    exists r, (r < length (pc_ids s'))%nat /\ ~ exists e, points s' r e.
Proof.
  exists sky, [ByName "a"; ByName "a"]. destruct merge_repeated as (s' & H & Hi & Hp). exists s'.
  split; [exact sky_consistent|]. split; [exact H|]. exists 0%nat. split; [rewrite Hi; simpl; lia|exact Hp].
Qed.
Print Assumptions C26_merge_named_twice_refuted.

(** C27: a requested id is given if and only if it is free. *)
Theorem C27_requested_id :
  forall pop cat c old reserved, (forall o, old = Some o -> exists keys, cat = Some keys /\ In o keys) ->
  (generate_new_phase_center_id pop cat (Some c) old reserved = Ok c /\ ~ in_use cat old reserved c) \/
  (generate_new_phase_center_id pop cat (Some c) old reserved = Err ValueError /\ in_use cat old reserved c).
Proof. intros pop cat c old reserved H. apply generate_requested. destruct old; [exact (H _ eq_refl)|exact I]. Qed.
Print Assumptions C27_requested_id.

(** An old id that is not in the catalog is an error. *)
Theorem C27_unknown_old_id :
  forall pop cat id o reserved, ~ (exists keys, cat = Some keys /\ In o keys) ->
  generate_new_phase_center_id pop cat id (Some o) reserved = Err ValueError.
Proof. intros pop cat id o reserved H. apply generate_err. exact H. Qed.
Print Assumptions C27_unknown_old_id.

(** Without a request: the old id if it may be kept, otherwise a free one, not
    negative and at most the number of ids in use - whichever element set.pop gives. *)
Theorem C27_fresh_id :
  forall pop cat old reserved, picks pop -> (forall o, old = Some o -> exists keys, cat = Some keys /\ In o keys) ->
  exists n, generate_new_phase_center_id pop cat None old reserved = Ok n /\ ~ in_use cat old reserved n /\
    (forall o, old = Some o -> ~ in_use cat old reserved o -> n = o) /\
    ((old = None \/ exists o, old = Some o /\ in_use cat old reserved o) ->
       0 <= n /\ exists l, (forall i, In i l -> in_use cat old reserved i) /\ NoDup l /\ n <= Z.of_nat (length l)).
Proof. intros pop cat old reserved Hp H. apply generate_fresh; [exact Hp|]. destruct old; [exact (H _ eq_refl)|exact I]. Qed.
Print Assumptions C27_fresh_id.

Example C27_case : generate_new_phase_center_id first_of (Some [0; 1; 4]) None (Some 1) (Some [1; 2]) = Ok 3 /\
  generate_new_phase_center_id last_of (Some [0; 1; 4]) None None None = Ok 3 /\
  generate_new_phase_center_id first_of (Some [0; 1; 4]) (Some 4) None None = Err ValueError /\
  generate_new_phase_center_id first_of (Some [0; 1; 4]) None (Some 4) None = Ok 4 /\
  generate_new_phase_center_id first_of None None None None = Ok 0 /\ picks first_of /\ picks last_of.
Proof. repeat (split; [reflexivity|]). split; [apply first_picks|apply last_picks]. Qed.

(** C28, splitting: the selected rows of the source get an entry with the new name
    and the same position; every other row and entry is unchanged. *)
Theorem C28_split_only_relabels :
  forall pop i nm mask id down s s', picks pop -> pc_consistent s ->
  split_phase_center pop i nm mask id down s = Ok s' ->
  exists c, (forall k, named_by s i k <-> k = c) /\ pc_consistent s' /\ length (pc_ids s') = length (pc_ids s) /\
    (forall r e, points s r e ->
       (chosen (length (pc_ids s)) mask r /\ nth_error (pc_ids s) r = Some c ->
          exists e', points s' r e' /\ e_name e' = new_label nm e /\ same_place (e_coords e) (e_coords e')) /\
       (~ (chosen (length (pc_ids s)) mask r /\ nth_error (pc_ids s) r = Some c) ->
          points s' r e /\ nth_error (pc_ids s') r = nth_error (pc_ids s) r)) /\
    (forall k e, stored s k e -> k <> c -> stored s' k e).
Proof. exact split_relabels. Qed.
Print Assumptions C28_split_only_relabels.

(** With a new name the selected rows are told apart from the other rows of the source. *)
Theorem C28_split_separates :
  forall pop i nm mask id down s s' c e r r', picks pop -> pc_consistent s ->
  split_phase_center pop i (Some nm) mask id down s = Ok s' -> named_by s i c -> stored s c e -> e_name e <> nm ->
  nth_error (pc_ids s) r = Some c -> nth_error (pc_ids s) r' = Some c ->
  chosen (length (pc_ids s)) mask r -> ~ chosen (length (pc_ids s)) mask r' ->
  nth_error (pc_ids s') r <> nth_error (pc_ids s') r'.
Proof. exact split_separates. Qed.
Print Assumptions C28_split_separates.

Example C28_split_case : exists s', split_phase_center first_of (ByName "b") (Some "b2"%string) (Rows [-1]) None false sky = Ok s' /\
  pc_ids s' = [0; 1; 0; 2; 3] /\ stored s' 3 (entry "b2" (star 2 (1 # 2))) /\ stored s' 1 (entry "b" (star 2 (1 # 2))).
Proof. eexists. split; [vm_compute; reflexivity|]. split; [reflexivity|]. split; in_list. Qed.

(** Without a new name (the default) a split of part of the rows does nothing. *)
Theorem C28_split_keeping_the_name_refuted :
  exists s i c r r', pc_consistent s /\ named_by s i c /\
    nth_error (pc_ids s) r = Some c /\ nth_error (pc_ids s) r' = Some c /\ r <> r' /\
    split_phase_center first_of i None (Rows [Z.of_nat r]) None false s = Ok s.
Proof.
  exists sky, (ByName "b"), 1, 1%nat, 4%nat. split; [exact sky_consistent|].
  split; [exists (entry "b" (star 2 (1 # 2))); split; [in_list|reflexivity]|].
  split; [reflexivity|]. split; [reflexivity|]. split; [discriminate|]. exact split_same_name.
Qed.
Print Assumptions C28_split_keeping_the_name_refuted.

(** C28, merging: exactly the rows of the listed entries move to the first one,
    exactly the other listed entries go, and without force_merge the merged entries
    agree.  Fewer than two entries: nothing happens. *)
Theorem C28_merge_only_relabels :
  forall l force ign s s', pc_consistent s -> named_once s l ->
  merge_phase_centers l force ign s = Ok s' ->
  let listed k := exists i, In i l /\ named_by s i k in
  pc_consistent s' /\
  ((exists first, (exists i, nth_error l 0 = Some i /\ named_by s i first) /\
     length (pc_ids s') = length (pc_ids s) /\
     (forall r k, nth_error (pc_ids s) r = Some k ->
        (listed k -> nth_error (pc_ids s') r = Some first) /\
        (~ listed k -> nth_error (pc_ids s') r = Some k)) /\
     (forall k e, stored s' k e <-> stored s k e /\ (listed k -> k = first)) /\
     (force = false -> forall k e, listed k -> stored s k e ->
        k = first \/ exists e1, stored s first e1 /\ matches ign e e1)) \/
   (s' = s /\ forall k k', listed k -> listed k' -> k = k')).
Proof. exact merge_relabels. Qed.
Print Assumptions C28_merge_only_relabels.

Example C28_merge_case : pc_consistent twins /\ named_once twins [ByName "a"] /\
  exists s', merge_phase_centers [ByName "a"] false false twins = Ok s' /\ pc_ids s' = [0; 1; 0; 0] /\ map fst (pc_cat s') = [0; 1].
Proof.
  split; [exact twins_consistent|]. split.
  - intros [|a] [|b] i j k Hi Hj; simpl in *; try (destruct a; discriminate); try (destruct b; discriminate). reflexivity.
  - eexists. split; [vm_compute; reflexivity|]. split; reflexivity.
Qed.

(** C29: consolidation succeeds, every row keeps the position (and name) it pointed
    at, rows share an id exactly when they did, and every entry of the reference is
    there under its own id. *)
Theorem C29_consolidation_keeps_every_description :
  forall pop ref ign s, picks pop -> pc_consistent s -> catalog_ok ref -> distinguishable ign s ref ->
  exists s', consolidate pop ref ign s = Ok s' /\ pc_consistent s' /\
    (length (pc_ids s') = length (pc_ids s) /\
     (forall r e, points s r e -> exists e', points s' r e' /\ alike ign e e') /\
     (forall r r', nth_error (pc_ids s') r = nth_error (pc_ids s') r' <-> nth_error (pc_ids s) r = nth_error (pc_ids s) r')) /\
    (forall k e', stored s' k e' -> exists k0 e0, In (k0, e0) (pc_cat s ++ ref) /\ alike ign e0 e') /\
    (forall k r, In (k, r) ref -> exists e, stored s' k e /\ matches ign r e).
Proof. exact consolidate_effect. Qed.
Print Assumptions C29_consolidation_keeps_every_description.

Example C29_case : pc_consistent sky /\ catalog_ok atlas /\ distinguishable false sky atlas /\
  exists s', consolidate last_of atlas false sky = Ok s' /\ pc_ids s' = [1; 4; 1; 2; 4] /\
    pc_cat s' = [(4, entry "b" (star 2 (1 # 2))); (2, entry "zen" zenith); (1, entry "a" (star 1 0)); (0, entry "c" (star 3 0))].
Proof.
  split; [exact sky_consistent|]. split; [exact atlas_ok|]. split; [exact sky_atlas|].
  eexists. split; [vm_compute; reflexivity|]. split; reflexivity.
Qed.

(** Two reference entries that one entry answers: the earlier id disappears. *)
Theorem C29_alike_reference_entries_refuted :
  exists s ref s' k r, pc_consistent s /\ catalog_ok ref /\ consolidate first_of ref true s = Ok s' /\
    In (k, r) ref /\ ~ exists e, stored s' k e.
Proof.
  destruct consolidate_loses as (s' & H & Hn & _). exists sky, atlas2, s', 7, (entry "a" (star 1 0)).
  split; [exact sky_consistent|]. split; [exact atlas2_ok|]. split; [exact H|]. split; [left; reflexivity|exact Hn].
Qed.
Print Assumptions C29_alike_reference_entries_refuted.

(** C30 *)
Theorem C30_clearing_is_exact :
  forall s, pc_consistent s -> exists s', clear_unused_phase_centers s = Ok s' /\ pc_consistent s' /\
  pc_ids s' = pc_ids s /\ (forall k e, stored s' k e <-> stored s k e /\ In k (pc_ids s)).
Proof. exact clear_exact. Qed.
Print Assumptions C30_clearing_is_exact.

Example C30_case : let s := mkpc (pc_cat sky) 3 [2; 0; 2] in pc_consistent s /\
  exists s', clear_unused_phase_centers s = Ok s' /\ map fst (pc_cat s') = [0; 2] /\ pc_n s' = 2%nat.
Proof.
  split; [|eexists; split; [vm_compute; reflexivity|split; reflexivity]].
  destruct sky_consistent as (H1 & H2 & _). apply consistent_keys. split; [exact H1|]. split; [exact H2|].
  intros k Hk. simpl in *. intuition.
Qed.

(** C64: phasing to a new name points exactly the selected rows at an entry with
    the name and position asked for. *)
Theorem C64_phasing_to_a_new_name :
  forall pop name p mask cleanup s s', picks pop -> pc_consistent s ->
  (forall k e, stored s k e -> e_name e <> name) ->
  phase_catalog pop name p mask cleanup s = Ok s' ->
  pc_consistent s' /\ length (pc_ids s') = length (pc_ids s) /\
  forall r e, points s r e ->
    (chosen (length (pc_ids s)) (mask_of mask) r ->
       exists e', points s' r e' /\ e_name e' = name /\ place_asked p (e_coords e')) /\
    (~ chosen (length (pc_ids s)) (mask_of mask) r -> points s' r e).
Proof. exact phase_new_name. Qed.
Print Assumptions C64_phasing_to_a_new_name.

Example C64_new_name_case : exists s', phase_catalog last_of "c" (mkcoords None (Some (Num 3%Q)) (Some (Num 0%Q)) (Some "icrs"%string) None None None None None None)
    (Some [false; true; false; true; false]) true sky = Ok s' /\ pc_ids s' = [0; 3; 0; 3; 1] /\ map fst (pc_cat s') = [0; 1; 3] /\
    (forall k e, stored sky k e -> e_name e <> "c"%string) /\ stored s' 3 (entry "c" (star 3 0)).
Proof.
  eexists. split; [vm_compute; reflexivity|]. split; [reflexivity|]. split; [reflexivity|]. split; [|in_list].
  intros k e H. unfold stored in H. simpl in H. intuition; match goal with H : (_, _) = (_, _) |- _ => injection H as <- <- end; discriminate.
Qed.

(** Asking for the name and position of a stored entry: selected rows point at an
    entry of that name and position, other rows are unchanged.  (Closeness is not
    transitive: the entry chosen is close to one that is close to what was asked.) *)
Theorem C64_phasing_to_a_stored_position :
  forall pop name p mask cleanup s s' k0 e0, picks pop -> pc_consistent s ->
  stored s k0 e0 -> e_name e0 = name -> same_place p (e_coords e0) -> c_epoch p <> None ->
  phase_catalog pop name p mask cleanup s = Ok s' ->
  pc_consistent s' /\ length (pc_ids s') = length (pc_ids s) /\
  forall r e, points s r e ->
    (chosen (length (pc_ids s)) (mask_of mask) r ->
       exists k1 e1 e2, points s' r e2 /\ e_name e2 = name /\
         stored s k1 e1 /\ e_name e1 = name /\ same_place p (e_coords e1) /\ same_place (e_coords e1) (e_coords e2)) /\
    (~ chosen (length (pc_ids s)) (mask_of mask) r -> points s' r e).
Proof. exact phase_stored_place. Qed.
Print Assumptions C64_phasing_to_a_stored_position.

Example C64_stored_case : exists s', phase_catalog first_of "b" (star 2 (1 # 2)) (Some [true; false; false; false; false]) false sky = Ok s' /\
  pc_ids s' = [1; 1; 0; 2; 1] /\ pc_cat s' = pc_cat sky.
Proof. eexists. split; [vm_compute; reflexivity|]. split; reflexivity. Qed.

(** C64: unprojecting moves exactly the selected rows that are not unprojected yet. *)
Theorem C64_unprojecting :
  forall pop name mask s s', picks pop -> pc_consistent s ->
  unproject_catalog pop name mask s = Ok s' ->
  pc_consistent s' /\ length (pc_ids s') = length (pc_ids s) /\
  forall r e, points s r e ->
    (chosen (length (pc_ids s)) (mask_of mask) r /\ ~ is_unprojected e ->
       exists e', points s' r e' /\ e_name e' = name /\ is_unprojected e') /\
    (~ (chosen (length (pc_ids s)) (mask_of mask) r /\ ~ is_unprojected e) -> points s' r e).
Proof. exact unproject_effect. Qed.
Print Assumptions C64_unprojecting.

Example C64_unproject_case : exists s', unproject_catalog first_of "up" (Some [true; true; false; true; false]) sky = Ok s' /\
  pc_ids s' = [3; 3; 0; 2; 1] /\ map fst (pc_cat s') = [0; 1; 2; 3].
Proof. eexists. split; [vm_compute; reflexivity|]. split; reflexivity. Qed.

(** Phasing selected rows to another position under a name already in the catalog
    replaces the stored entry, so rows outside the selection change position. *)
Theorem C64_phasing_overwrites_refuted :
  exists s name p m s', pc_consistent s /\ phase_catalog first_of name p (Some m) true s = Ok s' /\
    exists r e, points s r e /\ ~ chosen (length (pc_ids s)) (mask_of (Some m)) r /\ ~ points s' r e.
Proof.
  destruct phase_overwrites as (s' & H & _ & H1 & _ & H2).
  exists sky, "a"%string, (star 3 0), [false; true; false; false; false], s'. split; [exact sky_consistent|]. split; [exact H|].
  exists 0%nat, (entry "a" (star 1 0)). split; [exact H1|]. split; [intros [_ Hc]; discriminate|exact H2].
Qed.
Print Assumptions C64_phasing_overwrites_refuted.
