(** C52: histories. *)
From Coq Require Import List Bool Arith Ascii String.
From Verif Require Import Model.History Spec.HistorySpec Proofs.HistoryProofs.
Import ListNotations.
Open Scope string_scope.

(** Adding two objects along at least one axis *)
Theorem C52_add : forall verbose_history overwrote axes h1 h2, axes <> [] ->
  let r := add_history verbose_history overwrote axes h1 h2 in
  starts_with h1 r /\ recorded h1 r /\ recorded h2 r /\
  (verbose_history = true -> overwrote = false -> ~ same_text h1 h2 -> occurs h2 r).
Proof. exact add_history_spec. Qed.
Print Assumptions C52_add.

Theorem C52_fast_concat : forall verbose_history axis_name h others,
  let r := concat_history verbose_history axis_name h others in
  starts_with h r /\ recorded h r /\ (forall o, In o others -> recorded o r) /\
  (verbose_history = true -> forall o, In o others -> ~ same_text h o -> occurs o r).
Proof. exact concat_history_spec. Qed.
Print Assumptions C52_fast_concat.

Theorem C52_sum : forall verbose_history difference h1 h2,
  let r := sum_history verbose_history difference h1 h2 in
  starts_with h1 r /\ recorded h1 r /\ recorded h2 r /\ (verbose_history = true -> ~ same_text h1 h2 -> occurs h2 r).
Proof. exact sum_history_spec. Qed.
Print Assumptions C52_sum.

(** Histories that are the same up to spaces and line breaks add nothing *)
Theorem C52_same_histories : forall verbose_history h1,
  (forall axes h2, axes <> [] -> same_text h1 h2 ->
     add_history verbose_history false axes h1 h2 = h1 ++ " Combined data along " ++ join_axes axes ++ " axis using pyuvdata.") /\
  (forall axis_name others, (forall o, In o others -> same_text h1 o) ->
     concat_history verbose_history axis_name h1 others = h1 ++ " Combined data along " ++ axis_name ++ " axis using pyuvdata.") /\
  (forall difference h2, same_text h1 h2 -> sum_history verbose_history difference h1 h2 =
     h1 ++ (if difference then " Visibilities differenced using pyuvdata." else " Visibilities summed using pyuvdata.")).
Proof.
  exact (fun v h => conj (fun axes h2 => same_histories_add v axes h h2)
    (conj (fun n o => same_histories_concat v n h o) (fun d h2 => same_histories_sum v d h h2))).
Qed.
Print Assumptions C52_same_histories.

(** What is added is exactly the words that are not there yet *)
Theorem C52_addition : forall h1 h2,
  match combine_history_addition h1 h2 with
  | None => same_text h1 h2 \/ forall w, is_word w h2 -> is_word w h1
  | Some extra => ~ same_text h1 h2 /\ exists ws, ws <> [] /\ extra = spell ws /\
      (forall w, In w ws <-> is_word w h2 /\ ~ is_word w h1)
  end.
Proof. exact addition_spec. Qed.
Print Assumptions C52_addition.

(** Combining with the same history a second time adds nothing *)
Theorem C52_addition_again : forall h1 h2 extra sep, (exists t, sep = " " ++ t) ->
  combine_history_addition h1 h2 = Some extra -> combine_history_addition (h1 ++ sep ++ extra) h2 = None.
Proof. exact addition_again. Qed.
Print Assumptions C52_addition_again.

(** A version string that is already in the history is found there *)
Theorem C52_version_found : forall h1 version h2, one_line version -> check_history_version (h1 ++ version ++ h2) version = true.
Proof. exact version_found. Qed.
Print Assumptions C52_version_found.

Example C52_case :
  ["baseline-time"] <> [] /\ one_line " Read with pyuvdata." /\
  add_history false false ["baseline-time"] "made by a" "calibrated by b using c d" =
    "made by a Combined data along baseline-time axis using pyuvdata. Unique part of next object history follows.  calibrated b c d" /\
  concat_history false "frequency" "made by a" ["made by b"; "made by b"; "madebya"] =
    "made by a Combined data along frequency axis using pyuvdata. Unique part of next object history follows.  b" /\
  combine_history_addition "made by a" "made by b" = Some " b" /\ same_text "made by a" "madebya".
Proof.
  split; [discriminate|]. split; [cbn; repeat split; discriminate|]. split; [reflexivity|]. split; [reflexivity|].
  split; [reflexivity|]. apply check_histories_spec. reflexivity.
Qed.

(** When the second object only overwrites invalid samples of the first, nothing of
    its history is kept, though the data are now its own. *)
Theorem C52_overwrite_refuted : exists h1 h2, ~ recorded h2 (add_history false true [] h1 h2) /\
  ~ recorded h2 (add_history true true [] h1 h2).
Proof.
  exists "made by a", "calibrated".
  assert (N : ~ recorded "calibrated" (add_history false true [] "made by a" "calibrated")).
  { intros [H|(p & (b & E) & H)].
    - assert (W : is_word "calibrated" "calibrated") by (apply is_word_split; left; reflexivity).
      specialize (H _ W). apply is_word_split in H. vm_compute in H. repeat destruct H as [H|H]; try discriminate H. exact H.
    - apply check_histories_spec in H. unfold check_histories in H. apply String.eqb_eq in H.
      destruct p as [|c p]; [discriminate H|]. injection E as <- E. discriminate H. }
  split; exact N.
Qed.
Print Assumptions C52_overwrite_refuted.
