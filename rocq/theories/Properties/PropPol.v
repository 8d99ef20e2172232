(** Properties C13-C15: polarization numbers and names. *)
From Coq Require Import List ZArith String Sorted Permutation Lia.
From Verif Require Import Lib.Py Lib.Np Lib.Dict Model.Pol Spec.PolSpec Proofs.PolProofs.
Import ListNotations.
Notation length := List.length.
Open Scope Z_scope.

(** C13: number -> name -> number is the identity for every legal number, with
    every x_orientation argument; other numbers raise KeyError. *)
Theorem C13_polarization_names_round_trip :
  forall x_orientation pols, Forall legal_pol pols ->
  exists names, mapM (polnum2str x_orientation) pols = Ok names /\
                mapM (polstr2num x_orientation) names = Ok pols.
Proof. exact pol_list_round_trip. Qed.
Print Assumptions C13_polarization_names_round_trip.

Example C13_case : Forall legal_pol [-5; -8; 1; -3] /\
  mapM (polnum2str (Some "NORTH"%string)) [-5; -8; 1; -3] = Ok ["nn"; "en"; "pI"; "rl"]%string /\
  mapM (polnum2str (Some "e"%string)) [-5; -8; 1; -3] = Ok ["ee"; "ne"; "pI"; "rl"]%string.
Proof. repeat split; try reflexivity. unfold legal_pol. repeat constructor; lia. Qed.

Theorem C13_jones_names_round_trip :
  forall x_orientation jpols, Forall legal_jones jpols ->
  exists names, mapM (jnum2str x_orientation) jpols = Ok names /\
                mapM (jstr2num x_orientation) names = Ok jpols.
Proof. exact jones_list_round_trip. Qed.
Print Assumptions C13_jones_names_round_trip.

Example C13_jones_case : mapM (jnum2str (Some "east"%string)) [-5; -7; -1] = Ok ["Jee"; "Jen"; "Jrr"]%string.
Proof. reflexivity. Qed.

Theorem C13_illegal_numbers_raise :
  forall x_orientation n,
  (~ legal_pol n -> polnum2str x_orientation n = Err KeyError) /\
  (~ legal_jones n -> jnum2str x_orientation n = Err KeyError).
Proof. intros xo n. exact (conj (pol_illegal xo n) (jones_illegal xo n)). Qed.
Print Assumptions C13_illegal_numbers_raise.

Example C13_illegal_case : ~ legal_pol 0 /\ ~ legal_jones 1 /\ ~ legal_pol (-9).
Proof. unfold legal_pol, legal_jones. lia. Qed.

Theorem C13_names_distinct :
  forall x_orientation n m s,
  polnum2str x_orientation n = Ok s -> polnum2str x_orientation m = Ok s -> n = m.
Proof. exact pol_names_distinct. Qed.
Print Assumptions C13_names_distinct.

Theorem C13_parse_gives_canonical_name :
  forall x_orientation s t, parse_polstr x_orientation s = Ok t ->
  parse_polstr x_orientation t = Ok t /\ polstr2num x_orientation t = polstr2num x_orientation s.
Proof. exact parse_idempotent. Qed.
Print Assumptions C13_parse_gives_canonical_name.

Example C13_parse_case : parse_polstr (Some "north"%string) "XY" = Ok "ne"%string /\
  parse_polstr None "hv" = Ok "xy"%string.
Proof. split; reflexivity. Qed.

(** C14: conjugation is an involution on legal numbers, agrees with the names and
    exchanges the two feeds. *)
Theorem C14_conjugation_involution :
  forall n m, conj_pol n = Ok m -> conj_pol m = Ok n.
Proof. exact conj_pol_involution. Qed.
Print Assumptions C14_conjugation_involution.

Theorem C14_conjugation_total_on_legal :
  forall n, (legal_pol n -> conj_pol n = Ok (swapped n)) /\ (~ legal_pol n -> conj_pol n = Err KeyError).
Proof. intros n. exact (conj (conj_pol_legal n) (conj_pol_illegal n)). Qed.
Print Assumptions C14_conjugation_total_on_legal.

Example C14_case : conj_pol (-7) = Ok (-8) /\ conj_pol (-4) = Ok (-3) /\ conj_pol 2 = Ok 2.
Proof. repeat split; reflexivity. Qed.

Theorem C14_names_and_numbers_agree :
  forall x_orientation n, legal_pol n ->
  exists s c, polnum2str x_orientation n = Ok s /\ polnum2str x_orientation (swapped n) = Ok c /\
    conj_pol n = Ok (swapped n) /\ conj_pol_str s = Ok c /\ conj_pol_str c = Ok s.
Proof. exact conj_pol_strings_agree. Qed.
Print Assumptions C14_names_and_numbers_agree.

Theorem C14_conjugation_swaps_feeds :
  forall x_orientation n s f g, legal_pol n -> polnum2str x_orientation n = Ok s ->
  dget String.eqb s POL_TO_FEED_DICT = Ok (f, g) ->
  exists c, conj_pol_str s = Ok c /\ dget String.eqb c POL_TO_FEED_DICT = Ok (g, f).
Proof. exact conj_pol_feeds. Qed.
Print Assumptions C14_conjugation_swaps_feeds.

Example C14_feeds_case : polnum2str (Some "east"%string) (-7) = Ok "en"%string /\
  dget String.eqb "en"%string POL_TO_FEED_DICT = Ok ("e"%string, "n"%string) /\
  conj_pol_str "en" = Ok "ne"%string.
Proof. repeat split; vm_compute; reflexivity. Qed.

Theorem C14_string_conjugation_involution :
  forall s c, conj_pol_str s = Ok c -> exists t, conj_pol_str c = Ok t /\ lower t = lower s.
Proof. exact conj_pol_str_twice. Qed.
Print Assumptions C14_string_conjugation_involution.

Example C14_string_case : conj_pol_str "XY" = Ok "yx"%string /\ conj_pol_str "yx" = Ok "xy"%string /\
  lower "xy" = lower "XY".
Proof. repeat split; vm_compute; reflexivity. Qed.

(** Exactly the pseudo-Stokes and the equal-feed polarizations are fixed. *)
Theorem C14_fixed_points :
  forall n, legal_pol n ->
  (conj_pol n = Ok n <->
   0 < n \/ exists s f, polnum2str None n = Ok s /\ dget String.eqb s POL_TO_FEED_DICT = Ok (f, f)).
Proof. exact conj_pol_fixed_iff. Qed.
Print Assumptions C14_fixed_points.

(** C15: the reordering of a polarization axis by conjugation. *)
Theorem C15_reorder_conj_is_involution :
  forall pols, Forall legal_pol pols -> NoDup pols -> (forall p, In p pols -> In (swapped p) pols) ->
  exists order, reorder_conj_pols pols = Ok order /\ length order = length pols /\
   (forall i, (i < length pols)%nat ->
     (nth i order 0 < length pols)%nat /\ conj_pol (nth i pols 0) = Ok (nth (nth i order 0%nat) pols 0)
     /\ nth (nth i order 0%nat) order 0%nat = i) /\
   Permutation order (seq 0 (length pols)).
Proof. exact reorder_conj_involution. Qed.
Print Assumptions C15_reorder_conj_is_involution.

Example C15_case : reorder_conj_pols [-5; -7; -8; -6] = Ok [0; 2; 1; 3]%nat /\
  (forall p, In p [-5; -7; -8; -6] -> In (swapped p) [-5; -7; -8; -6]).
Proof.
  split; [reflexivity|]. intros p H. simpl in H.
  repeat (destruct H as [<-|H]; [vm_compute; tauto|]). contradiction.
Qed.

Theorem C15_error_iff_not_closed :
  forall pols, Forall legal_pol pols ->
  (reorder_conj_pols pols = Err ValueError <-> exists p, In p pols /\ ~ In (swapped p) pols).
Proof. exact reorder_conj_err. Qed.
Print Assumptions C15_error_iff_not_closed.

Example C15_error_case : reorder_conj_pols [-5; -6; -7] = Err ValueError.
Proof. reflexivity. Qed.
