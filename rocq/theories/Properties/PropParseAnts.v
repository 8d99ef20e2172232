(** C90: strings that choose antennas. *)
From Coq Require Import List ZArith Bool Arith Ascii String Lia Sorting.Sorted.
From Verif Require Import Lib.Py Lib.Np Spec.PolSpec Model.Pol Model.ParseAnts Spec.ParseAntsSpec Proofs.ParseAntsText Proofs.ParseAntsProofs.
Import ListNotations.
Notation length := List.length.
Open Scope list_scope.
Open Scope Z_scope.

Ltac nd := repeat constructor; cbn; intuition discriminate.

(** Every string made of terms (words, antennas, pairs of antennas or of groups, with minus
    signs and feed letters) is understood, and chooses the pairs and the polarizations that
    it includes and does not leave out afterwards. *)
Theorem C90_meaning u ts : NoDup (s_pairs u) -> Forall legal_pol (s_pols u) -> ts <> [] -> Forall term_ok ts ->
  length (s_pols u) <> 1%nat \/ no_letters ts ->
  exists pairs pols, parse_ants u (written ts) = Ok (pairs, pols) /\ answer u (completed ts) pairs pols.
Proof. apply parse_answers. Qed.
Print Assumptions C90_meaning.

Definition it (m : bool) (d : string) (c : option ascii) : item := mkItem m (txt d) c.
Definition obj : source := mkSource [1; 2; 3; 10] [(1, 1); (1, 2); (1, 3); (2, 3); (10, 1)] [-5; -6; -7; -8] None.
Definition terms : list term :=
  [Single (it true "2" None); Word KAuto (txt "Auto"); Pair (Many [it true "3" None; it false "1" (Some "x"%char)]) (One (it false "02" (Some "y"%char))); Word (KStokes 1) (txt "pI")].
Lemma obj_ok : NoDup (s_pairs obj) /\ Forall legal_pol (s_pols obj).
Proof. split; [nd | repeat constructor; unfold legal_pol; lia]. Qed.
Lemma terms_ok : Forall term_ok terms.
Proof.
  unfold terms. repeat first [apply Forall_cons | apply Forall_nil | discriminate | exact I | reflexivity | match goal with |- In _ _ => cbn; auto 12 end | lia | split]; cbn; auto 12.
Qed.
Example C90_case : written terms = txt "-2,Auto,(-3,1x)_02y,pI" /\
  parse_ants obj (written terms) = Ok (Some [(1, 1); (1, 3); (10, 1); (1, 2)], Some [1; -7]) /\
  answer obj (completed terms) (Some [(1, 1); (1, 3); (10, 1); (1, 2)]) (Some [1; -7]).
Proof.
  split; [reflexivity|]. split; [vm_compute; reflexivity|].
  destruct (C90_meaning obj terms (proj1 obj_ok) (proj2 obj_ok)) as (pairs & pols & E & A); [discriminate | exact terms_ok | left; discriminate|].
  assert (X : parse_ants obj (written terms) = Ok (Some [(1, 1); (1, 3); (10, 1); (1, 2)], Some [1; -7])) by (vm_compute; reflexivity).
  rewrite X in E. injection E as <- <-. exact A.
Qed.

(** A number chooses the pairs with that antenna. *)
Theorem C90_antenna u d p : NoDup (s_pairs u) -> Forall legal_pol (s_pols u) ->
  d <> [] -> Forall (fun c => In c (txt "0123456789")) d ->
  (forall q, In q (s_pairs u) -> In (fst q) (s_ants u) /\ In (snd q) (s_ants u) /\ (In (snd q, fst q) (s_pairs u) -> fst q = snd q)) ->
  In p (s_pairs u) -> fst p = decimal d \/ snd p = decimal d ->
  exists l, parse_ants u d = Ok (Some l, None) /\ forall q, In q l <-> In q (s_pairs u) /\ (fst q = decimal d \/ snd q = decimal d).
Proof.
  intros NP LP ND FD AN IP HP. set (ts := [Single (mkItem false d None)]).
  assert (W : written ts = d) by (unfold written, ts; cbn; apply app_nil_r).
  assert (WQ : forall q, wanted (pair_sayings u (completed ts)) q <-> In q (s_pairs u) /\ (fst q = decimal d \/ snd q = decimal d)).
  { intros q. unfold ts, completed. cbn [begins_with_minus i_minus pair_sayings said_of_pairs combinations]. rewrite app_nil_r.
    assert (E : forall l, flat_map (pairs_of u) (map (fun n => (of_item (mkItem false d None), plain n)) l) =
                map (fun p => (true, p)) (flat_map (fun n => if in_pairs (decimal d, n) (s_pairs u) then [(decimal d, n)] else if in_pairs (n, decimal d) (s_pairs u) then [(n, decimal d)] else []) l)).
    { induction l as [|n l IH]; [reflexivity|]. cbn [map flat_map]. rewrite IH, map_app. reflexivity. }
    rewrite E. change (map (fun p => (true, p)) ?l) with ([] ++ map (fun p : Z * Z => (true, p)) l). rewrite wanted_many, in_flat_map. split.
    - intros [X | (n & I & J)]; [destruct (wanted_nil _ X)|]. destruct (in_pairs (decimal d, n) (s_pairs u)) eqn:P1; [|destruct (in_pairs (n, decimal d) (s_pairs u)) eqn:P2; [|contradiction]];
        destruct J as [<- | []]; (split; [apply in_pairs_spec; assumption | cbn; auto]).
    - intros (I & H). right. destruct (AN q I) as (A1 & A2 & A3). destruct q as [a b]. cbn [fst snd] in *. destruct H as [-> | ->].
      + exists b. split; [exact A2|]. rewrite (proj2 (in_pairs_spec _ _) I). left. reflexivity.
      + exists a. split; [exact A1|]. destruct (in_pairs (decimal d, a) (s_pairs u)) eqn:P1.
        * apply in_pairs_spec in P1. left. rewrite (A3 P1) at 2. rewrite <- (A3 P1). reflexivity.
        * rewrite (proj2 (in_pairs_spec _ _) I). left. reflexivity. }
  destruct (C90_meaning u ts NP LP) as (pairs & pols & E & A).
  - discriminate.
  - repeat constructor; [exact ND | exact FD].
  - right. repeat constructor.
  - rewrite W in E. destruct A as [A1 A2 A3]. destruct pairs as [l|].
    + destruct pols as [m|].
      * exfalso. destruct A3 as (NM & _ & A3). destruct m as [|n m]; [contradiction|]. assert (Y : wanted (pol_sayings u (completed ts)) n) by (apply A3; left; reflexivity).
        unfold ts, completed, pol_sayings in Y. cbn [begins_with_minus i_minus flat_map said_of_pols combinations] in Y. rewrite app_nil_r in Y.
        assert (Z : forall k, flat_map (pols_of u) (map (fun n => (of_item (mkItem false d None), plain n)) k) = []).
        { assert (HN : forall k, filter (has_name u []) k = []). { induction k as [|z k IH]; [reflexivity|]. cbn [filter]. unfold has_name at 1. destruct (polnum2str (s_xo u) z); exact IH. }
          induction k as [|z k IH]; [reflexivity|]. cbn [map flat_map]. rewrite IH. unfold pols_of. cbn [meant fst snd of_item plain a_feed i_letter]. cbv zeta. rewrite HN. destruct (_ || _); reflexivity. }
        rewrite Z in Y. exact (wanted_nil _ Y).
      * exists l. split; [exact E|]. intros q. rewrite <- WQ. apply A1.
    + exfalso. apply (A2 p); [apply WQ; auto | reflexivity].
Qed.
Print Assumptions C90_antenna.
Example C90_antenna_case : parse_ants obj (txt "3") = Ok (Some [(1, 3); (2, 3)], None) /\
  In (1, 3) (s_pairs obj) /\ forall q, In q (s_pairs obj) -> In (fst q) (s_ants obj) /\ In (snd q) (s_ants obj) /\ (In (snd q, fst q) (s_pairs obj) -> fst q = snd q).
Proof.
  split; [vm_compute; reflexivity|]. split; [cbn; auto|]. intros q I. cbn in I.
  repeat (destruct I as [<- | I]; [cbn; intuition congruence|]). contradiction.
Qed.

(** "auto" and "cross" *)
Theorem C90_words u s k : NoDup (s_pairs u) -> Forall legal_pol (s_pols u) -> (k = KAuto \/ k = KCross) -> upper s = spelled k ->
  exists l, parse_ants u s = Ok (Some l, None) /\ forall q, In q l <-> In q (s_pairs u) /\ (fst q = snd q <-> k = KAuto).
Proof.
  intros NP LP HK U. set (ts := [Word k s]). assert (W : written ts = s) by reflexivity.
  assert (L : exists l pols, parse_ants u (written ts) = Ok (Some l, pols) /\ answer u ts (Some l) pols).
  { destruct (C90_meaning u ts NP LP) as (pairs & pols & E & A).
    - discriminate.
    - constructor; [split; [exact U | destruct HK as [-> | ->]; exact I] | constructor].
    - right. repeat constructor.
    - replace (completed ts) with ts in A by reflexivity. destruct pairs as [l|]; [exists l, pols; auto|]. exfalso. revert E. rewrite W. unfold parse_ants.
      destruct (get_pols u); [|discriminate]. cbn [bind]. assert (SM : starts (txt "-") s = false).
      { pose proof (starts_minus ts ltac:(discriminate)) as X. rewrite W in X. apply X. constructor; [split; [exact U | destruct HK as [-> | ->]; exact I] | constructor]. }
      rewrite SM. cbv zeta. destruct (loop _ _ _ _ _) as [(l0 & m0)|]; [|discriminate]. cbn [bind]. rewrite U. destruct HK as [-> | ->]; cbn [spelled fst]; destruct l0; discriminate. }
  destruct L as (l & pols & E & [(N & A) _ B]). rewrite W in E. exists l. split.
  - destruct pols as [m|]; [|exact E]. exfalso. destruct B as (NM & _ & B). destruct m as [|n m]; [contradiction|].
    assert (Y : wanted (pol_sayings u ts) n) by (apply B; left; reflexivity). unfold ts, pol_sayings in Y. destruct HK; subst k; exact (wanted_nil _ Y).
  - intros q. rewrite A. unfold ts. cbn [pair_sayings]. rewrite app_nil_r. destruct HK; subst k; cbn [said_of_pairs].
    + change (map (fun p => (true, p)) ?l) with ([] ++ map (fun p : Z * Z => (true, p)) l). rewrite wanted_many, filter_In, Z.eqb_eq. split; [intros [X | X]; [destruct (wanted_nil _ X) | tauto] | tauto].
    + change (map (fun p => (true, p)) ?l) with ([] ++ map (fun p : Z * Z => (true, p)) l). rewrite wanted_many, filter_In, negb_true_iff, Z.eqb_neq. split; [intros [X | (X & Y)]; [destruct (wanted_nil _ X) | split; [exact X | split; [contradiction | discriminate]]] | intros (X & Y); right; split; [exact X|]; intros Z; apply Y in Z; discriminate].
Qed.
Print Assumptions C90_words.
Example C90_words_case : parse_ants obj (txt "Cross") = Ok (Some [(1, 2); (1, 3); (2, 3); (10, 1)], None) /\ upper (txt "Cross") = spelled KCross.
Proof. split; vm_compute; reflexivity. Qed.

(** * What is not as the words suggest *)
(** Naming nothing that exists, or leaving everything out again, chooses everything; 'all' at
    the end of a string adds nothing. *)
Theorem C90_nothing_refuted : exists u, NoDup (s_pairs u) /\ Forall legal_pol (s_pols u) /\
  parse_ants u (txt "99") = Ok (None, None) /\ parse_ants u (txt "1_2,-1_2") = Ok (None, None) /\
  parse_ants u (txt "auto,all") = parse_ants u (txt "auto") /\ parse_ants u (txt "all,auto") = Ok (Some (s_pairs u), None).
Proof. exists obj. split; [apply obj_ok|]. split; [apply obj_ok|]. repeat split; vm_compute; reflexivity. Qed.
Print Assumptions C90_nothing_refuted.

(** Leaving out a feed leaves out nothing, if there are several polarizations and none was
    named before. *)
Theorem C90_feed_refuted : exists u, NoDup (s_pairs u) /\ Forall legal_pol (s_pols u) /\ In (1, 3) (s_pairs u) /\
  parse_ants u (txt "-3x") = Ok (Some (s_pairs u), None).
Proof. exists obj. split; [apply obj_ok|]. split; [apply obj_ok|]. split; [cbn; auto | vm_compute; reflexivity]. Qed.
Print Assumptions C90_feed_refuted.

(** With an x_orientation, x and y name no polarization and e and n cannot be used. *)
Theorem C90_orientation_refuted : exists u, NoDup (s_pairs u) /\ Forall legal_pol (s_pols u) /\ s_xo u = Some "east"%string /\
  parse_ants u (txt "1x_2x") = Ok (Some [(1, 2)], None) /\ polstr2num (s_xo u) "xx" = Ok (-5) /\ In (-5) (s_pols u) /\
  parse_ants u (txt "1e_2e") = Err ValueError.
Proof.
  exists (mkSource [1; 2; 3; 10] [(1, 1); (1, 2); (1, 3); (2, 3); (10, 1)] [-5; -6; -7; -8] (Some "east"%string)).
  split; [apply obj_ok|]. split; [apply obj_ok|]. repeat split; try (vm_compute; reflexivity). cbn; auto.
Qed.
Print Assumptions C90_orientation_refuted.

(** A pair that is stored in the other order is chosen with the polarization as spelled: the
    feeds of the two antennas are exchanged. *)
Theorem C90_swapped_refuted : exists u, NoDup (s_pairs u) /\ Forall legal_pol (s_pols u) /\
  parse_ants u (txt "1x_10y") = Ok (Some [(10, 1)], Some [-7]) /\ polnum2str None (-7) = Ok "xy"%string.
Proof. exists obj. split; [apply obj_ok|]. split; [apply obj_ok|]. split; vm_compute; reflexivity. Qed.
Print Assumptions C90_swapped_refuted.

(** A group alone is its first antenna only, or an error; the documented "i,I" is refused. *)
Theorem C90_group_refuted : exists u, NoDup (s_pairs u) /\ Forall legal_pol (s_pols u) /\
  parse_ants u (txt "(1,2)") = parse_ants u (txt "1") /\ parse_ants u (txt "1") <> parse_ants u (txt "1,2") /\
  parse_ants u (txt "(1)") = Err AttributeError /\ parse_ants u (txt "(1,)_2") = Err AttributeError /\
  parse_ants u (txt "i,I") = Err ValueError.
Proof. exists obj. split; [apply obj_ok|]. split; [apply obj_ok|]. repeat split; try (vm_compute; reflexivity). vm_compute. discriminate. Qed.
Print Assumptions C90_group_refuted.

(** With one polarization a pair left out by feed is removed, and leaving it out twice is an
    error. *)
Theorem C90_twice_refuted : exists u, NoDup (s_pairs u) /\ Forall legal_pol (s_pols u) /\ length (s_pols u) = 1%nat /\
  parse_ants u (txt "-1x_2x") = Ok (Some [(1, 1); (1, 3); (2, 3); (10, 1)], None) /\
  parse_ants u (txt "-1x_2x,-1x_2x") = Err ValueError.
Proof.
  exists (mkSource [1; 2; 3; 10] [(1, 1); (1, 2); (1, 3); (2, 3); (10, 1)] [-5] None).
  split; [apply obj_ok|]. split; [repeat constructor; unfold legal_pol; lia|]. repeat split; vm_compute; reflexivity.
Qed.
Print Assumptions C90_twice_refuted.
