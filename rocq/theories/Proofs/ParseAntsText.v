(** The strings that choose antennas are taken apart as they were put together. *)
From Coq Require Import List ZArith Bool Arith Ascii String Lia.
From Verif Require Import Lib.Py Model.Pol Model.ParseAnts Spec.ParseAntsSpec.
Import ListNotations.
Notation length := List.length.
Open Scope list_scope.
Open Scope Z_scope.

(** * Characters *)
Definition digit_char (c : ascii) : Prop := In c (txt "0123456789").
Definition letter_char (c : ascii) : Prop := In c (txt "lrxy").
Lemma digit_facts c : digit_char c -> is_digit c = true /\ Ascii.eqb c "-" = false /\ Ascii.eqb c "(" = false /\ Ascii.eqb c ")" = false /\
  Ascii.eqb c "," = false /\ Ascii.eqb c "_" = false /\ Ascii.eqb "x" c = false /\ Ascii.eqb "y" c = false /\ upper_char c = c.
Proof. unfold digit_char. cbn. intros H. repeat (destruct H as [<- | H]; [vm_compute; repeat split|]). contradiction. Qed.
Lemma letter_facts c : letter_char c -> is_digit c = false /\ Ascii.eqb c "-" = false /\ Ascii.eqb c "(" = false /\ Ascii.eqb c ")" = false /\
  Ascii.eqb c "," = false /\ Ascii.eqb c "_" = false /\ is_letter c = true /\ has c ["x"; ","; "y"; "l"; "r"]%char = true.
Proof. unfold letter_char. cbn. intros H. repeat (destruct H as [<- | H]; [vm_compute; repeat split|]). contradiction. Qed.

(** What may follow an antenna *)
Definition stop (r : text) : Prop := match r with [] => True | c :: _ => c = ","%char \/ c = "_"%char \/ c = ")"%char end.
Lemma stop_facts c r : stop (c :: r) -> is_digit c = false /\ is_letter c = false.
Proof. intros [-> | [-> | ->]]; split; reflexivity. Qed.

Lemma span_digits d r : Forall digit_char d -> match r with [] => True | c :: _ => is_digit c = false end -> span is_digit (d ++ r) = (d, r).
Proof.
  intros F H. induction F as [|c d C F IH]; cbn [app].
  - destruct r as [|c r]; [reflexivity|]. cbn [span]. rewrite H. reflexivity.
  - cbn [span]. rewrite (proj1 (digit_facts c C)), IH. reflexivity.
Qed.
Lemma item_reads i r : item_ok i -> stop r -> item_re (item_text i ++ r) = Some (item_text i, r).
Proof.
  intros (N & F & L) S. unfold item_text, item_re. destruct i as [m d l]. cbn [i_minus i_digits i_letter] in *.
  destruct d as [|c d]; [contradiction|]. 
  assert (C : digit_char c) by (inversion F; assumption). destruct (digit_facts c C) as (_ & CM & _).
  set (tl := match l with None => [] | Some c => [c] end).
  assert (SP : span is_digit ((c :: d) ++ tl ++ r) = (c :: d, tl ++ r)).
  { apply span_digits; [exact F|]. unfold tl. destruct l as [a|]; cbn [app]; [apply letter_facts, L|]. destruct r as [|b r]; [exact I | apply stop_facts in S; apply S]. }
  assert (G : forall m, match span is_digit ((c :: d) ++ tl ++ r) with
    | ([], _) => None
    | (d0, c0 :: s3) => if is_letter c0 then Some (m ++ d0 ++ [c0], s3) else Some (m ++ d0, c0 :: s3)
    | (d0, []) => Some (m ++ d0, [])
    end = Some (m ++ (c :: d) ++ tl, r)).
  { intros m0. rewrite SP. unfold tl. destruct l as [a|]; cbn [app].
    - destruct (letter_facts a L) as (_ & _ & _ & _ & _ & _ & -> & _). reflexivity.
    - rewrite app_nil_r. destruct r as [|b r]; [reflexivity|]. destruct (stop_facts _ _ S) as (_ & ->). reflexivity. }
  destruct m; rewrite <- !app_assoc.
  - change (txt "-" ++ (c :: d) ++ tl ++ r) with ("-"%char :: ((c :: d) ++ tl ++ r)). cbn [Ascii.eqb Bool.eqb].
    exact (G ["-"%char]).
  - cbn [app]. rewrite CM. exact (G []).
Qed.
Lemma item_starts i : item_ok i -> exists c t, item_text i = c :: t /\ Ascii.eqb c "(" = false /\ (digit_char c /\ i_minus i = false \/ c = "-"%char /\ i_minus i = true).
Proof.
  intros (N & F & L). unfold item_text. destruct (i_minus i).
  - eexists _, _. split; [reflexivity|]. split; [reflexivity|]. auto.
  - destruct (i_digits i) as [|c d]; [contradiction|]. inversion F; subst. eexists _, _. split; [reflexivity|]. split; [apply digit_facts; assumption|]. auto.
Qed.

(** No character of an antenna is [x]. *)
Definition without (x : ascii) (s : text) : Prop := Forall (fun c => Ascii.eqb c x = false) s.
Lemma item_without i x : item_ok i -> In x [","; "_"; ")"; "("]%char -> without x (item_text i).
Proof.
  intros (N & F & L) X. unfold item_text, without. apply Forall_app. split; [|apply Forall_app; split].
  - destruct (i_minus i); [|constructor]. repeat constructor. cbn in X. repeat (destruct X as [<- | X]; [reflexivity|]). contradiction.
  - eapply Forall_impl; [|exact F]. intros c C. apply digit_facts in C. cbn in X. repeat (destruct X as [<- | X]; [tauto|]). contradiction.
  - destruct (i_letter i) as [c|]; [|constructor]. repeat constructor. apply letter_facts in L. cbn in X. repeat (destruct X as [<- | X]; [tauto|]). contradiction.
Qed.
Lemma closing_reads s r : without ")" s -> closing (s ++ ")"%char :: r) = Some (s, r).
Proof. intros W. induction W as [|c s C W IH]; cbn [app closing]; [reflexivity|]. rewrite C, IH. reflexivity. Qed.
Lemma split_last s : without "," s -> split_comma s = [s].
Proof. intros W. induction W as [|c s C W IH]; cbn [split_comma]; [reflexivity|]. rewrite C, IH. reflexivity. Qed.
Lemma split_first s r : without "," s -> split_comma (s ++ ","%char :: r) = s :: split_comma r.
Proof. intros W. induction W as [|c s C W IH]; cbn [app split_comma]; [reflexivity|]. rewrite C, IH. reflexivity. Qed.
Lemma comma_join_cons s l : l <> [] -> comma_join (s :: l) = s ++ ","%char :: comma_join l.
Proof. destruct l; [contradiction|]. reflexivity. Qed.
Lemma split_join l : l <> [] -> Forall item_ok l -> split_comma (comma_join (map item_text l)) = map item_text l.
Proof.
  induction l as [|i l IH]; [contradiction|]. intros _ F. inversion F as [|? ? I F']; subst. assert (W : without "," (item_text i)) by (apply item_without; [exact I | cbn; auto]).
  cbn [map]. destruct l as [|j l].
  - apply split_last, W.
  - rewrite comma_join_cons by discriminate. rewrite split_first by exact W. f_equal. apply IH; [discriminate | exact F'].
Qed.
Lemma join_without l x : Forall item_ok l -> In x ["_"; ")"; "("]%char -> without x (comma_join (map item_text l)).
Proof.
  intros F X. induction F as [|i l I F IH]; [constructor|]. cbn [map]. destruct l as [|j l].
  - apply item_without; [exact I | cbn in *; tauto].
  - rewrite comma_join_cons by discriminate. apply Forall_app. split; [apply item_without; [exact I | cbn in *; tauto]|]. constructor; [|exact IH].
    cbn in X. repeat (destruct X as [<- | X]; [reflexivity|]). contradiction.
Qed.

(** The automaton *)
Lemma items_digits d r p : Forall digit_char d -> d <> [] -> items_re p (d ++ r) = items_re Digit r.
Proof.
  intros F N. destruct F as [|c d C F]; [contradiction|]. clear N. cbn [app items_re]. rewrite (proj1 (digit_facts c C)).
  induction F as [|b d B F IH]; [reflexivity|]. cbn [app items_re]. rewrite (proj1 (digit_facts b B)). exact IH.
Qed.
Lemma items_item i r p : item_ok i -> p <> Minus -> items_re p (item_text i ++ r) = items_re (match i_letter i with None => Digit | Some _ => Letter end) r.
Proof.
  intros (N & F & L) P. unfold item_text. rewrite <- !app_assoc.
  assert (G : forall q, items_re q (i_digits i ++ (match i_letter i with None => [] | Some c => [c] end) ++ r) = items_re (match i_letter i with None => Digit | Some _ => Letter end) r).
  { intros q. rewrite items_digits by assumption. destruct (i_letter i) as [c|]; [|reflexivity]. cbn [app items_re].
    destruct (letter_facts c L) as (-> & -> & _ & _ & _ & _ & -> & _). reflexivity. }
  destruct (i_minus i); [|apply G]. change (txt "-" ++ ?x) with ("-"%char :: x). cbn [items_re]. change (is_digit "-") with false. cbn [Ascii.eqb Bool.eqb].
  destruct p; try contradiction; apply G.
Qed.
Lemma items_join l p : l <> [] -> Forall item_ok l -> p <> Minus -> items_re p (comma_join (map item_text l)) = true.
Proof.
  revert p. induction l as [|i l IH]; [contradiction|]. intros p _ F P. inversion F as [|? ? I F']; subst. cbn [map]. destruct l as [|j l].
  - rewrite <- (app_nil_r (item_text i)) at 1. cbn [map comma_join]. rewrite items_item by assumption. destruct (i_letter i); reflexivity.
  - rewrite comma_join_cons by discriminate. rewrite items_item by assumption.
    assert (E : forall q, q = Digit \/ q = Letter -> items_re q (","%char :: comma_join (map item_text (j :: l))) = items_re Comma (comma_join (map item_text (j :: l)))) by (intros q [-> | ->]; reflexivity).
    rewrite E by (destruct (i_letter i); auto). apply IH; [discriminate | exact F' | discriminate].
Qed.

(** * Groups *)
Definition inner (g : group) : option text := match g with One _ => None | Many l => Some (comma_join (map item_text l)) end.
Lemma group_reads g r : group_ok g -> stop r -> ant_re (group_text g ++ r) = Some (group_text g, inner g, r).
Proof.
  destruct g as [i | l]; cbn [group_ok group_text inner].
  - intros I S. destruct (item_starts i I) as (c & t & E & C & _). pose proof (item_reads i r I S) as R. unfold ant_re. rewrite E in *. cbn [app] in *. rewrite C, R. reflexivity.
  - intros (N & F) S. rewrite <- !app_assoc. change (txt "(" ++ ?x) with ("("%char :: x). change (txt ")" ++ ?x) with (")"%char :: x). cbn [ant_re Ascii.eqb Bool.eqb].
    rewrite closing_reads by (apply join_without; [exact F | cbn; auto]). rewrite items_join by (try assumption; discriminate). reflexivity.
Qed.
Lemma group_toks g : group_ok g -> toks (group_text g) (inner g) = map (fun i => Text (item_text i)) (group_items g).
Proof.
  destruct g as [i | l]; cbn [group_ok group_text inner group_items toks]; [reflexivity|]. intros (N & F). rewrite split_join by assumption. apply map_map.
Qed.
Lemma group_not_word g : group_ok g -> exists c t, group_text g = c :: t /\ (digit_char c \/ c = "-"%char \/ c = "("%char).
Proof.
  destruct g as [i | l]; cbn [group_ok group_text].
  - intros I. destruct (item_starts i I) as (c & t & E & _ & [(D & _) | (D & _)]); eauto 6.
  - intros _. eexists _, _. split; [reflexivity|]. auto.
Qed.

(** * Terms *)
(** What may follow a term *)
Definition next (r : text) : Prop := match r with [] => True | c :: _ => c = ","%char end.
Lemma single_reads i r : item_ok i -> next r -> bl_re (item_text i ++ r) = Some (OneAnt (item_text i), drop_comma r).
Proof.
  intros I R. assert (S : stop r) by (destruct r; [exact Logic.I | left; exact R]). pose proof (group_reads (One i) r I S) as G. cbn [group_text inner] in G.
  unfold bl_re. rewrite G. destruct r as [|c r]; [reflexivity|]. cbn in R. subst c. reflexivity.
Qed.
Lemma pair_reads g h r : group_ok g -> group_ok h -> next r ->
  bl_re ((group_text g ++ txt "_" ++ group_text h) ++ r) = Some (TwoAnts (group_text g) (inner g) (group_text h) (inner h), drop_comma r).
Proof.
  intros G H R. rewrite <- !app_assoc. unfold bl_re. change (txt "_" ++ ?x) with ("_"%char :: x). rewrite group_reads; [|exact G|right; left; reflexivity].
  cbn [Ascii.eqb Bool.eqb]. rewrite group_reads; [reflexivity | exact H|]. destruct r; [exact Logic.I | left; exact R].
Qed.

Lemma upper_app a b : upper (a ++ b) = upper a ++ upper b.
Proof. apply map_app. Qed.
Lemma spelled_starts k : exists c t, spelled k = c :: t /\ In c (txt "ACP").
Proof. destruct k as [| | | n]; cbn [spelled]; repeat match goal with |- context [if ?b then _ else _] => destruct b end; eexists _, _; (split; [reflexivity | cbn; auto]). Qed.
Lemma word_not_antenna k s r : upper s = spelled k -> bl_re (s ++ r) = None.
Proof.
  intros U. destruct (spelled_starts k) as (c & t & E & C). rewrite E in U. destruct s as [|a s]; [discriminate U|]. cbn [upper map] in U. injection U as U _.
  assert (D : is_digit a = false). { destruct (is_digit a) eqn:D; [|reflexivity]. exfalso. unfold upper_char in U. pose proof D as D'. unfold is_digit in D'. apply andb_true_iff in D' as (D1 & D2). apply Nat.leb_le in D1, D2.
    replace (97 <=? nat_of_ascii a)%nat with false in U by (symmetry; apply Nat.leb_gt; lia). cbn [andb] in U. subst a. cbn in C. repeat (destruct C as [<- | C]; [discriminate D|]). contradiction. }
  assert (M : Ascii.eqb a "-" = false). { apply Ascii.eqb_neq. intros ->. vm_compute in U. subst c. cbn in C. intuition discriminate. }
  assert (P : Ascii.eqb a "(" = false). { apply Ascii.eqb_neq. intros ->. vm_compute in U. subst c. cbn in C. intuition discriminate. }
  unfold bl_re, ant_re. cbn [app]. rewrite P. unfold item_re. rewrite M. cbn [span]. rewrite D. reflexivity.
Qed.
Lemma spelled_no_comma k s : upper s = spelled k -> without "," s.
Proof.
  intros U. apply Forall_forall. intros c I. apply Ascii.eqb_neq. intros ->. assert (J : In ","%char (upper s)) by (unfold upper; apply in_map_iff; exists ","%char; auto).
  rewrite U in J. revert J. destruct k as [| | | n]; cbn [spelled]; repeat match goal with |- context [if ?b then _ else _] => destruct b end; cbn; intuition discriminate.
Qed.
Lemma after_none s : without "," s -> after_comma s = None.
Proof. intros W. induction W as [|c s C W IH]; [reflexivity|]. cbn [after_comma]. rewrite C. exact IH. Qed.
Lemma after_some s r : without "," s -> after_comma (s ++ ","%char :: r) = Some r.
Proof. intros W. induction W as [|c s C W IH]; [reflexivity|]. cbn [app after_comma]. rewrite C. exact IH. Qed.

(** What a word does; [last] if nothing follows *)
Definition do_word (u : source) (last : bool) (k : keyword) (st : state) : state :=
  match k with
  | KAll => (if last then fst st else s_pairs u, snd st)
  | KAuto => (add_all (filter (fun p => fst p =? snd p) (s_pairs u)) (fst st), snd st)
  | KCross => (add_all (filter (fun p => negb (fst p =? snd p)) (s_pairs u)) (fst st), snd st)
  | KStokes n => (fst st, snd st ++ [n])
  end.
Lemma word_does u k s r st : term_ok (Word k s) ->
  word u (s ++ r) st = Ok (do_word u (match after_comma (s ++ r) with None => true | Some _ => false end) k st).
Proof.
  intros (U & K). unfold word. cbv zeta. rewrite upper_app, U. destruct k as [| | | n]; cbn [spelled do_word].
  - change (starts (txt "ALL") (txt "ALL" ++ upper r)) with true. cbv iota. destruct (after_comma (s ++ r)); reflexivity.
  - reflexivity.
  - reflexivity.
  - assert (n = 1 \/ n = 2 \/ n = 3 \/ n = 4) as [-> | [-> | [-> | ->]]] by lia; reflexivity.
Qed.

(** * Antennas *)
Lemma fold_decimal s : forall n, fold_left (fun n c => 10 * n + digit c) s n = n * 10 ^ Z.of_nat (length s) + decimal s.
Proof.
  induction s as [|c s IH]; intros n; cbn [fold_left decimal length].
  - cbn. lia.
  - rewrite IH. unfold digit. rewrite Nat2Z.inj_succ, Z.pow_succ_r by lia. nia.
Qed.
Lemma int_decimal s : int_of s = decimal s.
Proof. unfold int_of. rewrite fold_decimal. lia. Qed.
Lemma search_item d c : forall acc, Forall digit_char d -> (acc <> [] \/ d <> []) -> letter_char c -> search acc (d ++ [c]) = Some (acc ++ d, c).
Proof.
  induction d as [|a d IH]; intros acc F N L.
  - destruct N as [N | N]; [|contradiction]. cbn [app search]. destruct (letter_facts c L) as (-> & _ & _ & _ & _ & _ & _ & ->). destruct acc; [contradiction|]. cbn. rewrite app_nil_r. reflexivity.
  - inversion F as [|? ? A F']; subst. cbn [app search]. rewrite (proj1 (digit_facts a A)). rewrite IH; [rewrite <- app_assoc; reflexivity | exact F' | left; destruct acc; discriminate | exact L].
Qed.
Definition xy (c : ascii) : bool := Ascii.eqb c "x" || Ascii.eqb c "y".
Lemma decode_item i : item_ok i ->
  decode (Text (item_text i)) = Ok (negb (a_out (of_item i)), a_number (of_item i), match a_feed (of_item i) with None => None | Some c => Some (c, xy c) end).
Proof.
  intros (N & F & L). unfold decode, of_item. cbn [a_out a_number a_feed].
  assert (S : (let '(inc, s) := match item_text i with c :: t => if Ascii.eqb c "-" then (false, t) else (true, item_text i) | [] => (true, []) end in (inc, s)) =
    (negb (i_minus i), i_digits i ++ match i_letter i with None => [] | Some c => [c] end)).
  { unfold item_text. destruct (i_minus i); [reflexivity|]. destruct (i_digits i) as [|c d]; [contradiction|]. inversion F; subst. cbn [app].
    destruct (digit_facts c) as (_ & -> & _); [assumption|]. reflexivity. }
  destruct (match item_text i with c :: t => if Ascii.eqb c "-" then (false, t) else (true, item_text i) | [] => (true, []) end) as [inc s] eqn:E. rewrite E in S || idtac.
  injection S as -> ->.
  assert (D : forallb is_digit (i_digits i) = true). { apply forallb_forall. intros c I. rewrite Forall_forall in F. apply digit_facts, F, I. }
  destruct (i_letter i) as [c|].
  - assert (ID : isdigit (i_digits i ++ [c]) = false).
    { unfold isdigit. destruct (i_digits i) as [|a d]; [contradiction|]. cbn [app]. change (a :: d ++ [c]) with ((a :: d) ++ [c]). rewrite forallb_app. cbn [forallb].
      rewrite (proj1 (letter_facts c L)). rewrite andb_false_r. reflexivity. }
    rewrite ID, search_item; [|exact F | right; exact N | exact L]. cbn [app]. rewrite int_decimal. f_equal. f_equal. f_equal. f_equal.
    unfold has. rewrite !existsb_app. cbn [existsb]. 
    assert (X : forall x, (x = "x" \/ x = "y")%char -> existsb (Ascii.eqb x) (i_digits i) = false).
    { intros x X. apply not_true_iff_false. intros H. apply existsb_exists in H as (a & I & H). rewrite Forall_forall in F. apply F in I. apply digit_facts in I. destruct X as [-> | ->]; destruct I as (_ & _ & _ & _ & _ & _ & I1 & I2 & _); congruence. }
    rewrite !X by auto. cbn [orb]. rewrite !orb_false_r. unfold xy. rewrite (Ascii.eqb_sym c "x"), (Ascii.eqb_sym c "y"). reflexivity.
  - rewrite app_nil_r. assert (ID : isdigit (i_digits i) = true) by (unfold isdigit; destruct (i_digits i); [contradiction | exact D]). rewrite ID, int_decimal. reflexivity.
Qed.

(** * The loop *)
Section Loop.
Variables (u : source) (names : list string).
(** An antenna of a combination, decoded *)
Definition told (t : tok) (a : antenna) : Prop := decode t = Ok (negb (a_out a), a_number a, match a_feed a with None => None | Some c => Some (c, xy c) end).
Definition step_ants (ab : antenna * antenna) (st : state) : result state :=
  let (a, b) := ab in
  let feed x := match a_feed x with None => None | Some c => Some (c, xy c) end in
  let pols := pol_names (feed a) (feed b) in
  let tup := (a_number a, a_number b) in
  match (if in_pairs tup (s_pairs u) then Some tup else if in_pairs (swap tup) (s_pairs u) then Some (swap tup) else None) with
  | None => Ok st
  | Some pr =>
      if negb (a_out a) && negb (a_out b) then
        let pairs := if in_pairs pr (fst st) then fst st else fst st ++ [pr] in
        match pols with
        | None => Ok (pairs, snd st)
        | Some ps => do l <- add_pols u names ps (snd st); Ok (pairs, l)
        end
      else
        match pols with
        | Some ps => drop_pols u names pr ps st
        | None => Ok (if in_pairs pr (fst st) then remove_one pair_eqb pr (fst st) else fst st, snd st)
        end
  end.
Lemma step_told t t' a b st : told t a -> told t' b -> step u names t t' st = step_ants (a, b) st.
Proof. intros A B. unfold step, told in *. rewrite A, B. reflexivity. Qed.
Lemma foldM_app {A B} (f : A -> B -> result B) l l' b : foldM f (l ++ l') b = (do b' <- foldM f l b; foldM f l' b').
Proof. revert b. induction l as [|x l IH]; intros b; [reflexivity|]. cbn [app foldM]. destruct (f x b); [apply IH | reflexivity]. Qed.
Lemma steps_told ts ts' aa bb st : Forall2 told ts aa -> Forall2 told ts' bb ->
  steps u names ts ts' st = foldM step_ants (flat_map (fun a => map (fun b => (a, b)) bb) aa) st.
Proof.
  intros A B. unfold steps. revert st. induction A as [|t a ts aa T A IH]; intros st; [reflexivity|]. cbn [foldM flat_map]. rewrite foldM_app.
  assert (E : foldM (fun j => step u names t j) ts' st = foldM step_ants (map (fun b => (a, b)) bb) st).
  { clear - T B. revert st. induction B as [|t' b ts' bb T' B IH]; intros st; [reflexivity|]. cbn [foldM map]. rewrite (step_told _ _ _ _ st T T'). destruct (step_ants (a, b) st); [apply IH | reflexivity]. }
  rewrite E. destruct (foldM step_ants (map (fun b => (a, b)) bb) st); [apply IH | reflexivity].
Qed.
Lemma told_items l : Forall item_ok l -> Forall2 told (map (fun i => Text (item_text i)) l) (map of_item l).
Proof. intros F. induction F; cbn [map]; constructor; [apply decode_item; assumption | assumption]. Qed.
Lemma told_plain l : Forall2 told (map Num l) (map plain l).
Proof. induction l; cbn [map]; constructor; [reflexivity | assumption]. Qed.

(** Term by term *)
Definition do_term (last : bool) (t : term) (st : state) : result state :=
  match t with Word k _ => Ok (do_word u last k st) | _ => foldM step_ants (combinations u t) st end.
Fixpoint do_terms (ts : list term) (st : state) : result state :=
  match ts with [] => Ok st | t :: ts => do st' <- do_term (match ts with [] => true | _ => false end) t st; do_terms ts st' end.

Lemma term_nonempty t : term_ok t -> term_text t <> [].
Proof.
  destruct t as [k s | i | g h]; cbn [term_ok term_text].
  - intros (U & _) ->. destruct (spelled_starts k) as (c & t & E & _). rewrite E in U. discriminate.
  - intros I. destruct (item_starts i I) as (c & t & -> & _). discriminate.
  - intros (G & _). destruct (group_not_word g G) as (c & t & -> & _). discriminate.
Qed.
Lemma written_cons t ts : written (t :: ts) = term_text t ++ (match ts with [] => [] | _ => ","%char :: written ts end).
Proof. unfold written. destruct ts; cbn [map]; [cbn; rewrite app_nil_r; reflexivity|]. apply comma_join_cons. discriminate. Qed.
Lemma loop_reads ts : forall fuel st, Forall term_ok ts -> (length (written ts) <= fuel)%nat -> loop fuel u names (written ts) st = do_terms ts st.
Proof.
  induction ts as [|t ts IH]; intros fuel st F L; [destruct fuel; reflexivity|].
  inversion F as [|? ? T F']; subst. rewrite written_cons in *. cbn [do_terms]. set (r := match ts with [] => [] | _ => ","%char :: written ts end) in *.
  assert (NX : next r) by (unfold r; destruct ts; [exact I | reflexivity]).
  assert (DC : drop_comma r = written ts) by (unfold r; destruct ts; reflexivity).
  assert (LR : (length (written ts) <= length r)%nat) by (unfold r; destruct ts; cbn [length]; [reflexivity | lia]).
  pose proof (term_nonempty t T) as NE. rewrite app_length in L.
  assert (LT : (1 <= length (term_text t))%nat) by (destruct (term_text t); [contradiction | cbn; lia]).
  destruct fuel as [|fuel]; [lia|].
  destruct (term_text t ++ r) as [|c0 s0] eqn:ES; [destruct (term_text t); [contradiction | discriminate]|].
  cbn [loop]. rewrite <- ES. clear ES. destruct t as [k s | i | g h]; cbn [term_text do_term term_ok] in *.
  - rewrite (word_not_antenna k s r (proj1 T)). rewrite (word_does u k s r st T). cbn [bind].
    pose proof (spelled_no_comma k s (proj1 T)) as W. destruct ts as [|t' ts].
    + unfold r. rewrite app_nil_r, (after_none s W). reflexivity.
    + unfold r. rewrite (after_some s _ W). apply IH; [exact F' | lia].
  - rewrite (single_reads i r T NX), DC. rewrite (steps_told [Text (item_text i)] (map Num (s_ants u)) [of_item i] (map plain (s_ants u))); [|apply (told_items [i]); repeat constructor; apply T | apply told_plain].
    cbn [flat_map combinations]. rewrite app_nil_r, map_map. destruct (foldM step_ants _ st); [|reflexivity]. cbn [bind]. apply IH; [exact F' | lia].
  - destruct T as (G & H). rewrite (pair_reads g h r G H NX), DC. rewrite (group_toks g G), (group_toks h H).
    assert (GF : Forall item_ok (group_items g)) by (destruct g; [repeat constructor; apply G | apply G]).
    assert (HF : Forall item_ok (group_items h)) by (destruct h; [repeat constructor; apply H | apply H]).
    rewrite (steps_told _ _ _ _ st (told_items _ GF) (told_items _ HF)).
    assert (EG : map of_item (group_items g) = members g) by (destruct g; reflexivity). assert (EH : map of_item (group_items h) = members h) by (destruct h; reflexivity).
    rewrite EG, EH. cbn [combinations]. destruct (foldM step_ants _ st); [|reflexivity]. cbn [bind]. apply IH; [exact F' | lia].
Qed.
End Loop.

(** * The ends of the string *)
Lemma starts_minus ts : ts <> [] -> Forall term_ok ts -> starts (txt "-") (written ts) = begins_with_minus ts.
Proof.
  intros N F. destruct ts as [|t ts]; [contradiction|]. inversion F as [|? ? T F']; subst. rewrite written_cons. generalize (match ts with [] => [] | _ => ","%char :: written ts end). intros r.
  assert (ID : forall i q, item_ok i -> starts (txt "-") (item_text i ++ q) = i_minus i).
  { intros i q I. destruct (item_starts i I) as (c & s & -> & _ & [(D & ->) | (-> & ->)]); [|reflexivity]. cbn [app]. change (starts (txt "-") (c :: s ++ q)) with (Ascii.eqb "-" c && true).
    rewrite Ascii.eqb_sym. destruct (digit_facts c D) as (_ & -> & _). reflexivity. }
  destruct t as [k s | i | [i | l] h]; cbn [term_text begins_with_minus term_ok group_text] in *.
  - destruct T as (U & _). destruct (spelled_starts k) as (c & q & E & C). rewrite E in U. destruct s as [|a s]; [discriminate U|]. cbn [upper map] in U. injection U as U _.
    cbn [app]. change (starts (txt "-") (a :: s ++ r)) with (Ascii.eqb "-" a && true). destruct (Ascii.eqb_spec "-" a) as [<- | NE]; [|reflexivity]. vm_compute in U. subst c. cbn in C. intuition discriminate.
  - apply ID, T.
  - rewrite <- app_assoc. apply ID, T.
  - reflexivity.
Qed.
Lemma text_eqb_eq a : forall b, text_eqb a b = true <-> a = b.
Proof.
  unfold text_eqb. induction a as [|x a IH]; intros [|y b]; cbn [length starts]; try (split; [discriminate | discriminate]); [split; reflexivity|].
  change (S (length a) =? S (length b))%nat with (length a =? length b)%nat. specialize (IH b). destruct (Ascii.eqb_spec x y) as [-> | N]; cbn [andb].
  - rewrite IH. split; [congruence | intros E; injection E; auto].
  - rewrite andb_false_r. split; [discriminate | congruence].
Qed.
Lemma only_word ts k : ts <> [] -> Forall term_ok ts -> (forall n, k <> KStokes n) -> (upper (written ts) = spelled k <-> exists s, ts = [Word k s]).
Proof.
  intros N F NS. destruct ts as [|t ts]; [contradiction|]. inversion F as [|? ? T F']; subst. split.
  - intros U. rewrite written_cons in U. destruct ts as [|t' ts].
    + rewrite app_nil_r in U. destruct t as [k' s | i | g h]; cbn [term_text term_ok] in *.
      * destruct T as (E & _). rewrite E in U. exists s. f_equal. f_equal. destruct k', k; try reflexivity; try discriminate U; try (exfalso; eapply NS; reflexivity).
        all: revert U; cbn [spelled]; repeat match goal with |- context [if ?b then _ else _] => destruct b end; discriminate.
      * exfalso. destruct (spelled_starts k) as (c & q & E & C). destruct (item_starts i T) as (a & s & E' & _ & [(D & _) | (-> & _)]); rewrite E, E' in U; cbn [upper map] in U; injection U as U _.
        -- rewrite (proj2 (proj2 (proj2 (proj2 (proj2 (proj2 (proj2 (proj2 (digit_facts a D))))))))) in U. subst a. cbn in C. unfold digit_char in D. cbn in D. intuition (subst; discriminate).
        -- vm_compute in U. subst c. cbn in C. intuition discriminate.
      * exfalso. destruct (spelled_starts k) as (c & q & E & C). destruct (group_not_word g (proj1 T)) as (a & s & E' & D). rewrite E, E' in U. cbn [upper map app] in U. injection U as U _.
        destruct D as [D | [-> | ->]].
        -- rewrite (proj2 (proj2 (proj2 (proj2 (proj2 (proj2 (proj2 (proj2 (digit_facts a D))))))))) in U. subst a. cbn in C. unfold digit_char in D. cbn in D. intuition (subst; discriminate).
        -- vm_compute in U. subst c. cbn in C. intuition discriminate.
        -- vm_compute in U. subst c. cbn in C. intuition discriminate.
    + exfalso. rewrite upper_app in U. assert (J : In ","%char (spelled k)) by (rewrite <- U; apply in_app_iff; right; left; reflexivity). revert J.
      destruct k as [| | | n]; cbn [spelled]; repeat match goal with |- context [if ?b then _ else _] => destruct b end; cbn; intuition discriminate.
  - intros (s & E). injection E as -> ->. unfold written. cbn [map comma_join term_text]. apply T.
Qed.
