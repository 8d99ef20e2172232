(** What the strings that choose antennas mean. *)
From Coq Require Import List ZArith Bool Arith Ascii String Sorting.Sorted.
From Verif Require Import Lib.Py Model.Pol Model.ParseAnts.
Import ListNotations.
Notation length := List.length.
Open Scope list_scope.
Open Scope Z_scope.

(** * Strings *)
(** An antenna: a minus or not, digits, and one of the letters l, r, x, y or none *)
Record item := mkItem { i_minus : bool; i_digits : text; i_letter : option ascii }.
(** One antenna, or some in parentheses *)
Inductive group := One (i : item) | Many (l : list item).
Inductive keyword := KAll | KAuto | KCross | KStokes (n : Z).
(** A term: a word, however its letters are capitalized; an antenna; or a pair *)
Inductive term := Word (k : keyword) (spelling : text) | Single (i : item) | Pair (g h : group).

Definition spelled (k : keyword) : text :=
  match k with
  | KAll => txt "ALL" | KAuto => txt "AUTO" | KCross => txt "CROSS"
  | KStokes n => if n =? 1 then txt "PI" else if n =? 2 then txt "PQ" else if n =? 3 then txt "PU" else txt "PV"
  end.
Definition item_ok (i : item) : Prop :=
  i_digits i <> [] /\ Forall (fun c => In c (txt "0123456789")) (i_digits i) /\
  match i_letter i with None => True | Some c => In c (txt "lrxy") end.
Definition group_ok (g : group) : Prop := match g with One i => item_ok i | Many l => l <> [] /\ Forall item_ok l end.
Definition term_ok (t : term) : Prop :=
  match t with
  | Word k s => upper s = spelled k /\ match k with KStokes n => 1 <= n <= 4 | _ => True end
  | Single i => item_ok i
  | Pair g h => group_ok g /\ group_ok h
  end.

Fixpoint comma_join (l : list text) : text :=
  match l with [] => [] | [s] => s | s :: l => s ++ txt "," ++ comma_join l end.
Definition item_text (i : item) : text :=
  (if i_minus i then txt "-" else []) ++ i_digits i ++ match i_letter i with None => [] | Some c => [c] end.
Definition group_text (g : group) : text :=
  match g with One i => item_text i | Many l => txt "(" ++ comma_join (map item_text l) ++ txt ")" end.
Definition term_text (t : term) : text :=
  match t with Word _ s => s | Single i => item_text i | Pair g h => group_text g ++ txt "_" ++ group_text h end.
(** The string: the terms, separated by commas *)
Definition written (ts : list term) : text := comma_join (map term_text ts).

(** * Meaning *)
(** The number that digits are the decimal notation of *)
Fixpoint decimal (s : text) : Z :=
  match s with [] => 0 | c :: t => (Z.of_nat (nat_of_ascii c) - 48) * 10 ^ Z.of_nat (length t) + decimal t end.

(** An antenna to be kept or, with a minus, to be left out; perhaps of one feed only *)
Record antenna := mkAntenna { a_out : bool; a_number : Z; a_feed : option ascii }.
Definition of_item (i : item) : antenna := mkAntenna (i_minus i) (decimal (i_digits i)) (i_letter i).
Definition plain (n : Z) : antenna := mkAntenna false n None.
Definition members (g : group) : list antenna := match g with One i => [of_item i] | Many l => map of_item l end.

(** The polarizations that are meant, by name *)
Definition others (c : ascii) : list ascii := if Ascii.eqb c "x" || Ascii.eqb c "y" then ["x"; "y"]%char else ["l"; "r"]%char.
Definition meant (a b : antenna) : list string :=
  match a_feed a, a_feed b with
  | None, None => []
  | Some c, Some d => [two c d]
  | None, Some d => map (fun c => two c d) (others d)
  | Some c, None => map (fun d => two c d) (others c)
  end.
Definition kept_in (a b : antenna) : bool := negb (a_out a) && negb (a_out b).

(** What is said in a string, in order: to include (true) or to leave out (false) a pair,
    or a polarization.  An exclusion that names feeds is about polarizations only. *)
Definition about_pair (a b : antenna) : option bool :=
  if kept_in a b then Some true else match a_feed a, a_feed b with None, None => Some false | _, _ => None end.
(** A pair is the one in the order given if the data has that one, else the one in the other order. *)
Definition pairs_of (u : source) (ab : antenna * antenna) : list (bool * (Z * Z)) :=
  match about_pair (fst ab) (snd ab) with
  | None => []
  | Some s => let m := a_number (fst ab) in let n := a_number (snd ab) in
      map (fun p => (s, p)) (if in_pairs (m, n) (s_pairs u) then [(m, n)] else if in_pairs (n, m) (s_pairs u) then [(n, m)] else [])
  end.
Definition has_name (u : source) (l : list string) (n : Z) : bool :=
  match polnum2str (s_xo u) n with Ok s => existsb (String.eqb s) l | Err _ => false end.
Definition pols_of (u : source) (ab : antenna * antenna) : list (bool * Z) :=
  let m := a_number (fst ab) in let n := a_number (snd ab) in
  if in_pairs (m, n) (s_pairs u) || in_pairs (n, m) (s_pairs u)
  then map (fun p => (kept_in (fst ab) (snd ab), p)) (filter (has_name u (meant (fst ab) (snd ab))) (s_pols u))
  else [].
(** The pairs of antennas of a term *)
Definition combinations (u : source) (t : term) : list (antenna * antenna) :=
  match t with
  | Word _ _ => []
  | Single i => map (fun n => (of_item i, plain n)) (s_ants u)
  | Pair g h => flat_map (fun a => map (fun b => (a, b)) (members h)) (members g)
  end.
Definition said_of_pairs (u : source) (last : bool) (t : term) : list (bool * (Z * Z)) :=
  match t with
  | Word KAll _ => if last then [] else map (fun p => (true, p)) (s_pairs u)
  | Word KAuto _ => map (fun p => (true, p)) (filter (fun p => fst p =? snd p) (s_pairs u))
  | Word KCross _ => map (fun p => (true, p)) (filter (fun p => negb (fst p =? snd p)) (s_pairs u))
  | _ => flat_map (pairs_of u) (combinations u t)
  end.
Definition said_of_pols (u : source) (t : term) : list (bool * Z) :=
  match t with Word (KStokes n) _ => [(true, n)] | _ => flat_map (pols_of u) (combinations u t) end.
Fixpoint pair_sayings (u : source) (ts : list term) : list (bool * (Z * Z)) :=
  match ts with [] => [] | t :: ts => said_of_pairs u (match ts with [] => true | _ => false end) t ++ pair_sayings u ts end.
Definition pol_sayings (u : source) (ts : list term) : list (bool * Z) := flat_map (said_of_pols u) ts.
(** What is wanted: it is included, and not left out after that. *)
Definition wanted {A} (said : list (bool * A)) (x : A) : Prop :=
  exists before after, said = before ++ (true, x) :: after /\ ~ In (false, x) after.

(** A string that begins with a minus is about all the data. *)
Definition begins_with_minus (ts : list term) : bool :=
  match ts with
  | Single i :: _ => i_minus i
  | Pair (One i) _ :: _ => i_minus i
  | _ => false
  end.
Definition completed (ts : list term) : list term := if begins_with_minus ts then Word KAll (txt "all") :: ts else ts.

(** Letters *)
Definition group_items (g : group) : list item := match g with One i => [i] | Many l => l end.
Definition items (t : term) : list item := match t with Word _ _ => [] | Single i => [i] | Pair g h => group_items g ++ group_items h end.
Definition no_letters (ts : list term) : Prop := Forall (fun t => Forall (fun i => i_letter i = None) (items t)) ts.

(** The answer: None is everything. *)
Record answer (u : source) (ts : list term) (pairs : option (list (Z * Z))) (pols : option (list Z)) : Prop := {
  an_pairs : match pairs with
    | Some l => NoDup l /\ forall p, In p l <-> wanted (pair_sayings u ts) p
    | None => (exists s, ts = [Word KAll s]) \/ forall p, ~ wanted (pair_sayings u ts) p
    end;
  an_some : forall p, wanted (pair_sayings u ts) p -> pairs <> None;
  an_pols : match pols with
    | Some l => l <> [] /\ StronglySorted Z.ge l /\ forall n, In n l <-> wanted (pol_sayings u ts) n
    | None => forall n, ~ wanted (pol_sayings u ts) n
    end }.
