(** The strings that choose antennas: /repo/src/pyuvdata/utils/bls.py:129-385.
    Warnings and printing are left out.  Strings are lists of ASCII characters. *)
From Coq Require Import List ZArith Bool Arith Ascii String.
From Verif Require Import Lib.Py Lib.Np Lib.Sorting Lib.Dict Model.Pol.
Import ListNotations.
Notation length := List.length.
Open Scope string_scope.
Open Scope list_scope.
Open Scope Z_scope.

Definition text := list ascii.
Definition txt (s : string) : text := list_ascii_of_string s.

(** What get_ants, get_antpairs and polarization_array give, and x_orientation *)
Record source := mkSource { s_ants : list Z; s_pairs : list (Z * Z); s_pols : list Z; s_xo : option string }.
(** uvdata.py:2956-2967 *)
Definition get_pols (u : source) : result (list string) := mapM (polnum2str (s_xo u)) (s_pols u).

Definition is_digit (c : ascii) : bool := (48 <=? nat_of_ascii c)%nat && (nat_of_ascii c <=? 57)%nat.
Definition upper_char (c : ascii) : ascii :=
  if (97 <=? nat_of_ascii c)%nat && (nat_of_ascii c <=? 122)%nat then ascii_of_nat (nat_of_ascii c - 32) else c.
Definition upper (s : text) : text := map upper_char s.
Fixpoint starts (p s : text) : bool :=
  match p, s with [], _ => true | a :: p, b :: s => Ascii.eqb a b && starts p s | _, [] => false end.
Definition text_eqb (a b : text) : bool := (length a =? length b)%nat && starts a b.
Definition has (c : ascii) (s : text) : bool := existsb (Ascii.eqb c) s.
(** str.split(",") *)
Fixpoint split_comma (s : text) : list text :=
  match s with
  | [] => [[]]
  | c :: s => if Ascii.eqb c "," then [] :: split_comma s
              else match split_comma s with h :: t => (c :: h) :: t | [] => [[c]] end
  end.
(** What follows the first comma, or None *)
Fixpoint after_comma (s : text) : option text :=
  match s with [] => None | c :: s => if Ascii.eqb c "," then Some s else after_comma s end.

(** bls.py:187: one antenna, [-?\d+[lrxy]?], the text and what follows it *)
Fixpoint span (f : ascii -> bool) (s : text) : text * text :=
  match s with c :: t => if f c then let '(a, b) := span f t in (c :: a, b) else ([], s) | [] => ([], []) end.
Definition is_letter (c : ascii) : bool := has c ["l"; "r"; "x"; "y"]%char.
Definition item_re (s : text) : option (text * text) :=
  let '(m, s1) := match s with c :: t => if Ascii.eqb c "-" then ([c], t) else ([], s) | [] => ([], []) end in
  match span is_digit s1 with
  | ([], _) => None
  | (d, c :: s3) => if is_letter c then Some (m ++ d ++ [c], s3) else Some (m ++ d, c :: s3)
  | (d, []) => Some (m ++ d, [])
  end.
(** [(-?\d+[lrxy]?,?)+] matches all of the text: as an automaton.  States: an antenna must
    begin (at the start), the same but the text may end here (after a comma), after a minus,
    after a digit, after a letter. *)
Inductive place := Start | Comma | Minus | Digit | Letter.
Fixpoint items_re (p : place) (s : text) : bool :=
  match s with
  | [] => match p with Start | Minus => false | _ => true end
  | c :: s =>
      if is_digit c then items_re Digit s
      else if Ascii.eqb c "-" then match p with Minus => false | _ => items_re Minus s end
      else if is_letter c then match p with Digit => items_re Letter s | _ => false end
      else if Ascii.eqb c "," then match p with Digit | Letter => items_re Comma s | _ => false end
      else false
  end.
(** Up to the closing parenthesis *)
Fixpoint closing (s : text) : option (text * text) :=
  match s with
  | [] => None
  | c :: s => if Ascii.eqb c ")" then Some ([], s) else match closing s with Some (a, b) => Some (c :: a, b) | None => None end
  end.
(** ant_re: the text that is matched, what is in the parentheses if there are any, the rest *)
Definition ant_re (s : text) : option (text * option text * text) :=
  match s with
  | c :: t =>
      if Ascii.eqb c "(" then
        match closing t with
        | Some (inner, rest) => if items_re Start inner then Some (c :: inner ++ [")"%char], Some inner, rest) else None
        | None => None
        end
      else match item_re s with Some (a, rest) => Some (a, None, rest) | None => None end
  | [] => None
  end.
(** bls.py:188: the groups of the match that are used, and the rest *)
Inductive found := OneAnt (t : text) | TwoAnts (t : text) (inner : option text) (t' : text) (inner' : option text).
Definition drop_comma (s : text) : text := match s with c :: t => if Ascii.eqb c "," then t else s | [] => [] end.
Definition bl_re (s : text) : option (found * text) :=
  match ant_re s with
  | None => None
  | Some (t, i, rest) =>
      match match rest with c :: r => if Ascii.eqb c "_" then ant_re r else None | [] => None end with
      | Some (t', i', rest') => Some (TwoAnts t i t' i', drop_comma rest')
      | None => Some (OneAnt t, drop_comma rest)
      end
  end.

(** int() of digits *)
Definition digit (c : ascii) : Z := Z.of_nat (nat_of_ascii c) - 48.
Definition int_of (s : text) : Z := fold_left (fun n c => 10 * n + digit c) s 0.
Definition isdigit (s : text) : bool := match s with [] => false | _ => forallb is_digit s end.
(** [re.search(r"(\d+)([x,y,l,r])", s)], with the digits just before [s] in [acc] *)
Fixpoint search (acc s : text) : option (text * ascii) :=
  match s with
  | [] => None
  | c :: t => if is_digit c then search (acc ++ [c]) t
              else if negb (length acc =? 0)%nat && has c ["x"; ","; "y"; "l"; "r"]%char then Some (acc, c)
              else search [] t
  end.
(** An antenna of a list: written, or a number (of get_ants, not negative) *)
Inductive tok := Text (s : text) | Num (n : Z).
(** bls.py:243-268: whether it is included, its number, and its letter with whether "x" or "y"
    is in the text *)
Definition decode (t : tok) : result (bool * Z * option (ascii * bool)) :=
  match t with
  | Num n => Ok (true, n, None)
  | Text s =>
      let '(inc, s) := match s with c :: t => if Ascii.eqb c "-" then (false, t) else (true, s) | [] => (true, []) end in
      if isdigit s then Ok (inc, int_of s, None)
      else match search [] s with
           | None => Err AttributeError
           | Some (d, c) => Ok (inc, int_of d, Some (c, has "x"%char s || has "y"%char s))
           end
  end.
(** bls.py:262-281 *)
Definition two (a b : ascii) : string := String a (String b EmptyString).
Definition pol_names (i j : option (ascii * bool)) : option (list string) :=
  match i, j with
  | None, None => None
  | None, Some (c, xy) => Some (if xy then [two "x" c; two "y" c] else [two "l" c; two "r" c])
  | Some (c, xy), None => Some (if xy then [two c "x"; two c "y"] else [two c "l"; two c "r"])
  | Some (c, _), Some (d, _) => Some [two c d]
  end.

Definition pair_eqb (p q : Z * Z) : bool := (fst p =? fst q) && (snd p =? snd q).
Definition in_pairs (p : Z * Z) (l : list (Z * Z)) : bool := existsb (pair_eqb p) l.
Definition swap (p : Z * Z) : Z * Z := (snd p, fst p).
(** list.remove *)
Fixpoint remove_one {A} (eqb : A -> A -> bool) (x : A) (l : list A) : list A :=
  match l with [] => [] | y :: t => if eqb x y then t else y :: remove_one eqb x t end.
Definition state := (list (Z * Z) * list Z)%type.

(** bls.py:303-317 *)
Fixpoint add_pols (u : source) (names : list string) (ps : list string) (pols : list Z) : result (list Z) :=
  match ps with
  | [] => Ok pols
  | p :: ps =>
      if existsb (String.eqb (lower p)) names then
        do n <- polstr2num (s_xo u) p;
        add_pols u names ps (if isinZ n pols then pols else pols ++ [n])
      else add_pols u names ps pols
  end.
(** bls.py:319-336 *)
Fixpoint drop_pols (u : source) (names : list string) (pr : Z * Z) (ps : list string) (st : state) : result state :=
  match ps with
  | [] => Ok st
  | p :: ps =>
      if existsb (String.eqb (lower p)) names then
        let only := (length (s_pols u) =? 1)%nat && match names with [n] => String.eqb (lower p) n | _ => false end in
        if only && negb (in_pairs pr (fst st)) then Err ValueError
        else
          let pairs := if only then remove_one pair_eqb pr (fst st) else fst st in
          do n <- polstr2num (s_xo u) p;
          drop_pols u names pr ps (pairs, if isinZ n (snd st) then remove_one Z.eqb n (snd st) else snd st)
      else drop_pols u names pr ps st
  end.
(** bls.py:283-338 *)
Definition step (u : source) (names : list string) (i j : tok) (st : state) : result state :=
  do di <- decode i;
  do dj <- decode j;
  let '(inc_i, ni, li) := di in
  let '(inc_j, nj, lj) := dj in
  let pols := pol_names li lj in
  let tup := (ni, nj) in
  match (if in_pairs tup (s_pairs u) then Some tup else if in_pairs (swap tup) (s_pairs u) then Some (swap tup) else None) with
  | None => Ok st
  | Some pr =>
      if inc_i && inc_j then
        let pairs := if in_pairs pr (fst st) then fst st else fst st ++ [pr] in
        match pols with
        | None => Ok (pairs, snd st)
        | Some ps => do l <- add_pols u names ps (snd st); Ok (pairs, l)
        end
      else
        match pols with
        | Some ps => drop_pols u names pr ps st
        | None => Ok (if in_pairs pr (fst st) then remove_one pair_eqb pr (fst st) else fst st, snd st)
        end
  end.
Fixpoint foldM {A B} (f : A -> B -> result B) (l : list A) (b : B) : result B :=
  match l with [] => Ok b | a :: l => do b' <- f a b; foldM f l b' end.
(** bls.py:226-243 *)
Definition steps (u : source) (names : list string) (is js : list tok) (st : state) : result state :=
  foldM (fun i => foldM (fun j => step u names i j) js) is st.
Definition toks (t : text) (inner : option text) : list tok :=
  match inner with None => [Text t] | Some s => map Text (split_comma s) end.

(** bls.py:201-225: a word at the beginning of [s] *)
Definition add_all (l : list (Z * Z)) (pairs : list (Z * Z)) : list (Z * Z) :=
  fold_left (fun acc p => if in_pairs p acc then acc else acc ++ [p]) l pairs.
Definition word (u : source) (s : text) (st : state) : result state :=
  let w p := starts (txt p) (upper s) in
  if w "ALL" then Ok (match after_comma s with Some _ => s_pairs u | None => fst st end, snd st)
  else if w "AUTO" then Ok (add_all (filter (fun p => fst p =? snd p) (s_pairs u)) (fst st), snd st)
  else if w "CROSS" then Ok (add_all (filter (fun p => negb (fst p =? snd p)) (s_pairs u)) (fst st), snd st)
  else if w "PI" then Ok (fst st, snd st ++ [1])
  else if w "PQ" then Ok (fst st, snd st ++ [2])
  else if w "PU" then Ok (fst st, snd st ++ [3])
  else if w "PV" then Ok (fst st, snd st ++ [4])
  else Err ValueError.

(** bls.py:199-338: the loop; [fuel] is at least the length of [s] *)
Fixpoint loop (fuel : nat) (u : source) (names : list string) (s : text) (st : state) : result state :=
  match fuel, s with
  | _, [] => Ok st
  | O, _ => Err Undefined
  | S fuel, _ =>
      match bl_re s with
      | None =>
          do st' <- word u s st;
          match after_comma s with Some r => loop fuel u names r st' | None => Ok st' end
      | Some (f, rest) =>
          do st' <- match f with
                    | OneAnt t => steps u names [Text t] (map Num (s_ants u)) st
                    | TwoAnts t i t' i' => steps u names (toks t i) (toks t' i') st
                    end;
          loop fuel u names rest st'
      end
  end.

(** bls.py:187-198, 340-349, 385 *)
Definition parse_ants (u : source) (s : text) : result (option (list (Z * Z)) * option (list Z)) :=
  do names <- get_pols u;
  let s := if starts (txt "-") s then txt "all," ++ s else s in
  do st <- loop (length s) u names s ([], []);
  let pairs := if text_eqb (upper s) (txt "ALL") then None
               else match fst st with
                    | [] => if text_eqb (upper s) (txt "AUTO") || text_eqb (upper s) (txt "CROSS") then Some [] else None
                    | l => Some l
                    end in
  let pols := match snd st with [] => None | l => Some (isort (fun x y => y <=? x) l) end in
  Ok (pairs, pols).
