(** Antennas given to new telescopes: get_antenna_params, /repo/src/pyuvdata/telescopes.py:267-324,
    with the default format of names. Positions are rows of integers. Names are ASCII strings. *)
From Coq Require Import List ZArith Bool Arith Ascii String Decimal DecimalString.
From Verif Require Import Lib.Py Lib.Np.
Import ListNotations.
Notation length := List.length.
Open Scope list_scope.
Open Scope Z_scope.

(** Python's int() for strings: white space around, a sign, digits with single underscores between
    them *)
Definition ws (c : ascii) : bool := let n := nat_of_ascii c in ((9 <=? n)%nat && (n <=? 13)%nat) || ((28 <=? n)%nat && (n <=? 32)%nat).
Fixpoint lstrip (s : string) : string := match s with EmptyString => EmptyString | String c r => if ws c then lstrip r else s end.
Fixpoint rstrip (s : string) : string :=
  match s with EmptyString => EmptyString | String c r => match rstrip r with EmptyString => if ws c then EmptyString else String c EmptyString | r' => String c r' end end.
Definition us : ascii := "_"%char.
Fixpoint us_ok (prev : bool) (s : string) : bool :=
  match s with EmptyString => prev | String c r => if Ascii.eqb c us then prev && us_ok false r else us_ok true r end.
Fixpoint us_drop (s : string) : string := match s with EmptyString => EmptyString | String c r => if Ascii.eqb c us then us_drop r else String c (us_drop r) end.
Definition digits (s : string) : option Z := if us_ok false s then option_map Z.of_uint (NilEmpty.uint_of_string (us_drop s)) else None.
Definition py_int (s : string) : option Z :=
  match lstrip (rstrip s) with
  | String c r => if Ascii.eqb c "-"%char then option_map Z.opp (digits r) else if Ascii.eqb c "+"%char then digits r else digits (String c r)
  | EmptyString => None
  end.

(** "{0:03d}".format(i): zeros are put after the sign up to a width of 3 *)
Definition pad (k : nat) (u : uint) : uint := Nat.iter (k - nb_digits u) D0 u.
Definition fmt (n : Z) : string :=
  if n <? 0 then String "-"%char (NilEmpty.string_of_uint (pad 2 (N.to_uint (Z.to_N (- n))))) else NilEmpty.string_of_uint (pad 3 (N.to_uint (Z.to_N n))).

Inductive key := KInt (n : Z) | KStr (s : string) | KOther.
(** antenna_positions: a dictionary, in its order, a two-dimensional array with its number of
    columns, or anything else (arrays of other dimensions and other types) *)
Inductive positions := PDict (d : list (key * list Z)) | PArr (cols : nat) (rows : list (list Z)) | POther.

Fixpoint key_ints (l : list key) : option (list Z) :=
  match l with [] => Some [] | KInt n :: r => option_map (cons n) (key_ints r) | _ => None end.
Fixpoint key_strs (l : list key) : option (list string) :=
  match l with [] => Some [] | KStr s :: r => option_map (cons s) (key_strs r) | _ => None end.
Fixpoint ints_of (l : list string) : option (list Z) :=
  match l with [] => Some [] | s :: r => match py_int s, ints_of r with Some n, Some x => Some (n :: x) | _, _ => None end end.

Definition dup_free {A} (dec : forall x y : A, {x = y} + {x <> y}) (l : list A) : bool := (length l =? length (nodup dec l))%nat.

(** telescopes.py:293-322; the shape of the positions, None if they are not two-dimensional. An
    array of no rows made from an empty dictionary is one-dimensional; rows of unequal lengths are
    refused by numpy with a ValueError. *)
Definition finish (rows : list (list Z)) (shape : option (nat * nat)) (names : option (list string)) (nums : option (list Z)) : result (list (list Z) * list string * list Z) :=
  match match names, nums with
        | None, None => None
        | None, Some m => Some (map fmt m, m)
        | Some n, None => match ints_of n with Some m => Some (n, m) | None => None end
        | Some n, Some m => Some (n, m)
        end with
  | None => Err ValueError
  | Some (n, m) =>
      match shape with
      | None => Err ValueError
      | Some (r, c) =>
          if negb ((r =? length m)%nat && (c =? 3)%nat) then Err ValueError
          else if negb (dup_free string_dec n) then Err ValueError
          else if negb (dup_free Z.eq_dec m) then Err ValueError
          else if negb (length m =? length n)%nat then Err ValueError
          else Ok (rows, n, m)
      end
  end.

(** telescopes.py:278-291 *)
Definition get_antenna_params (p : positions) (names : option (list string)) (nums : option (list Z)) : result (list (list Z) * list string * list Z) :=
  match p with
  | PDict d =>
      let rows := map snd d in
      let shape := match rows with [] => None | x :: r => if forallb (fun y => (length y =? length x)%nat) r then Some (length rows, length x) else None end in
      match key_ints (map fst d) with
      | Some m => finish rows shape names (Some m)
      | None => match key_strs (map fst d) with Some n => finish rows shape (Some n) nums | None => Err ValueError end
      end
  | PArr cols rows => finish rows (Some (length rows, cols)) names nums
  | POther => Err ValueError
  end.
