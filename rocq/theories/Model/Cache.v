(** The memoized name conversions, /repo/src/pyuvdata/utils/pol.py:127-353:
    [np_cache] wraps functools.lru_cache (maxsize 128, typed=False). *)
From Coq Require Import List ZArith Bool Arith String.
From Verif Require Import Lib.Py Lib.Dict Model.Pol.
Import ListNotations.
Notation length := List.length.

(** Arguments.  [PNum z true] is an int, np.int32, np.int64 or bool; [PNum z false]
    any other number equal to the integer [z], such as 1.0 or np.int16(1).  Lists,
    arrays and tuples are all passed on as tuples (pol.py:136-139). *)
Inductive elem := ENum (z : Z) | EStr (s : string).
Inductive parg := PNum (z : Z) (plain_int : bool) | PStr (s : string) | PSeq (l : list elem).
Definition carg := (parg * option string)%type.

(** Equality of cache keys: numbers compare by value *)
Definition elem_eqb (a b : elem) : bool :=
  match a, b with ENum x, ENum y => Z.eqb x y | EStr x, EStr y => String.eqb x y | _, _ => false end.
Fixpoint elems_eqb (a b : list elem) : bool :=
  match a, b with [], [] => true | x :: a, y :: b => elem_eqb x y && elems_eqb a b | _, _ => false end.
Definition parg_eqb (a b : parg) : bool :=
  match a, b with
  | PNum x _, PNum y _ => Z.eqb x y
  | PStr x, PStr y => String.eqb x y
  | PSeq x, PSeq y => elems_eqb x y
  | _, _ => false
  end.
Definition xo_eqb (a b : option string) : bool :=
  match a, b with None, None => true | Some x, Some y => String.eqb x y | _, _ => false end.
Definition key_eqb (a b : carg) : bool := parg_eqb (fst a) (fst b) && xo_eqb (snd a) (snd b).

(** What a conversion returns: an immutable scalar or a list *)
Inductive rval (V : Type) := Scalar (v : V) | Many (l : list V).
Arguments Scalar {V} _.
Arguments Many {V} _.

(** pol.py:246-252, 347-353: a string is iterated over character by character *)
Fixpoint chars (s : string) : list elem :=
  match s with EmptyString => [] | String c s => EStr (String c EmptyString) :: chars s end.
Definition num2str_body (base : list (Z * string)) (a : carg) : result (rval string) :=
  let d := num2str_dict base (snd a) in
  let one e := match e with ENum z => dget Z.eqb z d | EStr _ => Err KeyError end in
  match fst a with
  | PNum z true => do s <- dget Z.eqb z d; Ok (Scalar s)
  | PNum z false => Err ValueError
  | PStr s => do l <- mapM one (chars s); Ok (Many l)
  | PSeq l => do l <- mapM one l; Ok (Many l)
  end.
(** pol.py:191-200, 297-304 *)
Definition str2num_body (base : list (string * Z)) (a : carg) : result (rval Z) :=
  let d := str2num_dict base (snd a) in
  let one e := match e with EStr s => dget String.eqb (lower s) d | ENum _ => Err AttributeError end in
  match fst a with
  | PNum _ _ => Err ValueError
  | PStr s => do z <- dget String.eqb (lower s) d; Ok (Scalar z)
  | PSeq l => do l <- mapM one l; Ok (Many l)
  end.

(** The cache: most recently used entry first.  A cached list is an object on the
    heap, shared with every caller that was given it. *)
Inductive held (V : Type) := HScalar (v : V) | HList (ref : nat).
Arguments HScalar {V} _.
Arguments HList {V} _.
Record cstate (V : Type) := mkcs { heap : list (list V); entries : list (carg * held V) }.
Arguments mkcs {V} _ _.
Arguments heap {V} _.
Arguments entries {V} _.
Definition maxsize : nat := 128.

Fixpoint find_entry {V} (a : carg) (l : list (carg * held V)) : option (held V * list (carg * held V)) :=
  match l with
  | [] => None
  | (k, h) :: t => if key_eqb k a then Some (h, (k, h) :: t)
      else match find_entry a t with Some (h', (e :: rest)) => Some (h', e :: (k, h) :: rest) | _ => None end
  end.
Definition contents {V} (s : cstate V) (h : held V) : rval V :=
  match h with HScalar v => Scalar v | HList r => Many (nth r (heap s) []) end.

(** One call: what the caller gets and its value at that moment *)
Definition call {V} (f : carg -> result (rval V)) (a : carg) (s : cstate V) : result (held V * cstate V) :=
  match find_entry a (entries s) with
  | Some (h, e) => Ok (h, mkcs (heap s) e)
  | None =>
      do v <- f a;
      let '(h, heap') := match v with Scalar v => (HScalar v, heap s) | Many l => (HList (length (heap s)), (heap s ++ [l])%list) end in
      Ok (h, mkcs heap' (firstn maxsize ((a, h) :: entries s)))
  end.

(** What a caller may do: call the function, clear the cache, or change in any way
    a list it was given *)
Inductive op (V : Type) := Call (a : carg) | Clear | Change (ref : nat) (new : list V).
Arguments Call {V} _.
Arguments Clear {V}.
Arguments Change {V} _ _.
Fixpoint set_ref {V} (l : list (list V)) (r : nat) (new : list V) : list (list V) :=
  match l, r with [], _ => [] | _ :: t, O => new :: t | x :: t, S r => x :: set_ref t r new end.
Definition step {V} (f : carg -> result (rval V)) (o : op V) (s : cstate V) : cstate V :=
  match o with
  | Call a => match call f a s with Ok (_, s) => s | Err _ => s end
  | Clear => mkcs (heap s) []
  | Change r new => mkcs (set_ref (heap s) r new) (entries s)
  end.
Definition start_cache {V} : cstate V := mkcs [] [].
Definition after {V} (f : carg -> result (rval V)) (ops : list (op V)) : cstate V :=
  fold_left (fun s o => step f o s) ops start_cache.
(** The answer to a call after a history of operations *)
Definition answer {V} (f : carg -> result (rval V)) (ops : list (op V)) (a : carg) : result (rval V) :=
  do r <- call f a (after f ops); Ok (contents (snd r) (fst r)).
