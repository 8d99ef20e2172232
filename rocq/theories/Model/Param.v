(** Objects as collections of UVParameters: UVParameter.__eq__
    (/repo/src/pyuvdata/parameter.py:313-604), UVBase.__eq__
    (/repo/src/pyuvdata/uvbase.py:485-612) and UVData.sum_vis and diff_vis
    (/repo/src/pyuvdata/uvdata/uvdata.py:6214-6455). *)
From Coq Require Import List ZArith Bool Arith QArith String Ascii.
From Verif Require Import Lib.Py Lib.Cube Lib.Sorting Lib.Dict Model.Tools.
Import ListNotations.
Notation length := List.length.
Open Scope Z_scope.
Open Scope list_scope.

(** Values of parameters.  Numbers are exact and never NaN.  [VOther] stands for
    dictionaries, recarrays, astropy objects and UVBase objects: a number for each
    class of values that compare equal.  Complex arrays and Quantities, and the
    checks of the types of the values, are not modelled. *)
Inductive pval :=
| VNone
| VNum (q : Q)
| VArr (shape : list nat) (v : list Q)
| VStr (s : string)
| VStrs (l : list string)
| VOther (z : Z).

(** parameter.py:266-311: [p_ignore] is ignore_eq_none after line 310 *)
Record uvparam := mkparam { p_required : bool; p_value : pval; p_tols : Q * Q; p_ignore : bool }.

(** parameter.py:277, the default *)
Definition DEFAULT_TOLS : Q * Q := (1 # 100000, 1 # 100000000)%Q.

(** str.strip, and removal of newlines and blanks *)
Definition is_space (c : ascii) : bool :=
  let n := nat_of_ascii c in (n =? 32)%nat || ((9 <=? n)%nat && (n <=? 13)%nat) || ((28 <=? n)%nat && (n <=? 31)%nat).
Fixpoint lstrip (l : list ascii) : list ascii :=
  match l with c :: t => if is_space c then lstrip t else l | [] => [] end.
Definition strip (s : string) : string :=
  string_of_list_ascii (rev (lstrip (rev (lstrip (list_ascii_of_string s))))).
Definition squeeze (s : string) : string :=
  string_of_list_ascii (filter (fun c => negb ((nat_of_ascii c =? 10)%nat || (nat_of_ascii c =? 32)%nat)) (list_ascii_of_string s)).

Fixpoint list_eqb {A} (eqb : A -> A -> bool) (a b : list A) : bool :=
  match a, b with
  | [], [] => true
  | x :: a, y :: b => eqb x y && list_eqb eqb a b
  | _, _ => false
  end.

Definition close (t : Q * Q) (x y : Q) : bool := isclose x y (fst t) (snd t).

(** parameter.py:329-604.  Values of different kinds are different. *)
Definition param_eq (a b : uvparam) : bool :=
  match p_value a, p_value b with
  | VNone, VNone => true
  | VNone, _ | _, VNone => p_ignore a
  | VNum x, VNum y => close (p_tols a) x y
  | VArr s x, VArr s' y => list_eqb Nat.eqb s s' && list_eqb (close (p_tols a)) x y
  | VStr x, VStr y => (strip x =? strip y)%string || (squeeze x =? squeeze y)%string
  | VStrs x, VStrs y => list_eqb String.eqb (map strip x) (map strip y)
  | VOther x, VOther y => x =? y
  | _, _ => false
  end.

(** An object: its parameters by name (without the leading underscore) *)
Definition params := list (string * uvparam).

(** uvbase.py: required(), extra() *)
Definition names_of (required : bool) (o : params) : list string :=
  map fst (filter (fun p => Bool.eqb (p_required (snd p)) required) o).
Definition mem_str (s : string) (l : list string) : bool := existsb (String.eqb s) l.
Definition same_set (a b : list string) : bool :=
  forallb (fun s => mem_str s b) a && forallb (fun s => mem_str s a) b.
(** [str.startswith("_")] *)
Definition bare (s : string) : string :=
  match s with String c t => if Ascii.eqb c "_" then t else s | EmptyString => s end.

(** [getattr] and compare; a missing attribute raises *)
Definition compare_at (a b : params) (n : string) : result bool :=
  match dget String.eqb n a, dget String.eqb n b with
  | Ok p, Ok q => Ok (param_eq p q)
  | _, _ => Err AttributeError
  end.

(** uvbase.py:515-608.  [list.remove] drops the first occurrence; the names of
    required and of extra parameters are distinct. *)
Definition uvbase_eq (check_extra : bool) (allowed_failures : list string) (a b : params) : result bool :=
  if negb (same_set (names_of true a) (names_of true b)) then Ok false
  else if check_extra && negb (same_set (names_of false a) (names_of false b)) then Ok false
  else
    let p_check := names_of true a ++ (if check_extra then names_of false a else []) in
    let p_check := filter (fun n => negb (mem_str n (map bare allowed_failures))) p_check in
    do l <- mapM (compare_at a b) p_check;
    Ok (forallb (fun x => x) l).

(** What sum_vis works on.  The data are exact numbers; [keywords] is
    extra_keywords. *)
Record visobj := mkvis { v_params : params; v_data : cube cplx; v_keywords : list (string * Z) }.

Definition csub (a b : cplx) : cplx := (fst a - fst b, snd a - snd b).
Definition cplus (a b : cplx) : cplx := (fst a + fst b, snd a + snd b).

(** utils/tools.py:21-56; names are sorted as strings *)
Definition str_leb (a b : string) : bool := match String.compare a b with Gt => false | _ => true end.
Fixpoint dedup_str (l : list string) : list string :=
  match l with [] => [] | x :: t => if mem_str x t then dedup_str t else x :: dedup_str t end.
Definition combine_filenames (a b : pval) : pval :=
  match a, b with
  | VStrs x, VStrs y => VStrs (isort str_leb (dedup_str (x ++ y)))
  | VNone, _ => b
  | _, _ => a
  end.

(** uvdata.py:6306-6319: names to leave out *)
Definition left_out (names : list string) (override : list string) : result (list string) :=
  do l <- mapM (fun p => match p with
                         | EmptyString => Err IndexError
                         | _ => if mem_str (bare p) names then Ok (bare p) else Err ValueError
                         end) override;
  Ok (["history"; "data_array"; "extra_keywords"]%string ++ l).

(** uvdata.py:6281-6390; history is not kept.  The data are taken to have the same shape. *)
Definition sum_vis (difference : bool) (override : list string) (a b : visobj) : result visobj :=
  let names := dkeys (v_params a) in
  do out <- left_out (names ++ ["history"; "data_array"; "extra_keywords"]%string) override;
  do l <- mapM (compare_at (v_params a) (v_params b)) (filter (fun n => negb (mem_str n out)) names);
  if negb (forallb (fun x => x) l) then Err ValueError
  else
    let op := if difference then csub else cplus in
    do f <- dget String.eqb "filename"%string (v_params a);
    do g <- dget String.eqb "filename"%string (v_params b);
    Ok (mkvis (dset String.eqb "filename"%string
                 (mkparam (p_required f) (combine_filenames (p_value f) (p_value g)) (p_tols f) (p_ignore f)) (v_params a))
              (fun i j k => op (v_data a i j k) (v_data b i j k))
              (dict_of String.eqb (v_keywords b ++ v_keywords a))).
Definition diff_vis (override : list string) (a b : visobj) : result visobj := sum_vis true override a b.
