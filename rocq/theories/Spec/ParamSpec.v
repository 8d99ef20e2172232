(** When two objects count as equal, and what summing them should do. *)
From Coq Require Import List ZArith Bool QArith Qabs String.
From Verif Require Import Lib.Py Lib.Cube Spec.PhaseSpec Model.Param.
Import ListNotations.
Open Scope Z_scope.
Open Scope list_scope.

(** The same value, numbers up to the tolerance [t] *)
Definition value_near (t : Q * Q) (v w : pval) : Prop :=
  match v, w with
  | VNone, VNone => True
  | VNum x, VNum y => near t x y
  | VArr s x, VArr s' y => s = s' /\ Forall2 (near t) x y
  | VStr x, VStr y => strip x = strip y \/ squeeze x = squeeze y
  | VStrs x, VStrs y => map strip x = map strip y
  | VOther x, VOther y => x = y
  | _, _ => False
  end.
(** Some parameters may also be missing on one side. *)
Definition same_param (p q : uvparam) : Prop :=
  value_near (p_tols p) (p_value p) (p_value q) \/
  p_ignore p = true /\ (p_value p = VNone \/ p_value q = VNone).

Definition has (o : params) (n : string) (p : uvparam) : Prop := In (n, p) o.
(** Both have parameters of the same names, and the same are required. *)
Definition same_names (a b : params) : Prop :=
  forall n r, (exists p, has a n p /\ p_required p = r) <-> (exists p, has b n p /\ p_required p = r).
Definition params_ok (o : params) : Prop :=
  NoDup (map fst o) /\ forall n p, has o n p -> (0 <= fst (p_tols p))%Q /\ (0 <= snd (p_tols p))%Q.

(** The parameters sum_vis compares *)
Definition compared (override : list string) (n : string) : Prop :=
  ~ In n (["history"; "data_array"; "extra_keywords"]%string ++ map bare override).
(** Every name given is that of a parameter. *)
Definition override_ok (o : params) (override : list string) : Prop :=
  forall s, In s override -> s <> ""%string /\ In (bare s) (map fst o ++ ["history"; "data_array"; "extra_keywords"]%string).

(** The value under a key *)
Definition lookup (d : list (string * Z)) (k : string) (v : Z) : Prop := In (k, v) d.

(** The file names are the same sorted list, or left out of the comparison. *)
Definition str_le (x y : string) : Prop := String.compare x y <> Gt.
Definition filenames_fine (override : list string) (a b : params) : Prop :=
  ~ compared override "filename" \/
  forall f g, has a "filename"%string f -> has b "filename"%string g ->
    (p_value f = VNone /\ p_value g = VNone) \/
    exists l, p_value f = VStrs l /\ p_value g = VStrs l /\ NoDup l /\
      forall i j x y, (i < j)%nat -> nth_error l i = Some x -> nth_error l j = Some y -> str_le x y.

(** Valid objects with parameters of the same names *)
Definition summable (a b : visobj) : Prop :=
  params_ok (v_params a) /\ params_ok (v_params b) /\ same_names (v_params a) (v_params b) /\
  (exists f, has (v_params a) "filename"%string f) /\
  NoDup (map fst (v_keywords a)) /\ NoDup (map fst (v_keywords b)).
