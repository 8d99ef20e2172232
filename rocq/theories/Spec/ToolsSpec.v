(** What an index object selects on an axis of length [n], in order. *)
From Coq Require Import List ZArith Sorted String.
From Verif Require Import Lib.Py Lib.Np Lib.Slice Model.Tools.
Import ListNotations.
Open Scope Z_scope.

Definition positions (n : Z) (ix : axis_index) : result (list Z) :=
  match ix with
  | ISlice s => slice_indices s n
  | IInt i => Ok [i]
  | IMask m => Ok (map Z.of_nat (nonzero (fun b => b) m))
  | IList l => Ok l
  end.

(** A list of index objects selects the concatenation of their selections. *)
Definition all_positions (n : Z) (l : list axis_index) : result (list Z) :=
  do ll <- mapM (positions n) l; Ok (List.concat ll).

(** Index lists in the documented domain: strictly increasing, inside the axis. *)
Definition increasing_in (n : Z) (l : list Z) : Prop :=
  StronglySorted Z.lt l /\ Forall (fun i => 0 <= i < n) l.

(** Two ranges that overlap in more than an end point. *)
Definition share_interior (r1 r2 : Z * Z) : Prop := fst r1 < snd r2 /\ fst r2 < snd r1.

(** Code-point order on strings, and a normalised (sorted, duplicate-free) or
    absent filename list. *)
Definition slt (x y : string) : Prop := String.compare x y = Lt.
Definition norm (f : option (list string)) : Prop :=
  match f with None => True | Some l => StronglySorted slt l end.
