(** /repo/src/pyuvdata/utils/tools.py and the slice-length helper of
    /repo/src/pyuvdata/utils/io/hdf5.py *)
From Coq Require Import List ZArith Bool String Ascii QArith.
From Verif Require Import Lib.Py Lib.Np Lib.Sorting Lib.Slice.
Import ListNotations.
Open Scope Z_scope.

(** What may be passed as / returned for an index along one axis. *)
Inductive axis_index :=
| ISlice (s : slice)
| IInt (i : Z)
| IMask (m : list bool)
| IList (l : list Z).

(** [slice(a, b, c)] *)
Definition mk (a b : Z) (c : option Z) : slice := mkslice (Some a) (Some b) c.

(** State of the loop tools.py:129-153. *)
Record cts_state := mkcts {
  c_start : option Z; c_last_step : option Z; c_last_ind : Z; c_slices : list slice }.

(** One iteration, tools.py:131-153 ([last_ind] is unset before the second
    iteration in Python; it is never read before being set). *)
Definition cts_step (st : cts_state) (ind : Z) : cts_state :=
  match c_last_step st with
  | None =>
      match c_start st with
      | None => mkcts (Some ind) None (c_last_ind st) (c_slices st)
      | Some start => mkcts (Some start) (Some (ind - start)) ind (c_slices st)
      end
  | Some last_step =>
      let step := ind - c_last_ind st in
      match c_start st with
      | Some start =>
          if negb (step =? last_step) then
            mkcts (Some ind) None ind (c_slices st ++ [mk start (c_last_ind st + 1) (Some last_step)])
          else mkcts (Some start) (Some last_step) ind (c_slices st)
      | None => st (* unreachable: start is set whenever last_step is *)
      end
  end.

(** tools.py:125-156, returning the list of slices *)
Definition cts_loop (eval_ind : list Z) : list slice :=
  let st := fold_left cts_step eval_ind (mkcts None None 0 []) in
  match c_start st with
  | Some start => c_slices st ++ [mk start (last eval_ind 0 + 1) (c_last_step st)]
  | None => []
  end.

(** tools.py:121: [all(np.diff(eval_ind) == step)] *)
Fixpoint all_diff (step : Z) (l : list Z) : bool :=
  match l with
  | x :: (y :: _) as t => (y - x =? step) && all_diff step t
  | _ => true
  end.

(** tools.py:59-167.  [max_nslice_frac] is a rational; the index list of a mask
    is [np.where(mask)[0]]. *)
Definition convert_to_slices (indices : axis_index) (max_nslice_frac : Q)
    (max_nslice : option Z) (return_index_on_fail : bool) : list axis_index * bool :=
  match indices with
  | ISlice s => ([ISlice s], true)
  | IInt i => ([ISlice (mk i (i + 1) (Some 1))], true)
  | IMask _ | IList _ =>
      let eval_ind := match indices with
                      | IMask m => map Z.of_nat (nonzero (fun b => b) m)
                      | IList l => l
                      | _ => [] end in
      match eval_ind with
      | [] => ([ISlice (mk 0 0 (Some 0))], false)
      | e0 :: tl =>
        let el := last eval_ind 0 in
        if (List.length eval_ind <=? 2)%nat then
          ([ISlice (mk e0 (el + 1) (Some (Z.max (el - e0) 1)))], true)
        else if match max_nslice with Some k => (k =? 1) | None => false end && return_index_on_fail then
          let step := hd 0 tl - e0 in
          if all_diff step eval_ind then ([ISlice (mk e0 (el + 1) (Some step))], true)
          else ([indices], false)
        else
          let slices := cts_loop eval_ind in
          let check := match max_nslice with
                       | Some k => Z.of_nat (List.length slices) <=? k
                       | None => Qle_bool (inject_Z (Z.of_nat (List.length slices)))
                                  (max_nslice_frac * inject_Z (Z.of_nat (List.length eval_ind)))%Q
                       end in
          if return_index_on_fail && negb check then ([indices], check)
          else (map ISlice slices, check)
      end
  end.

(** tools.py:170-181.  [None] in = [None] out; the result is either an index
    object or None.  [np.ediff1d] of a list, as a set, has at most one element
    iff all differences equal the first. *)
Definition slicify (ind : option axis_index) : option axis_index :=
  match ind with
  | Some (IList l) =>
      match l with
      | [] => None
      | [x] => Some (ISlice (mk x (x + 1) (Some 1)))
      | x :: y :: _ =>
          if all_diff (y - x) l then Some (ISlice (mk x (last l 0 + 1) (Some (y - x))))
          else Some (IList l)
      end
  | other => other
  end.

(** io/hdf5.py:74-103 [_get_slice_len]; [//] by zero raises. *)
Definition get_slice_len (s : slice) (axlen : Z) : result Z :=
  let start := match s_start s with None => 0 | Some v => v end in
  let stop := match s_stop s with None => axlen | Some v => Z.min v axlen end in
  let step := match s_step s with None => 1 | Some v => v end in
  if step =? 0 then Err ZeroDivisionError
  else Ok ((stop - 1 - start) / step + 1).

(** tools.py:305-371 on integers: [sorted(set(..))] is [uniqueZ]. *)
Definition sorted_unique_union (o1 : list Z) (o2 : option (list Z)) : list Z :=
  match o2 with None => uniqueZ o1 | Some l => uniqueZ (o1 ++ l) end.
Definition sorted_unique_intersection (o1 : list Z) (o2 : option (list Z)) : list Z :=
  match o2 with None => uniqueZ o1 | Some l => uniqueZ (filter (fun x => isinZ x l) o1) end.
Definition sorted_unique_difference (o1 : list Z) (o2 : option (list Z)) : list Z :=
  match o2 with None => uniqueZ o1 | Some l => uniqueZ (filter (fun x => negb (isinZ x l)) o1) end.

(** Python string order is lexicographic by code point. *)
Fixpoint insert_uniqS (x : string) (l : list string) : list string :=
  match l with
  | [] => [x]
  | y :: t => match String.compare x y with
              | Lt => x :: l
              | Eq => l
              | Gt => y :: insert_uniqS x t
              end
  end.
Definition uniqueS (l : list string) : list string := fold_right insert_uniqS [] l.

(** tools.py:21-56 *)
Definition combine_filenames (f1 f2 : option (list string)) : option (list string) :=
  match f1, f2 with
  | Some a, Some b => Some (uniqueS (a ++ b))
  | Some a, None => Some a
  | None, Some b => Some b
  | None, None => None
  end.

(** tools.py:298-302, the loop over neighbours *)
Fixpoint adjacent_overlap (l : list (Z * Z)) : bool :=
  match l with
  | r1 :: (r2 :: _) as t => (fst r2 <? snd r1) || adjacent_overlap t
  | _ => false
  end.

(** tools.py:271-302; floats scaled to integers; returns [None] (falsy) in Python
    when nothing overlaps, [false] here.  [val_range[np.argsort(val_range[:,0])]]
    is the stable sort by first component. *)
Definition check_range_overlap (ranges : list (Z * Z)) : result bool :=
  if existsb (fun r => snd r - fst r <? 0) ranges then Err ValueError
  else Ok (adjacent_overlap (isort (fun a b => fst a <=? fst b) ranges)).

(** tools.py:184-227 [_test_array_constant] with tolerances (rtol, atol) given as
    rationals and values as rationals; [np.isclose(a,b)] is
    |a-b| <= atol + rtol*|b|.  The minimum of an empty array raises. *)
Definition qmin (l : list Q) : option Q :=
  match l with [] => None | x :: t => Some (fold_left (fun m a => if Qle_bool m a then m else a) t x) end.
Definition qmax (l : list Q) : option Q :=
  match l with [] => None | x :: t => Some (fold_left (fun m a => if Qle_bool a m then m else a) t x) end.
Definition qabs (q : Q) : Q := if Qle_bool 0 q then q else (- q)%Q.
Definition isclose (a b rtol atol : Q) : bool :=
  Qle_bool (qabs (a - b)) (atol + rtol * qabs b).
Definition test_array_constant (l : list Q) (rtol atol : Q) : result bool :=
  if (List.length l =? 1)%nat then Ok true else
  match qmin l, qmax l with
  | Some mn, Some mx => Ok (Qeq_bool mn mx || isclose mn mx rtol atol)
  | _, _ => Err ValueError
  end.
Fixpoint qdiff (l : list Q) : list Q :=
  match l with
  | x :: (y :: _) as t => (y - x)%Q :: qdiff t
  | _ => []
  end.
(** tools.py:230-268 *)
Definition test_array_constant_spacing (l : list Q) (rtol atol : Q) : result bool :=
  if (List.length l <=? 2)%nat then Ok true else test_array_constant (qdiff l) rtol atol.
