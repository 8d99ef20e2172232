(** Selection by time and local sidereal time:
    /repo/src/pyuvdata/utils/times.py.  Times and LSTs are scaled to integers;
    [two_pi] is the number 2 * np.pi on that scale.  Warnings are left out. *)
From Coq Require Import List ZArith Bool QArith.
From Verif Require Import Lib.Py Lib.Np Model.Tools.
Import ListNotations.
Notation length := List.length.
Open Scope Z_scope.

(** The four keywords of a selection; the ranges are lists because their length
    is checked. *)
Record time_request := mkTimeRequest {
  rq_times : option (list Z);
  rq_time_range : option (list Z);
  rq_lsts : option (list Z);
  rq_lst_range : option (list Z) }.

(** What the object has: an array (obj_time_array, obj_lst_array), or an array of
    ranges (obj_time_range, obj_lst_range), which is used if it is there. *)
Inductive time_axis := TimeArray (l : list Z) | TimeRanges (l : list (Z * Z)).

(** [np.isclose(a, b, rtol=tols[0], atol=tols[1])] *)
Definition closeZ (tols : Q * Q) (a b : Z) : bool := isclose (inject_Z a) (inject_Z b) (fst tols) (snd tols).

(** times.py:371-386 and 441-455: each value must be close to something *)
Fixpoint times_in_array (tols : Q * Q) (arr : list Z) (vals : list Z) : result (list nat) :=
  match vals with
  | [] => Ok []
  | v :: vals =>
      match nonzero (fun t => closeZ tols t v) arr with
      | [] => Err ValueError
      | inds => do rest <- times_in_array tols arr vals; Ok (inds ++ rest)
      end
  end.

(** times.py:359-370 *)
Definition in_range (v : Z) (r : Z * Z) : bool := (fst r <=? v) && (snd r >=? v).
Fixpoint times_in_ranges (ranges : list (Z * Z)) (vals : list Z) : result (list nat) :=
  match vals with
  | [] => Ok []
  | v :: vals =>
      match nonzero (in_range v) ranges with
      | [] => Err ValueError
      | inds => do rest <- times_in_ranges ranges vals; Ok (inds ++ rest)
      end
  end.

(** times.py:388-410.  The objects's ranges are tested one by one, in order. *)
Definition overlap_inds (t0 t1 : Z) (ranges : list (Z * Z)) : result (list nat) :=
  do hits <- mapM (fun r => check_range_overlap [r; (t0, t1)]) ranges;
  Ok (nonzero (fun b : bool => b) hits).
Definition nonempty (l : list nat) : result (list nat) := match l with [] => Err ValueError | _ => Ok l end.
Definition time_range_inds (axis : time_axis) (range : list Z) : result (list nat) :=
  match range with
  | [t0; t1] =>
      match axis with
      | TimeRanges l => do inds <- overlap_inds t0 t1 l; nonempty inds
      | TimeArray l => nonempty (nonzero (fun t => (t <=? t1) && (t >=? t0)) l)
      end
  | _ => Err ValueError
  end.

(** times.py:412-414 *)
Definition wraps (r : Z * Z) : bool := fst r >? snd r.

(** times.py:426-440: the wrapped ranges are looked at only if no other range
    holds the LST, and the last one found replaces the ones before. *)
Definition wrapped_hit (two_pi v : Z) (r : Z * Z) : bool :=
  ((fst r <=? v) && (v <=? two_pi)) || ((v >=? 0) && (v <=? snd r)).
Definition lst_ind (two_pi : Z) (ranges : list (Z * Z)) (v : Z) : list nat :=
  match nonzero (in_range v) ranges with
  | [] => fold_left (fun cur i => if wrapped_hit two_pi v (nth i ranges (0, 0)) then [i] else cur) (nonzero wraps ranges) []
  | inds => inds
  end.
Fixpoint lsts_in_ranges (two_pi : Z) (ranges : list (Z * Z)) (vals : list Z) : result (list nat) :=
  match vals with
  | [] => Ok []
  | v :: vals =>
      match lst_ind two_pi ranges v with
      | [] => Err ValueError
      | inds => do rest <- lsts_in_ranges two_pi ranges vals; Ok (inds ++ rest)
      end
  end.

(** times.py:465-476 *)
Definition lst_overlap (two_pi l0 l1 : Z) (r : Z * Z) : result bool :=
  if negb (wraps r) && (l0 <? l1) then check_range_overlap [r; (l0, l1)]
  else Ok (((l0 >=? fst r) && (l0 <=? two_pi)) || ((l1 <=? snd r) && (l1 >=? 0))).
(** times.py:457-504; [np.union1d] sorts and removes duplicates *)
Definition lst_range_inds (two_pi : Z) (axis : time_axis) (range : list Z) : result (list nat) :=
  match range with
  | [l0; l1] =>
      match axis with
      | TimeRanges l =>
          do hits <- mapM (lst_overlap two_pi l0 l1) l; nonempty (nonzero (fun b : bool => b) hits)
      | TimeArray l =>
          if l1 <? l0
          then nonempty (uniqueN (nonzero (fun t => (t <=? two_pi) && (t >=? l0)) l ++ nonzero (fun t => (t <=? l1) && (t >=? 0)) l))
          else nonempty (nonzero (fun t => (t <=? l1) && (t >=? l0)) l)
      end
  | _ => Err ValueError
  end.

(** times.py:337-351 *)
Definition given {A} (o : option A) : nat := match o with Some _ => 1 | None => 0 end.
(** times.py:284-505 *)
Definition select_times_helper (two_pi : Z) (rq : time_request) (times lsts : time_axis) (time_tols lst_tols : Q * Q)
    : result (option (list nat)) :=
  if (1 <? given (rq_times rq) + given (rq_time_range rq) + given (rq_lsts rq) + given (rq_lst_range rq))%nat
  then Err ValueError
  else
    match rq_times rq, rq_time_range rq, rq_lsts rq, rq_lst_range rq with
    | Some vals, _, _, _ =>
        do inds <- match times with TimeRanges l => times_in_ranges l vals | TimeArray l => times_in_array time_tols l vals end;
        Ok (Some inds)
    | _, Some range, _, _ => do inds <- time_range_inds times range; Ok (Some inds)
    | _, _, Some vals, _ =>
        do inds <- match lsts with TimeRanges l => lsts_in_ranges two_pi l vals | TimeArray l => times_in_array lst_tols l vals end;
        Ok (Some inds)
    | _, _, _, Some range => do inds <- lst_range_inds two_pi lsts range; Ok (Some inds)
    | _, _, _, _ => Ok None
    end.
