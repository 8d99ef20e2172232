(** Concatenating calibration solutions: UVCal.fast_concat,
    /repo/src/pyuvdata/uvcal/uvcal.py:3447-3885.  The objects hold solutions (they are not
    metadata_only).  Phase centers, history, filename, the warnings and the calls of check are
    not modelled. *)
From Coq Require Import List ZArith QArith Bool Arith.
From Verif Require Import Lib.Py Lib.Np Lib.Cube Model.Freq Model.Times Model.Param Model.Concat Model.UVCal.
Import ListNotations.
Notation length := List.length.
Open Scope list_scope.
Open Scope Z_scope.

Inductive cal_axis := CalAnt | CalFreq | CalSpw | CalTime | CalJones.

(** uvcal.py:140-265: the tolerances of the compared parameters *)
Record cal_tols := mkCalTols { k_default : Q * Q; k_freq : Q * Q; k_width : Q * Q; k_time : Q * Q; k_lst : Q * Q; k_int : Q * Q }.

(** uvcal.py:27-47: _time_param_check *)
Definition time_param_check (u v : ucal) : bool :=
  both_or_neither (c_time_array u) (c_time_array v) && both_or_neither (c_time_range u) (c_time_range v).

(** parameter.py: equality of arrays that may be None, within a tolerance *)
Definition same_opt {A} (eqb : A -> A -> bool) (a b : option (list A)) : bool :=
  match a, b with None, None => true | Some a, Some b => list_eqb eqb a b | _, _ => false end.
Definition close2 (t : Q * Q) (a b : Z * Z) : bool := closeZ t (fst a) (fst b) && closeZ t (snd a) (snd b).

(** uvcal.py:3586-3634: groups of compatibility_params.  freq_array and channel_width are None
    for wide_band objects. *)
Definition same_freq_params (t : cal_tols) (u v : ucal) : bool :=
  c_wide u || same_arr (k_freq t) (c_freqs u) (c_freqs v) && same_arr (k_width t) (c_widths u) (c_widths v).
Definition same_time_params (t : cal_tols) (u v : ucal) : bool :=
  same_opt (closeZ (k_time t)) (c_time_array u) (c_time_array v) && same_arr (k_int t) (c_int_time u) (c_int_time v) &&
  same_opt (closeZ (k_lst t)) (c_lst_array u) (c_lst_array v) && same_opt (close2 (k_time t)) (c_time_range u) (c_time_range v) &&
  same_opt (close2 (k_lst t)) (c_lst_range u) (c_lst_range v).

(** uvcal.py:3526-3563, 3566-3638, 3661-3671 *)
Definition cal_compatible (t : cal_tols) (axis : cal_axis) (u v : ucal) : bool :=
  both_or_neither (c_flex_jones u) (c_flex_jones v) && Bool.eqb (c_wide u) (c_wide v) &&
  Bool.eqb (c_gain u) (c_gain v) && (c_compat u =? c_compat v) &&
  match axis with
  | CalFreq | CalSpw =>
      same_arr (k_default t) (c_jones u) (c_jones v) && same_arr (k_default t) (c_ants u) (c_ants v) && same_time_params t u v
  | CalJones => same_freq_params t u v && same_arr (k_default t) (c_ants u) (c_ants v) && same_time_params t u v
  | CalAnt => same_freq_params t u v && same_arr (k_default t) (c_jones u) (c_jones v) && same_time_params t u v
  | CalTime =>
      same_freq_params t u v && same_arr (k_default t) (c_jones u) (c_jones v) && same_arr (k_default t) (c_ants u) (c_ants v) &&
      time_param_check u v
  end.

(** uvcal.py:3557-3563 *)
Definition axis_allowed (u : ucal) (axis : cal_axis) : bool :=
  match axis with
  | CalAnt | CalTime | CalJones => true
  | CalSpw => c_wide u
  | CalFreq => negb (c_wide u) && c_gain u
  end.

Definition axis_size (axis : cal_axis) (u : ucal) : nat :=
  match axis with
  | CalAnt => Nants u
  | CalFreq => length (c_freqs u)
  | CalSpw => length (c_spws u)
  | CalTime => Ntimes u
  | CalJones => Njones u
  end.

(** [np.concatenate] along an axis: the lengths of the other axes must be the same *)
Definition shapes_match (axis : cal_axis) (u v : ucal) : bool :=
  match axis with CalAnt => true | _ => (Nants u =? Nants v)%nat end &&
  match axis with CalFreq | CalSpw => true | _ => (Nchans u =? Nchans v)%nat end &&
  match axis with CalTime => true | _ => (Ntimes u =? Ntimes v)%nat end &&
  match axis with CalJones => true | _ => (Njones u =? Njones v)%nat end.
Definition cat4 {A} (axis : cal_axis) (get : ucal -> arr4 A) (d : ucal) (l : list ucal) : arr4 A :=
  fun a f t j =>
    let i := match axis with CalAnt => a | CalFreq | CalSpw => f | CalTime => t | CalJones => j end in
    let '(b, o) := locate (map (axis_size axis) l) i in
    let c := get (nth b l d) in
    match axis with
    | CalAnt => c o f t j
    | CalFreq | CalSpw => c a o t j
    | CalTime => c a f o j
    | CalJones => c a f t o
    end.
Definition cat3 (axis : cal_axis) (get : ucal -> cube Z) (d : ucal) (l : list ucal) : cube Z :=
  fun f t j =>
    let i := match axis with CalAnt => f | CalFreq | CalSpw => f | CalTime => t | CalJones => j end in
    let '(b, o) := locate (map (axis_size axis) l) i in
    let c := get (nth b l d) in
    match axis with
    | CalAnt | CalFreq | CalSpw => c o t j
    | CalTime => c f o j
    | CalJones => c f t o
    end.
Definition joined_lists {A} (get : ucal -> list A) (l : list ucal) : list A := List.concat (map get l).

(** A parameter of the first object that is not None is concatenated with those of the others;
    numpy raises ValueError for a None among them. *)
Fixpoint all_some {A} (l : list (option A)) : option (list A) :=
  match l with
  | [] => Some []
  | None :: _ => None
  | Some x :: l => option_map (cons x) (all_some l)
  end.
Definition joined_opt {A} (get : ucal -> option (list A)) (u : ucal) (l : list ucal) : result (option (list A)) :=
  match get u with
  | None => Ok None
  | Some _ => match all_some (map get l) with Some ls => Ok (Some (List.concat ls)) | None => Err ValueError end
  end.

(** uvcal.py:3738-3755: flex_jones_array for the windows [spws] of the new object.  The first
    part of concat_spw_array is the new spw_array. *)
Definition freq_flex_jones (spws : list Z) (u : ucal) (others : list ucal) : result (option (list Z)) :=
  match c_flex_jones u with
  | None => Ok None
  | Some _ =>
      let concat_spws := spws ++ joined_lists c_spws others in
      do all <- joined_opt c_flex_jones u (u :: others);
      do l <- mapM (fun w => match index_of Z.eqb w concat_spws with
                             | Some i => match nth_error (match all with Some x => x | None => [] end) i with
                                         | Some p => Ok p | None => Err IndexError end
                             | None => Err IndexError end) spws;
      Ok (Some l)
  end.

(** uvcal.py:3826-3845, 3847-3880: qualities that an object does not have are zeros *)
Definition quality (u : ucal) : arr4 Z := match c_qual u with Some q => q | None => fun _ _ _ _ => 0 end.
Definition tquality (u : ucal) : cube Z := match c_tqual u with Some q => q | None => fun _ _ _ => 0 end.

(** uvcal.py:3447-3885 *)
Definition cal_concat (t : cal_tols) (axis : cal_axis) (u : ucal) (others : list ucal) : result ucal :=
  let l := u :: others in
  if negb (axis_allowed u axis) then Err ValueError
  else if negb (forallb (cal_compatible t axis u) others) then Err ValueError
  else
    let flex := joined_lists c_flex l in
    let spws := match axis with CalFreq => take 0 flex (first_positions flex) | CalSpw => joined_lists c_spws l | _ => c_spws u end in
    do fj <- match axis with
             | CalFreq => freq_flex_jones spws u others
             | CalSpw => joined_opt c_flex_jones u l
             | _ => Ok (c_flex_jones u)
             end;
    let along_time {A} (get : ucal -> option (list A)) := match axis with CalTime => joined_opt get u l | _ => Ok (get u) end in
    do ta <- along_time c_time_array;
    do tr <- along_time c_time_range;
    do la <- along_time c_lst_array;
    do lr <- along_time c_lst_range;
    do ra <- along_time c_ref_ant;
    if negb (forallb (shapes_match axis u) others) then Err ValueError
    else
      Ok {| c_gain := c_gain u; c_wide := c_wide u; c_compat := c_compat u;
            c_ants := match axis with CalAnt => joined_lists c_ants l | _ => c_ants u end;
            c_spws := spws;
            c_freq_range := match axis with CalSpw => joined_lists c_freq_range l | _ => c_freq_range u end;
            c_freqs := match axis with CalFreq => joined_lists c_freqs l | _ => c_freqs u end;
            c_widths := match axis with CalFreq => joined_lists c_widths l | _ => c_widths u end;
            c_flex := match axis with CalFreq => flex | _ => c_flex u end;
            c_flex_jones := fj;
            c_time_array := ta; c_time_range := tr; c_lst_array := la; c_lst_range := lr; c_ref_ant := ra;
            c_int_time := match axis with CalTime => joined_lists c_int_time l | _ => c_int_time u end;
            c_jones := match axis with CalJones => joined_lists c_jones l | _ => c_jones u end;
            c_sol := cat4 axis c_sol u l;
            c_flags := cat4 axis c_flags u l;
            c_qual := if existsb (fun v => negb (is_none (c_qual v))) l then Some (cat4 axis quality u l) else None;
            c_tqual := match axis with
                       | CalAnt => None
                       | _ => if existsb (fun v => negb (is_none (c_tqual v))) l then Some (cat3 axis tquality u l) else None
                       end |}.
