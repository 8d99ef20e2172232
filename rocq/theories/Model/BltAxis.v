(** The baseline-time axis: /repo/src/pyuvdata/utils/bltaxis.py *)
From Coq Require Import List ZArith Bool Arith.
From Verif Require Import Lib.Py Lib.Np Spec.BltSpec.
Import ListNotations.
Open Scope Z_scope.

(** The ten flags of bltaxis.py:18-27 *)
Record flags := mkFlags {
  time_bl : bool; time_a : bool; time_b : bool;
  bl_time : bool; a_time : bool; b_time : bool;
  bl_order : bool; a_order : bool; b_order : bool; time_order : bool }.

(** bltaxis.py:38-62 *)
Definition step_time (on_time_boundary : bool) (p c : bltrow) (f : flags) : flags :=
  if r_time c <? r_time p then
    let f := mkFlags false false false (bl_time f) (a_time f) (b_time f)
                     (bl_order f) (a_order f) (b_order f) false in
    let f := if negb on_time_boundary
             then mkFlags (time_bl f) (time_a f) (time_b f) false false false
                          (bl_order f) (a_order f) (b_order f) (time_order f)
             else f in
    mkFlags (time_bl f) (time_a f) (time_b f)
            (if r_bl c =? r_bl p then false else bl_time f)
            (if r_ant1 c =? r_ant1 p then false else a_time f)
            (if r_ant2 c =? r_ant2 p then false else b_time f)
            (bl_order f) (a_order f) (b_order f) (time_order f)
  else if r_time c =? r_time p then
    mkFlags (if r_bl c <? r_bl p then false else time_bl f)
            (if r_ant1 c <? r_ant1 p then false else time_a f)
            (if r_ant2 c <? r_ant2 p then false else time_b f)
            (bl_time f) (a_time f) (b_time f) (bl_order f) (a_order f) (b_order f) (time_order f)
  else f.

(** bltaxis.py:64-68 *)
Definition step_bl (on_bl_boundary : bool) (p c : bltrow) (f : flags) : flags :=
  if r_bl c <? r_bl p
  then mkFlags (if negb on_bl_boundary then false else time_bl f) (time_a f) (time_b f)
               false (a_time f) (b_time f) false (a_order f) (b_order f) (time_order f)
  else f.

(** bltaxis.py:69-73 *)
Definition step_a (on_bl_boundary : bool) (p c : bltrow) (f : flags) : flags :=
  if r_ant1 c <? r_ant1 p
  then mkFlags (time_bl f) (if negb on_bl_boundary then false else time_a f) (time_b f)
               (bl_time f) false (b_time f) (bl_order f) false (b_order f) (time_order f)
  else f.

(** bltaxis.py:74-78 *)
Definition step_b (on_bl_boundary : bool) (p c : bltrow) (f : flags) : flags :=
  if r_ant2 c <? r_ant2 p
  then mkFlags (time_bl f) (time_a f) (if negb on_bl_boundary then false else time_b f)
               (bl_time f) (a_time f) false (bl_order f) (a_order f) false (time_order f)
  else f.

(** bltaxis.py:32-78, the body of the loop *)
Definition blt_step (Nbls Ntimes : nat) (i : nat) (p c : bltrow) (f : flags) : flags :=
  let on_bl_boundary := (i mod Nbls =? 0)%nat in
  let on_time_boundary := (i mod Ntimes =? 0)%nat in
  step_b on_bl_boundary p c (step_a on_bl_boundary p c
    (step_bl on_bl_boundary p c (step_time on_time_boundary p c f))).

(** bltaxis.py:80-95 *)
Definition any_flag (f : flags) : bool :=
  time_bl f || time_a f || time_b f || bl_time f || a_time f || b_time f ||
  bl_order f || a_order f || b_order f || time_order f.

(** bltaxis.py:32-95, the loop with its break; [i] is the index of the first
    element of [rest], [p] the element before it. *)
Fixpoint blt_loop (Nbls Ntimes : nat) (i : nat) (p : bltrow) (rest : list bltrow) (f : flags) : flags :=
  match rest with
  | [] => f
  | c :: rest =>
      let f := blt_step Nbls Ntimes i p c f in
      if any_flag f then blt_loop Nbls Ntimes (S i) c rest f else f
  end.

(** bltaxis.py:9-147.  The four arrays are given as a list of rows. *)
Definition determine_blt_order (rows : list bltrow) (Nbls Ntimes : nat) : result (option (list axis_key)) :=
  if ((Nbls =? 1) && (Ntimes =? 1))%nat then Ok (Some [KBaseline; KTime])
  else
    let all := mkFlags true true true true true true true true true true in
    let f := match rows with [] => all | p :: rest => blt_loop Nbls Ntimes 1 p rest all end in
    if ((1 <? Nbls) && (1 <? Ntimes))%nat &&
       ((time_bl f && bl_time f) || (time_a f && a_time f) || (time_b f && b_time f)
        || (time_order f && a_order f) || (time_order f && b_order f)
        || (a_order f && b_order f) || (time_order f && bl_order f))
    then Err AssertionError
    else if time_bl f then Ok (Some [KTime; KBaseline])
    else if bl_time f then Ok (Some [KBaseline; KTime])
    else if time_a f then Ok (Some [KTime; KAnt1])
    else if a_time f then Ok (Some [KAnt1; KTime])
    else if time_b f then Ok (Some [KTime; KAnt2])
    else if b_time f then Ok (Some [KAnt2; KTime])
    else if bl_order f then Ok (Some [KBaseline])
    else if a_order f then Ok (Some [KAnt1])
    else if b_order f then Ok (Some [KAnt2])
    else if time_order f then Ok (Some [KTime])
    else Ok None.

(** numpy [reshape((n, m))] of a 1-d array *)
Fixpoint reshape {A} (n m : nat) (l : list A) : list (list A) :=
  match n with O => [] | S n => firstn m l :: reshape n m (skipn m l) end.

(** numpy [np.diff] of a 1-d array, of the rows (axis=0), within the rows (axis=1) *)
Fixpoint diff (l : list Z) : list Z :=
  match l with
  | a :: (b :: _) as t => (b - a) :: diff t
  | _ => []
  end.
Definition diff_axis1 (m : list (list Z)) : list (list Z) := map diff m.
Fixpoint diff_axis0 (m : list (list Z)) : list (list Z) :=
  match m with
  | r :: (s :: _) as t => map (fun p => snd p - fst p) (combine r s) :: diff_axis0 t
  | _ => []
  end.
Definition sum_abs (m : list (list Z)) : Z := fold_right (fun x s => Z.abs x + s) 0 (concat m).
Definition any_nonzero (m : list (list Z)) : bool := existsb (fun x => negb (x =? 0)) (concat m).

Definition key_eqb (a b : axis_key) : bool :=
  match a, b with
  | KTime, KTime | KBaseline, KBaseline | KAnt1, KAnt1 | KAnt2, KAnt2 | KBda, KBda => true
  | _, _ => false
  end.
(** comparison of the [blt_order] argument with a tuple *)
Definition order_is (o : option (list axis_key)) (k1 k2 : axis_key) : bool :=
  match o with Some [a; b] => key_eqb a k1 && key_eqb b k2 | _ => false end.

(** bltaxis.py:150-230.  Reading [time_array[1]] of an array with fewer than two
    elements raises IndexError. *)
Definition determine_rectangularity (time_array baseline_array : list Z) (nbls ntimes : nat)
    (blt_order : option (list axis_key)) : result (bool * bool) :=
  if negb (List.length time_array =? nbls * ntimes)%nat then Ok (false, false)
  else if (nbls * ntimes =? 1)%nat then Ok (true, true)
  else if (nbls =? 1)%nat then Ok (true, true)
  else if (ntimes =? 1)%nat then Ok (true, false)
  else if order_is blt_order KBaseline KTime then Ok (true, true)
  else if order_is blt_order KTime KBaseline then Ok (true, false)
  else
    match time_array, baseline_array with
    | t0 :: t1 :: _, b0 :: b1 :: _ =>
        let time_first := negb (t1 =? t0) in
        let bl_first := negb (b1 =? b0) in
        if negb time_first && negb bl_first then Ok (false, false)
        else if time_first then
          let ta := reshape nbls ntimes time_array in
          let ba := reshape nbls ntimes baseline_array in
          if negb (sum_abs (diff_axis0 ta) =? 0) then Ok (false, false)
          else if any_nonzero (diff_axis1 ba) then Ok (false, false)
          else Ok (true, true)
        else
          let ta := reshape ntimes nbls time_array in
          let ba := reshape ntimes nbls baseline_array in
          if negb (sum_abs (diff_axis1 ta) =? 0) then Ok (false, false)
          else if any_nonzero (diff_axis0 ba) then Ok (false, false)
          else Ok (true, false)
    | _, _ => Err IndexError
    end.
