(** Rotations and baseline coordinates, /repo/src/pyuvdata/utils/phasing.py:187-757,
    over the real numbers. *)
From Coq Require Import List ZArith Reals Bool Arith.
From Verif Require Import Lib.Py Lib.Dict Model.Coordinates.
Import ListNotations.
Open Scope R_scope.

(** 3 by 3 matrices.  [mset] is an assignment to one element. *)
Definition mat := nat -> nat -> R.
Definition mset (m : mat) (i j : nat) (x : R) : mat := fun a b => if (Nat.eqb a i && Nat.eqb b j)%bool then x else m a b.
Definition mulv (m : mat) (v : vec) : vec :=
  let '(x, y, z) := v in
  (m 0%nat 0%nat * x + m 0%nat 1%nat * y + m 0%nat 2%nat * z,
   m 1%nat 0%nat * x + m 1%nat 1%nat * y + m 1%nat 2%nat * z,
   m 2%nat 0%nat * x + m 2%nat 1%nat * y + m 2%nat 2%nat * z).

(** A rotation amount: None, a float, or a 1-d array *)
Inductive amount := ANone | ANum (r : R) | AArr (l : list R).
Definition isz (r : R) : bool := if Req_EM_T r 0 then true else false.
Definition no_rot (a : amount) : bool :=
  match a with ANone => true | ANum r => isz r | AArr l => forallb isz l end.
Definition n_rot (a : amount) : nat := match a with AArr l => length l | _ => 1%nat end.
(** numpy broadcasting of an amount to [n] rotations *)
Definition spread (n : nat) (a : amount) : result (list R) :=
  match a with
  | ANone => Err TypeError
  | ANum r => Ok (repeat r n)
  | AArr l => if Nat.eqb (length l) n then Ok l else match l with [r] => Ok (repeat r n) | _ => Err ValueError end
  end.

(** An array of shape (Nrot, 3, Nvec): a list of lists of vectors *)
Definition stack := list (list vec).
Definition n_vec (s : stack) : nat := match s with r :: _ => length r | [] => 0%nat end.
(** phasing.py:187-229 for 3-d arrays *)
Definition rotate_matmul (ms : list mat) (s : stack) : result stack :=
  match s with
  | [r] => Ok (map (fun m => map (mulv m) r) ms)
  | _ => if Nat.eqb (length s) (length ms) then Ok (map (fun p => map (mulv (fst p)) (snd p)) (combine ms s)) else Err ValueError
  end.
(** phasing.py:296-314, 443-459: a single rotation of single vectors is applied to
    the transposed array *)
Definition apply_rot (ms : list mat) (s : stack) : result stack :=
  match ms with
  | [m] =>
      if Nat.eqb (n_vec s) 1
      then do t <- rotate_matmul [m] [concat s]; Ok (map (fun v => [v]) (concat t))
      else rotate_matmul ms s
  | _ => rotate_matmul ms s
  end.

(** phasing.py:264-300 *)
Definition one_axis_matrix (axis : nat) (a : R) : mat :=
  let j := ((axis + 1) mod 3)%nat in
  let i := ((axis + 2) mod 3)%nat in
  let m := mset (fun _ _ => 0) axis axis 1 in
  let m := mset m i i (cos a) in
  let m := mset m j j (m i i) in
  let m := mset m i j (sin a) in
  mset m j i (- m i j).
Definition rotate_one_axis (s : stack) (a : amount) (axis : nat) : result stack :=
  if no_rot a then Ok s
  else do l <- spread (n_rot a) a; apply_rot (map (one_axis_matrix axis) l) s.

(** phasing.py:370-441.  [junk] is the uninitialised memory of np.empty; [pick] is
    Python indexing of the three-element list, negative positions counting from
    the end. *)
Definition pick (l : list nat) (z : Z) : nat := nth (Z.to_nat (z mod 3)) l 0%nat.
Definition modZ3 (z : Z) : nat := Z.to_nat (z mod 3).
Definition two_axis_matrix (junk : mat) (axis1 axis2 : nat) (a1 a2 : R) : mat :=
  let lhd := negb ((Z.of_nat axis2 - Z.of_nat axis1) mod 3 =? 1)%Z in
  let h := (if lhd then 1 else 0)%Z in
  let t := [modZ3 (Z.of_nat axis1 - h); modZ3 (Z.of_nat axis1 + 1 - h); modZ3 (Z.of_nat axis1 + 2 - h)] in
  let sin_lo := sin (if lhd then a2 else a1) in
  let cos_lo := cos (if lhd then a2 else a1) in
  let sin_hi := sin (if lhd then a1 else a2) in
  let cos_hi := cos (if lhd then a1 else a2) in
  let sg := if lhd then -1 else 1 in
  let m := mset junk (pick t 0) (pick t 0) cos_hi in
  let m := mset m (pick t 1) (pick t 1) cos_lo in
  let m := mset m (pick t 2) (pick t 2) (cos_lo * cos_hi) in
  let m := mset m (pick t (0 + h)) (pick t (1 - h)) (sin_lo * sin_hi) in
  let m := mset m (pick t (0 - h)) (pick t (h - 1)) (cos_lo * sin_hi * sg) in
  let m := mset m (pick t (1 - h)) (pick t (0 + h)) 0 in
  let m := mset m (pick t (1 + h)) (pick t (2 - h)) (sin_lo * (- sg)) in
  let m := mset m (pick t (h - 1)) (pick t (0 - h)) (sin_hi * (- sg)) in
  mset m (pick t (2 - h)) (pick t (1 + h)) (sin_lo * cos_hi * sg).
(** The sum of two amounts that are not None *)
Definition amount_add (a b : amount) : result amount :=
  match a, b with
  | ANum x, ANum y => Ok (ANum (x + y))
  | ANum x, AArr l => Ok (AArr (map (Rplus x) l))
  | AArr l, ANum y => Ok (AArr (map (fun x => x + y) l))
  | AArr l, AArr k =>
      do l' <- spread (Nat.max (length l) (length k)) (AArr l);
      do k' <- spread (Nat.max (length l) (length k)) (AArr k);
      Ok (AArr (map (fun p => fst p + snd p) (combine l' k')))
  | _, _ => Err TypeError
  end.
Definition rotate_two_axis (junk : mat) (s : stack) (a1 a2 : amount) (axis1 axis2 : nat) : result stack :=
  if no_rot a1 then if no_rot a2 then Ok s else rotate_one_axis s a2 axis2
  else if no_rot a2 then rotate_one_axis s a1 axis1
  else if Nat.eqb axis1 axis2 then do a <- amount_add a1 a2; rotate_one_axis s a axis1
  else
    let n := Nat.max (n_rot a1) (n_rot a2) in
    do l1 <- spread n a1;
    do l2 <- spread n a2;
    apply_rot (map (fun p => two_axis_matrix junk axis1 axis2 (fst p) (snd p)) (combine l1 l2)) s.

(** phasing.py:462-757.  The arguments that may be None are options. *)
Record uvw_args := mkUvw {
  app_ra : option (list R); app_dec : option (list R); frame_pa : option (list R); lst_array : option (list R);
  uvw_array : option (list vec);
  antenna_positions : option (list vec); antenna_numbers : option (list Z);
  ant_1 : option (list Z); ant_2 : option (list Z);
  old_app_ra : option (list R); old_app_dec : option (list R); old_frame_pa : option (list R);
  telescope_lat : option R; telescope_lon : option R }.
Definition isNone {A} (o : option A) : bool := match o with None => true | Some _ => false end.
(** A subscript or operation on None *)
Definition need {A} (o : option A) : result A := match o with Some a => Ok a | None => Err TypeError end.
Definition arr_of (o : option (list R)) : amount := match o with None => ANone | Some l => AArr l end.
Definition minus_arr (a b : list R) : list R := map (fun p => fst p - snd p) (combine a b).

(** phasing.py:609-622, 680: which records need a rotation of their own, and the
    number of the rotation of each record *)
Definition neqR (a b : R) : bool := if Req_EM_T a b then false else true.
Fixpoint changes (l : list (R * R)) : list bool :=
  match l with
  | a :: ((b :: _) as t) => (neqR (fst a) (fst b) || neqR (snd a) (snd b)) :: changes t
  | _ => []
  end.
Fixpoint cumsum (n : nat) (l : list bool) : list nat :=
  match l with [] => [] | b :: l => let n := (if b then S n else n) in n :: cumsum n l end.
Fixpoint masked {A} (m : list bool) (l : list A) : list A :=
  match m, l with b :: m, x :: l => if b then x :: masked m l else masked m l | _, _ => [] end.
(** [np.cumsum] after [unique_mask[0] = False] *)
Definition unique_map (m : list bool) : list nat := cumsum 0 (match m with _ :: t => false :: t | [] => [] end).

Definition vsub (a b : vec) : vec := let '(x, y, z) := a in let '(x', y', z') := b in (x - x', y - y', z - z').
(** [new_coords[:, [1, 2, 0]]] and [uvw_array[:, [2, 0, 1]]] *)
Definition to_uvw (v : vec) : vec := let '(x, y, z) := v in (y, z, x).
Definition from_uvw (v : vec) : vec := let '(u, v, w) := v in (w, u, v).
Definition zero3 : vec := (0, 0, 0).

(** phasing.py:584-684, 754 *)
Definition calc_uvw_ants (junk : mat) (to_enu : bool) (g : uvw_args) : result (list vec) :=
  match antenna_positions g, ant_1 g, ant_2 g, antenna_numbers g, telescope_lon g with
  | Some pos, Some a1, Some a2, Some nums, Some lon =>
      if isNone (lst_array g) && negb to_enu then Err ValueError
      else
        let index n := dget Z.eqb n (dict_of Z.eqb (combine nums (seq 0 (length nums)))) in
        do i1 <- mapM index a1;
        do i2 <- mapM index a2;
        do r <- (if to_enu then
                   do lat <- need (telescope_lat g);
                   Ok (match i1 with [] => [] | _ :: t => true :: map (fun _ => false) t end, [0 - lon], [0 + lat], ANone)
                 else
                   do lst <- need (lst_array g);
                   do ra <- need (app_ra g);
                   do dec <- need (app_dec g);
                   let ha := minus_arr lst ra in
                   let mask := true :: changes (combine ha dec) in
                   Ok (mask, map (fun h => h - lon) (masked mask ha), masked mask dec,
                       match frame_pa g with None => ANum 0 | Some pa => AArr (masked mask pa) end));
        let '(mask, gha, dec, pa) := r in
        do s <- rotate_two_axis junk [pos] (AArr gha) (AArr dec) 2 1;
        do s <- rotate_one_axis s pa 0;
        let rotated := concat s in
        let at_ant m i := match nth_error rotated (m * length pos + i) with Some v => Ok v | None => Err IndexError end in
        mapM (fun p => do c1 <- at_ant (fst p) (fst (snd p)); do c2 <- at_ant (fst p) (snd (snd p)); Ok (to_uvw (vsub c2 c1)))
          (combine (unique_map mask) (combine i1 i2))
  | _, _, _, _, _ => Err ValueError
  end.

(** [np.all(old_app_dec == app_dec)] *)
Definition same_dec (a b : option (list R)) : bool :=
  match a, b with
  | None, None => true
  | Some a, Some b => forallb (fun p => negb (neqR (fst p) (snd p))) (combine a b)
  | Some l, None | None, Some l => match l with [] => true | _ :: _ => false end
  end.

Definition amount_neg (a : amount) : amount :=
  match a with ANone => ANone | ANum r => ANum (- r) | AArr l => AArr (map Ropp l) end.
Definition needed (a : amount) : result amount := match a with ANone => Err TypeError | _ => Ok a end.

(** phasing.py:685-757 *)
Definition calc_uvw_old (junk : mat) (from_enu to_enu : bool) (g : uvw_args) : result (list vec) :=
  match uvw_array g with
  | None => Err ValueError
  | Some uvw =>
      if from_enu && to_enu then Ok uvw
      else if from_enu && (isNone (telescope_lat g) || isNone (lst_array g)) then Err ValueError
      else if negb from_enu && isNone (old_frame_pa g) && negb (isNone (frame_pa g) || to_enu) then Err ValueError
      else if negb from_enu && ((isNone (old_app_ra g) && negb (isNone (app_ra g) || to_enu)) ||
                                (isNone (old_app_dec g) && negb (isNone (app_dec g) || to_enu))) then Err ValueError
      else
        do gha <- (if isNone (app_ra g) && isNone (old_app_ra g) then Ok (ANum 0)
                   else do a <- need (if from_enu then lst_array g else old_app_ra g);
                        do b <- need (if to_enu then lst_array g else app_ra g);
                        Ok (AArr (minus_arr a b)));
        let s := map (fun v => [from_uvw v]) uvw in
        do s <- (if no_rot gha && same_dec (old_app_dec g) (app_dec g) then
                   do pa <- need (frame_pa g);
                   rotate_one_axis s (AArr (match old_frame_pa g with None => pa | Some o => minus_arr pa o end)) 0
                 else
                   do lat <- (if from_enu then do l <- need (telescope_lat g); Ok (ANum (- l)) else needed (amount_neg (arr_of (old_app_dec g))));
                   do s <- rotate_two_axis junk s
                     (if from_enu then ANum 0 else match old_frame_pa g with None => ANum 0 | Some o => amount_neg (AArr o) end) lat 0 1;
                   do s <- rotate_two_axis junk s gha
                     (if to_enu then match telescope_lat g with Some l => ANum l | None => ANone end else arr_of (app_dec g)) 2 1;
                   if to_enu then Ok s else rotate_one_axis s (arr_of (frame_pa g)) 0);
        Ok (map (fun r => to_uvw (hd zero3 r)) s)
  end.

(** phasing.py:563-584 *)
Definition calc_uvw (junk : mat) (use_ant_pos from_enu to_enu : bool) (g : uvw_args) : result (list vec) :=
  if to_enu && ((isNone (lst_array g) && negb use_ant_pos) || isNone (telescope_lat g)) then Err ValueError
  else if negb to_enu && (isNone (app_ra g) || isNone (app_dec g)) && isNone (frame_pa g) then Err ValueError
  else if use_ant_pos then calc_uvw_ants junk to_enu g
  else calc_uvw_old junk from_enu to_enu g.
