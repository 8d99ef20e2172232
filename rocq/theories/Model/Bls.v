(** Baseline numbers: /repo/src/pyuvdata/utils/bls.py and bls.pyx, and the
    MIRIAD helpers of /repo/src/pyuvdata/uvdata/aipy_extracts.py. *)
From Coq Require Import List ZArith Bool.
From Verif Require Import Lib.Py.
Import ListNotations.
Open Scope Z_scope.

(** Arithmetic on [numpy.uint64_t] (bls.pyx, all loops). *)
Definition w64 (z : Z) : Z := z mod 2 ^ 64.

(** bls.pyx:79-80 *)
Definition bl_large : Z := 2 ^ 16 + 2 ^ 22.
Definition large_mod : Z := 2147483648.

(** bls.pyx:30-38 [arraymin]; [array[0]] of an empty buffer is read without a
    bounds check, hence [Undefined]. *)
Definition arraymin (l : list Z) : result Z :=
  match l with
  | [] => Err Undefined
  | x :: _ => Ok (fold_left (fun m a => if a <? m then a else m) l x)
  end.

(** bls.pyx:40-48 [arraymax] *)
Definition arraymax (l : list Z) : result Z :=
  match l with
  | [] => Err Undefined
  | x :: _ => Ok (fold_left (fun m a => if a >? m then a else m) l x)
  end.

(** bls.pyx:52-62, one loop iteration *)
Definition bl_to_ant_256 (bl : Z) : Z * Z :=
  let a2 := w64 (bl mod 256) in
  (w64 (bl - a2) / 256, a2).

(** bls.pyx:66-75, one loop iteration *)
Definition bl_to_ant_2048 (bl : Z) : Z * Z :=
  let a2 := w64 (bl - 2 ^ 16) mod 2048 in
  (w64 (w64 (bl - 2 ^ 16) - a2) / 2048, a2).

(** bls.pyx:85-94, one loop iteration *)
Definition bl_to_ant_2147483648 (bl : Z) : Z * Z :=
  let a2 := w64 (bl - bl_large) mod large_mod in
  (w64 (w64 (bl - bl_large) - a2) / large_mod, a2).

(** bls.pyx:99-115: the regime is chosen from the minimum of the whole array *)
Definition pyx_baseline_to_antnums (bl : list Z) : result (list Z * list Z) :=
  do mn <- arraymin bl;
  let f := if mn >=? 2 ^ 16 + 2 ^ 22 then bl_to_ant_2147483648
           else if mn >=? 2 ^ 16 then bl_to_ant_2048
           else bl_to_ant_256 in
  let ants := map f bl in
  Ok (map fst ants, map snd ants).

(** bls.py:16-49 (array input; the scalar case is a one-element array) *)
Definition baseline_to_antnums (bl : list Z) (nants : Z) : result (list Z * list Z) :=
  if nants >? 2147483648 then Err ValueError
  else if existsb (fun b => b <? 0) bl then Err ValueError
  else if existsb (fun b => b >? 4611686018498691072) bl then Err ValueError
  else pyx_baseline_to_antnums bl.

(** bls.pyx:119-129, one iteration *)
Definition antnum_to_bl_2147483648 (a1 a2 : Z) : Z :=
  w64 (w64 (w64 (large_mod * a1) + a2) + bl_large).
(** bls.pyx:133-143, one iteration *)
Definition antnum_to_bl_2048 (a1 a2 : Z) : Z :=
  w64 (w64 (w64 (2048 * a1) + a2) + 2 ^ 16).
(** bls.pyx:164-175, one iteration *)
Definition antnum_to_bl_256 (a1 a2 : Z) : Z :=
  w64 (w64 (256 * a1) + a2).
(** bls.pyx:147-160, one iteration *)
Definition antnum_to_bl_2048_miriad (a1 a2 : Z) : Z :=
  if a2 >? 255 then w64 (w64 (w64 (2048 * a1) + a2) + 2 ^ 16)
  else w64 (w64 (256 * a1) + a2).

(** bls.pyx:177-235.  [nbls] is the length of [ant1]; a shorter [ant2] is read
    past its end, hence [Undefined]. *)
Definition pyx_antnums_to_baseline (ant1 ant2 : list Z)
    (attempt256 nants_less2048 miriad : bool) : result (list Z) :=
  do m1 <- arraymax ant1;
  do m2 <- arraymax ant2;
  let mx := if m1 >? m2 then m1 else m2 in
  let ants_less2048 := mx <? 2048 in
  let f := if miriad then antnum_to_bl_2048_miriad
           else if attempt256 then
             if mx <? 256 then antnum_to_bl_256
             else if ants_less2048 && nants_less2048 then antnum_to_bl_2048
             else antnum_to_bl_2147483648
           else if ants_less2048 && nants_less2048 then antnum_to_bl_2048
           else antnum_to_bl_2147483648 in
  if (length ant2 <? length ant1)%nat then Err Undefined
  else Ok (map (fun p => f (fst p) (snd p)) (combine ant1 ant2)).

(** bls.py:52-120 (array input) *)
Definition antnums_to_baseline (ant1 ant2 : list Z) (nants : option Z)
    (attempt256 miriad : bool) : result (list Z) :=
  if match nants with Some n => n >? 2147483648 | None => false end then Err ValueError
  else if existsb (fun a => a >=? 2147483648) (ant1 ++ ant2) then Err ValueError
  else if existsb (fun a => a <? 0) (ant1 ++ ant2) then Err ValueError
  else
    let nants_less2048 := match nants with Some n => negb (n >? 2048) | None => true end in
    pyx_antnums_to_baseline ant1 ant2 attempt256 nants_less2048 miriad.

(** bls.py:123-126 *)
Definition baseline_index_flip (bl : list Z) (nants : Z) : result (list Z) :=
  do (ant1, ant2) <- baseline_to_antnums bl nants;
  antnums_to_baseline ant2 ant1 (Some nants) false false.

(** aipy_extracts.py:44-68 *)
Definition bl2ij (bl : Z) : Z * Z :=
  let '(bl, mant) := if bl >? 65536 then (bl - 65536, 2048) else (bl, 256) in
  (bl / mant - 1, bl mod mant - 1).

(** aipy_extracts.py:71-93 *)
Definition ij2bl (i j : Z) : Z :=
  let '(i, j) := if i >? j then (j, i) else (i, j) in
  if j + 1 <? 256 then 256 * (i + 1) + (j + 1)
  else 2048 * (i + 1) + (j + 1) + 65536.
