(** Antenna beams: /repo/src/pyuvdata/uvbeam/uvbeam.py, conversion of electric field
    beams to power and pseudo-Stokes beams, peak normalization and beam areas, over the
    real numbers.  The pixel axis is the healpix one; for the other coordinate systems it
    stands for the last two axes flattened, which these methods only reshape.  Methods
    work in place and return the object they leave together with the error they raise, if
    any.  The closing [check] and warnings are left out; NotImplementedError is
    [Undefined]. *)
From Coq Require Import List ZArith Reals Bool Arith String.
From Verif Require Import Lib.Py Lib.Np Lib.Dict Model.Pol Model.Phase.
Import ListNotations.
Open Scope list_scope.
Open Scope R_scope.
Notation length := List.length.

Definition cx_add (a b : cx) : cx := (fst a + fst b, snd a + snd b).
Definition cx_conj (a : cx) : cx := (fst a, - snd a).
Definition cx_scale (r : R) (a : cx) : cx := (r * fst a, r * snd a).
(** [abs(a)] *)
Definition cx_abs (a : cx) : R := sqrt (fst a * fst a + snd a * snd a).
Definition of_real (r : R) : cx := (r, 0).
Definition cx0 : cx := (0, 0).
Definition cx_sum (l : list cx) : cx := fold_right cx_add cx0 l.

(** data_array: vector component, feed or polarization, frequency, pixel *)
Definition bdata := nat -> nat -> nat -> nat -> cx.

(** uvbeam.py:60-560, the attributes used here.  [b_feeds] is feed_array, with Nfeeds its
    length (None when unset); [b_basis] is basis_vector_array: vector component, axis,
    pixel. *)
Record beam := mkBeam {
  b_type : string; b_ant : string; b_norm : string; b_cs : string;
  b_nvec : nat; b_nfreq : nat; b_npix : nat; b_nside : nat;
  b_feeds : option (list string); b_npols : option nat; b_pols : option (list Z);
  b_xo : option string; b_basis : option (nat -> nat -> nat -> R);
  b_data : bdata; b_bandpass : list R; b_hist : string }.
Definition outcome := (beam * option exn)%type.

(** The length of the second axis of data_array (uvbeam.py:594-600) *)
Definition b_npol_axis (b : beam) : nat :=
  if String.eqb (b_type b) "power" then match b_npols b with Some n => n | None => 0 end
  else match b_feeds b with Some l => length l | None => 0 end.

(** uvbeam.py:696-702, 732-738 *)
Definition auto_pol_list : list string := ["xx"; "yy"; "rr"; "ll"; "pI"; "pQ"; "pU"; "pV"]%string.
Definition is_auto (n : Z) : result bool :=
  do s <- dget Z.eqb n POL_NUM2STR_DICT; Ok (memb String.eqb s auto_pol_list).

Definition is_real (a : cx) : bool := if Req_EM_T (snd a) 0 then true else false.

(** uvbeam.py:686-708 (both branches store the same numbers) and 711-760 with
    fix_auto_power *)
Definition fix_auto_power (screen : list bool) (d : bdata) : bdata :=
  fun v p k x => if nth p screen false then of_real (cx_abs (d v p k x)) else d v p k x.
Definition check_auto_power (nvec nfreq npix : nat) (pols : list Z) (d : bdata) : result bdata :=
  do screen <- mapM is_auto pols;
  if existsb (fun v => existsb (fun p => nth p screen false &&
       existsb (fun k => existsb (fun x => negb (is_real (d v p k x))) (seq 0 npix)) (seq 0 nfreq))
       (seq 0 (length screen))) (seq 0 nvec)
  then Ok (fix_auto_power screen d) else Ok d.

(** [abs(self.data_array[:, :, i]).max()] (uvbeam.py:851) *)
Definition cells (nvec npol npix : nat) : list (nat * nat * nat) :=
  List.concat (map (fun v => List.concat (map (fun p => map (fun x => (v, p, x)) (seq 0 npix)) (seq 0 npol))) (seq 0 nvec)).
Definition maximum (l : list R) : result R :=
  match l with [] => Err ValueError | x :: l => Ok (fold_left Rmax l x) end.
Definition peak (nvec npol npix : nat) (d : bdata) (k : nat) : result R :=
  maximum (map (fun c => match c with (v, p, x) => cx_abs (d v p k x) end) (cells nvec npol npix)).

(** uvbeam.py:843-854.  Division by zero gives NaN, which is not modelled: [Undefined]. *)
Definition peak_step (nvec npol npix : nat) (st : bdata * list R) (k : nat) : result (bdata * list R) :=
  let (d, bp) := st in
  do m <- peak nvec npol npix d k;
  if Req_EM_T m 0 then Err Undefined
  else Ok (fun v p k' x => if Nat.eqb k' k then cx_scale (/ m) (d v p k' x) else d v p k' x,
           set_nth k (nth k bp 0 * m) bp).
Fixpoint peak_loop (nvec npol npix : nat) (ks : list nat) (st : bdata * list R) : result (bdata * list R) :=
  match ks with
  | [] => Ok st
  | k :: ks => do st' <- peak_step nvec npol npix st k; peak_loop nvec npol npix ks st'
  end.
Definition peak_normalize (b : beam) : result beam :=
  if String.eqb (b_norm b) "solid_angle" then Err Undefined
  else
    do st <- peak_loop (b_nvec b) (b_npol_axis b) (b_npix b) (seq 0 (b_nfreq b)) (b_data b, b_bandpass b);
    Ok {| b_type := b_type b; b_ant := b_ant b; b_norm := "peak"; b_cs := b_cs b;
          b_nvec := b_nvec b; b_nfreq := b_nfreq b; b_npix := b_npix b; b_nside := b_nside b;
          b_feeds := b_feeds b; b_npols := b_npols b; b_pols := b_pols b; b_xo := b_xo b;
          b_basis := b_basis b; b_data := fst st; b_bandpass := snd st; b_hist := b_hist b |}.

(** uvbeam.py:911-919 *)
Definition feed_pol_order (nfeeds : nat) (cross : bool) : list (nat * nat) :=
  [(0, 0)]%nat ++ (if Nat.ltb 1 nfeeds then [(1, 1)]%nat else []) ++
  (if cross then [(0, 1); (1, 0)]%nat else []).

(** uvbeam.py:955-973: the power of one pair of feeds along one axis *)
Definition power_axis (e : bdata) (bv : nat -> nat -> nat -> R) (pair : nat * nat) (comp k x : nat) : cx :=
  let E := fun (v f : nat) => e v f k x in
  let B := fun v : nat => bv v comp x in
  let (f, g) := pair in
  cx_add (cx_add (cx_scale (B 0%nat ^ 2) (cx_mul (E 0%nat f) (cx_conj (E 0%nat g))))
                 (cx_scale (B 1%nat ^ 2) (cx_mul (E 1%nat f) (cx_conj (E 1%nat g)))))
         (cx_scale (B 0%nat * B 1%nat)
            (cx_add (cx_mul (E 0%nat f) (cx_conj (E 1%nat g))) (cx_mul (E 1%nat f) (cx_conj (E 0%nat g))))).

(** uvbeam.py:940-980: the new data_array.  Pairs beyond the list keep the zeros. *)
Definition power_data (keep : bool) (nvec : nat) (e : bdata) (basis : option (nat -> nat -> nat -> R))
  (order : list (nat * nat)) : result bdata :=
  if keep then
    Ok (fun v p k x => match nth_error order p with
                       | Some (f, g) => cx_mul (e v f k x) (cx_conj (e v g k x))
                       | None => cx0
                       end)
  else if negb (Nat.eqb nvec 2) then Err ValueError
  else match basis with
       | None => Err TypeError
       | Some bv => Ok (fun v p k x => match nth_error order p with
                                       | Some pr => cx_add (cx_add cx0 (power_axis e bv pr 0 k x)) (power_axis e bv pr 1 k x)
                                       | None => cx0
                                       end)
       end.
Definition real_part (d : bdata) : bdata := fun v p k x => of_real (fst (d v p k x)).

(** uvbeam.py:927-931 *)
Definition pol_name (feeds : list string) (pair : nat * nat) : result string :=
  match nth_error feeds (fst pair), nth_error feeds (snd pair) with
  | Some a, Some c => Ok (a ++ c)%string
  | _, _ => Err IndexError
  end.

(** uvbeam.py:856-1020 *)
Definition efield_to_power (cross keep : bool) (b : beam) : outcome :=
  if negb (String.eqb (b_type b) "efield") then (b, Some ValueError)
  else if String.eqb (b_ant b) "phased_array" then (b, Some Undefined)
  else match b_feeds b with
  | None => (b, Some TypeError)
  | Some feeds =>
    let nfeeds := length feeds in
    let cross := if Nat.eqb nfeeds 1 then false else cross in
    let order := feed_pol_order nfeeds cross in
    let npols := (if cross then nfeeds * nfeeds else nfeeds)%nat in
    let b1 := {| b_type := b_type b; b_ant := b_ant b; b_norm := b_norm b; b_cs := b_cs b;
                 b_nvec := b_nvec b; b_nfreq := b_nfreq b; b_npix := b_npix b; b_nside := b_nside b;
                 b_feeds := b_feeds b; b_npols := Some npols; b_pols := b_pols b; b_xo := b_xo b;
                 b_basis := b_basis b; b_data := b_data b; b_bandpass := b_bandpass b; b_hist := b_hist b |} in
    match (do names <- mapM (pol_name feeds) order; mapM (polstr2num (b_xo b)) names) with
    | Err e => (b1, Some e)
    | Ok pols =>
      let nvec := if keep then b_nvec b else 1%nat in
      let b2 := {| b_type := "power"; b_ant := b_ant b; b_norm := b_norm b; b_cs := b_cs b;
                   b_nvec := nvec; b_nfreq := b_nfreq b; b_npix := b_npix b; b_nside := b_nside b;
                   b_feeds := b_feeds b; b_npols := Some npols; b_pols := Some pols; b_xo := b_xo b;
                   b_basis := b_basis b; b_data := b_data b; b_bandpass := b_bandpass b; b_hist := b_hist b |} in
      match (do d <- power_data keep (b_nvec b) (b_data b) (b_basis b) order;
             if cross then check_auto_power nvec (b_nfreq b) (b_npix b) pols d else Ok (real_part d)) with
      | Err e => (b2, Some e)
      | Ok d =>
        ({| b_type := "power"; b_ant := b_ant b; b_norm := b_norm b; b_cs := b_cs b;
            b_nvec := nvec; b_nfreq := b_nfreq b; b_npix := b_npix b; b_nside := b_nside b;
            b_feeds := None; b_npols := Some npols; b_pols := Some pols; b_xo := b_xo b;
            b_basis := if keep then b_basis b else None; b_data := d; b_bandpass := b_bandpass b;
            b_hist := (b_hist b ++ " Converted from efield to power using pyuvdata.")%string |}, None)
      end
    end
  end.

(** uvbeam.py:1022-1055 *)
Definition mat := nat -> nat -> cx.
Definition mat_of (a b c d : cx) : mat := fun i j =>
  match i, j with 0%nat, 0%nat => a | 0%nat, _ => b | _, 0%nat => c | _, _ => d end.
Definition stokes_matrix (n : nat) : result mat :=
  match n with
  | 0%nat => Ok (mat_of (1, 0) (0, 0) (0, 0) (1, 0))
  | 1%nat => Ok (mat_of (1, 0) (0, 0) (0, 0) (-1, 0))
  | 2%nat => Ok (mat_of (0, 0) (1, 0) (1, 0) (0, 0))
  | 3%nat => Ok (mat_of (0, 0) (0, -1) (0, 1) (0, 0))
  | _ => Err ValueError
  end.

(** [0.5 * np.einsum("...ab,...bc,...cd,...ad", p1, jones, p2, conj(jones))] for one
    pixel, and its absolute value (uvbeam.py:1057-1092) *)
Definition einsum (p1 j p2 : mat) : cx :=
  cx_sum (List.concat (map (fun a => List.concat (map (fun b => List.concat (map (fun c => map (fun d =>
    cx_mul (cx_mul (cx_mul (p1 a b) (j b c)) (p2 c d)) (cx_conj (j a d)))
    [0%nat; 1%nat]) [0%nat; 1%nat])) [0%nat; 1%nat])) [0%nat; 1%nat])).
Definition construct_mueller (j : mat) (i1 i2 : nat) : result R :=
  do p1 <- stokes_matrix i1;
  do p2 <- stokes_matrix i2;
  Ok (cx_abs (cx_scale (1 / 2) (einsum p1 j p2))).

(** uvbeam.py:1158-1165 *)
Definition jones_of (e : bdata) (k x : nat) : mat :=
  mat_of (e 0%nat 0%nat k x) (e 0%nat 1%nat k x) (e 1%nat 0%nat k x) (e 1%nat 1%nat k x).

(** uvbeam.py:1094-1202.  The data is computed at every frequency and pixel, and the
    assertion that it is real holds of absolute values. *)
Definition pstokes_names : list string := ["PI"; "PQ"; "PU"; "PV"]%string.
Definition efield_to_pstokes (b : beam) : outcome :=
  if negb (String.eqb (b_type b) "efield") then (b, Some ValueError)
  else match mapM (polstr2num (b_xo b)) pstokes_names with
  | Err e => (b, Some e)
  | Ok pols =>
    let b1 := {| b_type := b_type b; b_ant := b_ant b; b_norm := b_norm b; b_cs := b_cs b;
                 b_nvec := b_nvec b; b_nfreq := b_nfreq b; b_npix := b_npix b; b_nside := b_nside b;
                 b_feeds := b_feeds b; b_npols := b_npols b; b_pols := Some pols; b_xo := b_xo b;
                 b_basis := b_basis b; b_data := b_data b; b_bandpass := b_bandpass b; b_hist := b_hist b |} in
    match b_feeds b with
    | None => (b1, Some TypeError)
    | Some feeds =>
      if negb (Nat.eqb (b_nfreq b) 0) && (Nat.ltb (length feeds) 2 || Nat.ltb (b_nvec b) 2)
      then (b1, Some IndexError)
      else
        ({| b_type := "power"; b_ant := b_ant b; b_norm := b_norm b; b_cs := b_cs b;
            b_nvec := 1; b_nfreq := b_nfreq b; b_npix := b_npix b; b_nside := b_nside b;
            b_feeds := None; b_npols := Some (length feeds * length feeds)%nat; b_pols := Some pols; b_xo := b_xo b;
            b_basis := None;
            b_data := fun v p k x =>
              match construct_mueller (jones_of (b_data b) k x) p p with Ok r => of_real (Rabs r) | Err _ => cx0 end;
            b_bandpass := b_bandpass b;
            b_hist := (b_hist b ++ " Converted from efield to pseudo-stokes power using pyuvdata.")%string |}, None)
    end
  end.

(** uvbeam.py:2226-2259, for a polarization number *)
Definition get_beam (b : beam) (pol : Z) : result (nat -> nat -> cx) :=
  if negb (String.eqb (b_cs b) "healpix") then Err AssertionError
  else if negb (String.eqb (b_type b) "power") then Err AssertionError
  else match b_pols b with
       | None => Err TypeError
       | Some pols => match index_of Z.eqb pol pols with
                      | Some i => Ok (fun k x => b_data b 0%nat i k x)
                      | None => Err ValueError
                      end
       end.

(** uvbeam.py:2261-2301 and 2303-2343, for a polarization string: the integral of [f] of
    the beam at each frequency *)
Definition beam_integral (f : cx -> cx) (b : beam) (pol : string) : result (list cx) :=
  do n <- polstr2num (b_xo b) pol;
  if negb (String.eqb (b_type b) "power") then Err ValueError
  else if Nat.ltb 1 (b_nvec b) then Err ValueError
  else if negb (String.eqb (b_norm b) "peak") then Err ValueError
  else if negb (String.eqb (b_cs b) "healpix") then Err ValueError
  else do m <- get_beam b n;
       Ok (map (fun k => cx_scale (PI / (3 * INR (b_nside b) ^ 2)) (cx_sum (map (fun x => f (m k x)) (seq 0 (b_npix b)))))
            (seq 0 (b_nfreq b))).
Definition get_beam_area : beam -> string -> result (list cx) := beam_integral (fun a => a).
Definition get_beam_sq_area : beam -> string -> result (list cx) := beam_integral (fun a => cx_mul a a).
