(** Removal of equalization coefficients: /repo/src/pyuvdata/uvdata/uvdata.py.  Visibilities and
    coefficients are exact rationals. *)
From Coq Require Import List ZArith QArith Qcanon Bool Arith String.
From Verif Require Import Lib.Py Lib.Np Model.UVData Model.Hdf5 Model.Access Model.Calibrate.
Import ListNotations.
Open Scope list_scope.
Open Scope nat_scope.

(** The object; visibilities replace the data array of [e_u].  Coefficients are indexed by the position of
    the antenna in the telescope's antenna_numbers and by channel. *)
Record eqobj := mkeq {
  e_u : uvd; e_vis : nat -> nat -> nat -> Qc * Qc; e_numbers : list Z;
  e_coeffs : option (nat -> nat -> Qc); e_conv : option string }.

(** [np.asarray(antenna_numbers == a).nonzero()[0][0]], uvdata.py:4214-4219 *)
Definition ant_position (numbers : list Z) (a : Z) : result nat :=
  match nonzero (Z.eqb a) numbers with i :: _ => Ok i | [] => Err IndexError end.

(** numpy's product and quotient of a complex and a real number (not of zero) *)
Definition cscale (k : Qc) (z : Qc * Qc) : Qc * Qc := (fst z * k, snd z * k)%Qc.
Definition cdiv (k : Qc) (z : Qc * Qc) : Qc * Qc := (fst z / k, snd z / k)%Qc.

(** uvdata.py:4209-4233, one antenna pair.  The lookup of antpair2ind is done without its cache (C20,
    C23); an absent index (None) is numpy's newaxis: all rows. *)
Definition remove_pair (u : uvd) (numbers : list Z) (c : nat -> nat -> Qc) (multiply : bool)
    (vis : nat -> nat -> nat -> Qc * Qc) (key : Z * Z) : result (nat -> nat -> nat -> Qc * Qc) :=
  do ix <- antpair_search u (fst key) (snd key) true;
  do rows <- match ix with None => Ok (seq 0 (Nblts u)) | Some ix => at_index (Nblts u) ix end;
  do i1 <- ant_position numbers (fst key);
  do i2 <- ant_position numbers (snd key);
  Ok (fun r f p =>
    if isinN r rows
    then (if multiply then cscale (c i1 f * c i2 f)%Qc (vis r f p) else cdiv (c i1 f * c i2 f)%Qc (vis r f p))
    else vis r f p).

(** uvdata.py:4174-4235: the object afterwards, and the outcome *)
Definition remove_eq_coeffs (o : eqobj) : eqobj * result unit :=
  match e_coeffs o, e_conv o with
  | None, _ => (o, Err ValueError)
  | _, None => (o, Err ValueError)
  | Some c, Some conv =>
      if negb (String.eqb conv "multiply" || String.eqb conv "divide") then (o, Err ValueError)
      else
        match get_antpairs (e_u o) with
        | Err e => (o, Err e)
        | Ok aps =>
            let r := run_keys (remove_pair (e_u o) (e_numbers o) c (String.eqb conv "multiply")) aps (e_vis o) in
            ({| e_u := e_u o; e_vis := fst r; e_numbers := e_numbers o; e_coeffs := e_coeffs o; e_conv := e_conv o |},
             snd r)
        end
  end.
