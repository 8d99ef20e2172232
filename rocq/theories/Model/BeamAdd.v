(** UVBeam.__add__: /repo/src/pyuvdata/uvbeam/uvbeam.py:2346-2876.  Names, versions,
    normalization and the parameters of the healpix grid and of the elements of a phased
    array are taken to be the same in the two beams.  File names, history, warnings and the
    types of arrays are not modelled.  Of the closing check only the shapes of
    polarization_array and basis_vector_array are. *)
From Coq Require Import List ZArith Bool Arith String.
From Verif Require Import Lib.Py Lib.Np Lib.Sorting Model.BeamSelect.
Import ListNotations.
Notation length := List.length.
Open Scope list_scope.
Open Scope Z_scope.

(** One axis of the sum: its labels; for each position the one in this beam, None where it
    was padded with zeros; and the one in the other beam, None where that is not written *)
Record merged (A : Type) := mkMerged { mg_labels : list A; mg_this : nat -> option nat; mg_other : nat -> option nat }.
Arguments mg_labels {A}. Arguments mg_this {A}. Arguments mg_other {A}.

(** np.argsort by [leb] *)
Definition order_by {A} (d : A) (leb : A -> A -> bool) (l : list A) : list nat :=
  argsort_by (fun i j => leb (nth i l d) (nth j l d)) (length l).

(** The same steps for every axis.  uvbeam.py:2486-2553: labels of the other beam that are
    new.  uvbeam.py:2556-2764: concatenate and sort if there are any.  uvbeam.py:2767-2810:
    the positions in the sum of labels that the other beam has get its numbers one by one. *)
Definition merge {A} (d : A) (eqb leb : A -> A -> bool) (l m : list A) : merged A :=
  let new := nonzero (fun x => negb (memb eqb x l)) m in
  let padded := l ++ take d m new in
  let order := order_by d leb padded in
  let labels := match new with [] => l | _ => take d padded order end in
  let this := match new with
    | [] => fun i => Some i
    | _ => fun i => if (at_ order i <? length l)%nat then Some (at_ order i) else None
    end in
  let t2o := nonzero (fun x => memb eqb x m) labels in
  {| mg_labels := labels; mg_this := this; mg_other := fun i => index_of Nat.eqb i t2o |}.
Definition mergeZ : list Z -> list Z -> merged Z := merge 0 Z.eqb Z.leb.
(** uvbeam.py:2723: by absolute value *)
Definition merge_pols : list Z -> list Z -> merged Z := merge 0 Z.eqb (fun x y => Z.abs x <=? Z.abs y).
Definition merge_feeds : list string -> list string -> merged string := merge EmptyString String.eqb String.leb.
(** The axis that healpix beams do not have *)
Definition no_axis : merged Z := {| mg_labels := []; mg_this := fun i => Some i; mg_other := fun i => Some i |}.

Definition shares {A} (eqb : A -> A -> bool) (l m : list A) : bool := existsb (fun x => memb eqb x m) l.

(** A number of the sum: the other beam's if it is written there, else this beam's, else zero *)
Definition filled1 {A} (z : A) (t o : nat -> option nat) (x y : nat -> A) (i : nat) : A :=
  match o i with Some k => y k | None => match t i with Some k => x k | None => z end end.
Definition along (g : merged Z) (x y : list Z) : list Z :=
  map (filled1 0 (mg_this g) (mg_other g) (fun i => nth i x 0) (fun i => nth i y 0)) (seq 0 (length (mg_labels g))).
(** uvbeam.py:2424-2446: only if both have it *)
Definition along_opt (g : merged Z) (x y : option (list Z)) : option (list Z) :=
  match x, y with Some x, Some y => Some (along g x y) | _, _ => None end.
Definition along_rows (g : merged Z) (x y : option (list (list Z))) : option (list (list Z)) :=
  match x, y with Some x, Some y => Some (map (fun p => along g (fst p) (snd p)) (combine x y)) | _, _ => None end.

(** uvbeam.py:2782-2810 *)
Definition fill4 {A} (z : A) (tp tf ty tx op of_ oy ox : nat -> option nat)
  (x y : nat -> nat -> nat -> nat -> A) (p f j i : nat) : A :=
  match op p, of_ f, oy j, ox i with
  | Some p', Some f', Some j', Some i' => y p' f' j' i'
  | _, _, _, _ =>
      match tp p, tf f, ty j, tx i with
      | Some p', Some f', Some j', Some i' => x p' f' j' i'
      | _, _, _, _ => z
      end
  end.
Definition fill2 (ty tx oy ox : nat -> option nat) (x y : nat -> nat -> Z) (j i : nat) : Z :=
  match oy j, ox i with
  | Some j', Some i' => y j' i'
  | _, _ => match ty j, tx i with Some j', Some i' => x j' i' | _, _ => 0 end
  end.
Definition fill3 (tp tf op of_ : nat -> option nat) (x y : nat -> nat -> nat -> Z * Z) (a b f : nat) : Z * Z :=
  match op a, op b, of_ f with
  | Some a', Some b', Some f' => y a' b' f'
  | _, _, _ => match tp a, tp b, tf f with Some a', Some b', Some f' => x a' b' f' | _, _, _ => (0, 0) end
  end.

Definition beam_add (run_check : bool) (a b : ubeam) : result ubeam :=
  (* uvbeam.py:2392-2422 *)
  if negb (Bool.eqb (u_power a) (u_power b) && Bool.eqb (u_phased a) (u_phased b) && (u_nvec a =? u_nvec b)%nat) then Err ValueError
  else
    (* uvbeam.py:2452-2479: do the beams share a part of the image? *)
    do (gy, gx, spots) <-
      match u_pix a, u_pix b with
      | Healpix l, Healpix m => Ok (no_axis, mergeZ l m, shares Z.eqb l m)
      | Grid l1 l2, Grid m1 m2 => Ok (mergeZ l2 m2, mergeZ l1 m1, shares Z.eqb l1 m1 && shares Z.eqb l2 m2)
      | _, _ => Err ValueError
      end;
    let gf := mergeZ (u_freqs a) (u_freqs b) in
    let gp := merge_pols (u_pols a) (u_pols b) in
    let ge := merge_feeds (u_feeds a) (u_feeds b) in
    let pols := if u_power a then shares Z.eqb (u_pols a) (u_pols b) else shares String.eqb (u_feeds a) (u_feeds b) in
    if pols && shares Z.eqb (u_freqs a) (u_freqs b) && spots then Err ValueError
    else
      let tp := if u_power a then mg_this gp else mg_this ge in
      let op := if u_power a then mg_other gp else mg_other ge in
      let pix := match u_pix a with Healpix _ => Healpix (mg_labels gx) | Grid _ _ => Grid (mg_labels gx) (mg_labels gy) end in
      let r :=
        {| u_power := u_power a; u_phased := u_phased a; u_nvec := u_nvec a;
           u_pix := pix; u_freqs := mg_labels gf;
           u_feeds := if u_power a then u_feeds a else mg_labels ge;
           u_pols := if u_power a then mg_labels gp else u_pols a;
           u_npols := if u_power a then length (mg_labels gp) else u_npols a;
           u_xo := u_xo a;
           u_data := fun v => fill4 (0, 0) tp (mg_this gf) (mg_this gy) (mg_this gx)
                                    op (mg_other gf) (mg_other gy) (mg_other gx) (u_data a v) (u_data b v);
           u_basis :=
             if u_power a then u_basis a
             else match u_basis a, u_basis b with
                  | Some x, Some y =>
                      Some {| bv_ny := px_ny pix; bv_nx := px_nx pix;
                              bv_at := fun v c => fill2 (mg_this gy) (mg_this gx) (mg_other gy) (mg_other gx) (bv_at x v c) (bv_at y v c) |}
                  | x, _ => x
                  end;
           u_bandpass := along gf (u_bandpass a) (u_bandpass b);
           u_rx := along_opt gf (u_rx a) (u_rx b);
           u_loss := along_opt gf (u_loss a) (u_loss b);
           u_mismatch := along_opt gf (u_mismatch a) (u_mismatch b);
           u_spar := along_rows gf (u_spar a) (u_spar b);
           u_coupling := if u_phased a
             then fun d e => fill3 (mg_this ge) (mg_this gf) (mg_other ge) (mg_other gf) (u_coupling a d e) (u_coupling b d e)
             else u_coupling a |} in
      if run_check && negb (shapes_ok r) then Err ValueError else Ok r.
