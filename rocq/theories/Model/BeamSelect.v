(** UVBeam.select: /repo/src/pyuvdata/uvbeam/uvbeam.py:2890-3262.  The method works in
    place: it returns the object it leaves together with the error it raises, if any.
    Frequencies, axis values, pixel numbers and all other numbers are integers, complex
    ones are pairs.  History and warnings are not modelled.  Of the closing check only
    the shapes of polarization_array and basis_vector_array are. *)
From Coq Require Import List ZArith Bool Arith String.
From Verif Require Import Lib.Py Lib.Np Lib.Dict Lib.Cube Model.Pol Model.Select.
Import ListNotations.
Notation length := List.length.
Open Scope list_scope.
Open Scope Z_scope.

(** pixel_coordinate_system "healpix", with pixel_array, or another one, with
    axis1_array and axis2_array *)
Inductive pixels := Healpix (pix : list Z) | Grid (axis1 axis2 : list Z).
(** The lengths of the last axis of data_array and of the one before it.  Healpix beams
    have only the last one: the other has length one here. *)
Definition px_nx (p : pixels) : nat := match p with Healpix l => length l | Grid a _ => length a end.
Definition px_ny (p : pixels) : nat := match p with Healpix _ => 1%nat | Grid _ a => length a end.

(** basis_vector_array: vector, component, axis 2, axis 1, and the lengths of the last two *)
Record basis := mkBasis { bv_ny : nat; bv_nx : nat; bv_at : nat -> nat -> nat -> nat -> Z }.

(** uvbeam.py:70-560, the attributes that select touches.  [u_power] is beam_type (power or
    efield), [u_phased] antenna_type (phased_array or simple).  The second axis of data_array
    follows polarization_array for power beams and feed_array for others.  data_array:
    vector, polarization or feed, frequency, axis 2, axis 1; coupling_matrix: element,
    element, feed, feed, frequency; s_parameters: four rows. *)
Record ubeam := mkUBeam {
  u_power : bool; u_phased : bool; u_nvec : nat;
  u_pix : pixels; u_freqs : list Z; u_feeds : list string;
  u_pols : list Z; u_npols : nat; u_xo : option string;
  u_data : nat -> nat -> nat -> nat -> nat -> Z * Z;
  u_basis : option basis;
  u_bandpass : list Z; u_rx : option (list Z); u_loss : option (list Z);
  u_mismatch : option (list Z); u_spar : option (list (list Z));
  u_coupling : nat -> nat -> nat -> nat -> nat -> Z * Z }.

Record beam_request := mkBeamRequest {
  br_axis1 : option (list Z); br_axis2 : option (list Z); br_pixels : option (list Z);
  br_freqs : option (list Z); br_chans : option (list Z);
  br_feeds : option (list string); br_pols : option (list pol_name) }.

Definition boutcome := (ubeam * option exn)%type.
Definition and_then (o : boutcome) (k : ubeam -> boutcome) : boutcome :=
  match snd o with None => k (fst o) | Some _ => o end.

(** Indexing with a list of positions *)
Definition at_ (idx : list nat) : nat -> nat := fun i => nth i idx 0%nat.

(** uvbeam.py:2976-2992, 3010-3026, 3047-3055: data_array and, for efield beams,
    basis_vector_array are cut along the image axes.  Efield beams have a basis_vector_array. *)
Definition cut_basis (pix : pixels) (sy sx : nat -> nat) (b : basis) : basis :=
  {| bv_ny := px_ny pix; bv_nx := px_nx pix; bv_at := fun v c y x => bv_at b v c (sy y) (sx x) |}.
Definition cut_image (pix : pixels) (sy sx : nat -> nat) (u : ubeam) : ubeam :=
  {| u_power := u_power u; u_phased := u_phased u; u_nvec := u_nvec u;
     u_pix := pix; u_freqs := u_freqs u; u_feeds := u_feeds u;
     u_pols := u_pols u; u_npols := u_npols u; u_xo := u_xo u;
     u_data := fun v p f y x => u_data u v p f (sy y) (sx x);
     u_basis := if u_power u then u_basis u else option_map (cut_basis pix sy sx) (u_basis u);
     u_bandpass := u_bandpass u; u_rx := u_rx u; u_loss := u_loss u;
     u_mismatch := u_mismatch u; u_spar := u_spar u; u_coupling := u_coupling u |}.

(** uvbeam.py:2974-2976, 3008-3010: sorted, without repetitions, and in range; min and max
    of an empty list raise ValueError *)
Definition axis_inds (n : nat) (l : list Z) : result (list nat) :=
  let inds := uniqueZ l in
  match inds with
  | [] => Err ValueError
  | lo :: _ => if (lo <? 0) || (Z.of_nat n - 1 <? last inds 0) then Err ValueError else Ok (map Z.to_nat inds)
  end.

(** uvbeam.py:2963-2996 *)
Definition sel_axis1 (req : option (list Z)) (u : ubeam) : boutcome :=
  match req with
  | None => (u, None)
  | Some l =>
      match u_pix u with
      | Healpix _ => (u, Some ValueError)
      | Grid a1 a2 =>
          match axis_inds (length a1) l with
          | Err e => (u, Some e)
          | Ok idx => (cut_image (Grid (take 0 a1 idx) a2) (fun y => y) (at_ idx) u, None)
          end
      end
  end.
(** uvbeam.py:2998-3031 *)
Definition sel_axis2 (req : option (list Z)) (u : ubeam) : boutcome :=
  match req with
  | None => (u, None)
  | Some l =>
      match u_pix u with
      | Healpix _ => (u, Some ValueError)
      | Grid a1 a2 =>
          match axis_inds (length a2) l with
          | Err e => (u, Some e)
          | Ok idx => (cut_image (Grid a1 (take 0 a2 idx)) (at_ idx) (fun x => x) u, None)
          end
      end
  end.

(** The loops of uvbeam.py:3042-3051, 3083-3092, 3164-3178 and 3212-3227: the positions of
    each element asked for, which must be there, then [sorted(set())].  [res] finds the
    label to look for. *)
Definition places {A B} (eqb : A -> A -> bool) (res : B -> result A) (l : list A) (asked : list B) : result (list nat) :=
  do ks <- mapM (fun a => do x <- res a; if memb eqb x l then Ok (nonzero (eqb x) l) else Err ValueError) asked;
  Ok (List.concat ks).

(** uvbeam.py:3033-3059 *)
Definition sel_pixels (req : option (list Z)) (u : ubeam) : boutcome :=
  match req with
  | None => (u, None)
  | Some l =>
      match u_pix u with
      | Grid _ _ => (u, Some ValueError)
      | Healpix pix =>
          match places Z.eqb Ok pix l with
          | Err e => (u, Some e)
          | Ok ks => let idx := uniqueN ks in
                     (cut_image (Healpix (take 0 pix idx)) (fun y => y) (at_ idx) u, None)
          end
      end
  end.

(** uvbeam.py:3061-3069 *)
Definition asked_freqs (freqs chans : option (list Z)) (u : ubeam) : result (option (list Z)) :=
  match chans with
  | None => Ok freqs
  | Some c =>
      do vals <- mapM (fun i => match norm_index (length (u_freqs u)) i with
                                | Some k => Ok (nth k (u_freqs u) 0) | None => Err IndexError end) c;
      match freqs with
      | None => Ok (Some vals)
      | Some f => Ok (Some (uniqueZ (f ++ vals)))
      end
  end.

(** uvbeam.py:3094-3133 *)
Definition cut_freqs (idx : list nat) (u : ubeam) : ubeam :=
  {| u_power := u_power u; u_phased := u_phased u; u_nvec := u_nvec u;
     u_pix := u_pix u; u_freqs := take 0 (u_freqs u) idx; u_feeds := u_feeds u;
     u_pols := u_pols u; u_npols := u_npols u; u_xo := u_xo u;
     u_data := fun v p f y x => u_data u v p (at_ idx f) y x;
     u_basis := u_basis u;
     u_bandpass := take 0 (u_bandpass u) idx;
     u_rx := option_map (fun l => take 0 l idx) (u_rx u);
     u_loss := option_map (fun l => take 0 l idx) (u_loss u);
     u_mismatch := option_map (fun l => take 0 l idx) (u_mismatch u);
     u_spar := option_map (map (fun l => take 0 l idx)) (u_spar u);
     u_coupling := if u_phased u then fun d e a b f => u_coupling u d e a b (at_ idx f) else u_coupling u |}.
(** uvbeam.py:3061-3133 *)
Definition sel_freqs (freqs chans : option (list Z)) (u : ubeam) : boutcome :=
  match asked_freqs freqs chans u with
  | Err e => (u, Some e)
  | Ok None => (u, None)
  | Ok (Some l) =>
      match places Z.eqb Ok (u_freqs u) l with
      | Err e => (u, Some e)
      | Ok ks => (cut_freqs (uniqueN ks) u, None)
      end
  end.

(** uvbeam.py:3146-3152: the feed that has a physical name, if it is there *)
Definition char_string (c : Ascii.ascii) : string := String c EmptyString.
Definition physical_feed (m : option (Ascii.ascii * Ascii.ascii)) (feeds : list string) (f : string) : option string :=
  match m with
  | None => None
  | Some (x, y) =>
      if String.eqb f (char_string y) && memb String.eqb "y"%string feeds then Some "y"%string
      else if String.eqb f (char_string x) && memb String.eqb "x"%string feeds then Some "x"%string
      else None
  end.
(** uvbeam.py:3154-3178 *)
Definition feed_label (m : option (Ascii.ascii * Ascii.ascii)) (feeds : list string) (f : string) : result string :=
  let f := lower f in
  if memb String.eqb f feeds then Ok f
  else match physical_feed m feeds f with Some g => Ok g | None => Err ValueError end.
(** uvbeam.py:3180-3197 *)
Definition cut_feeds (idx : list nat) (u : ubeam) : ubeam :=
  {| u_power := u_power u; u_phased := u_phased u; u_nvec := u_nvec u;
     u_pix := u_pix u; u_freqs := u_freqs u; u_feeds := take EmptyString (u_feeds u) idx;
     u_pols := u_pols u; u_npols := u_npols u; u_xo := u_xo u;
     u_data := fun v p f y x => u_data u v (at_ idx p) f y x;
     u_basis := u_basis u;
     u_bandpass := u_bandpass u; u_rx := u_rx u; u_loss := u_loss u;
     u_mismatch := u_mismatch u; u_spar := u_spar u;
     u_coupling := if u_phased u then fun d e a b f => u_coupling u d e (at_ idx a) (at_ idx b) f else u_coupling u |}.
(** uvbeam.py:3135-3197 *)
Definition sel_feeds (req : option (list string)) (u : ubeam) : boutcome :=
  match req with
  | None => (u, None)
  | Some l =>
      if u_power u then (u, Some ValueError)
      else
        match (match u_xo u with None => Ok None | Some xo => rmap Some (x_orientation_pol_map xo) end) with
        | Err e => (u, Some e)
        | Ok m =>
            match places String.eqb (feed_label m (u_feeds u)) (u_feeds u) l with
            | Err e => (u, Some e)
            | Ok ks => (cut_feeds (uniqueN ks) u, None)
            end
        end
  end.

(** uvbeam.py:3229-3254.  polarization_array is indexed with the positions in the order in
    which they were found, data_array with the sorted ones.  If there were cross
    polarizations and none are left, and no number has an imaginary part, data_array is
    replaced by its absolute value. *)
Definition cross_pols : list Z := [-3; -4; -7; -8].
Definition has_cross (l : list Z) : bool := existsb (fun p => isinZ p cross_pols) l.
Definition all_real (nvec np nf ny nx : nat) (d : nat -> nat -> nat -> nat -> nat -> Z * Z) : bool :=
  forallb (fun v => forallb (fun p => forallb (fun f => forallb (fun y => forallb (fun x =>
    snd (d v p f y x) =? 0) (seq 0 nx)) (seq 0 ny)) (seq 0 nf)) (seq 0 np)) (seq 0 nvec).
Definition cut_pols (ks : list nat) (u : ubeam) : ubeam :=
  let idx := uniqueN ks in
  let final := take 0 (u_pols u) ks in
  let d := fun v p f y x => u_data u v (at_ idx p) f y x in
  {| u_power := u_power u; u_phased := u_phased u; u_nvec := u_nvec u;
     u_pix := u_pix u; u_freqs := u_freqs u; u_feeds := u_feeds u;
     u_pols := final; u_npols := length idx; u_xo := u_xo u;
     u_data := if has_cross (u_pols u) && negb (has_cross final) &&
                  all_real (u_nvec u) (length idx) (length (u_freqs u)) (px_ny (u_pix u)) (px_nx (u_pix u)) d
               then fun v p f y x => (Z.abs (fst (d v p f y x)), 0) else d;
     u_basis := u_basis u;
     u_bandpass := u_bandpass u; u_rx := u_rx u; u_loss := u_loss u;
     u_mismatch := u_mismatch u; u_spar := u_spar u; u_coupling := u_coupling u |}.
Definition pol_number (xo : option string) (p : pol_name) : result Z :=
  match p with PolNum n => Ok n | PolStr s => polstr2num xo s end.
(** uvbeam.py:3199-3254 *)
Definition sel_pols (req : option (list pol_name)) (u : ubeam) : boutcome :=
  match req with
  | None => (u, None)
  | Some l =>
      if negb (u_power u) then (u, Some ValueError)
      else
        match places Z.eqb (pol_number (u_xo u)) (u_pols u) l with
        | Err e => (u, Some e)
        | Ok ks => (cut_pols ks u, None)
        end
  end.

(** uvbase.py check, for the shapes of polarization_array and basis_vector_array
    (uvbeam.py:580-664) *)
Definition shapes_ok (u : ubeam) : bool :=
  (if u_power u then (length (u_pols u) =? u_npols u)%nat else true) &&
  match u_basis u with
  | None => true
  | Some b => (bv_ny b =? px_ny (u_pix u))%nat && (bv_nx b =? px_nx (u_pix u))%nat
  end.

(** uvbeam.py:2890-3262 *)
Definition beam_select (run_check : bool) (r : beam_request) (u : ubeam) : boutcome :=
  and_then (and_then (and_then (and_then (and_then (and_then
    (sel_axis1 (br_axis1 r) u)
    (sel_axis2 (br_axis2 r)))
    (sel_pixels (br_pixels r)))
    (sel_freqs (br_freqs r) (br_chans r)))
    (sel_feeds (br_feeds r)))
    (sel_pols (br_pols r)))
    (fun u => if run_check && negb (shapes_ok u) then (u, Some ValueError) else (u, None)).
