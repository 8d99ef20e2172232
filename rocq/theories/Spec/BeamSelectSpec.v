(** What UVBeam.select should do. *)
From Coq Require Import List ZArith Bool Arith String.
From Verif Require Import Lib.Py Lib.Np Lib.Dict Model.Pol Model.Select Spec.SelectSpec Model.BeamSelect.
Import ListNotations.
Notation length := List.length.
Open Scope list_scope.
Open Scope Z_scope.

(** [l'] holds the elements of [l] with property [P], in the same order. *)
Definition keeps {A} (P : A -> Prop) (l l' : list A) : Prop :=
  exists b : A -> bool, (forall x, In x l -> (b x = true <-> P x)) /\ l' = filter b l.

(** What each argument asks for *)
Definition wants_axis (req : option (list Z)) (l : list Z) (v : Z) : Prop :=
  match req with
  | None => True
  | Some idx => exists i, In (Z.of_nat i) idx /\ (i < length l)%nat /\ nth i l 0 = v
  end.
Definition wants_pixel (req : option (list Z)) (v : Z) : Prop :=
  match req with None => True | Some l => In v l end.
Definition wants_freq (r : beam_request) (u : ubeam) (v : Z) : Prop :=
  (br_freqs r = None /\ br_chans r = None) \/
  (exists l, br_freqs r = Some l /\ In v l) \/
  (exists l c j, br_chans r = Some l /\ In c l /\ denotes (length (u_freqs u)) c j /\ nth j (u_freqs u) 0 = v).
(** A name stands for a feed if it is the feed, in either case, or else the direction in
    which the feed points. *)
Definition names_feed (u : ubeam) (s f : string) : Prop :=
  In f (u_feeds u) /\
  (lower s = f \/
   (~ In (lower s) (u_feeds u) /\
    exists xo dx dy, u_xo u = Some xo /\ x_orientation_pol_map xo = Ok (dx, dy) /\
      ((f = "x"%string /\ lower s = String dx EmptyString) \/ (f = "y"%string /\ lower s = String dy EmptyString)))).
Definition wants_feed (r : beam_request) (u : ubeam) (f : string) : Prop :=
  match br_feeds r with None => True | Some l => exists s, In s l /\ names_feed u s f end.
Definition names_pol (u : ubeam) (a : pol_name) (p : Z) : Prop :=
  match a with PolNum n => p = n | PolStr s => polstr2num (u_xo u) s = Ok p end.
Definition wants_pol (r : beam_request) (u : ubeam) (p : Z) : Prop :=
  match br_pols r with None => True | Some l => exists a, In a l /\ names_pol u a p end.

(** A request that fits the beam: everything it names is there. *)
Definition axis_fits (req : option (list Z)) (n : nat) : Prop :=
  match req with None => True | Some l => l <> [] /\ Forall (fun i => 0 <= i < Z.of_nat n) l end.
Definition fits (r : beam_request) (u : ubeam) : Prop :=
  match u_pix u with
  | Healpix pix => br_axis1 r = None /\ br_axis2 r = None /\
      match br_pixels r with None => True | Some l => incl l pix end
  | Grid a1 a2 => br_pixels r = None /\ axis_fits (br_axis1 r) (length a1) /\ axis_fits (br_axis2 r) (length a2)
  end /\
  match br_freqs r with None => True | Some l => incl l (u_freqs u) end /\
  match br_chans r with None => True | Some l => Forall (fun c => exists j, denotes (length (u_freqs u)) c j) l end /\
  match br_feeds r with
  | None => True
  | Some l => u_power u = false /\
      match u_xo u with None => True | Some xo => exists m, x_orientation_pol_map xo = Ok m end /\
      Forall (fun s => exists f, names_feed u s f) l
  end /\
  match br_pols r with
  | None => True
  | Some l => u_power u = true /\ Forall (fun a => exists p, names_pol u a p /\ In p (u_pols u)) l
  end.

(** The polarizations are asked for in the order in which the beam has them, without
    repetitions. *)
Definition pols_in_order (r : beam_request) (u : ubeam) : Prop :=
  match br_pols r with
  | None => True
  | Some l => exists b, Forall2 (names_pol u) l (filter b (u_pols u))
  end.

(** The positions of the two objects have the same labels. *)
Definition pol_count (u : ubeam) : nat := if u_power u then length (u_pols u) else length (u_feeds u).
Definition same_pol (u u' : ubeam) (p p' : nat) : Prop :=
  if u_power u then nth p (u_pols u) 0 = nth p' (u_pols u') 0
  else nth p (u_feeds u) EmptyString = nth p' (u_feeds u') EmptyString.
Definition same_spot (u u' : ubeam) (y x y' x' : nat) : Prop :=
  match u_pix u, u_pix u' with
  | Healpix l, Healpix l' => nth x l 0 = nth x' l' 0
  | Grid a1 a2, Grid b1 b2 => nth x a1 0 = nth x' b1 0 /\ nth y a2 0 = nth y' b2 0
  | _, _ => False
  end.
Definition on_image (u : ubeam) (y x : nat) : Prop := (y < px_ny (u_pix u))%nat /\ (x < px_nx (u_pix u))%nat.
Definition same_freq (u u' : ubeam) (f f' : nat) : Prop := nth f (u_freqs u) 0 = nth f' (u_freqs u') 0.
Definition nfreq (u : ubeam) : nat := length (u_freqs u).

(** Every number of [u'] is the one that [u] has under the same labels. *)
Definition same_along_freq (u u' : ubeam) (o o' : option (list Z)) : Prop :=
  match o, o' with
  | None, None => True
  | Some l, Some l' => length l' = nfreq u' /\
      forall f f', (f < nfreq u)%nat -> (f' < nfreq u')%nat -> same_freq u u' f f' -> nth f' l' 0 = nth f l 0
  | _, _ => False
  end.
Record same_numbers (u u' : ubeam) : Prop := {
  sn_data : forall v p f y x p' f' y' x', (v < u_nvec u)%nat ->
    (p < pol_count u)%nat -> (p' < pol_count u')%nat -> (f < nfreq u)%nat -> (f' < nfreq u')%nat ->
    on_image u y x -> on_image u' y' x' ->
    same_pol u u' p p' -> same_freq u u' f f' -> same_spot u u' y x y' x' ->
    u_data u' v p' f' y' x' = u_data u v p f y x;
  sn_basis : match u_basis u, u_basis u' with
    | None, None => True
    | Some b, Some b' => bv_ny b' = px_ny (u_pix u') /\ bv_nx b' = px_nx (u_pix u') /\
        forall v c y x y' x', on_image u y x -> on_image u' y' x' -> same_spot u u' y x y' x' ->
          bv_at b' v c y' x' = bv_at b v c y x
    | _, _ => False
    end;
  sn_bandpass : same_along_freq u u' (Some (u_bandpass u)) (Some (u_bandpass u'));
  sn_rx : same_along_freq u u' (u_rx u) (u_rx u');
  sn_loss : same_along_freq u u' (u_loss u) (u_loss u');
  sn_mismatch : same_along_freq u u' (u_mismatch u) (u_mismatch u');
  sn_spar : match u_spar u, u_spar u' with
    | None, None => True
    | Some s, Some s' => Forall2 (fun l l' => same_along_freq u u' (Some l) (Some l')) s s'
    | _, _ => False
    end;
  sn_coupling : u_phased u = true -> u_power u = false ->
    forall d e a b f a' b' f', (a < pol_count u)%nat -> (a' < pol_count u')%nat -> (b < pol_count u)%nat -> (b' < pol_count u')%nat ->
      (f < nfreq u)%nat -> (f' < nfreq u')%nat ->
      same_pol u u' a a' -> same_pol u u' b b' -> same_freq u u' f f' ->
      u_coupling u' d e a' b' f' = u_coupling u d e a b f }.

(** The result of a selection *)
Record cut_down (r : beam_request) (u u' : ubeam) : Prop := {
  cd_same : u_power u' = u_power u /\ u_phased u' = u_phased u /\ u_nvec u' = u_nvec u /\ u_xo u' = u_xo u;
  cd_image : match u_pix u, u_pix u' with
    | Healpix l, Healpix l' => keeps (wants_pixel (br_pixels r)) l l'
    | Grid a1 a2, Grid b1 b2 => keeps (wants_axis (br_axis1 r) a1) a1 b1 /\ keeps (wants_axis (br_axis2 r) a2) a2 b2
    | _, _ => False
    end;
  cd_freqs : keeps (wants_freq r u) (u_freqs u) (u_freqs u');
  cd_feeds : keeps (wants_feed r u) (u_feeds u) (u_feeds u');
  cd_pols : keeps (wants_pol r u) (u_pols u) (u_pols u');
  cd_numbers : same_numbers u u' }.

(** A beam as its check leaves it: no label twice, and arrays with the right shapes *)
Definition len_ok (n : nat) (o : option (list Z)) : Prop := match o with None => True | Some l => length l = n end.
Record beam_ok (u : ubeam) : Prop := {
  bo_image : match u_pix u with Healpix l => NoDup l | Grid a1 a2 => NoDup a1 /\ NoDup a2 end;
  bo_freqs : NoDup (u_freqs u);
  bo_feeds : NoDup (u_feeds u);
  bo_pols : NoDup (u_pols u);
  bo_npols : u_power u = true -> u_npols u = length (u_pols u);
  bo_basis : match u_basis u with
    | None => u_power u = true
    | Some b => bv_ny b = px_ny (u_pix u) /\ bv_nx b = px_nx (u_pix u)
    end;
  bo_bandpass : length (u_bandpass u) = nfreq u;
  bo_rx : len_ok (nfreq u) (u_rx u);
  bo_loss : len_ok (nfreq u) (u_loss u);
  bo_mismatch : len_ok (nfreq u) (u_mismatch u);
  bo_spar : match u_spar u with None => True | Some s => Forall (fun l => length l = nfreq u) s end }.

(** A power beam without basis vectors and without negative powers *)
Definition plain_power (u : ubeam) : Prop :=
  u_power u = true ->
  u_basis u = None /\
  forall v p f y x, (v < u_nvec u)%nat -> (p < pol_count u)%nat -> (f < nfreq u)%nat -> on_image u y x ->
    ~ In (nth p (u_pols u) 0) [-3; -4; -7; -8] -> 0 <= fst (u_data u v p f y x).
