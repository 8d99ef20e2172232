(** What UVBeam.__add__ should do. *)
From Coq Require Import List ZArith Bool Arith String Sorting.Sorted.
From Verif Require Import Lib.Py Model.BeamSelect Spec.BeamSelectSpec.
Import ListNotations.
Notation length := List.length.
Open Scope list_scope.
Open Scope Z_scope.

(** Orders of labels: numbers and strings as usual, polarizations by absolute value *)
Definition by_abs (x y : Z) : bool := Z.abs x <=? Z.abs y.
Definition before {A} (leb : A -> A -> bool) (x y : A) : Prop := leb y x = false.

(** The labels of the second beam come in an order that the sum keeps. *)
Definition in_step {A} (leb : A -> A -> bool) (l m : list A) : Prop :=
  (incl m l /\ exists b, m = filter b l) \/ (~ incl m l /\ StronglySorted (before leb) m).
(** All labels of the two beams: as in the first if the second has no others, else sorted *)
Definition union_axis {A} (leb : A -> A -> bool) (l m r : list A) : Prop :=
  NoDup r /\ (forall x, In x r <-> In x l \/ In x m) /\ (incl m l -> r = l) /\
  (~ incl m l -> StronglySorted (fun x y => leb x y = true) r).

Definition same_kind (p q : pixels) : Prop :=
  match p, q with Healpix _, Healpix _ | Grid _ _, Grid _ _ => True | _, _ => False end.
Definition combinable (a b : ubeam) : Prop :=
  u_power a = u_power b /\ u_phased a = u_phased b /\ u_nvec a = u_nvec b /\ same_kind (u_pix a) (u_pix b).

(** The two beams have a label in common on every axis. *)
Definition meet {A} (l m : list A) : Prop := exists x, In x l /\ In x m.
Definition overlap (a b : ubeam) : Prop :=
  (if u_power a then meet (u_pols a) (u_pols b) else meet (u_feeds a) (u_feeds b)) /\
  meet (u_freqs a) (u_freqs b) /\
  match u_pix a, u_pix b with
  | Healpix l, Healpix m => meet l m
  | Grid l1 l2, Grid m1 m2 => meet l1 m1 /\ meet l2 m2
  | _, _ => False
  end.
Definition all_in_step (a b : ubeam) : Prop :=
  (if u_power a then in_step by_abs (u_pols a) (u_pols b) else in_step String.leb (u_feeds a) (u_feeds b)) /\
  in_step Z.leb (u_freqs a) (u_freqs b) /\
  match u_pix a, u_pix b with
  | Healpix l, Healpix m => in_step Z.leb l m
  | Grid l1 l2, Grid m1 m2 => in_step Z.leb l1 m1 /\ in_step Z.leb l2 m2
  | _, _ => False
  end.

(** A cell of [r] and one of [u] with the same labels *)
Definition cell (u : ubeam) (p f y x : nat) : Prop := (p < pol_count u)%nat /\ (f < nfreq u)%nat /\ on_image u y x.
Definition same_cell (u r : ubeam) (p f y x p' f' y' x' : nat) : Prop :=
  cell u p f y x /\ same_pol u r p p' /\ same_freq u r f f' /\ same_spot u r y x y' x'.
Definition data_from (u r : ubeam) : Prop := forall v p f y x p' f' y' x',
  cell r p' f' y' x' -> same_cell u r p f y x p' f' y' x' -> u_data r v p' f' y' x' = u_data u v p f y x.
Definition lacks_cell (u r : ubeam) (p' f' y' x' : nat) : Prop := forall p f y x, ~ same_cell u r p f y x p' f' y' x'.

(** An array along frequency: the second beam's numbers, else the first's *)
Definition freq_sum (a b r : ubeam) (x y z : list Z) : Prop :=
  length z = nfreq r /\
  (forall f f', (f < nfreq b)%nat -> (f' < nfreq r)%nat -> same_freq b r f f' -> nth f' z 0 = nth f y 0) /\
  (forall f f', (f < nfreq a)%nat -> (f' < nfreq r)%nat -> same_freq a r f f' -> ~ In (nth f' (u_freqs r) 0) (u_freqs b) ->
     nth f' z 0 = nth f x 0).
Definition freq_sum_opt (a b r : ubeam) (x y z : option (list Z)) : Prop :=
  match x, y, z with
  | Some x, Some y, Some z => freq_sum a b r x y z
  | Some _, Some _, None => False
  | _, _, z => z = None
  end.

Record sum_of (a b r : ubeam) : Prop := {
  so_same : u_power r = u_power a /\ u_phased r = u_phased a /\ u_nvec r = u_nvec a /\ u_xo r = u_xo a;
  so_pol : if u_power a then union_axis by_abs (u_pols a) (u_pols b) (u_pols r) /\ u_npols r = length (u_pols r)
           else union_axis String.leb (u_feeds a) (u_feeds b) (u_feeds r);
  so_freqs : union_axis Z.leb (u_freqs a) (u_freqs b) (u_freqs r);
  so_image : match u_pix a, u_pix b, u_pix r with
    | Healpix l, Healpix m, Healpix n => union_axis Z.leb l m n
    | Grid l1 l2, Grid m1 m2, Grid n1 n2 => union_axis Z.leb l1 m1 n1 /\ union_axis Z.leb l2 m2 n2
    | _, _, _ => False
    end;
  so_this : data_from a r;
  so_other : data_from b r;
  so_hole : forall v p f y x, cell r p f y x -> lacks_cell a r p f y x -> lacks_cell b r p f y x -> u_data r v p f y x = (0, 0);
  so_bandpass : freq_sum a b r (u_bandpass a) (u_bandpass b) (u_bandpass r);
  so_rx : freq_sum_opt a b r (u_rx a) (u_rx b) (u_rx r);
  so_loss : freq_sum_opt a b r (u_loss a) (u_loss b) (u_loss r);
  so_mismatch : freq_sum_opt a b r (u_mismatch a) (u_mismatch b) (u_mismatch r);
  so_spar : match u_spar a, u_spar b, u_spar r with
    | Some x, Some y, Some z => length z = Nat.min (length x) (length y) /\
        forall k, (k < length z)%nat -> freq_sum a b r (nth k x []) (nth k y []) (nth k z [])
    | Some _, Some _, None => False
    | _, _, z => z = None
    end;
  so_basis : u_power a = false ->
    match u_basis a, u_basis b, u_basis r with
    | Some x, Some y, Some z => bv_ny z = px_ny (u_pix r) /\ bv_nx z = px_nx (u_pix r) /\
        forall v c j' i', on_image r j' i' ->
          (forall j i, on_image b j i -> same_spot b r j i j' i' -> bv_at z v c j' i' = bv_at y v c j i) /\
          ((forall j i, on_image b j i -> ~ same_spot b r j i j' i') ->
           (forall j i, on_image a j i -> same_spot a r j i j' i' -> bv_at z v c j' i' = bv_at x v c j i) /\
           ((forall j i, on_image a j i -> ~ same_spot a r j i j' i') -> bv_at z v c j' i' = 0))
    | _, _, _ => False
    end;
  so_basis_power : u_power a = true -> u_basis r = u_basis a;
  so_coupling : u_power a = false -> u_phased a = true -> forall d e g' h' f',
    (g' < pol_count r)%nat -> (h' < pol_count r)%nat -> (f' < nfreq r)%nat ->
    (forall g h f, (g < pol_count b)%nat -> (h < pol_count b)%nat -> (f < nfreq b)%nat ->
       same_pol b r g g' -> same_pol b r h h' -> same_freq b r f f' -> u_coupling r d e g' h' f' = u_coupling b d e g h f) /\
    ((~ exists g h f, (g < pol_count b)%nat /\ (h < pol_count b)%nat /\ (f < nfreq b)%nat /\
        same_pol b r g g' /\ same_pol b r h h' /\ same_freq b r f f') ->
     forall g h f, (g < pol_count a)%nat -> (h < pol_count a)%nat -> (f < nfreq a)%nat ->
       same_pol a r g g' -> same_pol a r h h' -> same_freq a r f f' -> u_coupling r d e g' h' f' = u_coupling a d e g h f) }.
