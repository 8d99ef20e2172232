(** Looking up data by antenna pair, baseline number and polarization, with the
    two lookup caches: /repo/src/pyuvdata/uvdata/uvdata.py *)
From Coq Require Import List ZArith Bool Arith String QArith.
From Verif Require Import Lib.Py Lib.Np Lib.Slice Lib.Cube Lib.Dict Spec.BltSpec
  Model.Bls Model.Tools Model.Pol Model.UVData Model.Reorder Model.Hdf5.
Import ListNotations.
Open Scope Z_scope.
Open Scope list_scope.
Notation length := List.length.

(** The key of get_data and its siblings after flattening the arguments
    (uvdata.py:3042-3050): a polarization name, a number, an antenna pair, an
    antenna pair with a polarization name or number. *)
Inductive ukey :=
| KPol (s : string) | KNum (n : Z) | KPair (a b : Z) | KPairS (a b : Z) (s : string) | KPairN (a b p : Z).

Definition ukey_eqb (x y : ukey) : bool :=
  match x, y with
  | KPol s, KPol t => String.eqb s t
  | KNum n, KNum m => n =? m
  | KPair a b, KPair c d => (a =? c) && (b =? d)
  | KPairS a b s, KPairS c d t => (a =? c) && (b =? d) && String.eqb s t
  | KPairN a b p, KPairN c d q => (a =? c) && (b =? d) && (p =? q)
  | _, _ => false
  end.

Definition apkey := (Z * Z * bool)%type.
Definition apkey_eqb (x y : apkey) : bool :=
  let '(a, b, o) := x in let '(c, d, q) := y in (a =? c) && (b =? d) && Bool.eqb o q.

(** (blt_ind1, blt_ind2, (pol_ind1, pol_ind2)) *)
Definition entry := (option axis_index * option axis_index * (option axis_index * option axis_index))%type.

(** The object together with telescope.x_orientation and the two caches
    (uvdata.py:603-604). *)
Record obj := mkobj {
  o_u : uvd;
  o_xo : option string;
  o_apc : list (apkey * option axis_index);
  o_kc : list (ukey * entry)
}.

(** A newly made object. *)
Definition fresh (u : uvd) (xo : option string) : obj := mkobj u xo [] [].

Definition sliceall : axis_index := ISlice (mkslice None None None).

(** numpy indexing of an axis of length [n] *)
Definition at_index (n : nat) (ix : axis_index) : result (list nat) :=
  match ix with
  | ISlice s => slice_positions (Z.of_nat n) s
  | IList l => list_positions (Z.of_nat n) l
  | IInt i => list_positions (Z.of_nat n) [i]
  | IMask m => Ok (nonzero (fun b => b) m)
  end.

(** [l[start::step]] *)
Definition take_slice {A} (d : A) (s : slice) (l : list A) : result (list A) :=
  do p <- slice_positions (Z.of_nat (length l)) s; Ok (take d l p).

(** uvdata.py:2927-2942; the value None of blts_are_rectangular is falsy *)
Definition get_baseline_nums (u : uvd) : result (list Z) :=
  match blts_are_rectangular u with
  | Some true =>
      if time_axis_faster_than_bls u
      then take_slice 0 (mkslice None None (Some (Z.of_nat (Ntimes u)))) (baseline_array u)
      else take_slice 0 (mkslice None (Some (Z.of_nat (Nbls u))) None) (baseline_array u)
  | _ => Ok (uniqueZ (baseline_array u))
  end.

(** uvdata.py:2944-2954 *)
Definition get_antpairs (u : uvd) : result (list (Z * Z)) :=
  do bls <- get_baseline_nums u;
  do (a1, a2) <- baseline_to_antnums bls (Nants_telescope u);
  Ok (combine a1 a2).

(** uvdata.py:2907-2925 *)
Definition get_ants (u : uvd) : result (list Z) :=
  match blts_are_rectangular u with
  | Some true =>
      let s := if time_axis_faster_than_bls u
               then mkslice None None (Some (Z.of_nat (Ntimes u)))
               else mkslice None (Some (Z.of_nat (Nbls u))) None in
      do a1 <- take_slice 0 s (ant_1_array u);
      do a2 <- take_slice 0 s (ant_2_array u);
      Ok (uniqueZ (a1 ++ a2))
  | _ => Ok (uniqueZ (ant_1_array u ++ ant_2_array u))
  end.

Definition zpair_eqb (x y : Z * Z) : bool := (fst x =? fst y) && (snd x =? snd y).

(** uvdata.py:2630-2637: the slice of one pair of a rectangular axis *)
Definition rect_slice (u : uvd) (antpairs : list (Z * Z)) (a b : Z) : option axis_index :=
  match index_of zpair_eqb (a, b) antpairs with
  | Some idx =>
      Some (ISlice (if time_axis_faster_than_bls u
                    then mkslice (Some (Z.of_nat (Ntimes u * idx))) (Some (Z.of_nat (Ntimes u * (idx + 1)))) None
                    else mkslice (Some (Z.of_nat idx)) None (Some (Z.of_nat (Nbls u)))))
  | None => None
  end.

(** [np.where((ant_1_array == a) & (ant_2_array == b))[0]] *)
Definition pair_where (u : uvd) (a b : Z) : list Z :=
  map Z.of_nat (nonzero (fun p => zpair_eqb p (a, b)) (combine (ant_1_array u) (ant_2_array u))).

(** uvdata.py:2629-2674: the answer when it is not in the cache *)
Definition antpair_search (u : uvd) (a b : Z) (ordered : bool) : result (option axis_index) :=
  match blts_are_rectangular u with
  | Some true =>
      do antpairs <- get_antpairs u;
      let inds := rect_slice u antpairs a b in
      do inds <-
        (if ordered then Ok inds else
         match rect_slice u antpairs b a with
         | None => Ok inds
         | Some ind2 =>
             match inds with
             | None => Ok (Some ind2)
             | Some ind1 =>
                 do p1 <- at_index (Nblts u) ind1;
                 do p2 <- at_index (Nblts u) ind2;
                 Ok (Some (IList (map Z.of_nat (p1 ++ p2))))
             end
         end);
      Ok (slicify inds)
  | _ =>
      let inds := pair_where u a b ++ (if ordered then [] else pair_where u b a) in
      Ok (slicify (match inds with [] => None | _ => Some (IList inds) end))
  end.

(** uvdata.py:2576-2677 (integer arguments) *)
Definition antpair2ind (a b : Z) (ordered : bool) (o : obj) : obj * result (option axis_index) :=
  let ordered := (a =? b) || ordered in
  match dget apkey_eqb (a, b, ordered) (o_apc o) with
  | Ok v => (o, Ok v)
  | Err _ =>
      match antpair_search (o_u o) a b ordered with
      | Ok v => (mkobj (o_u o) (o_xo o) (dset apkey_eqb (a, b, ordered) v (o_apc o)) (o_kc o), Ok v)
      | Err e => (o, Err e)
      end
  end.

(** [np.where(self.polarization_array == p)[0]] *)
Definition pol_where (u : uvd) (p : Z) : list Z :=
  map Z.of_nat (nonzero (fun q => q =? p) (polarization_array u)).

Definition some_list (l : list Z) : option axis_index := match l with [] => None | _ => Some (IList l) end.

(** uvdata.py:2729-2758: a polarization alone *)
Definition pol_entry (u : uvd) (p : Z) : result entry :=
  match pol_where u p with
  | [] => Err KeyError
  | l => Ok (Some sliceall, None, (slicify (Some (IList l)), None))
  end.

(** uvdata.py:2763-2833: an antenna pair; [pol] is [None] for a key of length 2,
    otherwise the polarization number.  [ind1], [ind2] are the answers of
    antpair2ind. *)
Definition pair_entry (u : uvd) (ind1 ind2 : option axis_index) (pol : option Z) : result entry :=
  match ind1, ind2 with
  | None, None => Err KeyError
  | _, _ =>
      let pol_ind1 := match ind1, pol with
                      | None, _ => None
                      | Some _, None => Some sliceall
                      | Some _, Some p => some_list (pol_where u p)
                      end in
      do (ind2, pol_ind2) <-
        match ind2, pol with
        | None, _ => Ok (None, None)
        | Some _, None =>
            match reorder_conj_pols (polarization_array u) with
            | Ok l => Ok (ind2, Some (IList (map Z.of_nat l)))
            | Err ValueError => match ind1 with None => Err KeyError | Some _ => Ok (None, None) end
            | Err e => Err e
            end
        | Some _, Some p =>
            do cp <- conj_pol p;
            Ok (ind2, some_list (pol_where u cp))
        end;
      match (match ind1, pol_ind1 with Some _, Some _ => true | _, _ => false end),
            (match ind2, pol_ind2 with Some _, Some _ => true | _, _ => false end) with
      | false, false => Err KeyError
      | _, _ => Ok (ind1, ind2, (slicify pol_ind1, slicify pol_ind2))
      end
  end.

(** uvdata.py:2765-2770 *)
Definition pair_lookup (a b : Z) (o : obj) : obj * result (option axis_index * option axis_index) :=
  let '(o, r1) := antpair2ind a b true o in
  match r1 with
  | Err e => (o, Err e)
  | Ok ind1 =>
      if a =? b then (o, Ok (ind1, None)) else
      let '(o, r2) := antpair2ind b a true o in
      match r2 with Err e => (o, Err e) | Ok ind2 => (o, Ok (ind1, ind2)) end
  end.

(** uvdata.py:2834-2836 *)
Definition remember (k : ukey) (o : obj) (r : result entry) : obj * result entry :=
  match r with
  | Ok e => (mkobj (o_u o) (o_xo o) (o_apc o) (dset ukey_eqb k e (o_kc o)), Ok e)
  | Err x => (o, Err x)
  end.

(** The polarization number of a key with an antenna pair (uvdata.py:2779-2786);
    a name that is not known raises KeyError *)
Definition pair_pol (k : ukey) (xo : option string) : result (option Z) :=
  match k with
  | KPairS _ _ s => do p <- polstr2num xo s; Ok (Some p)
  | KPairN _ _ p => Ok (Some p)
  | _ => Ok None
  end.

(** uvdata.py:2763-2836 *)
Definition pair_key (k : ukey) (a b : Z) (o : obj) : obj * result entry :=
  let '(o, r) := pair_lookup a b o in
  match r with
  | Err e => (o, Err e)
  | Ok (None, None) => (o, Err KeyError)
  | Ok (ind1, ind2) =>
      remember k o (do pol <- pair_pol k (o_xo o); pair_entry (o_u o) ind1 ind2 pol)
  end.

(** uvdata.py:2679-2836.  A number below 5 is looked up in the cache as a
    1-tuple but stored as a bare number, so it is never found; a baseline number
    becomes an antenna pair and is stored under the pair. *)
Definition key2inds (k : ukey) (o : obj) : obj * result entry :=
  match k with
  | KNum n =>
      if n <? 5 then remember (KNum n) o (pol_entry (o_u o) n)
      else
        match baseline_to_antnums [n] (Nants_telescope (o_u o)) with
        | Ok ([a], [b]) => pair_key (KPair a b) a b o
        | Ok _ => (o, Err Undefined)
        | Err e => (o, Err e)
        end
  | _ =>
      match dget ukey_eqb k (o_kc o) with
      | Ok e => (o, Ok e)
      | Err _ =>
          match k with
          | KPol s => remember k o (do p <- polstr2num (o_xo o) s; pol_entry (o_u o) p)
          | KPair a b | KPairS a b _ | KPairN a b _ => pair_key k a b o
          | KNum _ => (o, Err Undefined)
          end
      end
  end.

(** An array of shape (len rows, Nfreqs, len pols) *)
Definition block_of {A} (nf : nat) (c : cube A) (rows pols : list nat) : list (list (list A)) :=
  map (fun i => map (fun j => map (fun k => c i j k) pols) (seq 0 nf)) rows.

(** uvdata.py:2838-2905 before squeezing; [conj] is np.conj on the element type.
    An index [None] on the polarization axis adds an axis: the result then has
    four dimensions and np.append refuses it (ValueError); a different number of
    polarizations is refused as well. *)
Definition smart_slicing {A} (u : uvd) (conj : A -> A) (c : cube A) (e : entry) : result (list (list (list A))) :=
  let '(ind1, ind2, (p1, p2)) := e in
  let part (ind p : axis_index) :=
    do rows <- at_index (Nblts u) ind; do pols <- at_index (Npols u) p;
    Ok (length pols, block_of (Nfreqs u) c rows pols) in
  let conjugate := map (map (map conj)) in
  match ind1, ind2 with
  | None, None => Err TypeError
  | Some i, None => match p1 with Some p => do r <- part i p; Ok (snd r) | None => Err IndexError end
  | None, Some i => match p2 with Some p => do r <- part i p; Ok (conjugate (snd r)) | None => Err IndexError end
  | Some i1, Some i2 =>
      match p1, p2 with
      | Some q1, Some q2 =>
          do r1 <- part i1 q1; do r2 <- part i2 q2;
          if (fst r1 =? fst r2)%nat then Ok (snd r1 ++ conjugate (snd r2)) else Err ValueError
      | _, _ => Err ValueError
      end
  end.

Definition get_cube {A} (conj : A -> A) (f : uvd -> cube A) (k : ukey) (o : obj) : obj * result (list (list (list A))) :=
  let '(o, r) := key2inds k o in
  match r with Err e => (o, Err e) | Ok e => (o, smart_slicing (o_u o) conj (f (o_u o)) e) end.

(** uvdata.py:3004-3056 *)
Definition get_data := get_cube cconj data_array.
(** uvdata.py:3058-3114; conjugation does nothing on booleans *)
Definition get_flags := get_cube (fun b : bool => b) flag_array.
(** uvdata.py:3116-3168 *)
Definition get_nsamples := get_cube (fun z : Z => z) nsample_array.

(** uvdata.py:3201-3213 *)
Definition get_times (k : ukey) (o : obj) : obj * result (list Z) :=
  let '(o, r) := key2inds k o in
  match r with
  | Err e => (o, Err e)
  | Ok (ind1, ind2, _) =>
      let part ind := match ind with None => Ok [] | Some ix => do p <- at_index (Nblts (o_u o)) ix; Ok (take 0 (time_array (o_u o)) p) end in
      (o, do t1 <- part ind1; do t2 <- part ind2; Ok (t1 ++ t2))
  end.

(** uvdata.py:3391-3412: how one axis is handed to _index_dset *)
Definition set_axis (frac : Q) (ix : axis_index) : axis_sel :=
  let '(slices, ok) := convert_to_slices ix frac None false in
  if ok then ASlices (map (fun ix => match ix with ISlice s => s | _ => mkslice None None None end) slices)
  else match ix with
       | ISlice s => ASlice s
       | IInt i => AInt i
       | IMask m => AArr (map Z.of_nat (nonzero (fun b => b) m))
       | IList l => AArr l
       end.

(** uvdata.py:3330-3412 and the _index_dset call of set_data, set_flags and
    set_nsamples: the new content of the array *)
Definition set_cube {A} (c : cube A) (u : uvd) (e : entry) (dshape : shape3) (arr : cube A) : result (cube A) :=
  let '(ind1, ind2, (p1, p2)) := e in
  match ind2 with
  | Some _ => Err ValueError
  | None =>
      match ind1, p1 with
      | Some i1, Some q1 =>
          do rows <- at_index (Nblts u) i1;
          do pols <- at_index (Npols u) q1;
          let '(d0, d1, d2) := dshape in
          if (d0 =? Z.of_nat (length rows)) && (d1 =? Z.of_nat (Nfreqs u)) && (d2 =? Z.of_nat (length pols)) then
            write_dset (Z.of_nat (Nblts u), Z.of_nat (Nfreqs u), Z.of_nat (Npols u)) c
              (set_axis (1 # 10) i1, ASlice (mkslice None None None), set_axis (1 # 2) q1) dshape arr
          else Err ValueError
      | _, _ => Err IndexError
      end
  end.

(** uvdata.py:3414-3460, 3462-3510, 3512-3560 *)
Definition set_with {A} (f : uvd -> cube A) (upd : cube A -> uvd -> uvd) (dshape : shape3) (arr : cube A) (k : ukey) (o : obj)
    : obj * result unit :=
  let '(o, r) := key2inds k o in
  match r with
  | Err e => (o, Err e)
  | Ok e =>
      match set_cube (f (o_u o)) (o_u o) e dshape arr with
      | Err x => (o, Err x)
      | Ok c => (mkobj (upd c (o_u o)) (o_xo o) (o_apc o) (o_kc o), Ok tt)
      end
  end.
Definition set_data := set_with data_array set_data_array.
Definition set_flags := set_with flag_array set_flag_array.
Definition set_nsamples := set_with nsample_array set_nsample_array.

(** Attribute assignment goes through the parameter's setter
    (uvdata.py:197, 210, 255, 634-643). *)
Definition clear_antpair2ind_cache (o : obj) : obj := mkobj (o_u o) (o_xo o) [] [].
Definition clear_key2ind_cache (o : obj) : obj := mkobj (o_u o) (o_xo o) (o_apc o) [].

(** uvdata.py:3687-3701: the caches are cleared when something was conjugated *)
Definition obj_conjugate (conv : conj_convention) (tol : Z) (coords : list (Z * Z * Z)) (o : obj) : obj * result unit :=
  match conj_rows conv tol coords (o_u o) with
  | Err e => (o, Err e)
  | Ok [] => (o, Ok tt)
  | Ok idx => match conj_apply idx (o_u o) with
              | Err e => (o, Err e)
              | Ok u => (mkobj u (o_xo o) [] [], Ok tt)
              end
  end.

(** uvdata.py:4031-4032 assigns both antenna arrays.  (If the call raises, the
    conjugation may already have been done; that is not modelled.) *)
Definition obj_reorder_blts (order : blt_request) (minor : option axis_key) (autos_first : bool)
    (conj : option (conj_convention * Z * list (Z * Z * Z))) (o : obj) : obj * result unit :=
  match reorder_blts order minor autos_first conj (o_u o) with
  | Err e => (o, Err e)
  | Ok u => (mkobj u (o_xo o) [] [], Ok tt)
  end.

(** uvdata.py:3765 assigns polarization_array *)
Definition obj_reorder_pols (req : pol_request) (o : obj) : obj * result unit :=
  match reorder_pols req (o_u o) with
  | Err e => (o, Err e)
  | Ok u => (mkobj u (o_xo o) (o_apc o) [], Ok tt)
  end.

(** uvdata.py:3780-3806 assigns neither *)
Definition obj_set_rectangularity (force : bool) (o : obj) : obj * result unit :=
  match set_rectangularity force (o_u o) with
  | Err e => (o, Err e)
  | Ok u => (mkobj u (o_xo o) (o_apc o) (o_kc o), Ok tt)
  end.
