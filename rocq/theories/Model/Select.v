(** UVData.select: /repo/src/pyuvdata/uvdata/uvdata.py:6507-7369, for an object
    holding data (not metadata_only).  Not modelled: ant_str (parse_ants turns it
    into [bls] and [polarizations]), run_check, the history and the warnings.
    Arguments are lists (a scalar or an n-dimensional array is made into one). *)
From Coq Require Import List ZArith Bool Arith QArith String.
From Verif Require Import Lib.Py Lib.Np Lib.Cube Model.Bls Model.Tools Model.Pol Model.UVData Model.Reorder Model.Freq Model.PhaseCenter
  Model.FlexPol Model.Times.
Import ListNotations.
Notation length := List.length.
Open Scope Z_scope.
Open Scope list_scope.

Inductive pol_name := PolNum (n : Z) | PolStr (s : string).
(** Baseline numbers, or antenna pairs with or without a polarization. *)
Inductive bls_request := BlNums (l : list Z) | BlTuples (l : list (Z * Z * option string)).

Record criteria := mkCriteria {
  cr_antenna_nums : option (list Z);
  cr_antenna_names : option (list string);
  cr_bls : option bls_request;
  cr_frequencies : option (list Z);
  cr_freq_chans : option (list Z);
  cr_time : time_request;
  cr_polarizations : option (list pol_name);
  cr_blt_inds : option (list Z);
  cr_phase_center_ids : option (list Z);
  cr_catalog_names : option (list string) }.

(** The object with the parts of the telescope and of the catalog that select
    uses.  [so_eq_rows] is the length of the antenna axis of eq_coeffs;
    telescope.Nants is [Nants_telescope]. *)
Record selobj := mkSelobj {
  so_freq : freqobj;
  so_x_orientation : option string;
  so_catalog : catalog;
  so_antenna_numbers : list Z;
  so_antenna_names : list string;
  so_eq_rows : nat;
  so_Nants_data : nat }.
Definition so_uvd (o : selobj) : uvd := fo_uvd (so_freq o).

(** [list(set(a).intersection(b))]; the order does not matter, as the result is
    sorted in the end *)
Definition inter (a b : list Z) : list Z := filter (fun i => isinZ i b) a.
Definition join (a : option (list Z)) (b : list Z) : list Z := match a with Some a => inter a b | None => b end.
Definition where_inds (l : list nat) : list Z := map Z.of_nat l.

(** uvdata.py:6645-6676 *)
Definition phase_inds (cr : criteria) (o : selobj) (inds : option (list Z)) : result (option (list Z)) :=
  match cr_phase_center_ids cr, cr_catalog_names cr with
  | Some _, Some _ => Err ValueError
  | None, None => Ok inds
  | ids, names =>
      let ids :=
        match names with
        | Some names => map fst (filter (fun e => str_in (e_name (snd e)) names) (so_catalog o))
        | None => match ids with Some ids => ids | None => [] end
        end in
      Ok (Some (join inds (where_inds (nonzero (fun i => isinZ i ids) (phase_center_id_array (so_uvd o))))))
  end.

(** uvdata.py:6678-6702 *)
Definition name_num (o : selobj) (s : string) : result Z :=
  match index_of String.eqb s (so_antenna_names o) with
  | None => Err ValueError
  | Some i => match nth_error (so_antenna_numbers o) i with Some n => Ok n | None => Err IndexError end
  end.
Definition antenna_list (cr : criteria) (o : selobj) : result (option (list Z)) :=
  match cr_antenna_names cr, cr_antenna_nums cr with
  | Some _, Some _ => Err ValueError
  | Some names, None => do nums <- mapM (name_num o) names; Ok (Some nums)
  | None, nums => Ok nums
  end.

(** uvdata.py:6704-6733 *)
Definition antenna_rows (u : uvd) (nums : list Z) : result (list nat) :=
  if forallb (fun n => isinZ n (ant_1_array u) || isinZ n (ant_2_array u)) nums
  then Ok (nonzero (fun p => isinZ (fst p) nums && isinZ (snd p) nums) (combine (ant_1_array u) (ant_2_array u)))
  else Err ValueError.

(** uvdata.py:6736-6750 *)
Definition bls_tuples (u : uvd) (r : bls_request) : result (list (Z * Z * option string)) :=
  match r with
  | BlTuples l => Ok l
  | BlNums l =>
      if forallb (fun b => isinZ b (baseline_array u)) l
      then
        match l with
        | [] => Ok []
        | _ => do (a1, a2) <- baseline_to_antnums l (Nants_telescope u);
               Ok (map (fun p => (fst p, snd p, None)) (combine a1 a2))
        end
      else Err ValueError
  end.

(** uvdata.py:6785-6814 *)
Definition rows_of (u : uvd) (a b : Z) : list nat :=
  nonzero (fun p => (fst p =? a) && (snd p =? b)) (combine (ant_1_array u) (ant_2_array u)).
Fixpoint bls_rows (u : uvd) (l : list (Z * Z * option string)) : result (list nat * list string) :=
  match l with
  | [] => Ok ([], [])
  | (a, b, pol) :: l =>
      do (rows, pols) <-
        match rows_of u a b with
        | (_ :: _) as wh1 => Ok (wh1, match pol with Some s => [s] | None => [] end)
        | [] =>
            match rows_of u b a with
            | (_ :: _) as wh2 =>
                match pol with
                | Some s => do c <- conj_pol_str s; Ok (wh2, [c])
                | None => Ok (wh2, [])
                end
            | [] => Err ValueError
            end
        end;
      do (rows', pols') <- bls_rows u l; Ok (rows ++ rows', pols ++ pols')
  end.

(** uvdata.py:6735-6824: the rows, and the polarizations to use from here on.
    (polarizations of the tuples replace the argument) *)
Definition bls_inds (cr : criteria) (u : uvd) : result (option (list nat) * option (list pol_name)) :=
  match cr_bls cr with
  | None => Ok (None, cr_polarizations cr)
  | Some r =>
      do l <- bls_tuples u r;
      match l with
      | [] => Err ValueError
      | _ =>
          if forallb (fun t => match snd t with Some _ => true | None => false end) l &&
             match cr_polarizations cr with Some _ => true | None => false end
          then Err ValueError
          else
            do (rows, pols) <- bls_rows u l;
            Ok (Some rows, match pols with [] => cr_polarizations cr | _ => Some (map PolStr pols) end)
      end
  end.

(** uvdata.py:6816-6835 *)
Definition ant_inds (ants bls : option (list nat)) (inds : option (list Z)) : option (list Z) :=
  match ants, bls with
  | None, None => inds
  | Some a, None => Some (join inds (where_inds a))
  | None, Some b => Some (join inds (where_inds b))
  | Some a, Some b => Some (join inds (inter (where_inds a) (where_inds b)))
  end.

(** uvdata.py:6837-6880 *)
Definition time_inds (two_pi : Z) (tols lst_tols : Q * Q) (cr : criteria) (u : uvd) (inds : option (list Z)) : result (option (list Z)) :=
  do t <- select_times_helper two_pi (cr_time cr) (TimeArray (time_array u)) (TimeArray (lst_array u)) tols lst_tols;
  match t with
  | None => Ok inds
  | Some rows => Ok (Some (join inds (where_inds rows)))
  end.

(** uvdata.py:6882-6891 *)
Definition final_rows (n : nat) (inds : option (list Z)) : result (option (list nat)) :=
  match inds with
  | None => Ok None
  | Some [] => Err ValueError
  | Some l =>
      if existsb (fun i => Z.of_nat n <=? i) l then Err ValueError
      else if existsb (fun i => i <? 0) l then Err ValueError
      else Ok (Some (map Z.to_nat (uniqueZ l)))
  end.

(** uvdata.py:6619-6891: rows to keep, polarizations asked for *)
Definition select_rows (two_pi : Z) (tols lst_tols : Q * Q) (cr : criteria) (o : selobj) : result (option (list nat) * option (list pol_name)) :=
  let u := so_uvd o in
  do inds <- phase_inds cr o (cr_blt_inds cr);
  do nums <- antenna_list cr o;
  do ants <- match nums with None => Ok None | Some nums => do r <- antenna_rows u nums; Ok (Some r) end;
  do (bls, pols) <- bls_inds cr u;
  do inds <- time_inds two_pi tols lst_tols cr u (ant_inds ants bls inds);
  do rows <- final_rows (Nblts u) inds;
  Ok (rows, pols).

(** uvdata.py:6893-6906: the frequencies asked for *)
Definition wanted_freqs (cr : criteria) (u : uvd) : result (option (list Z)) :=
  match cr_freq_chans cr with
  | None => Ok (cr_frequencies cr)
  | Some chans =>
      do pos <- mapM (fun c => match norm_index (Nfreqs u) c with Some j => Ok j | None => Err IndexError end) chans;
      let by_chan := take 0 (freq_array u) pos in
      match cr_frequencies cr with
      | None => Ok (Some by_chan)
      | Some freqs => Ok (Some (uniqueZ (freqs ++ by_chan)))
      end
  end.

(** uvdata.py:6924-6929: the separations of neighbours within a window *)
Fixpoint separations (u : uvd) (inds : list nat) : list Q :=
  match inds with
  | i :: (j :: _) as t =>
      if nth j (flex_spw_id_array u) 0 - nth i (flex_spw_id_array u) 0 =? 0
      then inject_Z (Z.of_nat j - Z.of_nat i) :: separations u t
      else separations u t
  | _ => []
  end.

(** uvdata.py:6893-6946.  [_test_array_constant] of an empty array raises. *)
Definition select_freqs (cr : criteria) (u : uvd) : result (option (list nat)) :=
  do freqs <- wanted_freqs cr u;
  match freqs with
  | None => Ok None
  | Some freqs =>
      if forallb (fun f => isinZ f (freq_array u)) freqs
      then
        let inds := nonzero (fun f => isinZ f freqs) (freq_array u) in
        do _ <- (if (1 <? length freqs)%nat then test_array_constant (separations u inds) 0 0 else Ok true);
        Ok (Some inds)
      else Err ValueError
  end.

(** uvdata.py:6961-6989: positions on the polarization axis, and windows of a flex-pol object *)
Definition pol_number (xo : option string) (p : pol_name) : result Z :=
  match p with PolNum n => Ok n | PolStr s => polstr2num xo s end.
Fixpoint pol_places (xo : option string) (pols : list Z) (fp : option (list Z)) (asked : list pol_name) : result (list nat * list nat) :=
  match asked with
  | [] => Ok ([], [])
  | p :: asked =>
      do n <- pol_number xo p;
      do (ks, ws) <-
        (if isinZ n pols then Ok (nonzero (Z.eqb n) pols, [])
         else
           match fp with
           | Some fp => if isinZ n fp then Ok ([], nonzero (Z.eqb n) fp) else Err ValueError
           | None => Err ValueError
           end);
      do (ks', ws') <- pol_places xo pols fp asked; Ok (ks ++ ks', ws ++ ws')
  end.

(** uvdata.py:6948-7011 *)
Definition select_pols (o : selobj) (asked : option (list pol_name)) (freq_inds : option (list nat))
    : result (option (list nat) * option (list nat)) :=
  let u := so_uvd o in
  match asked with
  | None => Ok (freq_inds, None)
  | Some asked =>
      do (ks, ws) <- pol_places (so_x_orientation o) (polarization_array u) (flex_spw_polarization_array (so_freq o)) asked;
      match ws with
      | [] => Ok (freq_inds, Some (uniqueN ks))
      | _ =>
          let kept j := isinZ (nth j (flex_spw_id_array u) 0) (take 0 (spw_array u) ws) in
          do inds <- match freq_inds with
                     | None => Ok (filter kept (seq 0 (Nfreqs u)))
                     | Some [] => Err IndexError
                     | Some inds => Ok (filter kept inds)
                     end;
          match inds with
          | [] => Err ValueError
          | _ => Ok (Some inds, None)
          end
      end
  end.

(** uvdata.py:7094-7100 *)
Definition set_counts (u : uvd) : uvd :=
  {| time_array := time_array u; lst_array := lst_array u; ant_1_array := ant_1_array u; ant_2_array := ant_2_array u;
     baseline_array := baseline_array u; integration_time := integration_time u; uvw_array := uvw_array u;
     phase_center_id_array := phase_center_id_array u; phase_center_app_ra := phase_center_app_ra u;
     phase_center_app_dec := phase_center_app_dec u; phase_center_frame_pa := phase_center_frame_pa u;
     freq_array := freq_array u; channel_width := channel_width u; flex_spw_id_array := flex_spw_id_array u;
     spw_array := spw_array u; polarization_array := polarization_array u;
     data_array := data_array u; flag_array := flag_array u; nsample_array := nsample_array u;
     Nbls := length (uniqueZ (baseline_array u)); Ntimes := length (uniqueZ (time_array u)); blt_order := blt_order u;
     blts_are_rectangular := blts_are_rectangular u; time_axis_faster_than_bls := time_axis_faster_than_bls u;
     Nants_telescope := Nants_telescope u |}.

(** uvdata.py:7061-7114, key "Nblts", then "Nants_telescope" (only parameters of
    the telescope are indexed: eq_coeffs is not one) *)
Definition by_blts (keep_all : bool) (idx : list nat) (o : selobj) : selobj :=
  let fo := so_freq o in
  let u := set_counts (take_blts idx (fo_uvd fo)) in
  let n_data := length (uniqueZ (ant_1_array u ++ ant_2_array u)) in
  if keep_all
  then mkSelobj (mkFreqobj u (eq_coeffs fo) (flex_spw_polarization_array fo)) (so_x_orientation o) (so_catalog o)
         (so_antenna_numbers o) (so_antenna_names o) (so_eq_rows o) n_data
  else
    let ants := nonzero (fun n => isinZ n (ant_1_array u ++ ant_2_array u)) (so_antenna_numbers o) in
    mkSelobj (mkFreqobj (set_Nants_telescope (Z.of_nat (length ants)) u) (eq_coeffs fo) (flex_spw_polarization_array fo))
      (so_x_orientation o) (so_catalog o) (take 0 (so_antenna_numbers o) ants) (take EmptyString (so_antenna_names o) ants)
      (so_eq_rows o) n_data.

(** key "Nfreqs", then "Nspws" *)
Definition by_freqs (idx : list nat) (fo : freqobj) : freqobj :=
  let u := take_freqs idx (spw_array (fo_uvd fo)) (fo_uvd fo) in
  let spws := nonzero (fun w => isinZ w (flex_spw_id_array u)) (spw_array u) in
  mkFreqobj (set_spw_array (take 0 (spw_array u) spws) u)
    (match eq_coeffs fo with None => None | Some e => Some (fun a j => e a (nth j idx O)) end)
    (match flex_spw_polarization_array fo with None => None | Some fp => Some (take 0 fp spws) end).

(** key "Npols" *)
Definition by_pols (idx : list nat) (fo : freqobj) : freqobj :=
  let u := fo_uvd fo in
  mkFreqobj (set_axes (freq_array u) (channel_width u) (flex_spw_id_array u) (spw_array u) (take 0 (polarization_array u) idx)
               (take2 idx (data_array u)) (take2 idx (flag_array u)) (take2 idx (nsample_array u)) u)
    (eq_coeffs fo) (flex_spw_polarization_array fo).

Definition on_freq (f : freqobj -> freqobj) (o : selobj) : selobj :=
  mkSelobj (f (so_freq o)) (so_x_orientation o) (so_catalog o) (so_antenna_numbers o) (so_antenna_names o) (so_eq_rows o) (so_Nants_data o).

(** uvdata.py:7017-7131; [np.take] accepts an empty list *)
Definition select_by_index (keep_all : bool) (rows chans pols : option (list nat)) (o : selobj) : selobj :=
  let o := match rows with Some idx => by_blts keep_all idx o | None => o end in
  let o := match chans with Some idx => on_freq (by_freqs idx) o | None => o end in
  match pols with Some idx => on_freq (by_pols idx) o | None => o end.

(** uvdata.py:7341-7349 *)
Definition after_select (rows : option (list nat)) (o : selobj) : result selobj :=
  let fo := so_freq o in
  do u <- match rows with Some _ => set_rectangularity true (fo_uvd fo) | None => Ok (fo_uvd fo) end;
  let fo := mkFreqobj u (eq_coeffs fo) (flex_spw_polarization_array fo) in
  do fo <- match flex_spw_polarization_array fo with
           | Some fp => if (length (uniqueZ fp) =? 1)%nat then remove_flex_pol true fo else Ok fo
           | None => Ok fo
           end;
  Ok (on_freq (fun _ => fo) o).

(** uvdata.py:6507-7369 *)
Definition select (two_pi : Z) (tols lst_tols : Q * Q) (cr : criteria) (keep_all : bool) (o : selobj) : result selobj :=
  do (rows, asked) <- select_rows two_pi tols lst_tols cr o;
  do chans <- select_freqs cr (so_uvd o);
  do (chans, pols) <- select_pols o asked chans;
  after_select rows (select_by_index keep_all rows chans pols o).
