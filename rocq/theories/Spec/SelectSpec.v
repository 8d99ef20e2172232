(** Which records a selection asks for, and what it means to keep just these. *)
From Coq Require Import List ZArith Bool QArith String Sorted.
From Verif Require Import Lib.Py Lib.Cube Model.UVData Model.Pol Model.Freq Model.PhaseCenter Model.Times Model.Select
  Spec.BltSpec Spec.BlsSpec Spec.UVDataSpec Spec.FreqSpec Spec.TimesSpec Spec.AccessSpec.
Import ListNotations.
Notation length := List.length.
Open Scope Z_scope.
Open Scope list_scope.

Definition ant1 (u : uvd) (i : nat) : Z := nth i (ant_1_array u) 0.
Definition ant2 (u : uvd) (i : nat) : Z := nth i (ant_2_array u) 0.

(** Some record of the object is stored as (a, b). *)
Definition stored (u : uvd) (a b : Z) : Prop := exists i, (i < Nblts u)%nat /\ ant1 u i = a /\ ant2 u i = b.

(** Record [i] belongs to the antenna pair (a, b): it is stored as (a, b), or as
    (b, a) if the object has nothing stored as (a, b). *)
Definition of_pair (u : uvd) (i : nat) (a b : Z) : Prop :=
  (ant1 u i = a /\ ant2 u i = b) \/ (ant1 u i = b /\ ant2 u i = a /\ ~ stored u a b).

(** Antenna [n] of the telescope is called [s]. *)
Definition antenna_called (o : selobj) (s : string) (n : Z) : Prop :=
  exists k, (k < length (so_antenna_names o))%nat /\ nth k (so_antenna_names o) EmptyString = s /\ nth k (so_antenna_numbers o) 0 = n.

(** Baseline-time [i] satisfies every criterion given. *)
Definition row_wanted (two_pi : Z) (tols lst_tols : Q * Q) (cr : criteria) (o : selobj) (i : nat) : Prop :=
  let u := so_uvd o in
  (forall l, cr_blt_inds cr = Some l -> In (Z.of_nat i) l) /\
  (forall l, cr_phase_center_ids cr = Some l -> In (nth i (phase_center_id_array u) 0) l) /\
  (forall l, cr_catalog_names cr = Some l ->
     exists e, In (nth i (phase_center_id_array u) 0, e) (so_catalog o) /\ In (e_name e) l) /\
  (forall l, cr_antenna_nums cr = Some l -> In (ant1 u i) l /\ In (ant2 u i) l) /\
  (forall l, cr_antenna_names cr = Some l ->
     (exists s, In s l /\ antenna_called o s (ant1 u i)) /\ (exists s, In s l /\ antenna_called o s (ant2 u i))) /\
  (forall l, cr_bls cr = Some (BlTuples l) -> exists a b p, In (a, b, p) l /\ of_pair u i a b) /\
  (forall l, cr_bls cr = Some (BlNums l) -> In (nth i (baseline_array u) 0) l) /\
  wanted_time two_pi (cr_time cr) tols lst_tols (nth i (time_array u) 0) (nth i (lst_array u) 0).

(** Some criterion on the baseline-time axis is given. *)
Definition restricts_rows (cr : criteria) : Prop :=
  cr_blt_inds cr <> None \/ cr_phase_center_ids cr <> None \/ cr_catalog_names cr <> None \/ cr_antenna_nums cr <> None \/
  cr_antenna_names cr <> None \/ cr_bls cr <> None \/ ~ no_time_criterion (cr_time cr).

(** The index [c], which may be negative, denotes channel [j]. *)
Definition denotes (n : nat) (c : Z) (j : nat) : Prop := (j < n)%nat /\ (c = Z.of_nat j \/ c = Z.of_nat j - Z.of_nat n).

(** The frequency of channel [j] is listed, directly or by channel number. *)
Definition freq_wanted (cr : criteria) (u : uvd) (j : nat) : Prop :=
  (cr_frequencies cr = None /\ cr_freq_chans cr = None) \/
  (exists l, cr_frequencies cr = Some l /\ In (nth j (freq_array u) 0) l) \/
  (exists l c j', cr_freq_chans cr = Some l /\ In c l /\ denotes (Nfreqs u) c j' /\
     nth j' (freq_array u) 0 = nth j (freq_array u) 0).

(** The polarizations asked for: those of the baseline tuples, if any has one
    (conjugated if the pair is stored the other way round), or else the ones listed. *)
Definition tuple_pol (u : uvd) (t : Z * Z * option string) (s : string) : Prop :=
  let '(a, b, p) := t in
  (stored u a b /\ p = Some s) \/ (~ stored u a b /\ exists s', p = Some s' /\ conj_pol_str s' = Ok s).
Definition tuples_have_pols (cr : criteria) : Prop :=
  exists l a b s, cr_bls cr = Some (BlTuples l) /\ In (a, b, Some s) l.
Definition pol_asked (cr : criteria) (o : selobj) (p : Z) : Prop :=
  (exists l t s, cr_bls cr = Some (BlTuples l) /\ In t l /\ tuple_pol (so_uvd o) t s /\ polstr2num (so_x_orientation o) s = Ok p) \/
  (~ tuples_have_pols cr /\ exists l, cr_polarizations cr = Some l /\
     (In (PolNum p) l \/ exists s, In (PolStr s) l /\ polstr2num (so_x_orientation o) s = Ok p)).
Definition restricts_pols (cr : criteria) : Prop := tuples_have_pols cr \/ cr_polarizations cr <> None.
Definition pol_wanted (cr : criteria) (o : selobj) (p : Z) : Prop := restricts_pols cr -> pol_asked cr o p.

(** [l'] is the part of [l] at the positions [idx]. *)
Definition picked {A} (d : A) (idx : list nat) (l l' : list A) : Prop := l' = map (fun i => nth i l d) idx.

(** [idx] lists, in increasing order, the positions below [n] satisfying [P]. *)
Definition positions_of (n : nat) (P : nat -> Prop) (idx : list nat) : Prop :=
  StronglySorted lt idx /\ forall i, In i idx <-> (i < n)%nat /\ P i.

(** [u'] consists of the rows [ri], channels [rj] and polarizations [rk] of [u]. *)
Definition blts_picked (ri : list nat) (u u' : uvd) : Prop :=
  picked 0 ri (time_array u) (time_array u') /\ picked 0 ri (lst_array u) (lst_array u') /\
  picked 0 ri (ant_1_array u) (ant_1_array u') /\ picked 0 ri (ant_2_array u) (ant_2_array u') /\
  picked 0 ri (baseline_array u) (baseline_array u') /\ picked 0 ri (integration_time u) (integration_time u') /\
  picked (0, 0, 0) ri (uvw_array u) (uvw_array u') /\ picked 0 ri (phase_center_id_array u) (phase_center_id_array u') /\
  picked 0 ri (phase_center_app_ra u) (phase_center_app_ra u') /\ picked 0 ri (phase_center_app_dec u) (phase_center_app_dec u') /\
  picked 0 ri (phase_center_frame_pa u) (phase_center_frame_pa u').
Definition chans_picked (rj : list nat) (u u' : uvd) : Prop :=
  picked 0 rj (freq_array u) (freq_array u') /\ picked 0 rj (channel_width u) (channel_width u') /\
  picked 0 rj (flex_spw_id_array u) (flex_spw_id_array u').
Definition samples_picked (ri rj rk : list nat) (u u' : uvd) : Prop :=
  forall i j k, (i < length ri)%nat -> (j < length rj)%nat -> (k < length rk)%nat ->
  data_array u' i j k = data_array u (nth i ri O) (nth j rj O) (nth k rk O) /\
  flag_array u' i j k = flag_array u (nth i ri O) (nth j rj O) (nth k rk O) /\
  nsample_array u' i j k = nsample_array u (nth i ri O) (nth j rj O) (nth k rk O).
Definition eq_picked (rj : list nat) (o o' : freqobj) : Prop :=
  match eq_coeffs o, eq_coeffs o' with
  | None, None => True
  | Some e, Some e' => forall a j, (j < length rj)%nat -> e' a j = e a (nth j rj O)
  | _, _ => False
  end.
(** the windows that still have a channel, in the old order *)
Definition windows_left (u u' : uvd) (rw : list nat) : Prop :=
  positions_of (length (spw_array u)) (fun k => In (nth k (spw_array u) 0) (flex_spw_id_array u')) rw /\
  picked 0 rw (spw_array u) (spw_array u').

Definition parts_picked (ri rj rk : list nat) (o o' : selobj) : Prop :=
  let u := so_uvd o in let u' := so_uvd o' in
  blts_picked ri u u' /\ chans_picked rj u u' /\ samples_picked ri rj rk u u' /\ eq_picked rj (so_freq o) (so_freq o') /\
  (exists rw, windows_left u u' rw) /\ counts_ok u'.

(** A self-consistent object. *)
Definition sel_ok (o : selobj) : Prop :=
  let u := so_uvd o in
  blt_shaped u /\ bl_coded u /\ counts_ok u /\ obj_ok (so_freq o) /\ Nants_telescope u <= 2147483648 /\
  length (so_antenna_names o) = length (so_antenna_numbers o) /\ NoDup (so_antenna_names o).

(** All records of an antenna pair are stored the same way round. *)
Definition one_orientation (u : uvd) : Prop :=
  forall a b, a <> b -> stored u a b -> ~ stored u b a.

(** With a flexible polarization axis: the polarization of channel [j], and the
    channels asked for. *)
Definition chan_pol (o : freqobj) (fp : list Z) (j : nat) (p : Z) : Prop :=
  exists w, (w < length (spw_array (fo_uvd o)))%nat /\
    nth w (spw_array (fo_uvd o)) 0 = nth j (flex_spw_id_array (fo_uvd o)) 0 /\ nth w fp 0 = p.
Definition chan_wanted (cr : criteria) (o : selobj) (fp : list Z) (j : nat) : Prop :=
  freq_wanted cr (so_uvd o) j /\ (restricts_pols cr -> exists p, chan_pol (so_freq o) fp j p /\ pol_asked cr o p).

(** The antennas of the telescope that occur in the data, with their names. *)
Definition antennas_picked (o o' : selobj) : Prop :=
  exists ra, positions_of (length (so_antenna_numbers o))
      (fun k => In (nth k (so_antenna_numbers o) 0) (ant_1_array (so_uvd o') ++ ant_2_array (so_uvd o'))) ra /\
    picked 0 ra (so_antenna_numbers o) (so_antenna_numbers o') /\ picked EmptyString ra (so_antenna_names o) (so_antenna_names o') /\
    Nants_telescope (so_uvd o') = Z.of_nat (length ra).

(** Everything the request names is there and no two ways of naming the same
    thing are mixed. *)
Definition rows_request_ok (two_pi : Z) (tols lst_tols : Q * Q) (cr : criteria) (o : selobj) : Prop :=
  let u := so_uvd o in
  (cr_phase_center_ids cr = None \/ cr_catalog_names cr = None) /\
  (cr_antenna_nums cr = None \/ cr_antenna_names cr = None) /\
  (forall l i, cr_blt_inds cr = Some l -> In i l -> 0 <= i < Z.of_nat (Nblts u)) /\
  (forall l n, cr_antenna_nums cr = Some l -> In n l -> In n (ant_1_array u ++ ant_2_array u)) /\
  (forall l s, cr_antenna_names cr = Some l -> In s l -> exists n, antenna_called o s n /\ In n (ant_1_array u ++ ant_2_array u)) /\
  (forall l, cr_bls cr = Some (BlNums l) -> l <> [] /\ forall b, In b l -> In b (baseline_array u)) /\
  (forall l, cr_bls cr = Some (BlTuples l) -> l <> [] /\ forall a b p, In (a, b, p) l -> stored u a b \/ stored u b a) /\
  (no_time_criterion (cr_time cr) \/
     one_time_criterion (cr_time cr) /\ request_met two_pi (cr_time cr) tols lst_tols (time_array u) (lst_array u)).

Definition pols_request_ok (cr : criteria) (o : selobj) : Prop :=
  let u := so_uvd o in
  (tuples_have_pols cr -> cr_polarizations cr = None) /\
  (forall l n, cr_polarizations cr = Some l -> In (PolNum n) l -> In n (polarization_array u)) /\
  (forall l s, cr_polarizations cr = Some l -> In (PolStr s) l ->
     exists n, polstr2num (so_x_orientation o) s = Ok n /\ In n (polarization_array u)) /\
  (forall l a b s, cr_bls cr = Some (BlTuples l) -> In (a, b, Some s) l ->
     exists s' n, tuple_pol u (a, b, Some s) s' /\ polstr2num (so_x_orientation o) s' = Ok n /\ In n (polarization_array u)).

(** All frequencies asked for are there; and if more than one is listed, two
    neighbours among the channels kept are in the same window. *)
Definition freqs_request_ok (cr : criteria) (u : uvd) : Prop :=
  (forall l f, cr_frequencies cr = Some l -> In f l -> In f (freq_array u)) /\
  (forall l c, cr_freq_chans cr = Some l -> In c l -> exists j, denotes (Nfreqs u) c j) /\
  ((cr_frequencies cr = None /\ cr_freq_chans cr = None) \/
   (exists j j', (j < j' < Nfreqs u)%nat /\ freq_wanted cr u j /\ freq_wanted cr u j' /\
      (forall x, (j < x < j')%nat -> ~ freq_wanted cr u x) /\
      nth j (flex_spw_id_array u) 0 = nth j' (flex_spw_id_array u) 0) \/
   (exists f, cr_frequencies cr = Some [f] /\ cr_freq_chans cr = None) \/
   (exists c, cr_frequencies cr = None /\ cr_freq_chans cr = Some [c])).

(** The same request with other baselines. *)
Definition with_bls (cr : criteria) (r : bls_request) : criteria :=
  mkCriteria (cr_antenna_nums cr) (cr_antenna_names cr) (Some r) (cr_frequencies cr) (cr_freq_chans cr) (cr_time cr)
    (cr_polarizations cr) (cr_blt_inds cr) (cr_phase_center_ids cr) (cr_catalog_names cr).

(** The same baseline, written either way round; a polarization is conjugated
    with the pair. *)
Inductive same_baseline : Z * Z * option string -> Z * Z * option string -> Prop :=
| sb_same t : same_baseline t t
| sb_turned a b : same_baseline (a, b, None) (b, a, None)
| sb_turned_pol a b s c : a <> b -> conj_pol_str s = Ok c -> conj_pol_str c = Ok s -> same_baseline (a, b, Some s) (b, a, Some c).

(** No criterion at all. *)
Definition everything : criteria :=
  mkCriteria None None None None None (mkTimeRequest None None None None) None None None None.
