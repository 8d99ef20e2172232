(** Which flags (or metrics) a selection asks for, and what it means to keep just these. *)
From Coq Require Import List ZArith Bool String Sorted.
From Verif Require Import Lib.Py Lib.Cube Model.Pol Model.Select Model.UVCal Model.FlagSelect Spec.SelectSpec.
Import ListNotations.
Notation length := List.length.
Open Scope list_scope.
Open Scope Z_scope.

Definition nrows (u : uflag) : nat := length (g_time u).
Definition nchans (u : uflag) : nat := length (g_freq u).
Definition npols (u : uflag) : nat := length (g_pols u).
Definition is_antenna (u : uflag) : Prop := g_type u = TypeAntenna.
Definition is_baseline (u : uflag) : Prop := g_type u = TypeBaseline.
(** the length of the first axis *)
Definition nants (u : uflag) : nat := match g_type u with TypeAntenna => length (g_ants u) | _ => 1%nat end.

Definition same_members (l l' : list Z) : Prop := forall x, In x l <-> In x l'.
(** [n] is the number of different values of [l]. *)
Definition how_many (l : list Z) (n : nat) : Prop := exists d, NoDup d /\ same_members d l /\ length d = n.

(** A self-consistent object. *)
Record flag_ok (u : uflag) : Prop := {
  fo_rows : length (g_lst u) = nrows u;
  fo_chans : length (g_widths u) = nchans u /\ length (g_flex u) = nchans u;
  fo_windows : NoDup (g_spws u) /\ same_members (g_spws u) (g_flex u);
  fo_times : how_many (g_time u) (g_Ntimes u);
  fo_baseline : is_baseline u ->
    length (g_ant1 u) = nrows u /\ length (g_ant2 u) = nrows u /\ length (g_bl u) = nrows u /\
    how_many (g_ant1 u ++ g_ant2 u) (g_Nants u) /\ how_many (g_bl u) (g_Nbls u);
  fo_other : ~ is_baseline u -> NoDup (g_time u);
  fo_antenna : is_antenna u -> NoDup (g_ants u) /\ g_Nants u = length (g_ants u) }.

(** Row (baseline-time, or time) [t] is of the pair (a, b): it is stored as (a, b), or as
    (b, a) if nothing is stored as (a, b). *)
Definition row_pair (u : uflag) (t : nat) : Z * Z := (nth t (g_ant1 u) 0, nth t (g_ant2 u) 0).
Definition has_pair (u : uflag) (a b : Z) : Prop := exists t, (t < nrows u)%nat /\ row_pair u t = (a, b).
Definition row_of (u : uflag) (t : nat) (a b : Z) : Prop :=
  row_pair u t = (a, b) \/ (row_pair u t = (b, a) /\ ~ has_pair u a b).

(** Row [t] satisfies every criterion given. *)
Definition flag_row_wanted (cr : flag_criteria) (u : uflag) (t : nat) : Prop :=
  (forall l, fc_blt_inds cr = Some l -> In (Z.of_nat t) l) /\
  (forall l, fc_times cr = Some l -> In (nth t (g_time u) 0) l) /\
  (forall l, is_baseline u -> fc_antenna_nums cr = Some l -> In (fst (row_pair u t)) l /\ In (snd (row_pair u t)) l) /\
  (forall l, fc_bls cr = Some l -> exists a b p, In (a, b, p) l /\ row_of u t a b).

(** The frequency of channel [f] is listed, directly or by channel number. *)
Definition flag_chan_wanted (cr : flag_criteria) (u : uflag) (f : nat) : Prop :=
  (fc_frequencies cr = None /\ fc_freq_chans cr = None) \/
  (exists l, fc_frequencies cr = Some l /\ In (nth f (g_freq u) 0) l) \/
  (exists l c f', fc_freq_chans cr = Some l /\ In c l /\ denotes (nchans u) c f' /\ nth f' (g_freq u) 0 = nth f (g_freq u) 0).

(** The polarizations asked for: those of the pairs, if any has one (conjugated if the
    pair is stored the other way round), or else the ones listed. *)
Definition pair_pol (u : uflag) (t : Z * Z * option string) (s : string) : Prop :=
  let '(a, b, p) := t in
  (has_pair u a b /\ p = Some s) \/ (~ has_pair u a b /\ exists s', p = Some s' /\ conj_pol_str s' = Ok s).
Definition pairs_have_pols (cr : flag_criteria) : Prop := exists l a b s, fc_bls cr = Some l /\ In (a, b, Some s) l.
Definition flag_pol_named (cr : flag_criteria) (u : uflag) (q : pol_name) : Prop :=
  (exists l t s, fc_bls cr = Some l /\ In t l /\ pair_pol u t s /\ q = PolStr s) \/
  (~ pairs_have_pols cr /\ exists l, fc_polarizations cr = Some l /\ In q l).
Definition means (xo : option string) (q : pol_name) (p : Z) : Prop :=
  match q with PolNum n => n = p | PolStr s => polstr2num xo s = Ok p end.
Definition flag_pol_wanted (xo : option string) (cr : flag_criteria) (u : uflag) (k : nat) : Prop :=
  (pairs_have_pols cr \/ fc_polarizations cr <> None) -> exists q, flag_pol_named cr u q /\ means xo q (nth k (g_pols u) 0).

(** The antennas of an object of type antenna: those listed by number, in the order listed, or
    else by position (which may be negative), or else all of them. *)
Definition antennas_chosen (cr : flag_criteria) (u : uflag) (sa : list nat) : Prop :=
  if match g_type u with TypeAntenna => true | _ => false end then
    (forall a, In a sa -> (a < length (g_ants u))%nat) /\
    match fc_antenna_nums cr, fc_ant_inds cr with
    | Some l, _ => map (fun a => nth a (g_ants u) 0) sa = l
    | None, Some l => Forall2 (fun c a => denotes (length (g_ants u)) c a) l sa
    | None, None => sa = seq 0 (length (g_ants u))
    end
  else sa = [0%nat].

Definition values (u : uflag) (a f t p : nat) : list Z := map (fun v : arr4 Z => v a f t p) (g_vals u).

(** [r] consists of the antennas [sa], channels [sf], rows [st] and polarizations [sp] of [u]. *)
Record flag_picked (sa sf st sp : list nat) (u r : uflag) : Prop := {
  fp_type : g_type r = g_type u;
  fp_ants : is_antenna u -> picked 0 sa (g_ants u) (g_ants r);
  fp_rows : picked 0 st (g_time u) (g_time r) /\ picked 0 st (g_lst u) (g_lst r);
  fp_pairs : is_baseline u -> picked 0 st (g_ant1 u) (g_ant1 r) /\ picked 0 st (g_ant2 u) (g_ant2 r) /\ picked 0 st (g_bl u) (g_bl r);
  fp_chans : picked 0 sf (g_freq u) (g_freq r) /\ picked 0 sf (g_widths u) (g_widths r) /\ picked 0 sf (g_flex u) (g_flex r);
  fp_pols : picked 0 sp (g_pols u) (g_pols r);
  fp_windows : sf <> [] -> exists rw, positions_of (length (g_spws u)) (fun k => In (nth k (g_spws u) 0) (g_flex r)) rw /\
                 picked 0 rw (g_spws u) (g_spws r);
  fp_values : forall a f t p, (a < length sa)%nat -> (f < length sf)%nat -> (t < length st)%nat -> (p < length sp)%nat ->
    values r a f t p = values u (nth a sa O) (nth f sf O) (nth t st O) (nth p sp O) }.

(** Everything named is there, and the criteria go together and with the type. *)
Definition flag_all_there (xo : option string) (cr : flag_criteria) (u : uflag) : Prop :=
  (forall l x, fc_frequencies cr = Some l -> In x l -> In x (g_freq u)) /\
  (forall l c, fc_freq_chans cr = Some l -> In c l -> exists f, denotes (nchans u) c f) /\
  (forall l x, fc_times cr = Some l -> In x l -> In x (g_time u)) /\
  (forall l n, fc_antenna_nums cr = Some l -> In n l -> (is_baseline u -> In n (g_ant1 u ++ g_ant2 u)) /\ (is_antenna u -> In n (g_ants u))) /\
  (forall l c, is_antenna u -> fc_antenna_nums cr = None -> fc_ant_inds cr = Some l -> In c l -> exists a, denotes (length (g_ants u)) c a) /\
  (forall l a b p, fc_bls cr = Some l -> In (a, b, p) l -> has_pair u a b \/
     (has_pair u b a /\ forall s, p = Some s -> exists s', conj_pol_str s = Ok s')) /\
  (forall q, flag_pol_named cr u q -> exists p, means xo q p /\ In p (g_pols u)).
Definition flag_goes (cr : flag_criteria) (u : uflag) : Prop :=
  (fc_antenna_nums cr <> None -> is_baseline u \/ is_antenna u) /\
  (fc_bls cr <> None -> is_baseline u) /\
  (* not polarizations with pairs that all have one *)
  (forall l, fc_bls cr = Some l -> fc_polarizations cr <> None -> exists a b, In (a, b, None) l) /\
  (* channel numbers only if there are several channels *)
  (fc_freq_chans cr <> None -> nchans u <> 1%nat).
(** Some criterion on the rows is given; and one besides positions. *)
Definition restricts_otherwise (cr : flag_criteria) (u : uflag) : Prop :=
  fc_times cr <> None \/ (is_baseline u /\ (fc_antenna_nums cr <> None \/ fc_bls cr <> None)).
Definition some_row (cr : flag_criteria) (u : uflag) : Prop :=
  (fc_blt_inds cr <> None \/ restricts_otherwise cr u -> exists t, (t < nrows u)%nat /\ flag_row_wanted cr u t) /\
  (forall l z, fc_blt_inds cr = Some l -> ~ restricts_otherwise cr u -> In z l -> 0 <= z < Z.of_nat (nrows u)).

(** All rows of an antenna pair are stored the same way round. *)
Definition pairs_one_way (u : uflag) : Prop := forall a b, a <> b -> has_pair u a b -> ~ has_pair u b a.
Definition with_pairs (cr : flag_criteria) (l : list (Z * Z * option string)) : flag_criteria :=
  mkFlagCriteria (fc_antenna_nums cr) (fc_ant_inds cr) (Some l) (fc_frequencies cr) (fc_freq_chans cr) (fc_times cr)
    (fc_polarizations cr) (fc_blt_inds cr).
