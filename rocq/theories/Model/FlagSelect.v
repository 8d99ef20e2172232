(** UVFlag.select: /repo/src/pyuvdata/uvflag/uvflag.py:2374-2999.  Not modelled:
    ant_str, the history and the final check.  polarization_array holds integers
    (it is a string after collapse_pol).  Arguments are lists. *)
From Coq Require Import List ZArith Bool Arith String.
From Verif Require Import Lib.Py Lib.Np Lib.Cube Model.Pol Model.UVData Model.Select Model.UVCal.
Import ListNotations.
Notation length := List.length.
Open Scope list_scope.
Open Scope Z_scope.

Inductive flag_type := TypeWaterfall | TypeBaseline | TypeAntenna.

(** The three types in one record.  [g_vals] are the arrays listed by _data_params
    (uvflag.py:591-618): the flags, or the metric, its weights and their squares;
    select only moves their values, which are integers here.  Their axes are
    antennas, channels, times (baseline-times) and polarizations; a waterfall or an
    object of type baseline has only position 0 on the first axis.  [g_ants] is
    ant_array, used by type antenna; [g_ant1], [g_ant2] and [g_bl] are used by type
    baseline. *)
Record uflag := mkUflag {
  g_type : flag_type;
  g_ants : list Z;
  g_ant1 : list Z;
  g_ant2 : list Z;
  g_bl : list Z;
  g_time : list Z;
  g_lst : list Z;
  g_freq : list Z;
  g_widths : list Z;
  g_flex : list Z;
  g_spws : list Z;
  g_pols : list Z;
  g_vals : list (arr4 Z);
  g_Ntimes : nat;
  g_Nants : nat;
  g_Nbls : nat }.

Record flag_criteria := mkFlagCriteria {
  fc_antenna_nums : option (list Z);
  fc_ant_inds : option (list Z);
  fc_bls : option (list (Z * Z * option string));
  fc_frequencies : option (list Z);
  fc_freq_chans : option (list Z);
  fc_times : option (list Z);
  fc_polarizations : option (list pol_name);
  fc_blt_inds : option (list Z) }.

Definition given {A} (o : option A) : bool := match o with Some _ => true | None => false end.

(** uvflag.py:2491-2517 *)
Definition known_ant (u : uflag) (n : Z) : bool := isinZ n (g_ant1 u) || isinZ n (g_ant2 u).
Definition flag_ant_rows (u : uflag) (nums : list Z) : result (list nat) :=
  if forallb (known_ant u) nums
  then Ok (nonzero (fun p => isinZ (fst p) nums && isinZ (snd p) nums) (combine (g_ant1 u) (g_ant2 u)))
  else Err ValueError.
(** uvflag.py:2519-2531: positions in ant_array, in the order asked for *)
Definition flag_ant_inds (u : uflag) (nums : list Z) : result (list nat) :=
  do l <- mapM (fun n => if isinZ n (g_ants u) then Ok (nonzero (Z.eqb n) (g_ants u)) else Err ValueError) nums;
  Ok (List.concat l).

(** uvflag.py:2573-2605 *)
Definition pair_rows (u : uflag) (a b : Z) : list nat :=
  nonzero (fun p => (fst p =? a) && (snd p =? b)) (combine (g_ant1 u) (g_ant2 u)).
Fixpoint flag_bls_rows (u : uflag) (l : list (Z * Z * option string)) : result (list nat * list string) :=
  match l with
  | [] => Ok ([], [])
  | (a, b, pol) :: l =>
      if negb (known_ant u a) then Err ValueError
      else if negb (known_ant u b) then Err ValueError
      else
        do (rows, pols) <-
          match pair_rows u a b with
          | (_ :: _) as wh1 => Ok (wh1, match pol with Some s => [s] | None => [] end)
          | [] =>
              match pair_rows u b a with
              | (_ :: _) as wh2 =>
                  match pol with
                  | Some s => do c <- conj_pol_str s; Ok (wh2, [c])
                  | None => Ok (wh2, [])
                  end
              | [] => Err ValueError
              end
          end;
        do (rows', pols') <- flag_bls_rows u l; Ok (rows ++ rows', pols ++ pols')
  end.

(** uvflag.py:2536-2613: rows, and polarizations to use from here on *)
Definition flag_bls (cr : flag_criteria) (u : uflag) : result (option (list nat) * option (list pol_name)) :=
  match fc_bls cr with
  | None => Ok (None, fc_polarizations cr)
  | Some l =>
      match g_type u with
      | TypeBaseline =>
          if forallb (fun t => given (snd t)) l && given (fc_polarizations cr) then Err ValueError
          else
            do (rows, pols) <- flag_bls_rows u l;
            Ok (Some rows, match pols with [] => fc_polarizations cr | _ => Some (map PolStr pols) end)
      | _ => Err ValueError
      end
  end.

(** uvflag.py:2622-2646 *)
Definition flag_time_rows (u : uflag) (times : list Z) : result (list nat) :=
  if forallb (fun t => isinZ t (g_time u)) times then Ok (nonzero (fun t => isinZ t times) (g_time u)) else Err ValueError.

(** uvflag.py:2659-2662 *)
Definition compare_length (u : uflag) : nat := match g_type u with TypeBaseline => length (g_time u) | _ => g_Ntimes u end.

(** uvflag.py:2451-2669: antennas, rows, polarizations *)
Definition flag_rows (cr : flag_criteria) (u : uflag) : result (option (list Z) * option (list nat) * option (list pol_name)) :=
  if match g_type u with TypeWaterfall => given (fc_antenna_nums cr) || given (fc_bls cr) | _ => false end then Err ValueError
  else
    do ants <- match fc_antenna_nums cr, g_type u with
               | Some nums, TypeAntenna => do l <- flag_ant_inds u nums; Ok (Some (map Z.of_nat l))
               | _, _ => Ok (fc_ant_inds cr)
               end;
    do rows <- match fc_antenna_nums cr, g_type u with
               | Some nums, TypeBaseline => do l <- flag_ant_rows u nums; Ok (Some l)
               | _, _ => Ok None
               end;
    do (bls, pols) <- flag_bls cr u;
    let inds := ant_inds rows bls (fc_blt_inds cr) in
    do inds <- match fc_times cr with
               | None => Ok inds
               | Some times => do l <- flag_time_rows u times; Ok (Some (Select.join inds (where_inds l)))
               end;
    do rows <- final_rows (compare_length u) inds;
    Ok (ants, rows, pols).

(** uvflag.py:2671-2708.  np.squeeze of an array of one channel is zero-dimensional,
    and indexing this with a list raises IndexError. *)
Definition flag_chan_freqs (u : uflag) (chans : list Z) : result (list Z) :=
  if (length (g_freq u) =? 1)%nat then Err IndexError
  else
    do pos <- mapM (fun c => match norm_index (length (g_freq u)) c with Some j => Ok j | None => Err IndexError end) chans;
    Ok (take 0 (g_freq u) pos).
Definition flag_chans (cr : flag_criteria) (u : uflag) : result (option (list nat)) :=
  do freqs <- match fc_freq_chans cr with
              | None => Ok (fc_frequencies cr)
              | Some chans =>
                  do l <- flag_chan_freqs u chans;
                  match fc_frequencies cr with
                  | None => Ok (Some l)
                  | Some freqs => Ok (Some (uniqueZ (freqs ++ l)))
                  end
              end;
  match freqs with
  | None => Ok None
  | Some freqs =>
      if forallb (fun f => isinZ f (g_freq u)) freqs
      then Ok (Some (nonzero (fun f => isinZ f freqs) (g_freq u)))
      else Err ValueError
  end.

(** uvflag.py:2710-2740 *)
Definition flag_pols (xo : option string) (asked : option (list pol_name)) (u : uflag) : result (option (list nat)) :=
  match asked with
  | None => Ok None
  | Some asked =>
      do l <- mapM (fun p => do n <- pol_number xo p;
                             if isinZ n (g_pols u) then Ok (nonzero (Z.eqb n) (g_pols u)) else Err ValueError) asked;
      Ok (Some (uniqueN (List.concat l)))
  end.

(** uvflag.py:2765-2778 and 2935-2950 *)
Definition keep_rows (idx : list nat) (u : uflag) : uflag :=
  let base := match g_type u with TypeBaseline => true | _ => false end in
  let on l := if base then take 0 l idx else l in
  {| g_type := g_type u; g_ants := g_ants u; g_ant1 := on (g_ant1 u); g_ant2 := on (g_ant2 u); g_bl := on (g_bl u);
     g_time := take 0 (g_time u) idx; g_lst := take 0 (g_lst u) idx;
     g_freq := g_freq u; g_widths := g_widths u; g_flex := g_flex u; g_spws := g_spws u; g_pols := g_pols u;
     g_vals := map (on2 idx) (g_vals u);
     g_Ntimes := length (uniqueZ (take 0 (g_time u) idx));
     g_Nants := if base then length (uniqueZ (on (g_ant1 u) ++ on (g_ant2 u))) else g_Nants u;
     g_Nbls := if base then length (uniqueZ (on (g_bl u))) else g_Nbls u |}.
(** uvflag.py:2780-2783 and 2952-2956 *)
Definition keep_ants (idx : list nat) (u : uflag) : uflag :=
  {| g_type := g_type u; g_ants := take 0 (g_ants u) idx; g_ant1 := g_ant1 u; g_ant2 := g_ant2 u; g_bl := g_bl u;
     g_time := g_time u; g_lst := g_lst u;
     g_freq := g_freq u; g_widths := g_widths u; g_flex := g_flex u; g_spws := g_spws u; g_pols := g_pols u;
     g_vals := map (on0 idx) (g_vals u);
     g_Ntimes := g_Ntimes u; g_Nants := length (take 0 (g_ants u) idx); g_Nbls := g_Nbls u |}.
(** uvflag.py:2785-2797 and 2958-2973 *)
Definition keep_chans (idx : list nat) (u : uflag) : uflag :=
  let flex := take 0 (g_flex u) idx in
  {| g_type := g_type u; g_ants := g_ants u; g_ant1 := g_ant1 u; g_ant2 := g_ant2 u; g_bl := g_bl u;
     g_time := g_time u; g_lst := g_lst u;
     g_freq := take 0 (g_freq u) idx; g_widths := take 0 (g_widths u) idx; g_flex := flex;
     g_spws := if (1 <? length (g_spws u))%nat then take 0 (g_spws u) (nonzero (fun w => isinZ w flex) (g_spws u)) else g_spws u;
     g_pols := g_pols u;
     g_vals := map (on1 idx) (g_vals u);
     g_Ntimes := g_Ntimes u; g_Nants := g_Nants u; g_Nbls := g_Nbls u |}.
(** uvflag.py:2799-2801 and 2975-2990 *)
Definition keep_pols (idx : list nat) (u : uflag) : uflag :=
  {| g_type := g_type u; g_ants := g_ants u; g_ant1 := g_ant1 u; g_ant2 := g_ant2 u; g_bl := g_bl u;
     g_time := g_time u; g_lst := g_lst u;
     g_freq := g_freq u; g_widths := g_widths u; g_flex := g_flex u; g_spws := g_spws u; g_pols := take 0 (g_pols u) idx;
     g_vals := map (on3 idx) (g_vals u);
     g_Ntimes := g_Ntimes u; g_Nants := g_Nants u; g_Nbls := g_Nbls u |}.

(** uvflag.py:2805-2999 *)
Definition flag_select (xo : option string) (cr : flag_criteria) (u : uflag) : result uflag :=
  do (ants, rows, asked) <- flag_rows cr u;
  do chans <- flag_chans cr u;
  do pols <- flag_pols xo asked u;
  do ants <- match ants, g_type u with
             | Some l, TypeAntenna =>
                 do idx <- mapM (fun c => match norm_index (length (g_ants u)) c with Some j => Ok j | None => Err IndexError end) l;
                 Ok (Some idx)
             | _, _ => Ok None
             end;
  let u := match rows with Some idx => keep_rows idx u | None => u end in
  let u := match ants with Some idx => keep_ants idx u | None => u end in
  let u := match chans with Some idx => keep_chans idx u | None => u end in
  Ok (match pols with Some idx => keep_pols idx u | None => u end).
