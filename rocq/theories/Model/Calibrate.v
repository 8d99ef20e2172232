(** Applying calibration solutions: uvcalibrate,
    /repo/src/pyuvdata/utils/uvcalibrate.py, and the parts of UVCal it uses,
    /repo/src/pyuvdata/uvcal/uvcal.py.  Floats are exact rationals; times and
    frequencies are integers in a fine unit.  Solutions of type "gain" with a
    frequency array only: delays, wide-band solutions and D-terms are not modelled.
    Warnings, histories and the checks of both objects are not modelled. *)
From Coq Require Import List ZArith QArith Qcanon Bool Arith String.
From Verif Require Import Lib.Py Lib.Np Lib.Sorting Lib.Dict Lib.Cube Model.Pol Model.UVData Model.Access Model.FreqAvg
  Model.UVFlag.
Import ListNotations.
Open Scope Z_scope.
Open Scope list_scope.
Notation length := List.length.

(** Complex arithmetic; a quotient by zero, nan in numpy, is zero here. *)
Definition cmul (x y : cqc) : cqc := (fst x * fst y - snd x * snd y, fst x * snd y + snd x * fst y)%Qc.
Definition conjq (x : cqc) : cqc := (fst x, - snd x)%Qc.
Definition norm2 (x : cqc) : Qc := (fst x * fst x + snd x * snd x)%Qc.
Definition cquot (x y : cqc) : cqc := cscale (1 / norm2 y)%Qc (cmul x (conjq y)).
(** [np.isclose(gain, 0.0)]: the magnitude is at most 1e-8 *)
Definition tiny : Qc := Q2Qc (1 # 10000000000000000).
Definition close0 (x : cqc) : bool := Qle_bool (this (norm2 x)) (this tiny).

(** The polarization conventions; any other string is a ValueError. *)
Inductive conv := SumConv | AvgConv.
Definition conv_eqb (x y : conv) : bool := match x, y with SumConv, SumConv | AvgConv, AvgConv => true | _, _ => false end.
Definition oconv_eqb (x y : option conv) : bool :=
  match x, y with Some a, Some b => conv_eqb a b | None, None => true | _, _ => false end.

(** The visibilities: metadata and flags are those of [v_u], whose integer data
    array is not used. *)
Record vdata := mkV {
  v_u : uvd; v_vis : cube cqc;
  v_numbers : list Z; v_names : list string (* of the telescope *);
  v_xo : option string; v_units : string; v_conv : option conv }.

(** The solutions, uvcal.py: times or time ranges *)
Inductive ktimes := KTimes (l : list Z) | KRanges (l : list (Z * Z)).
Record cal := mkCal {
  k_ants : list Z (* Nants_data *); k_numbers : list Z; k_names : list string (* of the telescope *);
  k_jones : list Z; k_times : ktimes; k_freqs : list Z;
  k_gain : nat -> nat -> nat -> nat -> cqc (* antenna, frequency, time, jones *);
  k_flag : nat -> nat -> nat -> nat -> bool;
  k_multiply : bool (* gain_convention *); k_scale : option string; k_conv : option conv; k_xo : string }.
Definition k_ntimes (c : cal) : nat := match k_times c with KTimes l => length l | KRanges l => length l end.

Record options := mkOpts {
  prop_flags : bool; flip_gain_conj : bool; undo : bool; time_check : bool; ant_check : bool;
  uvc_conv : option conv; uvd_conv : option conv }.

(** uvcalibrate.py:13-87: the conventions of the solutions and of the data *)
Definition orb_conv (x y : option conv) : option conv := match x with Some a => Some a | None => y end.
Definition get_pol_conventions (o : options) (vconv kconv : option conv) : result (option conv * option conv) :=
  do uvc <- match uvc_conv o, kconv with
            | None, None => Ok (orb_conv (uvd_conv o) vconv)
            | None, Some k => Ok (Some k)
            | Some x, None => Ok (Some x)
            | Some x, Some k => if conv_eqb x k then Ok (Some x) else Err ValueError
            end;
  if undo o then
    match uvd_conv o, vconv with
    | None, None => Ok (uvc, uvc)
    | None, Some d => Ok (uvc, Some d)
    | Some x, None => Ok (uvc, Some x)
    | Some x, Some d => if conv_eqb x d then Ok (uvc, Some x) else Err ValueError
    end
  else
    match vconv with
    | Some _ => Err ValueError
    | None => Ok (uvc, match uvd_conv o with None => uvc | Some d => Some d end)
    end.

(** uvcalibrate.py:121-135: the factor applied to all visibilities *)
Definition half : Qc := Q2Qc (1 # 2).
Definition correction (undo : bool) (uvc uvd : option conv) : Qc :=
  if oconv_eqb uvd uvc then 1%Qc
  else
    let f := if undo then (1 / half)%Qc else half in
    if oconv_eqb uvc (Some SumConv) then (1 / f)%Qc else f.

(** uvcalibrate.py:260-280: the names of the antennas in use *)
Definition used_names (numbers : list Z) (names : list string) (nums : list Z) : result (list string) :=
  mapM (fun n => match nonzero (Z.eqb n) numbers with
                 | k :: _ => Ok (nth k names EmptyString)
                 | [] => Err IndexError
                 end) (uniqueZ nums).

(** np.allclose of two arrays, with broadcasting; shapes that do not broadcast
    raise, which the code takes for a mismatch. *)
Definition allclose (tol : Z) (a b : list Z) : bool :=
  ((length a =? length b)%nat || (length a =? 1)%nat || (length b =? 1)%nat) &&
  forallb (fun i => near tol (nth (bpos (length a) i) a 0) (nth (bpos (length b) i) b 0))
          (seq 0 (if (length a =? 1)%nat then length b else length a)).

(** uvcalibrate.py:388-403 and 424-439: the first solution near each value *)
Definition first_near (tol : Z) (arr : list Z) (x : Z) : result Z :=
  match filter (fun y => near tol y x) arr with
  | y :: _ => Ok y
  | [] => Err ValueError
  end.

(** uvcalibrate.py:327-405: the kept time indices.  [times=] of UVCal.select keeps
    every time within the tolerance of a requested one, in the order of the object
    (uvcal.py:4045-4058, times.py:408-421). *)
Definition match_times (ttol : Z) (o : options) (v : vdata) (c : cal) : result (list nat) :=
  let t := uniqueZ (time_array (v_u v)) in
  match k_times c with
  | KRanges l =>
      let all := seq 0 (length l) in
      let uncovered := existsb (fun x => forallb (fun r => x <? fst r) l || forallb (fun r => snd r <? x) l) t in
      if uncovered && negb (negb (time_check o) && (length l =? 1)%nat) then Err ValueError
      else if (1 <? length l)%nat &&
              existsb (fun x => negb (existsb (fun r => (fst r <=? x) && (x <=? snd r)) l)) t
      then Err ValueError
      else Ok all
  | KTimes l =>
      let all := seq 0 (length l) in
      if (1 <? length l)%nat && (length l <? Ntimes (v_u v))%nat then Err ValueError
      else if allclose ttol (uniqueZ l) t then Ok all
      else if (length l =? 1)%nat then (if time_check o then Err ValueError else Ok all)
      else
        do keep <- mapM (first_near ttol l) t;
        Ok (if (length keep <? length l)%nat
            then filter (fun i => existsb (near ttol (nth i l 0)) keep) all else all)
  end.

(** uvcalibrate.py:407-441: the kept frequency indices.  [frequencies=] of
    UVCal.select keeps the frequencies equal to a requested one (uvcal.py:4141-4153). *)
Definition match_freqs (ftol : Z) (v : vdata) (c : cal) : result (list nat) :=
  let all := seq 0 (length (k_freqs c)) in
  if allclose ftol (isort Z.leb (k_freqs c)) (isort Z.leb (freq_array (v_u v))) then Ok all
  else
    do keep <- mapM (first_near ftol (k_freqs c)) (freq_array (v_u v));
    Ok (if (length keep <? length (k_freqs c))%nat
        then filter (fun i => isinZ (nth i (k_freqs c) 0) keep) all else all).

(** uvcalibrate.py:443-467: every feed of the data must be among the solutions.  The
    code goes through a set of feeds; here they are taken in the order of the array. *)
Definition check_feeds (v : vdata) (c : cal) : result unit :=
  let uvd_x := match v_xo v with None => Some (k_xo c) | Some x => Some x end in
  do pols <- mapM (polnum2str uvd_x) (polarization_array (v_u v));
  do have <- mapM (jnum2str (Some (k_xo c))) (k_jones c);
  do feeds <- mapM (fun s => dget String.eqb s POL_TO_FEED_DICT) pols;
  do names <- mapM (parse_jpolstr (Some (k_xo c))) (flat_map (fun f => [fst f; snd f]) feeds);
  if forallb (fun s => memb String.eqb s have) names then Ok tt else Err ValueError.

(** [np.argmin(np.abs(l - x))] *)
Definition argmin_abs (x : Z) (l : list Z) : nat :=
  let d := map (fun y => Z.abs (y - x)) l in
  match index_of Z.eqb (fold_right Z.min (hd 0 d) d) d with Some i => i | None => 0%nat end.

(** uvcalibrate.py:504-511, 530-537: the number of the antenna of the same name *)
Definition antenna_of (v : vdata) (c : cal) (num : Z) : option Z :=
  match dget Z.eqb num (dict_of Z.eqb (combine (v_numbers v) (v_names v))) with
  | Ok name =>
      match dget String.eqb name (dict_of String.eqb (combine (k_names c) (k_numbers c))) with
      | Ok n => Some n
      | Err _ => None
      end
  | Err _ => None
  end.

(** uvcal.py:1805-1873: the place of an antenna and feed in the arrays, if they are there *)
Definition solution (c : cal) (num : option Z) (feed : string) : result (option (nat * nat)) :=
  match num with
  | None => Ok None
  | Some n =>
      if isinZ n (k_ants c) then
        do j <- jstr2num (Some (k_xo c)) feed;
        Ok (if isinZ j (k_jones c) then Some (argmin_abs n (k_ants c), argmin_abs j (k_jones c)) else None)
      else Ok None
  end.

(** uvcalibrate.py:549-560: gain and flag of a pair of solutions at one frequency and
    time *)
Definition pair_gain (o : options) (c : cal) (s1 s2 : nat * nat) (f t : nat) : cqc :=
  let g1 := k_gain c (fst s1) f t (snd s1) in
  let g2 := k_gain c (fst s2) f t (snd s2) in
  if flip_gain_conj o then cmul (conjq g1) g2 else cmul g1 (conjq g2).
Definition pair_flag (c : cal) (s1 s2 : nat * nat) (f t : nat) : bool :=
  k_flag c (fst s1) f t (snd s1) || k_flag c (fst s2) f t (snd s2).

(** uvcalibrate.py:355-364: the last range that contains the time *)
Definition range_of (l : list (Z * Z)) (x : Z) : nat :=
  fold_left (fun k i => if (fst (nth i l (0, 0)) <=? x) && (x <=? snd (nth i l (0, 0))) then i else k) (seq 0 (length l)) 0%nat.

(** uvcalibrate.py:562-564: several time ranges *)
Definition by_range (c : cal) : bool := match k_times c with KRanges l => (1 <? length l)%nat | KTimes _ => false end.
(** The time index used by the [r]-th row of a baseline, row [i] *)
Definition time_used (v : vdata) (c : cal) (kt : list nat) (i r : nat) : nat :=
  match k_times c with
  | KRanges l => if (1 <? length l)%nat then range_of l (nth i (time_array (v_u v)) 0) else 0%nat
  | KTimes _ => nth (bpos (length kt) r) kt 0%nat
  end.
Definition freq_used (kf : list nat) (j : nat) : nat := nth (bpos (length kf) j) kf 0%nat.

Definition mult_gains (o : options) (c : cal) : bool := xorb (k_multiply c) (undo o).
(** uvcalibrate.py:566-580, one sample *)
Definition new_vis (o : options) (c : cal) (s1 s2 : nat * nat) (f t : nat) (x : cqc) : cqc :=
  let g := pair_gain o c s1 s2 f t in
  let masked := prop_flags o && (close0 g || pair_flag c s1 s2 f t) in
  let g := if masked then (1, 0)%Qc else g in
  if mult_gains o c then cmul x g else cquot x g.
Definition new_flag (o : options) (c : cal) (s1 s2 : nat * nat) (f t : nat) (b : bool) : bool :=
  b || (prop_flags o && (close0 (pair_gain o c s1 s2 f t) || pair_flag c s1 s2 f t)).

(** uvcalibrate.py:513-580: one antenna pair and polarization.  In place operations
    on a block of rows need shapes that broadcast to it. *)
Definition cal_key (o : options) (v : vdata) (c : cal) (kt kf : list nat) (s : cube bool * cube cqc)
    (key : Z * Z * string) : result (cube bool * cube cqc) :=
  let '(a, b, pol) := key in
  let u := v_u v in
  let uvd_x := match v_xo v with None => Some (k_xo c) | Some x => Some x end in
  do ix <- antpair_search u a b true;
  do rows <- match ix with None => Ok (seq 0 (Nblts u)) | Some ix => at_index (Nblts u) ix end;
  do n <- polstr2num uvd_x pol;
  let pi := argmin_abs n (polarization_array u) in
  do feeds <- dget String.eqb pol POL_TO_FEED_DICT;
  do s1 <- solution c (antenna_of v c a) (fst feeds);
  do s2 <- solution c (antenna_of v c b) (snd feeds);
  match s1, s2 with
  | Some s1, Some s2 =>
      let nt := if by_range c then length rows else length kt in
      if bcast nt (length rows) && bcast (length kf) (Nfreqs u) then
        Ok (fun i j p : nat =>
              match index_of Nat.eqb i rows with
              | Some r => if (p =? pi)%nat then new_flag o c s1 s2 (freq_used kf j) (time_used v c kt i r) (fst s i j p)
                          else fst s i j p
              | None => fst s i j p
              end,
            fun i j p : nat =>
              match index_of Nat.eqb i rows with
              | Some r => if (p =? pi)%nat then new_vis o c s1 s2 (freq_used kf j) (time_used v c kt i r) (snd s i j p)
                          else snd s i j p
              | None => snd s i j p
              end)
      else Err ValueError
  | _, _ => Ok (fun i j p : nat => if isinN i rows && (p =? pi)%nat then true else fst s i j p, snd s)
  end.

(** The loop over the keys: an exception leaves what earlier keys have changed *)
Fixpoint run_keys {S K} (step : S -> K -> result S) (keys : list K) (s : S) : S * result unit :=
  match keys with
  | [] => (s, Ok tt)
  | k :: t => match step s k with Ok s' => run_keys step t s' | Err e => (s, Err e) end
  end.

(** uvdata.py:2956-2981 *)
Definition get_antpairpols (v : vdata) : result (list (Z * Z * string)) :=
  do pols <- mapM (polnum2str (v_xo v)) (polarization_array (v_u v));
  do aps <- get_antpairs (v_u v);
  Ok (flat_map (fun ap => map (fun p => (ap, p)) pols) aps).

(** uvcalibrate.py:140-596 up to the loop.  NotImplementedError is [Undefined]. *)
Definition prepare (ttol ftol : Z) (o : options) (v : vdata) (c : cal)
  : result (option conv * option conv * (list nat * list nat) * list (Z * Z * string)) :=
  if existsb (fun p => 0 <? p) (polarization_array (v_u v)) then Err Undefined
  else if undo o && match k_scale c with None => false | Some s => negb (String.eqb s (v_units v)) end then Err ValueError
  else
    do cv <- get_pol_conventions o (v_conv v) (k_conv c);
    do mine <- used_names (v_numbers v) (v_names v) (ant_1_array (v_u v) ++ ant_2_array (v_u v));
    do theirs <- used_names (k_numbers c) (k_names c) (k_ants c);
    if existsb (fun s => negb (memb String.eqb s theirs)) mine && ant_check o then Err ValueError
    else
      do kt <- match_times ttol o v c;
      do kf <- match_freqs ftol v c;
      do _ <- check_feeds v c;
      do keys <- get_antpairpols v;
      Ok (cv, (kt, kf), keys).

(** uvcalibrate.py:140-596 with inplace=True: the object afterwards, and the outcome *)
Definition uvcalibrate (ttol ftol : Z) (o : options) (v : vdata) (c : cal) : vdata * result unit :=
  match prepare ttol ftol o v c with
  | Err e => (v, Err e)
  | Ok (cv, (kt, kf), keys) =>
      let '(s, r) := run_keys (cal_key o v c kt kf) keys (flag_array (v_u v), v_vis v) in
      let u' := set_flag_array (fst s) (v_u v) in
      match r with
      | Err e => (mkV u' (snd s) (v_numbers v) (v_names v) (v_xo v) (v_units v) (v_conv v), Err e)
      | Ok _ =>
          let units := if undo o then "uncalib"%string
                       else match k_scale c with Some s => s | None => v_units v end in
          match k_scale c with
          | None => (mkV u' (snd s) (v_numbers v) (v_names v) (v_xo v) units (v_conv v), Ok tt)
          | Some _ =>
              let f := correction (undo o) (fst cv) (snd cv) in
              let vis := snd s in
              (mkV u' (fun i j p : nat => cscale f (vis i j p)) (v_numbers v) (v_names v) (v_xo v) units
                   (if undo o then None else snd cv), Ok tt)
          end
      end
  end.
