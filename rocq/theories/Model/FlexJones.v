(** Windows with Jones terms of their own: UVCal.convert_to_flex_jones and
    remove_flex_jones, /repo/src/pyuvdata/uvcal/uvcal.py:790-945 and 1022-1095.
    The object holds solutions (it is not metadata_only). *)
From Coq Require Import List ZArith QArith Bool Arith.
From Verif Require Import Lib.Py Lib.Np Lib.Cube Model.Times Model.UVCal.
Import ListNotations.
Notation length := List.length.
Open Scope list_scope.
Open Scope Z_scope.

(** The window of each entry of the frequency axis: spw_array if wide_band, else
    flex_spw_id_array *)
Definition windex (u : ucal) : list Z := if c_wide u then c_spws u else c_flex u.
Definition chans_of (u : ucal) (w : Z) : list nat := nonzero (Z.eqb w) (windex u).

(** [np.allclose(a, b, rtol, atol)], an array with one element being compared with
    all elements of the other *)
Definition allclose (tols : Q * Q) (a b : list Z) : result bool :=
  if (length a =? length b)%nat then Ok (forallb (fun p => closeZ tols (fst p) (snd p)) (combine a b))
  else if (length a =? 1)%nat then Ok (forallb (closeZ tols (nth 0 a 0)) b)
  else if (length b =? 1)%nat then Ok (forallb (fun x => closeZ tols x (nth 0 b 0)) a)
  else Err ValueError.

(** uvcal.py:827-840, 850-851: the frequencies and widths of a window.  The row of
    freq_range is flattened; the widths of a wide_band object are zeros. *)
Definition window_key (u : ucal) (w : Z) : list Z * list Z :=
  if c_wide u
  then (flat_map (fun i => let (lo, hi) := nth i (c_freq_range u) (0, 0) in [lo; hi]) (chans_of u w),
        flat_map (fun _ => [0; 0]) (chans_of u w))
  else (take 0 (c_freqs u) (chans_of u w), take 0 (c_widths u) (chans_of u w)).

(** uvcal.py:855-859: the first of the windows kept so far with these channels *)
Fixpoint find_window (ftol ctol : Q * Q) (key : list Z * list Z) (known : list (Z * (list Z * list Z))) : result (option Z) :=
  match known with
  | [] => Ok None
  | (w, (freqs, widths)) :: known =>
      do f <- allclose ftol (fst key) freqs;
      do c <- (if f : bool then allclose ctol (snd key) widths else Ok false);
      if c : bool then Ok (Some w) else find_window ftol ctol key known
  end.

(** uvcal.py:845-867.  [seen] lists (window, window it matches, Jones term): spw_map
    and spw_jones_tally; [known] is spw_freqs. *)
Fixpoint match_windows (ftol ctol : Q * Q) (u : ucal) (wins : list (Z * Z)) (known : list (Z * (list Z * list Z)))
    : result (list (Z * Z * Z)) :=
  match wins with
  | [] => Ok []
  | (w, p) :: wins =>
      do m <- find_window ftol ctol (window_key u w) known;
      match m with
      | Some v => do rest <- match_windows ftol ctol u wins known; Ok ((w, v, p) :: rest)
      | None => do rest <- match_windows ftol ctol u wins (known ++ [(w, window_key u w)]); Ok ((w, w, p) :: rest)
      end
  end.

(** uvcal.py:869-884, for each kept window in turn: whether windows are combined *)
Definition tally (seen : list (Z * Z * Z)) (v : Z) : list Z :=
  map snd (filter (fun x => snd (fst x) =? v) seen).
Fixpoint all_matched (n_jones : nat) (seen : list (Z * Z * Z)) (kept : list Z) : result bool :=
  match kept with
  | [] => Ok true
  | v :: kept =>
      let js := tally seen v in
      if negb (length (uniqueZ js) =? length js)%nat then Err ValueError
      else if negb (length (uniqueZ js) =? n_jones)%nat then Ok false
      else all_matched n_jones seen kept
  end.
Definition kept_windows (seen : list (Z * Z * Z)) : list Z := map (fun x => fst (fst x)) (filter (fun x => snd (fst x) =? fst (fst x)) seen).

(** uvcal.py:930-942: [new_param[:, new_fidx, :, jones_idx] = param[:, old_fidx, :, 0]]
    for each window; shapes must agree, or one channel is copied to all. *)
Definition fits (old new : ucal) (x : Z * Z * Z) : bool :=
  let n_old := length (chans_of old (fst (fst x))) in
  (n_old =? length (chans_of new (snd (fst x))))%nat || (n_old =? 1)%nat.
Definition spread {A} (d : A) (old new : ucal) (maps : list (Z * Z * Z)) (param : arr4 A) : arr4 A :=
  fun a f t j =>
    fold_left (fun cur x =>
        if (nth f (windex new) 0 =? snd (fst x)) && (nth j (c_jones new) 0 =? snd x)
        then
          let old_fidx := chans_of old (fst (fst x)) in
          let k := if (length old_fidx =? 1)%nat then O
                   else match index_of Nat.eqb f (chans_of new (snd (fst x))) with Some k => k | None => O end in
          param a (nth k old_fidx O) t O
        else cur) maps d.

(** uvcal.py:889-925: the new axes *)
Definition new_axes (maps : list (Z * Z * Z)) (jones : list Z) (u : ucal) : ucal :=
  let spws := uniqueZ (map (fun x => snd (fst x)) maps) in
  let pick {A} (d : A) (l : list A) : list A := flat_map (fun w => take d l (chans_of u w)) spws in
  {| c_gain := c_gain u; c_wide := c_wide u; c_compat := c_compat u; c_ants := c_ants u; c_spws := spws;
     c_freq_range := if c_wide u then pick (0, 0) (c_freq_range u) else [];
     c_freqs := if c_wide u then [] else pick 0 (c_freqs u);
     c_widths := if c_wide u then [] else pick 0 (c_widths u);
     c_flex := if c_wide u then [] else pick 0 (c_flex u);
     c_flex_jones := None; c_time_array := c_time_array u; c_time_range := c_time_range u;
     c_lst_array := c_lst_array u; c_lst_range := c_lst_range u; c_ref_ant := c_ref_ant u;
     c_int_time := c_int_time u; c_jones := jones; c_sol := c_sol u; c_flags := c_flags u; c_qual := c_qual u; c_tqual := c_tqual u |}.

Definition set_arrays (sol : arr4 cplx) (flags : arr4 bool) (qual : option (arr4 Z)) (tqual : option (cube Z)) (u : ucal) : ucal :=
  {| c_gain := c_gain u; c_wide := c_wide u; c_compat := c_compat u; c_ants := c_ants u; c_spws := c_spws u;
     c_freq_range := c_freq_range u; c_freqs := c_freqs u; c_widths := c_widths u; c_flex := c_flex u;
     c_flex_jones := c_flex_jones u; c_time_array := c_time_array u; c_time_range := c_time_range u;
     c_lst_array := c_lst_array u; c_lst_range := c_lst_range u; c_ref_ant := c_ref_ant u;
     c_int_time := c_int_time u; c_jones := c_jones u; c_sol := sol; c_flags := flags; c_qual := qual; c_tqual := tqual |}.

(** uvcal.py:886-945.  A total quality has no fourth axis: [new_shape[3]] fails. *)
Definition set_windows (maps : list (Z * Z * Z)) (jones : list Z) (u : ucal) : result ucal :=
  let new := new_axes maps jones u in
  if negb (forallb (fits u new) maps) then Err ValueError
  else match c_tqual u with
  | Some _ => Err IndexError
  | None => Ok (set_arrays (spread (0, 0) u new maps (c_sol u)) (spread true u new maps (c_flags u))
                  (option_map (spread 0 u new maps) (c_qual u)) None new)
  end.

Definition set_jones (jones : list Z) (fj : option (list Z)) (u : ucal) : ucal :=
  {| c_gain := c_gain u; c_wide := c_wide u; c_compat := c_compat u; c_ants := c_ants u; c_spws := c_spws u;
     c_freq_range := c_freq_range u; c_freqs := c_freqs u; c_widths := c_widths u; c_flex := c_flex u;
     c_flex_jones := fj; c_time_array := c_time_array u; c_time_range := c_time_range u;
     c_lst_array := c_lst_array u; c_lst_range := c_lst_range u; c_ref_ant := c_ref_ant u;
     c_int_time := c_int_time u; c_jones := jones; c_sol := c_sol u; c_flags := c_flags u; c_qual := c_qual u; c_tqual := c_tqual u |}.

(** uvcal.py:790-945; [ftol], [ctol]: the tolerances of the frequencies (or of
    freq_range) and of the channel widths *)
Definition remove_flex_jones (ftol ctol : Q * Q) (combine_spws : bool) (u : ucal) : result ucal :=
  match c_flex_jones u with
  | None => Ok u
  | Some fj =>
      let jones := rev (uniqueZ fj) in
      if (length jones =? 1)%nat && ((length (c_spws u) =? 1)%nat || negb combine_spws)
      then Ok (set_jones jones None u)
      else
        let alone := map (fun wp => (fst wp, fst wp, snd wp)) (combine (c_spws u) fj) in
        if combine_spws
        then
          do seen <- match_windows ftol (if c_wide u then (0, 0)%Q else ctol) u (combine (c_spws u) fj) [];
          do all <- all_matched (length jones) seen (kept_windows seen);
          set_windows (if all : bool then seen else alone) jones u
        else set_windows alone jones u
  end.

(** [np.tile(l, n)] and the (transposed and reshaped) arrays, Jones term slowest *)
Definition tile {A} (n : nat) (l : list A) : list A := List.concat (repeat l n).
Definition jones_slowest {A} (nf : nat) (c : arr4 A) : arr4 A := fun a f t _ => c a (f mod nf)%nat t (f / nf)%nat.

(** uvcal.py:1049-1050: the numbers from 1 on that are not used *)
Definition free_windows (n : nat) (spws : list Z) : list Z := filter (fun i => negb (isinZ i spws)) (map Z.of_nat (seq 1 n)).

(** uvcal.py:1054-1062: the windows of the channels for one Jones term; [old] and
    [new] are rows of spw_reshape *)
Definition rename (old new flex : list Z) : result (list Z) :=
  mapM (fun w => match index_of Z.eqb w old with Some i => Ok (nth i new 0) | None => Err KeyError end) flex.

(** uvcal.py:1022-1095.  [list(set(...))] has no particular order: [listed] gives it.
    Objects without Jones terms are not modelled. *)
Definition convert_to_flex_jones (listed : list Z -> list Z) (u : ucal) : result ucal :=
  match c_flex_jones u, c_jones u with
  | Some _, _ => Err ValueError
  | None, [] => Err Undefined
  | None, [p] => Ok (set_jones [0] (Some (map (fun _ => p) (c_spws u))) u)
  | None, _ =>
      let n := length (c_spws u) in let nj := length (c_jones u) in let nf := Nchans u in
      let spws := c_spws u ++ firstn (n * (nj - 1)) (listed (free_windows (n * nj) (c_spws u))) in
      let row k := firstn n (skipn (k * n) spws) in
      do flex <- (if c_wide u then Ok [] else do rows <- mapM (fun k => rename (c_spws u) (row k) (c_flex u)) (seq 0 nj); Ok (List.concat rows));
      match c_tqual u with
      | Some _ => Err ValueError
      | None =>
        Ok {| c_gain := c_gain u; c_wide := c_wide u; c_compat := c_compat u; c_ants := c_ants u; c_spws := spws;
           c_freq_range := tile nj (c_freq_range u); c_freqs := tile nj (c_freqs u); c_widths := tile nj (c_widths u); c_flex := flex;
           c_flex_jones := Some (flat_map (fun p => repeat p n) (c_jones u));
           c_time_array := c_time_array u; c_time_range := c_time_range u;
           c_lst_array := c_lst_array u; c_lst_range := c_lst_range u; c_ref_ant := c_ref_ant u;
           c_int_time := c_int_time u; c_jones := [0];
           c_sol := jones_slowest nf (c_sol u); c_flags := jones_slowest nf (c_flags u);
           c_qual := option_map (jones_slowest nf) (c_qual u); c_tqual := None |}
      end
  end.
