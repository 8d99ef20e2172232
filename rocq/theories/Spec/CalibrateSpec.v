(** Which solutions belong to a visibility, and what applying them means. *)
From Coq Require Import List ZArith QArith Qcanon Bool Arith Sorted String.
From Verif Require Import Lib.Py Lib.Dict Lib.Cube Model.UVData Model.FreqAvg Model.Calibrate
  Spec.AccessSpec Spec.FlagSpec.
Import ListNotations.
Open Scope Z_scope.
Open Scope list_scope.
Notation length := List.length.

(** The antenna with this number has this name *)
Definition named (numbers : list Z) (names : list string) (n : Z) (s : string) : Prop :=
  exists k, nth_error numbers k = Some n /\ nth_error names k = Some s.

(** The Jones numbers of the feeds of the two antennas, for each polarization *)
Definition feeds (p : Z) : Z * Z :=
  if p =? -1 then (-1, -1) else if p =? -2 then (-2, -2) else if p =? -3 then (-1, -2) else if p =? -4 then (-2, -1)
  else if p =? -5 then (-5, -5) else if p =? -6 then (-6, -6) else if p =? -7 then (-5, -6) else (-6, -5).

Inductive side := East | North.
Definition side_of (x : string) : option side :=
  if existsb (String.eqb (lower x)) ["east"; "e"; "ew"]%string then Some East
  else if existsb (String.eqb (lower x)) ["north"; "n"; "ns"]%string then Some North else None.
(** The x dipole of one object is the y dipole of the other *)
Definition crossed (mine : option string) (theirs : string) : bool :=
  match mine with
  | None => false
  | Some x => match side_of x, side_of theirs with
              | Some East, Some North | Some North, Some East => true
              | _, _ => false
              end
  end.
Definition turned (b : bool) (j : Z) : Z := if b then (if j =? -5 then -6 else if j =? -6 then -5 else j) else j.
Definition feed1 (v : vdata) (c : cal) (p : nat) : Z :=
  turned (crossed (v_xo v) (k_xo c)) (fst (feeds (nth p (polarization_array (v_u v)) 0))).
Definition feed2 (v : vdata) (c : cal) (p : nat) : Z :=
  turned (crossed (v_xo v) (k_xo c)) (snd (feeds (nth p (polarization_array (v_u v)) 0))).

(** Entry [(a, j)] of the gain array is for the antenna of the same name and for
    the feed *)
Definition solves (v : vdata) (c : cal) (ant feed : Z) (s : nat * nat) : Prop :=
  (exists name m, named (v_numbers v) (v_names v) ant name /\ named (k_numbers c) (k_names c) m name /\
                  nth_error (k_ants c) (fst s) = Some m) /\
  nth_error (k_jones c) (snd s) = Some feed.

(** The solution serves the time (a single one serves all), the frequency *)
Definition serves_time (ttol : Z) (c : cal) (t : Z) (k : nat) : Prop :=
  match k_times c with
  | KTimes l => (k < length l)%nat /\ (length l = 1%nat \/ Z.abs (t - nth k l 0) <= ttol)
  | KRanges l => (k < length l)%nat /\ (length l = 1%nat \/ fst (nth k l (0, 0)) <= t <= snd (nth k l (0, 0)))
  end.
Definition serves_freq (ftol : Z) (c : cal) (f : Z) (k : nat) : Prop :=
  (k < length (k_freqs c))%nat /\ Z.abs (f - nth k (k_freqs c) 0) <= ftol.

(** The times of the rows stored as (a, b), in the order of the rows *)
Definition pair_times (u : uvd) (a b : Z) : list Z := map (fun i => nth i (time_array u) 0) (pair_rows u a b).

(** Both objects list frequencies in increasing order, no two of them within twice
    the tolerance.  With several solution times, so do the times of the solutions and
    of each baseline, and every baseline has all the times. *)
Definition aligned (ttol ftol : Z) (v : vdata) (c : cal) : Prop :=
  clear_times ftol (k_freqs c) /\ clear_times ftol (freq_array (v_u v)) /\
  match k_times c with
  | KRanges _ => True
  | KTimes l => length l = 1%nat \/
      (clear_times ttol l /\
       forall a b, pair_rows (v_u v) a b <> [] ->
         clear_times ttol (pair_times (v_u v) a b) /\
         forall t, In t (time_array (v_u v)) -> In t (pair_times (v_u v) a b))
  end.

(** Both objects are well formed *)
Definition well_formed (v : vdata) (c : cal) : Prop :=
  consistent (v_u v) /\
  NoDup (polarization_array (v_u v)) /\ Forall (fun p => -8 <= p <= -1) (polarization_array (v_u v)) /\
  NoDup (v_numbers v) /\ length (v_names v) = length (v_numbers v) /\
  NoDup (k_names c) /\ length (k_names c) = length (k_numbers c) /\
  NoDup (k_ants c) /\ NoDup (k_jones c) /\ k_freqs c <> [] /\ k_ntimes c <> 0%nat.

(** The first convention given *)
Fixpoint first_given (l : list (option conv)) : option conv :=
  match l with [] => None | Some x :: _ => Some x | None :: t => first_given t end.
Definition cal_convention (o : options) (v : vdata) (c : cal) : option conv :=
  first_given [uvc_conv o; k_conv c; uvd_conv o; v_conv v].
Definition data_convention (o : options) (v : vdata) (c : cal) : option conv :=
  first_given [uvd_conv o; (if undo o then v_conv v else None); cal_convention o v c].
(** In the sum convention XX is half of what it is in the average convention. *)
Definition conv_size (x : option conv) : Qc := match x with Some SumConv => 1%Qc | _ => Q2Qc 2 end.
Definition factor (o : options) (v : vdata) (c : cal) : Qc :=
  match k_scale c with
  | None => 1%Qc
  | Some _ =>
      if undo o then (conv_size (cal_convention o v c) / conv_size (data_convention o v c))%Qc
      else (conv_size (data_convention o v c) / conv_size (cal_convention o v c))%Qc
  end.

(** The gain of a visibility *)
Definition visibility_gain (flip : bool) (g1 g2 : cqc) : cqc := if flip then cmul (conjq g1) g2 else cmul g1 (conjq g2).
(** The magnitude is at most 1e-8 *)
Definition negligible (g : cqc) : Prop := (fst g * fst g + snd g * snd g <= Q2Qc (1 # 10000000000000000))%Qc.

(** What the solutions [s1], [s2] at frequency [f] and time [t] make of one sample *)
Definition sample_calibrated (o : options) (v v' : vdata) (c : cal) (s1 s2 : nat * nat) (f t : nat) (i j p : nat) : Prop :=
  let g := visibility_gain (flip_gain_conj o) (k_gain c (fst s1) f t (snd s1)) (k_gain c (fst s2) f t (snd s2)) in
  let bad := negligible g \/ k_flag c (fst s1) f t (snd s1) = true \/ k_flag c (fst s2) f t (snd s2) = true in
  let x := v_vis v i j p in
  let y := v_vis v' i j p in
  (prop_flags o = true -> bad -> y = cscale (factor o v c) x /\ flag_array (v_u v') i j p = true) /\
  (~ (prop_flags o = true /\ bad) ->
     flag_array (v_u v') i j p = flag_array (v_u v) i j p /\
     (if xorb (k_multiply c) (undo o) then y = cscale (factor o v c) (cmul x g)
      else g <> (0, 0)%Qc -> cmul y g = cscale (factor o v c) x)).

(** One sample after a successful call *)
Definition sample_result (ttol ftol : Z) (o : options) (v v' : vdata) (c : cal) (i j p : nat) : Prop :=
  let a := nth i (ant_1_array (v_u v)) 0 in
  let b := nth i (ant_2_array (v_u v)) 0 in
  ((forall s, ~ solves v c a (feed1 v c p) s) \/ (forall s, ~ solves v c b (feed2 v c p) s) ->
     v_vis v' i j p = cscale (factor o v c) (v_vis v i j p) /\ flag_array (v_u v') i j p = true) /\
  (forall s1 s2, solves v c a (feed1 v c p) s1 -> solves v c b (feed2 v c p) s2 ->
     exists f t, serves_freq ftol c (nth j (freq_array (v_u v)) 0) f /\
                 serves_time ttol c (nth i (time_array (v_u v)) 0) t /\
                 sample_calibrated o v v' c s1 s2 f t i j p).

(** What a call needs besides well formed, aligned objects: known antennas, feeds,
    times and frequencies, units and conventions that agree *)
Definition known_antenna (v : vdata) (c : cal) (x : Z) : Prop :=
  exists name m, named (v_numbers v) (v_names v) x name /\ named (k_numbers c) (k_names c) m name /\ In m (k_ants c).
Definition agree {A} (x y : option A) : Prop := match x, y with Some a, Some b => a = b | _, _ => True end.
Definition within (r : Z * Z) (t : Z) : Prop := fst r <= t <= snd r.
Definition compatible (ttol ftol : Z) (o : options) (v : vdata) (c : cal) : Prop :=
  let u := v_u v in
  (forall x, In x (ant_1_array u) \/ In x (ant_2_array u) ->
     In x (v_numbers v) /\ (ant_check o = true -> known_antenna v c x)) /\
  NoDup (k_numbers c) /\ (forall m, In m (k_ants c) -> In m (k_numbers c)) /\
  Forall (fun j => -8 <= j <= -1) (k_jones c) /\
  (forall p, (p < length (polarization_array u))%nat -> In (feed1 v c p) (k_jones c) /\ In (feed2 v c p) (k_jones c)) /\
  (side_of (k_xo c) = None -> match v_xo v with None => True | Some x => side_of x = None end) /\
  freq_array u <> [] /\
  (forall f, In f (freq_array u) -> exists g, In g (k_freqs c) /\ Z.abs (g - f) <= ftol) /\
  Ntimes u = length (nodup Z.eq_dec (time_array u)) /\
  (match k_times c with
   | KTimes l => (length l = 1%nat /\ time_check o = false) \/
                 (forall t, In t (time_array u) -> exists s, In s l /\ Z.abs (s - t) <= ttol)
   | KRanges l => (length l = 1%nat /\ time_check o = false) \/
                 (forall t, In t (time_array u) -> exists r, In r l /\ within r t)
   end) /\
  (undo o = true -> agree (k_scale c) (Some (v_units v)) /\ agree (uvd_conv o) (v_conv v)) /\
  (undo o = false -> v_conv v = None) /\ agree (uvc_conv o) (k_conv c).
