(** UVFlag.__add__: /repo/src/pyuvdata/uvflag/uvflag.py:1905-2176.  The telescopes
    are taken to be the same; their antenna lists, the file names and the history
    are not modelled.  Of the final check only the lengths of the time and frequency
    arrays are modelled. *)
From Coq Require Import List ZArith Bool Arith.
From Verif Require Import Lib.Py Lib.Np Lib.Cube Model.UVFlag Model.UVCal Model.FlagSelect.
Import ListNotations.
Notation length := List.length.
Open Scope list_scope.
Open Scope Z_scope.

(** "polarization", "pol" and "jones" are the same axis. *)
Inductive flag_axis := AxTime | AxBaseline | AxAntenna | AxFrequency | AxPol.

(** The absolute tolerances of the parameters *)
Record flag_tols := mkFlagTols { ft_freq : Z; ft_width : Z; ft_time : Z; ft_lst : Z }.

(** An object in mode flag has one array, one in mode metric two or three. *)
Definition flag_mode (u : uflag) : bool := (length (g_vals u) =? 1)%nat.

Definition type_eqb (x y : flag_type) : bool :=
  match x, y with
  | TypeWaterfall, TypeWaterfall | TypeBaseline, TypeBaseline | TypeAntenna, TypeAntenna => true
  | _, _ => false
  end.

(** uvflag.py:1983-2028: the parameters that must be the same *)
Definition flag_compatible (tols : flag_tols) (ax : flag_axis) (a b : uflag) : bool :=
  (match ax with
   | AxFrequency => true
   | _ => all_near (ft_freq tols) (g_freq a) (g_freq b) && all_near (ft_width tols) (g_widths a) (g_widths b) &&
          all_near 0 (g_spws a) (g_spws b) && all_near 0 (g_flex a) (g_flex b)
   end) &&
  (match ax with AxPol => true | _ => all_near 0 (g_pols a) (g_pols b) end) &&
  (match ax with AxTime => true | _ => all_near (ft_time tols) (g_time a) (g_time b) && all_near (ft_lst tols) (g_lst a) (g_lst b) end) &&
  (match ax, g_type a with AxAntenna, _ => true | _, TypeAntenna => all_near 0 (g_ants a) (g_ants b) | _, _ => true end) &&
  (match ax, g_type a with
   | AxBaseline, _ => true
   | _, TypeBaseline => all_near 0 (g_bl a) (g_bl b) && all_near 0 (g_ant1 a) (g_ant1 b) && all_near 0 (g_ant2 a) (g_ant2 b)
   | _, _ => true
   end).

(** np.concatenate along each axis; [n] is the length of the first array *)
Definition cat0 {A} (n : nat) (x y : arr4 A) : arr4 A := fun a f t p => if (a <? n)%nat then x a f t p else y (a - n)%nat f t p.
Definition cat1 {A} (n : nat) (x y : arr4 A) : arr4 A := fun a f t p => if (f <? n)%nat then x a f t p else y a (f - n)%nat t p.
Definition cat2 {A} (n : nat) (x y : arr4 A) : arr4 A := fun a f t p => if (t <? n)%nat then x a f t p else y a f (t - n)%nat p.
Definition cat3 {A} (n : nat) (x y : arr4 A) : arr4 A := fun a f t p => if (p <? n)%nat then x a f t p else y a f t (p - n)%nat.

(** uvflag.py:2145-2161 *)
Definition cat_all (c : arr4 Z -> arr4 Z -> arr4 Z) (xs ys : list (arr4 Z)) : result (list (arr4 Z)) :=
  if (length xs <=? length ys)%nat then Ok (map (fun p => c (fst p) (snd p)) (combine xs ys)) else Err ValueError.

(** uvflag.py:2118-2124: the values in the order of first appearance *)
Fixpoint first_seen (seen l : list Z) : list Z :=
  match l with
  | [] => []
  | x :: l => if isinZ x seen then first_seen seen l else x :: first_seen (x :: seen) l
  end.

(** uvflag.py:2030-2044 (time) and 2046-2062 (baseline); [Nbls] stays along time *)
Definition add_rows (ax : flag_axis) (a b : uflag) (vals : list (arr4 Z)) : uflag :=
  let base := match g_type a with TypeBaseline => true | _ => false end in
  let ant1 := if base then g_ant1 a ++ g_ant1 b else g_ant1 a in
  let ant2 := if base then g_ant2 a ++ g_ant2 b else g_ant2 a in
  let bl := if base then g_bl a ++ g_bl b else g_bl a in
  {| g_type := g_type a; g_ants := g_ants a; g_ant1 := ant1; g_ant2 := ant2; g_bl := bl;
     g_time := g_time a ++ g_time b; g_lst := g_lst a ++ g_lst b;
     g_freq := g_freq a; g_widths := g_widths a; g_flex := g_flex a; g_spws := g_spws a; g_pols := g_pols a;
     g_vals := vals;
     g_Ntimes := length (uniqueZ (g_time a ++ g_time b));
     g_Nants := if base then length (uniqueZ (ant1 ++ ant2)) else g_Nants a;
     g_Nbls := match ax with AxBaseline => length (uniqueZ bl) | _ => g_Nbls a end |}.
(** uvflag.py:2064-2102 *)
Definition add_ants (a b : uflag) (vals : list (arr4 Z)) : uflag :=
  {| g_type := g_type a; g_ants := g_ants a ++ g_ants b; g_ant1 := g_ant1 a; g_ant2 := g_ant2 a; g_bl := g_bl a;
     g_time := g_time a; g_lst := g_lst a;
     g_freq := g_freq a; g_widths := g_widths a; g_flex := g_flex a; g_spws := g_spws a; g_pols := g_pols a;
     g_vals := vals;
     g_Ntimes := length (uniqueZ (g_time a)); g_Nants := length (g_ants a ++ g_ants b); g_Nbls := g_Nbls a |}.
(** uvflag.py:2104-2130 *)
Definition add_freqs (a b : uflag) (vals : list (arr4 Z)) : uflag :=
  let several := (1 <? length (g_spws a))%nat || (1 <? length (g_spws b))%nat || negb (all_near 0 (g_spws a) (g_spws b)) in
  let flex := if several then g_flex a ++ g_flex b else repeat (nth 0 (g_spws a) 0) (length (g_freq a ++ g_freq b)) in
  {| g_type := g_type a; g_ants := g_ants a; g_ant1 := g_ant1 a; g_ant2 := g_ant2 a; g_bl := g_bl a;
     g_time := g_time a; g_lst := g_lst a;
     g_freq := g_freq a ++ g_freq b; g_widths := g_widths a ++ g_widths b; g_flex := flex;
     g_spws := if several then first_seen [] flex else g_spws a; g_pols := g_pols a;
     g_vals := vals;
     g_Ntimes := length (uniqueZ (g_time a)); g_Nants := g_Nants a; g_Nbls := g_Nbls a |}.
(** uvflag.py:2132-2143 *)
Definition add_pols (a b : uflag) (vals : list (arr4 Z)) : uflag :=
  {| g_type := g_type a; g_ants := g_ants a; g_ant1 := g_ant1 a; g_ant2 := g_ant2 a; g_bl := g_bl a;
     g_time := g_time a; g_lst := g_lst a;
     g_freq := g_freq a; g_widths := g_widths a; g_flex := g_flex a; g_spws := g_spws a; g_pols := g_pols a ++ g_pols b;
     g_vals := vals;
     g_Ntimes := length (uniqueZ (g_time a)); g_Nants := g_Nants a; g_Nbls := g_Nbls a |}.

Definition flag_add (tols : flag_tols) (ax : flag_axis) (a b : uflag) : result uflag :=
  if negb (type_eqb (g_type a) (g_type b)) then Err ValueError
  else if negb (Bool.eqb (flag_mode a) (flag_mode b)) then Err ValueError
  else if negb (flag_compatible tols ax a b) then Err ValueError
  else
    do r <-
      match ax with
      | AxTime => do vals <- cat_all (cat2 (length (g_time a))) (g_vals a) (g_vals b); Ok (add_rows ax a b vals)
      | AxBaseline =>
          match g_type a with
          | TypeBaseline => do vals <- cat_all (cat2 (length (g_time a))) (g_vals a) (g_vals b); Ok (add_rows ax a b vals)
          | _ => Err ValueError
          end
      | AxAntenna =>
          match g_type a with
          | TypeAntenna => do vals <- cat_all (cat0 (length (g_ants a))) (g_vals a) (g_vals b); Ok (add_ants a b vals)
          | _ => Err ValueError
          end
      | AxFrequency => do vals <- cat_all (cat1 (length (g_freq a))) (g_vals a) (g_vals b); Ok (add_freqs a b vals)
      | AxPol => do vals <- cat_all (cat3 (length (g_pols a))) (g_vals a) (g_vals b); Ok (add_pols a b vals)
      end;
    (* Nfreqs was set to the number of different frequencies *)
    if match ax with AxFrequency => negb (length (uniqueZ (g_freq r)) =? length (g_freq r))%nat | _ => false end then Err ValueError
    (* time_array has shape (Ntimes,) unless the type is baseline *)
    else if match g_type r with TypeBaseline => false | _ => negb (g_Ntimes r =? length (g_time r))%nat end then Err ValueError
    else Ok r.
