(** Joining two objects along an axis. *)
From Coq Require Import List ZArith Bool.
From Verif Require Import Lib.Py Model.FlagSelect Model.FlagAdd Spec.SelectSpec Spec.FlagSelectSpec.
Import ListNotations.
Notation length := List.length.
Open Scope list_scope.
Open Scope Z_scope.

(** [l'] is [l] within [tol]. *)
Definition within (tol : Z) (l l' : list Z) : Prop := Forall2 (fun x y => Z.abs (x - y) <= tol) l l'.

Definition same_freqs (tols : flag_tols) (a b : uflag) : Prop :=
  within (ft_freq tols) (g_freq a) (g_freq b) /\ within (ft_width tols) (g_widths a) (g_widths b) /\
  g_spws a = g_spws b /\ g_flex a = g_flex b.
Definition same_times (tols : flag_tols) (a b : uflag) : Prop :=
  within (ft_time tols) (g_time a) (g_time b) /\ within (ft_lst tols) (g_lst a) (g_lst b).
Definition same_pairs (a b : uflag) : Prop := g_bl a = g_bl b /\ g_ant1 a = g_ant1 b /\ g_ant2 a = g_ant2 b.

(** The objects are of the same type and mode and agree on the other axes. *)
Definition addable (tols : flag_tols) (ax : flag_axis) (a b : uflag) : Prop :=
  g_type a = g_type b /\ (length (g_vals a) = 1%nat <-> length (g_vals b) = 1%nat) /\
  (ax <> AxFrequency -> same_freqs tols a b) /\
  (ax <> AxPol -> g_pols a = g_pols b) /\
  (ax <> AxTime -> same_times tols a b) /\
  (ax <> AxAntenna -> is_antenna a -> g_ants a = g_ants b) /\
  (ax <> AxBaseline -> is_baseline a -> same_pairs a b).
(** The axis is one of the type's. *)
Definition axis_of_type (ax : flag_axis) (a : uflag) : Prop :=
  (ax = AxBaseline -> is_baseline a) /\ (ax = AxAntenna -> is_antenna a).
(** No frequency, and no time of a waterfall or of type antenna, is in both. *)
Definition apart (l l' : list Z) : Prop := forall x, In x l -> ~ In x l'.
Definition no_overlap (ax : flag_axis) (a b : uflag) : Prop :=
  (ax = AxFrequency -> NoDup (g_freq a) /\ NoDup (g_freq b) /\ apart (g_freq a) (g_freq b)) /\
  (ax = AxTime -> ~ is_baseline a -> apart (g_time a) (g_time b)).

(** What is on each axis of the sum. *)
Definition on_axis (ax ax' : flag_axis) (l l' r : list Z) : Prop := (ax = ax' -> r = l ++ l') /\ (ax <> ax' -> r = l).
Definition on_rows (ax : flag_axis) (l l' r : list Z) : Prop :=
  (ax = AxTime \/ ax = AxBaseline -> r = l ++ l') /\ (ax <> AxTime -> ax <> AxBaseline -> r = l).

(** [r] is [a] followed by [b] along the axis.  A third array that [a] does not have is not kept. *)
Definition shift (here : bool) (n i : nat) : nat := if here then (n + i)%nat else i.
Record flag_joined (ax : flag_axis) (a b r : uflag) : Prop := {
  fj_type : g_type r = g_type a;
  fj_rows : on_rows ax (g_time a) (g_time b) (g_time r) /\ on_rows ax (g_lst a) (g_lst b) (g_lst r);
  fj_pairs : is_baseline a -> on_rows ax (g_ant1 a) (g_ant1 b) (g_ant1 r) /\ on_rows ax (g_ant2 a) (g_ant2 b) (g_ant2 r) /\ on_rows ax (g_bl a) (g_bl b) (g_bl r);
  fj_ants : is_antenna a -> on_axis ax AxAntenna (g_ants a) (g_ants b) (g_ants r);
  fj_freqs : on_axis ax AxFrequency (g_freq a) (g_freq b) (g_freq r) /\ on_axis ax AxFrequency (g_widths a) (g_widths b) (g_widths r) /\
             on_axis ax AxFrequency (g_flex a) (g_flex b) (g_flex r);
  fj_pols : on_axis ax AxPol (g_pols a) (g_pols b) (g_pols r);
  fj_first : forall i f t p, (i < nants a)%nat -> (f < nchans a)%nat -> (t < nrows a)%nat -> (p < npols a)%nat ->
    values r i f t p = values a i f t p;
  fj_second : forall i f t p, (i < nants b)%nat -> (f < nchans b)%nat -> (t < nrows b)%nat -> (p < npols b)%nat ->
    values r (shift (match ax with AxAntenna => true | _ => false end) (nants a) i)
             (shift (match ax with AxFrequency => true | _ => false end) (nchans a) f)
             (shift (match ax with AxTime | AxBaseline => true | _ => false end) (nrows a) t)
             (shift (match ax with AxPol => true | _ => false end) (npols a) p)
    = firstn (length (g_vals a)) (values b i f t p) }.


(** [r] records what [u] does, with the values of [vals]. *)
Record same_record (u r : uflag) (vals : nat -> nat -> nat -> nat -> list Z) : Prop := {
  sr_type : g_type r = g_type u;
  sr_rows : g_time r = g_time u /\ g_lst r = g_lst u;
  sr_pairs : is_baseline u -> same_pairs u r;
  sr_ants : is_antenna u -> g_ants r = g_ants u;
  sr_freqs : g_freq r = g_freq u /\ g_widths r = g_widths u /\ g_flex r = g_flex u /\ (g_freq u <> [] -> same_members (g_spws r) (g_spws u));
  sr_pols : g_pols r = g_pols u;
  sr_values : forall i f t p, (i < nants u)%nat -> (f < nchans u)%nat -> (t < nrows u)%nat -> (p < npols u)%nat -> values r i f t p = vals i f t p }.

(** [b] with the labels that [a] has on the other axes *)
Definition relabel_freq (a b : uflag) : uflag :=
  {| g_type := g_type a; g_ants := g_ants a; g_ant1 := g_ant1 a; g_ant2 := g_ant2 a; g_bl := g_bl a; g_time := g_time a; g_lst := g_lst a;
     g_freq := g_freq b; g_widths := g_widths b; g_flex := g_flex b; g_spws := g_spws b; g_pols := g_pols a;
     g_vals := g_vals b; g_Ntimes := g_Ntimes a; g_Nants := g_Nants a; g_Nbls := g_Nbls a |}.

Definition just_freqs (l : list Z) : flag_criteria := mkFlagCriteria None None None (Some l) None None None None.
