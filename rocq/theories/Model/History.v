(** Histories, /repo/src/pyuvdata/utils/history.py:7-63, and how combining objects
    joins them. *)
From Coq Require Import List Bool Arith Ascii String.
Import ListNotations.
Notation length := List.length.
Open Scope string_scope.

Definition sp : ascii := " "%char.
Definition nl : ascii := "010"%char.

(** [s.replace("\n", "").replace(" ", "")] *)
Fixpoint squeeze (s : string) : string :=
  match s with
  | "" => ""
  | String c s => if orb (Ascii.eqb c nl) (Ascii.eqb c sp) then squeeze s else String c (squeeze s)
  end.
(** [sub in s] *)
Fixpoint contains (sub s : string) : bool :=
  prefix sub s || match s with "" => false | String _ s => contains sub s end.
(** [s.split(" ")] *)
Fixpoint split_sp (s : string) : list string :=
  match s with
  | "" => [""]
  | String c s =>
      if Ascii.eqb c sp then "" :: split_sp s
      else match split_sp s with w :: ws => String c w :: ws | [] => [String c ""] end
  end.

(** history.py:7-12: [version_string.replace(" ", "")] keeps the line breaks *)
Fixpoint unspace (s : string) : string :=
  match s with "" => "" | String c s => if Ascii.eqb c sp then unspace s else String c (unspace s) end.
Definition check_history_version (history version_string : string) : bool := contains (unspace version_string) (squeeze history).

(** history.py:15-22 *)
Definition check_histories (h1 h2 : string) : bool := String.eqb (squeeze h1) (squeeze h2).

(** history.py:48-59.  The list is shortened while it is enumerated: [absorb] is
    the inner loop, deleting element [i + 1] as long as it is to be added. *)
Definition missing (test w : string) : bool := negb (contains (" " ++ w ++ " ") test).
Fixpoint absorb (fuel : nat) (test : string) (words : list string) (i : nat) (add_hist : string) : list string * string :=
  match fuel with
  | O => (words, add_hist)
  | S fuel =>
      match nth_error words (i + 1) with
      | None => (words, add_hist)
      | Some w =>
          if String.eqb w " " || missing test w
          then absorb fuel test (firstn (i + 1) words ++ skipn (i + 2) words) i (add_hist ++ " " ++ w)
          else (words, add_hist)
      end
  end.
Fixpoint enumerate_words (fuel : nat) (test : string) (words : list string) (i : nat) (add_hist : string) : string :=
  match fuel with
  | O => add_hist
  | S fuel =>
      match nth_error words i with
      | None => add_hist
      | Some w =>
          if missing test w
          then let '(words, add_hist) := absorb (length words) test words i (add_hist ++ " " ++ w) in
               enumerate_words fuel test words (i + 1) add_hist
          else enumerate_words fuel test words (i + 1) add_hist
      end
  end.
(** history.py:25-63 *)
Definition combine_history_addition (h1 h2 : string) : option string :=
  if check_histories h1 h2 then None
  else
    let words := split_sp h2 in
    let test := " " ++ h1 ++ " " in
    let add_hist := enumerate_words (length words) test words 0 "" in
    if String.eqb add_hist "" then None else Some add_hist.

(** uvdata.py:5788-5804, 6045-6058, 6360-6374: the history of another object is
    appended to [this]; [matches] is the earlier comparison *)
Definition append_history (verbose : bool) (nxt unique : string) (this other : string) (matches : bool) : string :=
  if matches then this
  else if verbose then this ++ nxt ++ other
  else match combine_history_addition this other with
       | None => this
       | Some extra => this ++ unique ++ extra
       end.
Definition next_follows : string := " Next object history follows. ".
Definition next_unique : string := " Unique part of next object history follows. ".

(** uvdata.py:5313-5315, 5391-5393, 5410-5411, 5469-5475, 5491-5497, 5785-5804:
    [overwrote] when the shared samples of the first object were invalid, [axes]
    the names of the axes along which something is added *)
Fixpoint join_axes (l : list string) : string :=
  match l with [] => "" | [a] => a | a :: l => a ++ ", " ++ join_axes l end.
Definition add_history (verbose overwrote : bool) (axes : list string) (h1 h2 : string) : string :=
  let over := " Overwrote invalid data using pyuvdata." in
  let this := if overwrote then h1 ++ over else h1 in
  let update := (if overwrote then over else " Combined data along ") ++ join_axes axes in
  match axes with
  | [] => this
  | _ => append_history verbose next_follows next_unique (this ++ update ++ " axis using pyuvdata.") h2 (check_histories this h2)
  end.

(** uvdata.py:6003, 6006-6058: fast_concat *)
Definition concat_history (verbose : bool) (axis_name : string) (h : string) (others : list string) : string :=
  fold_left (fun this o => append_history verbose next_follows next_unique this (fst o) (snd o))
    (map (fun o => (o, check_histories h o)) others)
    (h ++ " Combined data along " ++ axis_name ++ " axis using pyuvdata.").

(** uvdata.py:6352-6374: sum_vis and diff_vis *)
Definition sum_history (verbose difference : bool) (h1 h2 : string) : string :=
  append_history verbose " Second object history follows. " " Unique part of second object history follows. "
    (h1 ++ (if difference then " Visibilities differenced using pyuvdata." else " Visibilities summed using pyuvdata."))
    h2 (check_histories h1 h2).
