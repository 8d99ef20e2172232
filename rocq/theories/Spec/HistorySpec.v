(** What C52 says about histories. *)
From Coq Require Import List Ascii String.
Open Scope string_scope.

Definition occurs (sub s : string) : Prop := exists a b, s = a ++ sub ++ b.
Definition starts_with (p s : string) : Prop := exists b, s = p ++ b.
Fixpoint spaceless (s : string) : Prop := match s with "" => True | String c s => c <> " "%char /\ spaceless s end.
(** A word of a history: text without spaces between two spaces, the ends of the
    history counting as spaces *)
Definition is_word (w h : string) : Prop := spaceless w /\ occurs (" " ++ w ++ " ") (" " ++ h ++ " ").
(** Two histories that differ in spaces and line breaks at most *)
Inductive same_text : string -> string -> Prop :=
| SNil : same_text "" ""
| SChar c a b : same_text a b -> same_text (String c a) (String c b)
| SLeft c a b : c = " "%char \/ c = "010"%char -> same_text a b -> same_text (String c a) b
| SRight c a b : c = " "%char \/ c = "010"%char -> same_text a b -> same_text a (String c b).
(** The history [h] is recorded in [r]: every word of it is there, or [r] starts
    with the same text spaced differently *)
Definition recorded (h r : string) : Prop :=
  (forall w, is_word w h -> is_word w r) \/ exists p, starts_with p r /\ same_text p h.
(** The words one after the other, each preceded by a space *)
Fixpoint spell (ws : list string) : string := match ws with nil => "" | cons w ws => " " ++ w ++ spell ws end.
Fixpoint one_line (s : string) : Prop := match s with "" => True | String c s => c <> "010"%char /\ one_line s end.
