(** C61: the memoized name conversions. *)
From Coq Require Import List ZArith Bool Arith String.
From Verif Require Import Lib.Py Model.Pol Model.Cache Proofs.CacheProofs.
Import ListNotations.
Open Scope string_scope.

(** A conversion of one number or name gives what the function itself gives, after
    any history of calls and of changes to the lists returned *)
Theorem C61_scalars : forall x,
  (forall base (ops : list (op string)) z s, num2str_body base (PNum z true, x) = Ok (Scalar s) ->
     answer (num2str_body base) ops (PNum z true, x) = Ok (Scalar s)) /\
  (forall base (ops : list (op Z)) s z, str2num_body base (PStr s, x) = Ok (Scalar z) ->
     answer (str2num_body base) ops (PStr s, x) = Ok (Scalar z)).
Proof.
  exact (fun x => conj
    (fun base ops z s H => answer_scalar _ ops _ s (num2str_faithful base (PNum z true) x ltac:(discriminate)) H)
    (fun base ops s z H => answer_scalar _ ops _ z (str2num_faithful base (PStr s, x)) H)).
Qed.
Print Assumptions C61_scalars.

(** As long as no caller changes a list it was given, memoization cannot be
    noticed: every answer, error included, is that of the function itself.
    Numbers that equal an integer but are not of an integer type are excluded. *)
Theorem C61_unnoticeable : forall p x,
  (forall z, p <> PNum z false) ->
  (forall base (ops : list (op string)), (forall r new, ~ In (Change r new) ops) ->
     answer (num2str_body base) ops (p, x) = num2str_body base (p, x)) /\
  (forall base (ops : list (op Z)), (forall r new, ~ In (Change r new) ops) ->
     answer (str2num_body base) ops (p, x) = str2num_body base (p, x)).
Proof.
  exact (fun p x N => conj
    (fun base ops U => answer_unchanged _ ops _ U (num2str_faithful base p x N))
    (fun base ops U => answer_unchanged _ ops _ U (str2num_faithful base (p, x)))).
Qed.
Print Assumptions C61_unnoticeable.

Example C61_case :
  num2str_body POL_NUM2STR_DICT (PNum (-5) true, Some "east") = Ok (Scalar "ee") /\
  answer (num2str_body POL_NUM2STR_DICT)
    [Call (PSeq [ENum (-5); ENum (-6)], None); Change 0 ["zz"]; Call (PNum (-5) true, Some "east"); Clear] (PNum (-5) true, Some "east")
    = Ok (Scalar "ee") /\
  answer (num2str_body POL_NUM2STR_DICT) [Call (PSeq [ENum (-5); ENum (-6)], None); Call (PNum 3 true, None)] (PSeq [ENum (-5); ENum (-6)], None)
    = Ok (Many ["xx"; "yy"]) /\
  answer (str2num_body POL_STR2NUM_DICT) [Call (PStr "xx", None)] (PStr "bad", None) = Err KeyError.
Proof. repeat split; reflexivity. Qed.

(** polnum2str([-5, -6]) hands out the cached list itself: changing it changes the
    answer to every later call. *)
Theorem C61_changed_list_refuted : exists ops a,
  answer (num2str_body POL_NUM2STR_DICT) ops a <> num2str_body POL_NUM2STR_DICT a.
Proof.
  exists [Call (PSeq [ENum (-5); ENum (-6)], None); Change 0 ["xx"]], (PSeq [ENum (-5); ENum (-6)], None). discriminate.
Qed.
Print Assumptions C61_changed_list_refuted.

(** polnum2str(1.0) raises, unless polnum2str(1) was called before. *)
Theorem C61_float_refuted : exists ops a,
  (forall r new, ~ In (Change r new) ops) /\
  num2str_body POL_NUM2STR_DICT a = Err ValueError /\
  answer (num2str_body POL_NUM2STR_DICT) [] a = Err ValueError /\
  answer (num2str_body POL_NUM2STR_DICT) ops a = Ok (Scalar "pI").
Proof.
  exists [Call (PNum 1 true, None)], (PNum 1 false, None). split; [intros r new [H|[]]; discriminate H|]. repeat split.
Qed.
Print Assumptions C61_float_refuted.
