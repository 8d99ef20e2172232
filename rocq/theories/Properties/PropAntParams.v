(** C102: antennas given to new telescopes. *)
From Coq Require Import List ZArith Bool Arith Lia Ascii String.
From Verif Require Import Lib.Py Lib.Np Model.AntParams Spec.AntParamsSpec Proofs.AntParamsProofs.
Import ListNotations.
Notation length := List.length.
Open Scope list_scope.
Open Scope Z_scope.

(** A name made for a number has at least three characters and reads as that number, so that
    different numbers have different names. *)
Theorem C102_names : forall n, py_int (fmt n) = Some n /\ (3 <= String.length (fmt n))%nat.
Proof. intros n. split; [apply int_fmt|apply fmt_len]. Qed.
Print Assumptions C102_names.
Example C102_names_example : fmt 7 = "007"%string /\ fmt (-7) = "-07"%string /\ fmt 1234 = "1234"%string /\ py_int " 1_0 " = Some 10 /\ py_int "+010" = Some 10 /\ py_int "1__0" = None /\ py_int "ant1" = None /\ py_int "" = None.
Proof. repeat split. Qed.

(** An array of positions is accepted exactly if it has three columns and a row for each antenna,
    and if names and numbers, as given or made from each other, are distinct and equally many. *)
Theorem C102_array : forall cols rows names nums pos ns ms,
  get_antenna_params (PArr cols rows) names nums = Ok (pos, ns, ms) <->
  pos = rows /\ cols = 3%nat /\ sound pos ns ms /\
  match names, nums with
  | Some x, Some y => ns = x /\ ms = y
  | Some x, None => ns = x /\ read_as ns ms
  | None, Some y => ms = y /\ named ns ms
  | None, None => False
  end.
Proof.
  intros cols rows names nums pos ns ms. cbn [get_antenna_params]. rewrite finish_iff. unfold sound, read_as, named, pair_ok. split.
  - intros (-> & E & A & B & C & P). injection E as E1 ->. repeat (split; [auto; congruence|]). exact P.
  - intros (-> & -> & (A & B & C & D) & P). rewrite D. auto 10.
Qed.
Print Assumptions C102_array.

(** A dictionary is accepted exactly if it is not empty, its keys are all numbers or all names, its
    values have three coordinates, and names and numbers are distinct and equally many; positions are
    those of the keys. Numbers given besides a dictionary with numbers as keys are ignored, and so
    are names given besides one with names. *)
Theorem C102_dict : forall d names nums pos ns ms,
  get_antenna_params (PDict d) names nums = Ok (pos, ns, ms) <->
  d <> [] /\ pos = map snd d /\ Forall (fun p => length p = 3%nat) pos /\ sound pos ns ms /\
  ((map fst d = map KInt ms /\ match names with Some x => ns = x | None => named ns ms end) \/
   (map fst d = map KStr ns /\ match nums with Some y => ms = y | None => read_as ns ms end)).
Proof.
  intros d names nums pos ns ms. cbn [get_antenna_params]. unfold sound, read_as, named.
  assert (NE : map snd d <> [] <-> d <> []) by (destruct d; cbn; split; intros H; try discriminate; contradiction).
  assert (LL : forall A (k : A -> key) (l : list A), map fst d = map k l -> length (map snd d) = length l) by (intros A k l E; rewrite map_length, <- (map_length fst), E, map_length; reflexivity).
  destruct (key_ints (map fst d)) as [m|] eqn:KI.
  - apply key_ints_spec in KI. rewrite finish_iff, dict_shape, NE. unfold pair_ok. split.
    + intros (-> & (N & L & F) & A & B & C & P). split; [exact N|]. split; [reflexivity|]. split; [exact F|]. split; [auto|].
      left. destruct names; destruct P as [P1 P2]; subst; auto.
    + intros (N & -> & F & (A & B & C & L) & [[K P]|[K P]]).
      * assert (ms = m) by (apply key_ints_spec in K, KI; congruence). subst m. repeat (split; [auto|]). destruct names; auto.
      * exfalso. rewrite KI in K. destruct d; [contradiction|]. destruct m, ns; try discriminate.
  - assert (NI : forall l, map fst d <> map KInt l) by (intros l E; apply key_ints_spec in E; congruence).
    destruct (key_strs (map fst d)) as [n|] eqn:KS.
    + apply key_strs_spec in KS. rewrite finish_iff, dict_shape, NE. unfold pair_ok. split.
      * intros (-> & (N & L & F) & A & B & C & P). split; [exact N|]. split; [reflexivity|]. split; [exact F|]. split; [auto|].
        right. destruct nums; destruct P as [P1 P2]; subst; auto.
      * intros (N & -> & F & (A & B & C & L) & [[K P]|[K P]]); [destruct (NI _ K)|].
        assert (ns = n) by (apply key_strs_spec in K, KS; congruence). subst n. repeat (split; [auto|]). destruct nums; auto.
    + split; [discriminate|]. intros (_ & _ & _ & _ & [[K _]|[K _]]); [destruct (NI _ K)|apply key_strs_spec in K; congruence].
Qed.
Print Assumptions C102_dict.

(** All else is refused with a ValueError. *)
Theorem C102_refused : forall p names nums, (exists x, get_antenna_params p names nums = Ok x) \/ get_antenna_params p names nums = Err ValueError.
Proof. exact get_total. Qed.
Print Assumptions C102_refused.
Theorem C102_other : forall names nums, get_antenna_params POther names nums = Err ValueError.
Proof. reflexivity. Qed.
Print Assumptions C102_other.

(** Numbers alone are always enough: the names made for distinct numbers are accepted. *)
Theorem C102_numbers : forall rows nums, NoDup nums -> length rows = length nums ->
  get_antenna_params (PArr 3 rows) None (Some nums) = Ok (rows, map fmt nums, nums).
Proof.
  intros rows nums N L. apply C102_array. repeat split; auto; [|rewrite map_length; reflexivity].
  apply FinFun.Injective_map_NoDup; [|exact N]. intros x y E. assert (Some x = Some y) as H by (rewrite <- (int_fmt x), <- (int_fmt y), E; reflexivity). injection H. auto.
Qed.
Print Assumptions C102_numbers.

Example C102_example :
  get_antenna_params (PDict [(KInt 5, [1;2;3]); (KInt 12, [4;5;6])]) None (Some [8; 9]) = Ok ([[1;2;3];[4;5;6]], ["005"; "012"]%string, [5; 12]) /\
  get_antenna_params (PDict [(KStr "7", [1;2;3]); (KStr "07x", [4;5;6])]) None (Some [8; 9]) = Ok ([[1;2;3];[4;5;6]], ["7"; "07x"]%string, [8; 9]) /\
  get_antenna_params (PDict [(KStr "7", [1;2;3]); (KStr "07", [4;5;6])]) None None = Err ValueError /\
  get_antenna_params (PDict []) None None = Err ValueError /\ get_antenna_params (PArr 3 []) None (Some []) = Ok ([], [], []).
Proof. repeat split. Qed.
