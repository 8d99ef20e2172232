From Coq Require Import List ZArith Bool Arith Lia Ascii String Decimal DecimalString DecimalN.
From Verif Require Import Lib.Py Lib.Np Model.AntParams.
Import ListNotations.
Notation length := List.length.
Open Scope list_scope.
Open Scope Z_scope.

Definition dig (c : ascii) : bool := let n := nat_of_ascii c in (48 <=? n)%nat && (n <=? 57)%nat.
Fixpoint all_dig (s : string) : bool := match s with EmptyString => true | String c r => dig c && all_dig r end.
Lemma dig_ok c : dig c = true -> ws c = false /\ Ascii.eqb c us = false /\ Ascii.eqb c "-"%char = false /\ Ascii.eqb c "+"%char = false.
Proof. destruct c as [[] [] [] [] [] [] [] []]; cbn; intros H; try discriminate H; auto. Qed.
Lemma string_dig u : all_dig (NilEmpty.string_of_uint u) = true.
Proof. induction u; cbn [NilEmpty.string_of_uint all_dig]; rewrite ?IHu; reflexivity. Qed.
Lemma rstrip_dig s : all_dig s = true -> rstrip s = s.
Proof. induction s as [|c r IH]; cbn [all_dig rstrip]; intros H; [reflexivity|]. apply andb_true_iff in H as [D H]. rewrite (IH H). destruct (dig_ok c D) as [W _]. rewrite W. destruct r; reflexivity. Qed.
Lemma us_dig s b : all_dig s = true -> us_drop s = s /\ us_ok b s = (match s with EmptyString => b | _ => true end).
Proof.
  revert b. induction s as [|c r IH]; intros b H; [auto|]. cbn [all_dig us_drop us_ok] in *. apply andb_true_iff in H as [D H]. destruct (dig_ok c D) as (_ & U & _).
  rewrite U. destruct (IH true H) as [A B]. rewrite A, B. split; [reflexivity|]. destruct r; reflexivity.
Qed.
Lemma digits_uint u : u <> Nil -> digits (NilEmpty.string_of_uint u) = Some (Z.of_uint u).
Proof.
  intros H. unfold digits. destruct (us_dig (NilEmpty.string_of_uint u) false (string_dig u)) as [A B]. rewrite A, B, NilEmpty.usu. destruct u; [contradiction|..]; reflexivity.
Qed.
Lemma iter_D0 k u : Z.of_uint (Nat.iter k D0 u) = Z.of_uint u.
Proof. induction k as [|k IH]; [reflexivity|]. cbn [Nat.iter nat_rect]. unfold Z.of_uint in *. cbn. exact IH. Qed.
Lemma iter_nil k u : u <> Nil -> Nat.iter k D0 u <> Nil.
Proof. intros H. destruct k; cbn; [exact H|discriminate]. Qed.
Lemma to_uint_nil n : N.to_uint n <> Nil.
Proof. destruct n as [|p]; cbn; [discriminate|]. apply DecimalPos.Unsigned.to_uint_nonnil. Qed.
Lemma of_pad k n : Z.of_uint (pad k (N.to_uint n)) = Z.of_N n.
Proof. unfold pad. rewrite iter_D0. unfold Z.of_uint. change (Z.of_N (N.of_uint (N.to_uint n)) = Z.of_N n). rewrite DecimalN.Unsigned.of_to. reflexivity. Qed.

Lemma string_len u : String.length (NilEmpty.string_of_uint u) = nb_digits u.
Proof. induction u; cbn; rewrite ?IHu; reflexivity. Qed.
Lemma pad_len k u : (k <= nb_digits (pad k u))%nat.
Proof. unfold pad. assert (E : forall j, nb_digits (Nat.iter j D0 u) = (j + nb_digits u)%nat) by (induction j as [|j IH]; cbn; [reflexivity|rewrite <- IH; reflexivity]). rewrite E. lia. Qed.
Lemma fmt_len n : (3 <= String.length (fmt n))%nat.
Proof. unfold fmt. destruct (n <? 0); cbn [String.length]; rewrite string_len; [pose proof (pad_len 2 (N.to_uint (Z.to_N (- n))))|pose proof (pad_len 3 (N.to_uint (Z.to_N n)))]; lia. Qed.

Lemma int_fmt n : py_int (fmt n) = Some n.
Proof.
  unfold fmt. destruct (n <? 0) eqn:E.
  - apply Z.ltb_lt in E. set (u := pad 2 (N.to_uint (Z.to_N (- n)))).
    assert (U : u <> Nil) by (apply iter_nil, to_uint_nil). unfold py_int. cbn [rstrip]. rewrite rstrip_dig by apply string_dig.
    assert (S' : match NilEmpty.string_of_uint u with EmptyString => if ws "-" then EmptyString else String "-" EmptyString | String a b => String "-" (String a b) end = String "-" (NilEmpty.string_of_uint u)) by (destruct u; [contradiction|..]; reflexivity).
    rewrite S'. cbn [lstrip]. change (ws "-") with false. cbv iota. change (Ascii.eqb "-" "-") with true. cbv iota.
    rewrite digits_uint by exact U. unfold u. rewrite of_pad. cbn [option_map]. f_equal. lia.
  - apply Z.ltb_ge in E. set (u := pad 3 (N.to_uint (Z.to_N n))).
    assert (U : u <> Nil) by (apply iter_nil, to_uint_nil). unfold py_int. rewrite rstrip_dig by apply string_dig.
    pose proof (string_dig u) as D. pose proof (digits_uint u U) as G. destruct (NilEmpty.string_of_uint u) as [|c r] eqn:Q; [destruct u; [contradiction|discriminate..]|].
    cbn [all_dig] in D. apply andb_true_iff in D as [D _]. destruct (dig_ok c D) as (W & _ & M & P). cbn [lstrip]. rewrite W, M, P, G. unfold u. rewrite of_pad. f_equal. lia.
Qed.

Lemma dup_free_iff {A} dec (l : list A) : dup_free dec l = true <-> NoDup l.
Proof.
  unfold dup_free. rewrite Nat.eqb_eq. split.
  - intros L. apply (NoDup_incl_NoDup (NoDup_nodup dec l)); [lia|]. intros x I. apply nodup_In in I. exact I.
  - intros N. rewrite nodup_fixed_point by exact N. reflexivity.
Qed.

Lemma ints_of_spec l m : ints_of l = Some m <-> Forall2 (fun s n => py_int s = Some n) l m.
Proof.
  revert m. induction l as [|s l IH]; intros m; cbn [ints_of].
  - split; [intros E; injection E as <-; constructor|intros F; inversion F; reflexivity].
  - split.
    + destruct (py_int s) as [n|] eqn:E; [|discriminate]. destruct (ints_of l) as [x|]; [|discriminate]. intros E'. injection E' as <-. constructor; [exact E|apply IH; reflexivity].
    + intros F. inversion F as [|? n ? x E F']; subst. rewrite E, (proj2 (IH x) F'). reflexivity.
Qed.

Lemma key_ints_spec l m : key_ints l = Some m <-> l = map KInt m.
Proof.
  revert m. induction l as [|k l IH]; intros m; cbn [key_ints].
  - split; [intros E; injection E as <-; reflexivity|destruct m; [reflexivity|discriminate]].
  - destruct k as [n|s|]; [|split; [discriminate|destruct m; discriminate]..]. split.
    + destruct (key_ints l) as [x|]; [|discriminate]. cbn. intros E. injection E as <-. cbn. f_equal. apply IH. reflexivity.
    + destruct m as [|y m]; [discriminate|]. cbn. intros E. injection E as <- E. rewrite (proj2 (IH m) E). reflexivity.
Qed.
Lemma key_strs_spec l m : key_strs l = Some m <-> l = map KStr m.
Proof.
  revert m. induction l as [|k l IH]; intros m; cbn [key_strs].
  - split; [intros E; injection E as <-; reflexivity|destruct m; [reflexivity|discriminate]].
  - destruct k as [n|s|]; [split; [discriminate|destruct m; discriminate]| |split; [discriminate|destruct m; discriminate]]. split.
    + destruct (key_strs l) as [x|]; [|discriminate]. cbn. intros E. injection E as <-. cbn. f_equal. apply IH. reflexivity.
    + destruct m as [|y m]; [discriminate|]. cbn. intros E. injection E as <- E. rewrite (proj2 (IH m) E). reflexivity.
Qed.

Definition pair_ok (names : option (list string)) (nums : option (list Z)) (n : list string) (m : list Z) : Prop :=
  match names, nums with
  | Some x, Some y => n = x /\ m = y
  | Some x, None => n = x /\ Forall2 (fun s v => py_int s = Some v) n m
  | None, Some y => m = y /\ n = map fmt m
  | None, None => False
  end.

Lemma finish_iff rows shape names nums r n m : finish rows shape names nums = Ok (r, n, m) <->
  r = rows /\ shape = Some (length m, 3%nat) /\ NoDup n /\ NoDup m /\ length m = length n /\ pair_ok names nums n m.
Proof.
  unfold finish, pair_ok.
  assert (T : forall n' m', match shape with None => Err ValueError | Some (r, c) =>
          if negb ((r =? length m')%nat && (c =? 3)%nat) then Err ValueError
          else if negb (dup_free string_dec n') then Err ValueError
          else if negb (dup_free Z.eq_dec m') then Err ValueError
          else if negb (length m' =? length n')%nat then Err ValueError else Ok (rows, n', m') end = Ok (r, n, m) <->
      (r = rows /\ shape = Some (length m', 3%nat) /\ NoDup n' /\ NoDup m' /\ length m' = length n') /\ n = n' /\ m = m').
  { intros n' m'. destruct shape as [[r' c]|]; [|split; [discriminate|intros ((_ & E & _) & _); discriminate]].
    rewrite <- (dup_free_iff string_dec n'), <- (dup_free_iff Z.eq_dec m'). split.
    - destruct (r' =? length m')%nat eqn:E1; cbn [andb negb]; [|discriminate]. destruct (c =? 3)%nat eqn:E2; cbn [negb]; [|discriminate]. apply Nat.eqb_eq in E1, E2. subst.
      destruct (dup_free string_dec n'); [|discriminate]. destruct (dup_free Z.eq_dec m'); [|discriminate]. cbn [negb]. destruct (length m' =? length n')%nat eqn:E3; [|discriminate]. apply Nat.eqb_eq in E3.
      intros E. injection E as <- <- <-. auto 10.
    - intros ((-> & E & A & B & C) & -> & ->). injection E as -> ->. rewrite !Nat.eqb_refl, A, B, C, Nat.eqb_refl. reflexivity. }
  destruct names as [x|], nums as [y|].
  - rewrite T. intuition (subst; auto).
  - destruct (ints_of x) as [z|] eqn:I.
    + apply ints_of_spec in I. rewrite T. split.
      * intros ((A & B & C & D & E) & -> & ->). auto 10.
      * intros (A & B & C & D & E & -> & F). assert (m = z) by (apply ints_of_spec in F, I; congruence). subst. auto 10.
    + split; [discriminate|]. intros (_ & _ & _ & _ & _ & -> & F). apply ints_of_spec in F. congruence.
  - rewrite T. split.
    + intros ((A & B & C & D & E) & -> & ->). auto 10.
    + intros (A & B & C & D & E & -> & ->). auto 10.
  - split; [discriminate|tauto].
Qed.

Lemma finish_total rows shape names nums : (exists x, finish rows shape names nums = Ok x) \/ finish rows shape names nums = Err ValueError.
Proof.
  unfold finish. destruct (match names with Some _ => _ | None => _ end) as [[n m]|]; [|auto]. destruct shape as [[r c]|]; [|auto].
  repeat (destruct (negb _); [auto|]). eauto.
Qed.

Lemma get_total p names nums : (exists x, get_antenna_params p names nums = Ok x) \/ get_antenna_params p names nums = Err ValueError.
Proof. destruct p as [d|c r|]; cbn; [destruct (key_ints _); [apply finish_total|destruct (key_strs _); [apply finish_total|auto]]|apply finish_total|auto]. Qed.

Lemma dict_shape (rows : list (list Z)) n :
  match rows with [] => None | x :: r => if forallb (fun y => (length y =? length x)%nat) r then Some (length rows, length x) else None end = Some (n, 3%nat) <->
  rows <> [] /\ n = length rows /\ Forall (fun p => length p = 3%nat) rows.
Proof.
  destruct rows as [|x r]; [split; [discriminate|intros [H _]; contradiction]|].
  destruct (forallb (fun y => (length y =? length x)%nat) r) eqn:E.
  - rewrite forallb_forall in E. split.
    + intros H. injection H as <- L. split; [discriminate|]. split; [reflexivity|]. constructor; [exact L|]. apply Forall_forall. intros y I. apply E, Nat.eqb_eq in I. lia.
    + intros (_ & -> & F). inversion F. congruence.
  - split; [discriminate|]. intros (_ & _ & F). inversion F as [|? ? L F']; subst. rewrite Forall_forall in F'. exfalso.
    apply Bool.not_true_iff_false in E. apply E, forallb_forall. intros y I. apply Nat.eqb_eq. rewrite (F' y I). auto.
Qed.
