(** Proofs for C61. *)
From Coq Require Import List ZArith Bool Arith String Lia.
From Verif Require Import Lib.Py Lib.Dict Model.Pol Model.Cache.
Import ListNotations.
Notation length := List.length.
Open Scope nat_scope.
Local Opaque maxsize.

Lemma elems_eqb_eq a b : elems_eqb a b = true -> a = b.
Proof.
  revert b. induction a as [|x a IH]; intros [|y b] H; try discriminate H; [reflexivity|].
  cbn [elems_eqb] in H. apply andb_true_iff in H as [E H]. rewrite (IH b H). f_equal.
  destruct x, y; cbn [elem_eqb] in E; try discriminate E; f_equal; [apply Z.eqb_eq, E|apply String.eqb_eq, E].
Qed.
Lemma key_eqb_cases a b : key_eqb a b = true ->
  a = b \/ exists z p q x, a = (PNum z p, x) /\ b = (PNum z q, x).
Proof.
  destruct a as [a x], b as [b y]. unfold key_eqb. cbn [fst snd]. intros H. apply andb_true_iff in H as [H X].
  assert (x = y).
  { destruct x, y; cbn in X; try discriminate X; [f_equal; apply String.eqb_eq, X|reflexivity]. }
  subst y. destruct a, b; cbn [parg_eqb] in H; try discriminate H.
  - apply Z.eqb_eq in H. subst. right. eauto 10.
  - apply String.eqb_eq in H. subst. auto.
  - apply elems_eqb_eq in H. subst. auto.
Qed.

Lemma in_firstn {A} (x : A) n l : In x (firstn n l) -> In x l.
Proof. intros H. rewrite <- (firstn_skipn n l). apply in_or_app. left. exact H. Qed.

Lemma elems_eqb_refl l : elems_eqb l l = true.
Proof. induction l as [|[z|t] l IH]; cbn [elems_eqb elem_eqb]; [reflexivity|rewrite Z.eqb_refl|rewrite String.eqb_refl]; exact IH. Qed.

(** An argument on which equal keys mean equal behaviour *)
Definition faithful {V} (f : carg -> result (rval V)) (a : carg) : Prop :=
  forall b v, key_eqb b a = true -> f b = Ok v -> f a = Ok v.

Section Run.
  Context {V : Type} (f : carg -> result (rval V)).

  (** Every cached entry was computed by the function, for its own key; scalars
      are unchanged, and lists as long as nobody changed them *)
  Definition entry_ok (unchanged : bool) (s : cstate V) (e : carg * held V) : Prop :=
    match snd e with
    | HScalar v => f (fst e) = Ok (Scalar v)
    | HList r => exists l, f (fst e) = Ok (Many l) /\ r < length (heap s) /\ (unchanged = true -> nth r (heap s) [] = l)
    end.
  Definition cache_ok (u : bool) (s : cstate V) : Prop := forall e, In e (entries s) -> entry_ok u s e.

  Lemma find_entry_In a : forall (l : list (carg * held V)) h e, find_entry a l = Some (h, e) ->
    (exists k, In (k, h) l /\ key_eqb k a = true) /\ (exists k r, e = (k, h) :: r) /\ forall x, In x e <-> In x l.
  Proof.
    induction l as [|[k h0] t IH]; intros h e H; [discriminate H|]. cbn [find_entry] in H.
    destruct (key_eqb k a) eqn:K.
    - injection H as <- <-. split; [exists k; split; [left; reflexivity|exact K]|]. split; [eauto|tauto].
    - destruct (find_entry a t) as [[h' [|e0 rest]]|] eqn:F; try discriminate H.
      injection H as <- <-. destruct (IH _ _ eq_refl) as ((k' & I & K') & (k2 & r & E) & S).
      split; [exists k'; split; [right; exact I|exact K']|]. split; [injection E as -> ->; eauto|].
      intros x. cbn [In]. rewrite <- S. cbn [In]. tauto.
  Qed.

  Lemma find_entry_None a : forall (l : list (carg * held V)), find_entry a l = None -> forall k h, In (k, h) l -> key_eqb k a = false.
  Proof.
    induction l as [|[k0 h0] t IH]; intros H k h I; [destruct I|]. cbn [find_entry] in H.
    destruct (key_eqb k0 a) eqn:K; [discriminate H|].
    destruct I as [E|I]; [injection E as <- <-; exact K|]. apply (IH) with (h := h); [|exact I].
    destruct (find_entry a t) as [[h' e]|] eqn:F; [|reflexivity]. exfalso.
    destruct (find_entry_In _ _ _ _ F) as (_ & (k2 & r & ->) & _). discriminate H.
  Qed.

  Lemma call_ok u a (s : cstate V) h s' : cache_ok u s -> call f a s = Ok (h, s') ->
    cache_ok u s' /\ exists k, key_eqb k a = true /\ entry_ok u s' (k, h).
  Proof.
    intros C H. unfold call in H. destruct (find_entry a (entries s)) as [[h0 e]|] eqn:F.
    - injection H as <- <-. destruct (find_entry_In _ _ _ _ F) as ((k & I & K) & _ & S).
      split; [intros x Hx; apply S in Hx; exact (C x Hx)|]. exists k. split; [exact K|]. exact (C _ I).
    - apply bind_Ok in H as (v & Hv & H).
      assert (K : key_eqb a a = true).
      { unfold key_eqb. destruct a as [p x]. cbn [fst snd]. apply andb_true_iff. split.
        - destruct p as [z b|t|l]; cbn [parg_eqb]; [apply Z.eqb_refl|apply String.eqb_refl|apply elems_eqb_refl].
        - destruct x; cbn; [apply String.eqb_refl|reflexivity]. }
      destruct v as [v|l]; injection H as <- <-.
      + assert (E : entry_ok u (mkcs (heap s) (firstn maxsize ((a, HScalar v) :: entries s))) (a, HScalar v)) by exact Hv.
        split; [|exists a; split; [exact K|exact E]].
        intros x Hx. cbn [entries] in Hx. apply in_firstn in Hx.
        destruct Hx as [<-|Hx]; [exact E|]. exact (C x Hx).
      + set (s' := mkcs (heap s ++ [l])%list (firstn maxsize ((a, HList (length (heap s))) :: entries s))).
        assert (E : entry_ok u s' (a, HList (length (heap s)))).
        { exists l. split; [exact Hv|]. cbn [heap s']. rewrite app_length. cbn. split; [lia|]. intros _.
          rewrite app_nth2, Nat.sub_diag by lia. reflexivity. }
        split; [|exists a; split; [exact K|exact E]].
        intros x Hx. cbn [entries s'] in Hx. apply in_firstn in Hx.
        destruct Hx as [<-|Hx]; [exact E|]. specialize (C x Hx). unfold entry_ok in *.
        destruct (snd x) as [v|r]; [exact C|]. destruct C as (l' & A & B & D). exists l'. split; [exact A|].
        cbn [heap s']. rewrite app_length. split; [lia|]. intros U. rewrite app_nth1 by exact B. apply D, U.
  Qed.

  Lemma step_ok u (o : op V) (s : cstate V) : (u = true -> forall r new, o <> Change r new) -> cache_ok u s -> cache_ok u (step f o s).
  Proof.
    intros U C. destruct o as [a| |r new]; cbn [step].
    - destruct (call f a s) as [[h s']|e] eqn:E; [|exact C]. apply (call_ok u) in E as [E _]; assumption.
    - intros e [].
    - intros e He. cbn [entries] in He. specialize (C e He). unfold entry_ok in *.
      destruct (snd e) as [v|r']; [exact C|]. destruct C as (l & A & B & D). exists l. split; [exact A|]. cbn [heap].
      assert (L : forall (h : list (list V)) r, length (set_ref h r new) = length h).
      { clear. induction h as [|x h IH]; intros [|r]; cbn; auto. }
      rewrite L. split; [exact B|]. intros ->. exfalso. exact (U eq_refl r new eq_refl).
  Qed.

  Lemma after_ok u (ops : list (op V)) : (u = true -> forall r new, ~ In (Change r new) ops) -> cache_ok u (after f ops).
  Proof.
    unfold after. assert (C : cache_ok u (@start_cache V)) by (intros e []).
    revert C. generalize (@start_cache V) as s. induction ops as [|o ops IH]; intros s C U; [exact C|].
    cbn [fold_left]. apply IH.
    - apply step_ok; [|exact C]. intros E r new ->. apply (U E r new). left. reflexivity.
    - intros E r new H. apply (U E r new). right. exact H.
  Qed.

  Lemma answer_err (ops : list (op V)) a e : faithful f a -> f a = Err e -> answer f ops a = Err e.
  Proof.
    intros K E. unfold answer. destruct (call f a (after f ops)) as [[h s']|e'] eqn:C.
    - exfalso. apply (call_ok false) in C as [_ (k & Hk & O)]; [|apply after_ok; discriminate].
      unfold entry_ok in O. cbn [snd fst] in O. destruct h; [|destruct O as (l & O & _)]; apply (K k _ Hk) in O; congruence.
    - cbn [bind]. unfold call in C. destruct (find_entry _ _) as [[? ?]|]; [discriminate C|].
      rewrite E in C. cbn [bind] in C. congruence.
  Qed.

  Lemma call_total (ops : list (op V)) a v : f a = Ok v -> exists h s', call f a (after f ops) = Ok (h, s').
  Proof.
    intros E. unfold call. destruct (find_entry _ _) as [[? ?]|]; [eauto|]. rewrite E. cbn [bind]. destruct v; eauto.
  Qed.

  Lemma answer_scalar (ops : list (op V)) a v : faithful f a -> f a = Ok (Scalar v) -> answer f ops a = Ok (Scalar v).
  Proof.
    intros K E. unfold answer. destruct (call_total ops a _ E) as (h & s' & C). rewrite C. cbn [bind].
    apply (call_ok false) in C as [_ (k & Hk & O)]; [|apply after_ok; discriminate].
    unfold entry_ok in O. cbn [snd fst] in *.
    destruct h as [w|r]; [|destruct O as (l & O & _)]; apply (K k _ Hk) in O; rewrite E in O; [injection O as ->; reflexivity|discriminate O].
  Qed.

  Lemma answer_unchanged (ops : list (op V)) a : (forall r new, ~ In (Change r new) ops) -> faithful f a -> answer f ops a = f a.
  Proof.
    intros U K. destruct (f a) as [v|e] eqn:E; [|apply answer_err; assumption].
    unfold answer. destruct (call_total ops a _ E) as (h & s' & C). rewrite C. cbn [bind].
    apply (call_ok true) in C as [_ (k & Hk & O)]; [|apply after_ok; intros _; exact U].
    unfold entry_ok in O. cbn [snd fst contents] in *.
    destruct h as [w|r]; [|destruct O as (l & O & _ & N)]; apply (K k _ Hk) in O; rewrite E in O; injection O as ->; [reflexivity|].
    cbn [contents]. rewrite (N eq_refl). reflexivity.
  Qed.
End Run.

Lemma num2str_faithful base p x : (forall z, p <> PNum z false) -> faithful (num2str_body base) (p, x).
Proof.
  intros N b v K E. apply key_eqb_cases in K as [->|(z & q & r & y & -> & Ex)]; [exact E|].
  injection Ex as -> ->. destruct r; [|exfalso; eapply N; reflexivity]. destruct q; [exact E|discriminate E].
Qed.
Lemma str2num_faithful base a : faithful (str2num_body base) a.
Proof.
  intros b v K E. apply key_eqb_cases in K as [->|(z & q & r & y & -> & ->)]; [exact E|discriminate E].
Qed.
