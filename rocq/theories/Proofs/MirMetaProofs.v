(** Proofs about the metadata tables of Mir data sets. *)
From Coq Require Import List ZArith Bool Arith String Lia Sorting.Sorted Permutation.
From Verif Require Import Lib.Py Lib.Np Lib.Dict Lib.Sorting Model.MirMeta Spec.MirMetaSpec.
Import ListNotations.
Notation length := List.length.
Open Scope list_scope.
Open Scope Z_scope.

Lemma eqb_key_eq : forall a b, eqb_key a b = true <-> a = b.
Proof.
  unfold eqb_key. induction a as [|x a IH]; intros [|y b]; cbn; try (split; [discriminate | discriminate]); [tauto|].
  specialize (IH b). rewrite !andb_true_iff in *. rewrite Z.eqb_eq. split.
  - intros (L & -> & F). f_equal. apply IH. auto.
  - intros E. injection E as -> ->. destruct (proj2 IH eq_refl). auto.
Qed.
Definition str_eq := String.eqb_eq.

Lemma option_eq_dec_false (um : option bool) : {um = Some false} + {um <> Some false}.
Proof. destruct um as [[|]|]; [right | left | right]; congruence. Qed.
Lemma option_eq_dec_true (um : option bool) : {um = Some true} + {um <> Some true}.
Proof. destruct um as [[|]|]; [left | right | right]; congruence. Qed.
Lemma nth_repeat_lt {A} (x d : A) n i : (i < n)%nat -> nth i (repeat x n) d = x.
Proof. revert i. induction n as [|n IH]; intros i L; [lia|]. destruct i; [reflexivity|]. apply IH. lia. Qed.

(** * Columns *)
Section Table.
Variable t : table.
Hypothesis OK : table_ok t.

Lemma known_get f : In f (fields t) -> exists c, dget String.eqb f (t_data t) = Ok c /\ length c = t_size t.
Proof.
  intros I. destruct (proj1 (dmem_dget String.eqb f (t_data t)) (proj2 (dmem_In _ str_eq f (t_data t)) I)) as (c & E). exists c. split; [exact E|].
  apply (dget_In _ str_eq) in E. pose proof (ok_columns t OK) as F. rewrite Forall_forall in F. apply (F _ E).
Qed.
Lemma unknown_get f : ~ In f (fields t) -> dget String.eqb f (t_data t) = Err KeyError.
Proof.
  intros N. destruct (dget String.eqb f (t_data t)) as [c|e] eqn:E.
  - exfalso. apply N. apply (dget_In _ str_eq) in E. apply (in_map fst) in E. exact E.
  - clear -E. revert E. induction (t_data t) as [|(k & v) l IH]; cbn; [congruence|]. destruct (String.eqb f k); [discriminate | exact IH].
Qed.
Lemma column_at f c i : dget String.eqb f (t_data t) = Ok c -> nth i c [] = cell_at t f i.
Proof. intros E. unfold cell_at. rewrite E. reflexivity. Qed.
Lemma field_dec f : {In f (fields t)} + {~ In f (fields t)}.
Proof. apply in_dec, string_dec. Qed.

(** * Conditions *)
Lemma test_spec c v : (forall f : string, sensible (f, c, v)) -> exists p, test c v = Ok p /\ forall z, p z = true <-> compare c v z.
Proof.
  intros Sn. specialize (Sn EmptyString). unfold sensible in Sn. cbn [fst snd] in Sn. destruct c, v as [x | l]; cbn [test compare]; try contradiction; try (destruct l as [|a [|b l]]; try contradiction); eexists; (split; [reflexivity|]); intros z; cbv beta;
    rewrite ?negb_true_iff, ?andb_true_iff, ?orb_true_iff, ?Z.eqb_eq, ?Z.eqb_neq, ?Z.ltb_lt, ?Z.leb_le, ?isinZ_spec; try lia; try reflexivity; try (rewrite <- not_true_iff_false, isinZ_spec; reflexivity).
Qed.
Lemma test_bad c v : ~ (forall f : string, sensible (f, c, v)) -> exists e, test c v = Err e /\ e <> AssertionError.
Proof.
  intros Sn. destruct c, v as [x | l]; cbn [test]; try (exfalso; apply Sn; intros f; exact I); try (destruct l as [|a [|b l]]); try (exfalso; apply Sn; intros f; exact I); eexists; (split; [reflexivity | discriminate]).
Qed.
Lemma sensible_any f g c v : sensible (f, c, v) -> sensible (g, c, v).
Proof. exact (fun H => H). Qed.
Lemma where_spec w : known t w -> sensible w -> exists b, where_ t w = Ok b /\ length b = t_size t /\ forall i, nth i b false = true <-> (i < t_size t)%nat /\ holds t w i.
Proof.
  destruct w as [[f c] v]. unfold known. cbn [fst]. intros K Sn. destruct (known_get f K) as (col & E & L). destruct (test_spec c v) as (p & T & P); [exact (fun g => Sn)|].
  unfold where_. rewrite E, T. cbn [bind]. eexists. split; [reflexivity|]. rewrite map_length. split; [exact L|]. intros i.
  destruct (Nat.lt_ge_cases i (t_size t)) as [LT | GE].
  - rewrite (nth_indep _ false (existsb p [])) by (rewrite map_length; rewrite <- L in LT; exact LT). rewrite map_nth, (column_at f col i E), existsb_exists. unfold holds. cbn [fst snd]. split.
    + intros (z & I & Z). split; [exact LT|]. exists z. split; [exact I | apply P, Z].
    + intros (_ & z & I & Z). exists z. split; [exact I | apply P, Z].
  - rewrite nth_overflow by (rewrite map_length; rewrite <- L in GE; exact GE). split; [discriminate | lia].
Qed.
Lemma where_unknown w : ~ known t w -> where_ t w = Err AssertionError.
Proof. destruct w as [[f c] v]. unfold known. cbn [fst]. intros N. unfold where_. rewrite (unknown_get f N). reflexivity. Qed.
Lemma where_bad w : known t w -> ~ sensible w -> exists e, where_ t w = Err e /\ e <> AssertionError.
Proof.
  destruct w as [[f c] v]. unfold known. cbn [fst]. intros K Sn. destruct (known_get f K) as (col & E & L). destruct (test_bad c v) as (e & T & N); [intros X; apply Sn, (X f)|].
  exists e. unfold where_. rewrite E, T. split; [reflexivity | exact N].
Qed.
Lemma sensible_dec w : {sensible w} + {~ sensible w}.
Proof. destruct w as [[f c] v]. unfold sensible. cbn [fst snd]. destruct c, v as [x | l]; try (left; exact I); try (right; exact (fun H => H)); destruct l as [|a [|b l]]; try (left; exact I); right; exact (fun H => H). Qed.

Lemma zip_length f : forall a b, length a = length b -> length (zip_with f a b) = length a.
Proof. induction a as [|x a IH]; intros [|y b]; cbn; intros E; try reflexivity; try discriminate. f_equal. apply IH. lia. Qed.
Lemma zip_nth f : forall a b i, length a = length b -> (i < length a)%nat -> nth i (zip_with f a b) false = f (nth i a false) (nth i b false).
Proof. induction a as [|x a IH]; intros [|y b] i L LT; cbn in *; try lia. destruct i; [reflexivity|]. apply IH; lia. Qed.

Lemma meets_cons (both : bool) w ws i : meets t both (w :: ws) i <->
  if both then (known t w -> holds t w i) /\ meets t both ws i else (known t w /\ holds t w i) \/ meets t both ws i.
Proof.
  unfold meets. destruct both.
  - split; [intros H; split; [apply H; left; reflexivity | intros w' I; apply H; right; exact I] | intros (H & G) w' [<- | I]; [exact H | apply G, I]].
  - split; [intros (w' & [<- | I] & H); [left; exact H | right; exists w'; auto] | intros [H | (w' & I & H)]; [exists w; split; [left; reflexivity | exact H] | exists w'; split; [right; exact I | exact H]]].
Qed.
Lemma where_all_spec both ws : forall m ok, length m = t_size t -> (forall w, In w ws -> known t w -> sensible w) ->
  exists m' ok', where_all t both ws m ok = Ok (m', ok') /\ length m' = t_size t /\ (ok' = true <-> ok = true \/ Exists (known t) ws) /\
    forall i, (i < t_size t)%nat -> (nth i m' false = true <-> if both then nth i m false = true /\ meets t both ws i else nth i m false = true \/ meets t both ws i).
Proof.
  induction ws as [|w ws IH]; intros m ok L Sn.
  - exists m, ok. split; [reflexivity|]. split; [exact L|]. split; [rewrite Exists_nil; tauto|]. intros i LT. unfold meets. destruct both; [split; [intros H; split; [exact H | intros w []] | tauto] | split; [auto | intros [H | (w & [] & _)]; exact H]].
  - cbn [where_all]. assert (Sn' : forall w', In w' ws -> known t w' -> sensible w') by (intros; apply Sn; [right|]; assumption).
    assert (MC : forall i, meets t both (w :: ws) i <-> if both then (known t w -> holds t w i) /\ meets t both ws i else (known t w /\ holds t w i) \/ meets t both ws i) by (intros i; apply meets_cons).
    destruct (field_dec (fst (fst w))) as [K | N].
    + destruct (where_spec w K) as (b & E & Lb & B); [apply Sn; [left; reflexivity | exact K]|]. rewrite E.
      destruct (IH (zip_with (if both then andb else orb) m b) true) as (m' & ok' & E' & L' & O' & M'); [rewrite zip_length; lia | exact Sn'|].
      exists m', ok'. split; [exact E'|]. split; [exact L'|]. split; [rewrite O', Exists_cons; unfold known; tauto|]. intros i LT. rewrite (M' i LT), zip_nth by lia. specialize (B i). specialize (MC i).
      change (known t w) in K. destruct both; rewrite MC; [rewrite andb_true_iff | rewrite orb_true_iff]; rewrite B; tauto.
    + rewrite (where_unknown w N). destruct (IH m ok L Sn') as (m' & ok' & E' & L' & O' & M'). exists m', ok'. split; [exact E'|]. split; [exact L'|].
      split; [rewrite O', Exists_cons; unfold known; tauto|]. intros i LT. rewrite (M' i LT). specialize (MC i). change (~ known t w) in N. destruct both; rewrite MC; tauto.
Qed.
Lemma where_all_bad both ws : forall m ok, ~ (forall w, In w ws -> known t w -> sensible w) -> exists e, where_all t both ws m ok = Err e.
Proof.
  induction ws as [|w ws IH]; intros m ok B; [exfalso; apply B; intros w []|]. cbn [where_all].
  assert (R : (known t w -> sensible w) -> ~ (forall w', In w' ws -> known t w' -> sensible w')). { intros H X. apply B. intros w' [<- | I]; [exact H | apply X, I]. }
  destruct (field_dec (fst (fst w))) as [K | N].
  - destruct (sensible_dec w) as [Sn | Sn].
    + destruct (where_spec w K Sn) as (b & E & _). rewrite E. apply IH, R. auto.
    + destruct (where_bad w K Sn) as (e & E & NE). rewrite E. exists e. destruct e; try reflexivity. contradiction.
  - rewrite (where_unknown w N). apply IH, R. intros K. contradiction.
Qed.

Lemma dec_all ws : {forall w, In w ws -> known t w -> sensible w} + {~ forall w, In w ws -> known t w -> sensible w}.
Proof.
  induction ws as [|w ws [IH | IH]]; [left; intros w [] | | right; intros H; apply IH; intros w' I; apply H; right; exact I].
  destruct (field_dec (fst (fst w))) as [K | N]; [destruct (sensible_dec w) as [Sn | Sn]|].
  - left. intros w' [<- | I]; [auto | apply IH, I].
  - right. intros H. apply Sn, H; [left; reflexivity | exact K].
  - left. intros w' [<- | I]; [intros K; contradiction | apply IH, I].
Qed.

(** * Queries *)
Lemma nonzero_true m i : In i (nonzero (fun b : bool => b) m) <-> (i < length m)%nat /\ nth i m false = true.
Proof. apply (nonzero_spec false). Qed.
Lemma nonzero_mask_sorted m : StronglySorted lt (nonzero (fun b : bool => b) m).
Proof. apply nonzero_sorted. Qed.

Theorem query_spec um q ps : index_ok t -> fair um q ->
  ((exists ix, index_query t um q = Ok ix /\ positions (t_size t) ix = Ok ps) <-> chosen t um q ps).
Proof.
  intros IX FA. pose proof (ok_mask t OK) as LM. destruct q as [|ws both|ks|l].
  - cbn [index_query chosen]. destruct (option_eq_dec_false um) as [-> | NF].
    + cbn [positions]. split.
      * intros (ix & E & P). injection E as <-. cbn in P. injection P as <-. split; [apply seq_sorted|]. intros i. rewrite in_seq. unfold masked. split; [intros; split; [lia | congruence] | lia].
      * intros (St & I). exists Everything. split; [reflexivity|]. cbn. f_equal. apply (sorted_unique lt); [exact Nat.lt_irrefl | intros; lia | apply seq_sorted | exact St|]. intros i. rewrite in_seq, I. unfold masked. split; [intros; split; [lia | congruence] | lia].
    + assert (Q : match um with Some false => Everything | _ => Mask (t_mask t) end = Mask (t_mask t)) by (destruct um as [[|]|]; try reflexivity; contradiction). rewrite Q. split.
      * intros (ix & E & P). injection E as <-. cbn in P. injection P as <-. split; [apply nonzero_mask_sorted|]. intros i. rewrite nonzero_true, LM. unfold masked, active. tauto.
      * intros (St & I). eexists. split; [reflexivity|]. cbn. f_equal. apply (sorted_unique lt); [exact Nat.lt_irrefl | intros; lia | apply nonzero_mask_sorted | exact St|]. intros i. rewrite nonzero_true, I, LM. unfold masked, active. tauto.
  - cbn [index_query chosen].
    set (m0 := match um with Some false => repeat both (t_size t) | _ => t_mask t end).
    assert (L0 : length m0 = t_size t) by (unfold m0; destruct um as [[|]|]; [exact LM | apply repeat_length | exact LM]).
    destruct (dec_all ws) as [SE | NS].
    + destruct (where_all_spec both ws m0 false L0 SE) as (m' & ok' & E & L' & O & M). 
      assert (MM : forall i, (i < t_size t)%nat -> (nth i m' false = true <-> (masked um -> active t i) /\ meets t both ws i)).
      { intros i LT. rewrite (M i LT). unfold m0, masked, active. destruct um as [[|]|]; cbn [fair] in FA.
        - destruct both; [|discriminate FA]. split; [intros (A & B); auto | intros (A & B); split; [apply A; discriminate | exact B]].
        - rewrite nth_repeat_lt by exact LT. destruct both; [split; [intros (_ & B); split; [congruence | exact B] | tauto] | split; [intros [X | B]; [discriminate | split; [congruence | exact B]] | tauto]].
        - destruct both; [|discriminate FA]. split; [intros (A & B); auto | intros (A & B); split; [apply A; discriminate | exact B]]. }
      split.
      * intros (ix & EQ & P). destruct ws as [|w ws]; [discriminate EQ|]. rewrite E in EQ. cbn [bind fst snd] in EQ. destruct ok'; [|discriminate EQ]. injection EQ as <-. cbn in P. injection P as <-.
        split; [split; [destruct (proj1 O eq_refl) as [X | X]; [discriminate X | exact X] | exact SE]|]. split; [apply nonzero_mask_sorted|]. intros i. rewrite nonzero_true, L'. split; [intros (LT & H); split; [exact LT | apply MM; assumption] | intros (LT & H); split; [exact LT | apply MM; assumption]].
      * intros ((K & _) & St & I). destruct ws as [|w ws]; [inversion K|]. rewrite E. cbn [bind fst snd]. rewrite (proj2 O (or_intror K)). eexists. split; [reflexivity|]. cbn. f_equal.
        apply (sorted_unique lt); [exact Nat.lt_irrefl | intros; lia | apply nonzero_mask_sorted | exact St|]. intros i. rewrite nonzero_true, I, L'. split; [intros (LT & H); split; [exact LT | apply MM; assumption] | intros (LT & H); split; [exact LT | apply MM; assumption]].
    + split.
      * intros (ix & EQ & _). destruct ws as [|w ws]; [discriminate EQ|]. destruct (where_all_bad both (w :: ws) m0 false NS) as (e & E). rewrite E in EQ. discriminate EQ.
      * intros ((_ & SE) & _). contradiction.
  - cbn [index_query chosen]. assert (KS : forall l, mapM (fun k => dget eqb_key k (t_index t)) ks = Ok l <-> Forall2 (fun k p => (p < t_size t)%nat /\ key_of t p = k) ks l).
    { clear FA. induction ks as [|k ks IH]; intros l; cbn [mapM].
      - split; [intros E; injection E as <-; constructor | intros F; inversion F; reflexivity].
      - destruct (dget eqb_key k (t_index t)) as [p|e] eqn:E; cbn [bind].
        + destruct (mapM (fun k0 => dget eqb_key k0 (t_index t)) ks) as [l'|e'] eqn:E'; cbn [bind].
          * split; [intros X; injection X as <-; constructor; [apply IX, E | apply IH; reflexivity]|]. intros F. inversion F as [|? p' ? l'' H F']; subst. apply IX in H. apply IH in F'. congruence.
          * split; [discriminate|]. intros F. inversion F as [|? p' ? l'' H F']; subst. apply IH in F'. discriminate F'.
        + split; [discriminate|]. intros F. inversion F as [|? p' ? l'' H F']; subst. apply IX in H. congruence. }
    split.
    + intros (ix & EQ & P). destruct (option_eq_dec_true um) as [-> | NT]; [discriminate EQ|]. split; [exact NT|]. apply KS.
      assert (EQ' : (do l <- mapM (fun k => dget eqb_key k (t_index t)) ks; Ok (At l)) = Ok ix) by (destruct um as [[|]|]; try exact EQ; contradiction).
      destruct (mapM (fun k => dget eqb_key k (t_index t)) ks) as [l|]; [|discriminate EQ']. cbn [bind] in EQ'. injection EQ' as <-. cbn [positions] in P. destruct (forallb _ l); congruence.
    + intros (NT & F). assert (EQ' : index_query t um (QKeys ks) = do l <- mapM (fun k => dget eqb_key k (t_index t)) ks; Ok (At l)) by (cbn; destruct um as [[|]|]; try reflexivity; contradiction).
      cbn [index_query] in EQ'. rewrite EQ'. rewrite (proj2 (KS ps) F). cbn [bind]. eexists. split; [reflexivity|]. cbn [positions]. assert (B : forallb (fun k => (k <? t_size t)%nat) ps = true).
      { apply forallb_forall. intros p I. apply Nat.ltb_lt. clear - F I. induction F as [|k p' ks ps (L & _) F IH]; [contradiction|]. destruct I as [<- | I]; [exact L | apply IH, I]. }
      rewrite B. reflexivity.
  - cbn [index_query chosen]. split.
    + intros (ix & EQ & P). destruct (option_eq_dec_true um) as [-> | NT]; [discriminate EQ|]. split; [exact NT|].
      assert (EQ' : Ok (At l) = Ok ix) by (destruct um as [[|]|]; try exact EQ; contradiction). injection EQ' as <-. cbn [positions] in P. destruct (forallb (fun k => (k <? t_size t)%nat) l) eqn:F; [|discriminate P]. injection P as <-. split; [reflexivity|].
      apply Forall_forall. intros i I. rewrite forallb_forall in F. apply Nat.ltb_lt, F, I.
    + intros (NT & -> & F). exists (At l). split; [destruct um as [[|]|]; try reflexivity; contradiction|]. cbn [positions].
      assert (B : forallb (fun k => (k <? t_size t)%nat) l = true). { apply forallb_forall. intros i I. apply Nat.ltb_lt. rewrite Forall_forall in F. apply F, I. } rewrite B. reflexivity.
Qed.
End Table.
