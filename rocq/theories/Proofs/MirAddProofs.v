(** Proofs about adding metadata tables of Mir data sets. *)
From Coq Require Import List ZArith Bool Arith String Lia Sorting.Sorted Permutation.
From Verif Require Import Lib.Py Lib.Np Lib.Dict Lib.Sorting Model.MirMeta Spec.MirMetaSpec Proofs.MirMetaProofs Proofs.MirMetaMain Model.MirAdd Spec.MirAddSpec.
Import ListNotations.
Notation length := List.length.
Open Scope list_scope.
Open Scope Z_scope.

(** * Indices *)
Lemma set_index_good t : table_ok t -> (forall i j, (i < t_size t)%nat -> (j < t_size t)%nat -> key_of t i = key_of t j -> i = j) ->
  exists ix, set_index t = Ok {| t_key := t_key t; t_data := t_data t; t_size := t_size t; t_mask := t_mask t; t_index := ix; t_stored := t_stored t |} /\
    good {| t_key := t_key t; t_data := t_data t; t_size := t_size t; t_mask := t_mask t; t_index := ix; t_stored := t_stored t |} /\
    ((forall i j, (i < j)%nat -> (j < t_size t)%nat -> lex_leb (rev (key_of t i)) (rev (key_of t j)) = true) -> map snd ix = seq 0 (t_size t)).
Proof.
  intros OK INJ. set (n := t_size t). assert (V : values t (t_key t) (Some false) QAll = Ok (map (key_of t) (seq 0 n))) by (apply (values_at t _ _ _ Everything); [exact OK | reflexivity | reflexivity | apply (ok_key t OK)]).
  unfold set_index. rewrite V. cbn [bind]. eexists. split; [reflexivity|].
  set (L := sorted_rows (map (key_of t) (seq 0 n))).
  assert (LI : forall k p, In (k, p) L <-> (p < n)%nat /\ key_of t p = k).
  { intros k p. unfold L. rewrite sorted_rows_In, map_length, seq_length. split; intros (A & <-); split; try exact A; [symmetry|]; (rewrite (nth_indep _ [] (key_of t 0%nat)) by (rewrite map_length, seq_length; exact A)); rewrite map_nth, seq_nth by exact A; reflexivity. }
  assert (NL : NoDup (map fst L)).
  { assert (S2 : NoDup (map snd L)).
    { unfold L, sorted_rows. rewrite map_map. cbn [snd]. rewrite map_id. unfold lexsort. eapply Permutation_NoDup; [symmetry; apply argsort_by_perm | apply seq_NoDup]. }
    assert (U : forall k p p', In (k, p) L -> In (k, p') L -> p = p') by (intros k p p' (A & B)%LI (A' & B')%LI; apply (INJ p p' A A'); congruence).
    clear - S2 U. clearbody L. induction L as [|(k, p) l IH]; [constructor|]. cbn [map fst snd] in S2 |- *. inversion S2 as [|? ? N1 N2]; subst. constructor.
    - intros I. apply in_map_iff in I as ((k' & p') & E & I). cbn in E. subst k'. assert (p = p') by (apply (U k); [left; reflexivity | right; exact I]). subst p'. apply N1, in_map_iff. exists (k, p). auto.
    - apply IH; [exact N2|]. intros k0 a b A B. apply (U k0); right; assumption. }
  rewrite (dict_of_new L NL). split.
  - constructor; [destruct OK; constructor; assumption | | exact NL]. intros k p. cbn [t_index t_size].
    split; [intros H; apply (dget_In _ eqb_key_eq) in H; apply LI in H; exact H | intros H; apply (In_dget _ eqb_key_eq); [exact NL | apply LI; exact H]].
  - intros SO. unfold L, sorted_rows. rewrite map_map. cbn [snd]. rewrite map_id. unfold lexsort, argsort_by. rewrite map_length, seq_length. apply isort_sorted_id.
    apply (StronglySorted_impl lt); [|apply seq_sorted]. intros i j Ii Ij LT. apply in_seq in Ii, Ij. unfold le.
    rewrite !(nth_indep _ [] (key_of t 0%nat)) by (rewrite map_length, seq_length; lia). rewrite !map_nth, !seq_nth by lia. apply SO; fold n; lia.
Qed.

Section Dict.
  Implicit Types d : dict.
  Lemma ddel_In d k p : In p (ddel eqb_key k d) <-> In p d /\ fst p <> k.
  Proof.
    unfold ddel. rewrite filter_In, negb_true_iff, <- not_true_iff_false, eqb_key_eq. split; intros (A & B); (split; [exact A | congruence]).
  Qed.
  Lemma ddel_length d k : NoDup (dkeys d) -> In k (dkeys d) -> S (length (ddel eqb_key k d)) = length d.
  Proof.
    induction d as [|(k' & v) d IH]; intros ND I; [contradiction|]. unfold dkeys in *. cbn [map fst] in ND, I. inversion ND as [|? ? N1 N2]; subst. unfold ddel in *. cbn [filter fst length]. destruct (eqb_key k k') eqn:E.
    - apply eqb_key_eq in E. subst k'. cbn [negb]. f_equal. clear - N1. induction d as [|(a & b) d IH]; [reflexivity|]. cbn [filter fst length]. destruct (eqb_key k a) eqn:E; cbn [negb].
      + apply eqb_key_eq in E. subst a. exfalso. apply N1. left. reflexivity.
      + cbn [length]. f_equal. apply IH. intros I. apply N1. right. exact I.
    - cbn [negb length]. f_equal. apply IH; [exact N2|]. destruct I as [-> | I]; [|exact I]. rewrite (proj2 (eqb_key_eq k k) eq_refl) in E. discriminate.
  Qed.
  Lemma ddel_mem d k k' : In k' (dkeys d) -> k' <> k -> In k' (dkeys (ddel eqb_key k d)).
  Proof. intros I N. apply (ddel_keys _ eqb_key_eq). auto. Qed.
  Lemma pop_masked_In : forall l d1 d2 p,
    (In p (fst (pop_masked l d1 d2)) <-> In p d1 /\ ~ In (fst p, false) l) /\ (In p (snd (pop_masked l d1 d2)) <-> In p d2 /\ ~ In (fst p, true) l).
  Proof.
    induction l as [|(k & [|]) l IH]; intros d1 d2 p; cbn [pop_masked].
    - cbn. tauto.
    - destruct (IH d1 (ddel eqb_key k d2) p) as (A & B). rewrite A, B, ddel_In. cbn [In]. split.
      + split; [intros (X & Y); split; [exact X | intros [Z | Z]; [discriminate Z | contradiction]] | intros (X & Y); split; [exact X | intros Z; apply Y; right; exact Z]].
      + split; [intros ((X & N) & Y); split; [exact X | intros [Z | Z]; [congruence | contradiction]] | intros (X & Y); split; [split; [exact X | intros E; apply Y; left; congruence] | intros Z; apply Y; right; exact Z]].
    - destruct (IH (ddel eqb_key k d1) d2 p) as (A & B). rewrite A, B, ddel_In. cbn [In]. split.
      + split; [intros ((X & N) & Y); split; [exact X | intros [Z | Z]; [congruence | contradiction]] | intros (X & Y); split; [split; [exact X | intros E; apply Y; left; congruence] | intros Z; apply Y; right; exact Z]].
      + split; [intros (X & Y); split; [exact X | intros [Z | Z]; [discriminate Z | contradiction]] | intros (X & Y); split; [exact X | intros Z; apply Y; right; exact Z]].
  Qed.
  Lemma pop_masked_size : forall l d1 d2, NoDup (map fst l) -> NoDup (dkeys d1) -> NoDup (dkeys d2) -> (forall k, In k (map fst l) -> In k (dkeys d1) /\ In k (dkeys d2)) ->
    (length (fst (pop_masked l d1 d2)) + length (snd (pop_masked l d1 d2)) + length l = length d1 + length d2)%nat /\
    NoDup (dkeys (fst (pop_masked l d1 d2))) /\ NoDup (dkeys (snd (pop_masked l d1 d2))).
  Proof.
    induction l as [|(k & g) l IH]; intros d1 d2 NL N1 N2 B; [cbn; split; [lia | auto]|]. cbn [map fst] in NL. inversion NL as [|? ? K1 K2]; subst.
    assert (B' : forall k', In k' (map fst l) -> k' <> k) by (intros k' I ->; contradiction). destruct (B k) as (I1 & I2); [left; reflexivity|].
    destruct g; cbn [pop_masked].
    - destruct (IH d1 (ddel eqb_key k d2) K2 N1) as (A & A1 & A2); [apply (ddel_NoDup eqb_key), N2 | |].
      + intros k' I. destruct (B k') as (X & Y); [right; exact I|]. split; [exact X | apply ddel_mem; auto].
      + split; [|auto]. pose proof (ddel_length d2 k N2 I2). cbn [length]. lia.
    - destruct (IH (ddel eqb_key k d1) d2 K2) as (A & A1 & A2); [apply (ddel_NoDup eqb_key), N1 | exact N2 | |].
      + intros k' I. destruct (B k') as (X & Y); [right; exact I|]. split; [apply ddel_mem; auto | exact Y].
      + split; [|auto]. pose proof (ddel_length d1 k N1 I1). cbn [length]. lia.
  Qed.
  Definition bad (q : list Z * (bool * (bool * bool))) : bool := let '(_, (c, (m1, m2))) := q in negb c && m1 && m2.
  Lemma pop_compared_good : forall l d1 d2, existsb bad l = false -> pop_compared l d1 d2 = pop_masked (map (fun q => (fst q, fst (snd (snd q)) && negb (fst (snd q)))) l) d1 d2.
  Proof.
    induction l as [|(k & c & m1 & m2) l IH]; intros d1 d2 H; [reflexivity|]. cbn [existsb bad] in H. apply orb_false_elim in H as (H1 & H2). cbn [pop_compared map pop_masked fst snd].
    destruct c, m1; cbn [orb negb andb] in *; try (apply IH, H2). subst m2. cbn [negb]. apply IH, H2.
  Qed.
  Lemma pop_compared_bad : forall l d1 d2, NoDup (map fst l) -> NoDup (dkeys d1) -> NoDup (dkeys d2) -> (forall k, In k (map fst l) -> In k (dkeys d1) /\ In k (dkeys d2)) ->
    existsb bad l = true -> (length d1 + length d2 < length (fst (pop_compared l d1 d2)) + length (snd (pop_compared l d1 d2)) + length l)%nat.
  Proof.
    induction l as [|(k & c & m1 & m2) l IH]; intros d1 d2 NL N1 N2 B H; [discriminate|]. cbn [map fst] in NL. inversion NL as [|? ? K1 K2]; subst.
    assert (B' : forall k', In k' (map fst l) -> k' <> k) by (intros k' I ->; contradiction). destruct (B k) as (I1 & I2); [left; reflexivity|].
    cbn [existsb bad] in H. cbn [pop_compared length]. destruct (c || negb m1) eqn:E.
    - assert (H' : existsb bad l = true) by (destruct c, m1; cbn in *; congruence). pose proof (ddel_length d1 k N1 I1).
      assert (X := IH (ddel eqb_key k d1) d2 K2 (ddel_NoDup eqb_key _ _ N1) N2). lapply X; [clear X; intros X; specialize (X H'); lia|].
      intros k' I. destruct (B k') as (P & Q); [right; exact I|]. split; [apply ddel_mem; auto | exact Q].
    - destruct (negb m2) eqn:E2.
      + assert (H' : existsb bad l = true) by (destruct c, m1, m2; cbn in *; congruence). pose proof (ddel_length d2 k N2 I2).
        assert (X := IH d1 (ddel eqb_key k d2) K2 N1 (ddel_NoDup eqb_key _ _ N2)). lapply X; [clear X; intros X; specialize (X H'); lia|].
        intros k' I. destruct (B k') as (P & Q); [right; exact I|]. split; [exact P | apply ddel_mem; auto].
      + cbn [fst snd]. lia.
  Qed.
End Dict.

Lemma map_NoDup_in {A B} (f : A -> B) : forall l, (forall a b, In a l -> In b l -> f a = f b -> a = b) -> NoDup l -> NoDup (map f l).
Proof.
  induction l as [|x l IH]; intros H ND; [constructor|]. inversion ND as [|? ? N1 N2]; subst. cbn [map]. constructor.
  - intros I. apply in_map_iff in I as (y & E & I). rewrite (H y x) in I; [contradiction | right; exact I | left; reflexivity | exact E].
  - apply IH; [|exact N2]. intros a b A0 B0. apply H; right; assumption.
Qed.
(** * Assignment to a mask *)
Lemma assign_spec {K} (p : K -> nat) (v : K -> bool) : forall (ks : list K) m, NoDup (map p ks) -> (forall k, In k ks -> (p k < length m)%nat) ->
  length (assign m (map p ks) (map v ks)) = length m /\
  (forall k, In k ks -> nth (p k) (assign m (map p ks) (map v ks)) false = v k) /\
  (forall i, ~ In i (map p ks) -> nth i (assign m (map p ks) (map v ks)) false = nth i m false).
Proof.
  unfold assign. induction ks as [|k ks IH]; intros m ND B; [cbn; split; [reflexivity|]; split; [contradiction | reflexivity]|].
  cbn [map combine fold_left fst snd] in *. inversion ND as [|? ? N1 N2]; subst. destruct (IH (set_nth (p k) (v k) m) N2) as (L & A & O); [intros k' I; rewrite set_nth_length; apply B; right; exact I|].
  split; [rewrite L; apply set_nth_length|]. split.
  - intros k' [<- | I]; [rewrite O by exact N1; apply set_nth_same, B; left; reflexivity | apply A, I].
  - intros i N. rewrite O by (intros I; apply N; right; exact I). apply set_nth_other. intros E. apply N. left. exact E.
Qed.

(** * Two tables *)
Section Index.
  Context (t : table) (G : good t).
  Definition pos (k : list Z) : nat := match dget eqb_key k (t_index t) with Ok i => i | Err _ => 0%nat end.
  Lemma in_index k p : In (k, p) (t_index t) <-> has t k p.
  Proof.
    unfold has. rewrite <- (gd_index t G k p). split; [apply (In_dget _ eqb_key_eq), (gd_once t G) | apply (dget_In _ eqb_key_eq)].
  Qed.
  Lemma pos_get k i : has t k i -> dget eqb_key k (t_index t) = Ok i.
  Proof. intros H. apply (gd_index t G), H. Qed.
  Lemma pos_has k i : has t k i -> pos k = i.
  Proof. intros H. unfold pos. rewrite (pos_get k i H). reflexivity. Qed.
  Lemma has_fun k i j : has t k i -> has t k j -> i = j.
  Proof. intros A B. rewrite <- (pos_has k i A). apply pos_has, B. Qed.
  Lemma in_keys k : In k (dkeys (t_index t)) <-> exists i, has t k i.
  Proof.
    unfold dkeys. rewrite in_map_iff. split; [intros ((k' & i) & E & I); cbn in E; subst k'; exists i; apply in_index, I | intros (i & H); exists (k, i); split; [reflexivity | apply in_index, H]].
  Qed.
  Lemma has_key i : (i < t_size t)%nat -> has t (key_of t i) i.
  Proof. intros L. split; [exact L | reflexivity]. Qed.
  Lemma positions_nodup (d : dict) : NoDup (dkeys d) -> (forall p, In p d -> In p (t_index t)) -> NoDup (map snd d).
  Proof.
    intros ND S0. assert (U : forall k k' i, In (k, i) d -> In (k', i) d -> k = k').
    { intros k k' i A B. apply S0, in_index in A, B. destruct A as (_ & <-), B as (_ & <-). reflexivity. }
    clear - ND U. induction d as [|(k & i) d IH]; [constructor|]. unfold dkeys in *. cbn [map fst snd] in *. inversion ND as [|? ? N1 N2]; subst. constructor.
    - intros I. apply in_map_iff in I as ((k' & i') & E & I). cbn in E. subst i'. assert (k = k') by (apply (U k k' i); [left; reflexivity | right; exact I]). subst k'. apply N1, in_map_iff. exists (k, i). auto.
    - apply IH; [exact N2|]. intros a b c A B. apply (U a b c); right; assumption.
  Qed.
  Lemma index_size : length (t_index t) = t_size t.
  Proof.
    rewrite <- (map_length snd). rewrite <- (seq_length (t_size t) 0). apply Permutation_length, NoDup_Permutation; [apply positions_nodup; [apply (gd_once t G) | auto] | apply seq_NoDup|].
    intros i. rewrite in_map_iff, in_seq. split.
    - intros ((k & i') & E & I). cbn in E. subst i'. apply in_index in I. destruct I as (L & _). lia.
    - intros L. exists (key_of t i, i). split; [reflexivity|]. apply in_index, has_key. lia.
  Qed.
  Lemma pos_dkeys : map pos (dkeys (t_index t)) = map snd (t_index t).
  Proof.
    unfold dkeys. rewrite map_map. apply map_ext_in. intros (k & i) I. cbn [fst snd]. apply pos_has, in_index, I.
  Qed.
End Index.

Section Add.
  Context (t o : table) (Gt : good t) (Go : good o) (AL : alike t o) (OT : same_places t o -> in_order t).
  Lemma same_dict : dict_eqb (t_index t) (t_index o) = true <-> same_places t o.
  Proof.
    unfold dict_eqb. rewrite andb_true_iff, Nat.eqb_eq, (index_size t Gt), (index_size o Go), forallb_forall. unfold same_places. split; intros (A & B); (split; [exact A|]).
    - intros i L. specialize (B (key_of t i, i)). cbn [fst snd] in B. destruct (dget eqb_key (key_of t i) (t_index o)) as [v|] eqn:E; [|discriminate B; apply (in_index t Gt), has_key, L].
      assert (v = i) as -> by (apply Nat.eqb_eq, B, (in_index t Gt), has_key, L). apply (gd_index o Go) in E. destruct E as (_ & E). congruence.
    - intros (k & i) I. apply (in_index t Gt) in I. cbn [fst snd]. destruct I as (L & K). rewrite (pos_get o Go k i); [apply Nat.eqb_refl|]. split; [lia|]. rewrite <- B by exact L. exact K.
  Qed.
  Definition common (k : list Z) : Prop := (exists i, has t k i) /\ (exists j, has o k j).
  Definition overlap : list (list Z) := if dict_eqb (t_index t) (t_index o) then dkeys (t_index t) else filter (fun k => dmem eqb_key k (t_index o)) (dkeys (t_index t)).
  Lemma overlap_In k : In k overlap <-> common k.
  Proof.
    unfold overlap, common. destruct (dict_eqb (t_index t) (t_index o)) eqn:E.
    - apply same_dict in E as (SZ & SK). rewrite (in_keys t Gt). split; [|tauto]. intros (i & L & K). split; [exists i; split; assumption|]. exists i. split; [lia | rewrite <- SK by exact L; exact K].
    - rewrite filter_In, (dmem_In _ eqb_key_eq), (in_keys t Gt), (in_keys o Go). reflexivity.
  Qed.
  Lemma overlap_NoDup : NoDup overlap.
  Proof. unfold overlap. destruct (dict_eqb _ _); [|apply NoDup_filter]; apply (gd_once t Gt). Qed.
  Notation p1 := (pos t).
  Notation p2 := (pos o).
  Lemma common_at k : In k overlap -> has t k (p1 k) /\ has o k (p2 k).
  Proof.
    intros I. apply overlap_In in I as ((i & A) & (j & B)). rewrite (pos_has t Gt k i A), (pos_has o Go k j B). auto.
  Qed.
  Lemma idx1 : mapM (fun k => dget eqb_key k (t_index t)) overlap = Ok (map p1 overlap).
  Proof. apply mapM_all. intros k I. apply (pos_get t Gt), common_at, I. Qed.
  Lemma idx2 : mapM (fun k => dget eqb_key k (t_index o)) overlap = Ok (map p2 overlap).
  Proof. apply mapM_all. intros k I. apply (pos_get o Go), common_at, I. Qed.
  Lemma arr1 : (if dict_eqb (t_index t) (t_index o) then seq 0 (t_size t) else map p1 overlap) = map p1 overlap.
  Proof.
    unfold overlap. destruct (dict_eqb (t_index t) (t_index o)) eqn:E; [|reflexivity]. rewrite (pos_dkeys t Gt). symmetry. apply OT, same_dict, E.
  Qed.
  Lemma arr2 : (if dict_eqb (t_index t) (t_index o) then seq 0 (t_size o) else map p2 overlap) = map p2 overlap.
  Proof.
    destruct (dict_eqb (t_index t) (t_index o)) eqn:E; [|reflexivity]. assert (SP := E). apply same_dict in SP as (SZ & SK). rewrite <- SZ. rewrite <- (OT (conj SZ SK)), <- (pos_dkeys t Gt).
    unfold overlap. rewrite E. apply map_ext_in. intros k I. apply (in_keys t Gt) in I as (i & H). rewrite (pos_has t Gt k i H). symmetry. apply (pos_has o Go). destruct H as (L & K). split; [lia | rewrite <- SK by exact L; exact K].
  Qed.
  Lemma p1_NoDup : NoDup (map p1 overlap).
  Proof.
    apply map_NoDup_in; [|apply overlap_NoDup]. intros a b A B E. apply common_at in A as ((_ & A) & _), B as ((_ & B) & _). rewrite E in A. congruence.
  Qed.
  Lemma p2_NoDup : NoDup (map p2 overlap).
  Proof.
    apply map_NoDup_in; [|apply overlap_NoDup]. intros a b A B E. apply common_at in A as (_ & (_ & A)), B as (_ & (_ & B)). rewrite E in A. congruence.
  Qed.
  Definition a1 (k : list Z) : bool := nth (p1 k) (t_mask t) false.
  Definition a2 (k : list Z) : bool := nth (p2 k) (t_mask o) false.
  Definition cp (k : list Z) : bool := same_cells t o (p1 k) (p2 k).
  Lemma take1 : take false (t_mask t) (map p1 overlap) = map a1 overlap.
  Proof. unfold take. rewrite map_map. reflexivity. Qed.
  Lemma take2 : take false (t_mask o) (map p2 overlap) = map a2 overlap.
  Proof. unfold take. rewrite map_map. reflexivity. Qed.
  Lemma zip_map f (g h : list Z -> bool) l : zip_with f (map g l) (map h l) = map (fun k => f (g k) (h k)) l.
  Proof. induction l as [|x l IH]; [reflexivity|]. cbn. rewrite IH. reflexivity. Qed.
  Lemma combine_map {A B C} (g : A -> B) (h : A -> C) l : combine (map g l) (map h l) = map (fun k => (g k, h k)) l.
  Proof. induction l as [|x l IH]; [reflexivity|]. cbn. rewrite IH. reflexivity. Qed.
  Lemma combine_map_l {A B} (g : A -> B) l : combine l (map g l) = map (fun k => (k, g k)) l.
  Proof. rewrite <- (map_id l) at 1. apply combine_map. Qed.
  Definition mask1 : list bool := assign (t_mask t) (map p1 overlap) (map (fun k => a1 k || a2 k) overlap).
  Definition mask2 : list bool := assign (t_mask o) (map p2 overlap) (map (fun k => a1 k || a2 k) overlap).
  Lemma mask1_spec : length mask1 = t_size t /\ (forall k, In k overlap -> nth (p1 k) mask1 false = a1 k || a2 k) /\ forall k i, has t k i -> ~ In k overlap -> nth i mask1 false = nth i (t_mask t) false.
  Proof.
    destruct (assign_spec p1 (fun k => a1 k || a2 k) overlap (t_mask t) p1_NoDup) as (L & A & O).
    { intros k I. rewrite (ok_mask t (gd_table t Gt)). apply common_at in I. apply I. }
    split; [unfold mask1; rewrite L; apply (ok_mask t (gd_table t Gt))|]. split; [exact A|]. intros k i H N. apply O. intros I. apply in_map_iff in I as (k' & E & I). apply N. assert (X := I). apply common_at in X as ((_ & K) & _). rewrite E in K. destruct H as (_ & K'). congruence.
  Qed.
  Lemma mask2_spec : length mask2 = t_size o /\ (forall k, In k overlap -> nth (p2 k) mask2 false = a1 k || a2 k) /\ forall k i, has o k i -> ~ In k overlap -> nth i mask2 false = nth i (t_mask o) false.
  Proof.
    destruct (assign_spec p2 (fun k => a1 k || a2 k) overlap (t_mask o) p2_NoDup) as (L & A & O).
    { intros k I. rewrite (ok_mask o (gd_table o Go)). apply common_at in I. apply I. }
    split; [unfold mask2; rewrite L; apply (ok_mask o (gd_table o Go))|]. split; [exact A|]. intros k i H N. apply O. intros I. apply in_map_iff in I as (k' & E & I). apply N. assert (X := I). apply common_at in X as (_ & (_ & K)). rewrite E in K. destruct H as (_ & K'). congruence.
  Qed.
  Lemma other_mask : assign (t_mask o) (map p2 overlap) (take false mask1 (map p1 overlap)) = mask2.
  Proof.
    unfold mask2. f_equal. unfold take. rewrite map_map. apply map_ext_in. intros k I. apply mask1_spec, I.
  Qed.

  Definition final_of (ow : option bool) : dict * dict :=
    let d1 := t_index t in let d2 := t_index o in
    if (length overlap =? 0)%nat then (d1, d2)
    else if is_true ow then pop_masked (map (fun k => (k, false)) overlap) d1 d2
    else if negb (is_false ow) && negb (existsb (fun k => a1 k && a2 k) overlap) then pop_masked (map (fun k => (k, a1 k)) overlap) d1 d2
    else if forallb cp overlap then pop_masked (map (fun k => (k, false)) overlap) d1 d2
    else if is_false ow then (d1, d2)
    else pop_compared (map (fun k => (k, (cp k, (a1 k, a2 k)))) overlap) d1 d2.
  Lemma add_check_form merge ow : add_check t o merge ow false =
    if is_true merge && negb (dict_eqb (t_index t) (t_index o)) then Err ValueError
    else if negb (length overlap =? 0)%nat && is_false merge then Err MirMetaError
    else if negb (length (t_index t) + length (t_index o) =? length (fst (final_of ow)) + length (snd (final_of ow)) + length overlap)%nat then Err MirMetaError
    else Ok (isort Nat.leb (map snd (fst (final_of ow))), isort Nat.leb (map snd (snd (final_of ow))), take false mask1 (isort Nat.leb (map snd (fst (final_of ow)))), take false mask2 (isort Nat.leb (map snd (snd (final_of ow))))).
  Proof.
    unfold add_check. rewrite andb_false_r. cbn [andb negb]. cbv zeta. rewrite !andb_true_r. destruct (is_true merge && negb (dict_eqb (t_index t) (t_index o))); [reflexivity|]. cbn [bind].
    fold overlap. destruct (negb (length overlap =? 0)%nat && is_false merge); [reflexivity|]. rewrite idx1. cbn [bind]. rewrite idx2. cbn [bind]. rewrite arr1, arr2, take1, take2, !zip_map. fold mask1. rewrite other_mask.
    replace (if (length overlap =? 0)%nat then _ else _) with (final_of ow); [reflexivity|].
    unfold final_of. cbv zeta. rewrite combine_map, map_map. cbn [fst snd]. rewrite !combine_map, !combine_map_l.
    assert (EX : forall l, existsb (fun b : bool => b) (map (fun k => a1 k && a2 k) l) = existsb (fun k => a1 k && a2 k) l) by (intros l; induction l as [|x l IH]; [reflexivity|]; cbn; rewrite IH; reflexivity).
    rewrite EX. assert (AT : forall l, all_true (map (fun k => same_cells t o (p1 k) (p2 k)) l) = forallb cp l) by (intros l; unfold all_true; induction l as [|x l IH]; [reflexivity|]; cbn; rewrite IH; reflexivity).
    rewrite AT. reflexivity.
  Qed.

  (** Who wins *)
  Definition clash (ow : option bool) (k : list Z) : bool :=
    negb (cp k) && (if is_true ow then false else if is_false ow then true else a1 k && a2 k).
  Definition winner_ok (ow : option bool) (g : list Z -> bool) : Prop :=
    forall k, In k overlap -> if is_true ow then g k = false else (a1 k = true -> g k = true \/ cp k = true) /\ (a1 k = false -> g k = false).
  Lemma keys_in (l : list (list Z)) : incl l overlap -> forall k, In k l -> In k (dkeys (t_index t)) /\ In k (dkeys (t_index o)).
  Proof. intros S0 k I. apply S0, common_at in I as (A & B). rewrite (in_keys t Gt), (in_keys o Go). eauto. Qed.
  Lemma final_ok ow : existsb (clash ow) overlap = false -> exists g, winner_ok ow g /\ final_of ow = pop_masked (map (fun k => (k, g k)) overlap) (t_index t) (t_index o).
  Proof.
    intros NC. unfold final_of. cbv zeta. destruct (length overlap =? 0)%nat eqn:E0.
    { apply Nat.eqb_eq, length_zero_iff_nil in E0. exists a1. rewrite E0. split; [|reflexivity]. intros k I. rewrite E0 in I. contradiction. }
    destruct (is_true ow) eqn:E1; [exists (fun _ => false); split; [|reflexivity]; intros k I; rewrite E1; reflexivity|].
    assert (W : forall g, (forall k, In k overlap -> (a1 k = true -> g k = true \/ cp k = true) /\ (a1 k = false -> g k = false)) -> winner_ok ow g) by (intros g H k I; rewrite E1; apply H, I).
    destruct (negb (is_false ow) && negb (existsb (fun k => a1 k && a2 k) overlap)); [exists a1; split; [apply W; intros k _; auto | reflexivity]|].
    destruct (forallb cp overlap) eqn:E2.
    { exists (fun _ => false). split; [|reflexivity]. apply W. rewrite forallb_forall in E2. intros k I. split; [right; apply E2, I | reflexivity]. }
    destruct (is_false ow) eqn:E3.
    { exfalso. apply not_true_iff_false in E2. apply E2, forallb_forall. intros k I. destruct (cp k) eqn:C; [reflexivity|]. apply not_true_iff_false in NC. exfalso. apply NC, existsb_exists. exists k. split; [exact I|]. unfold clash. rewrite C, E1, E3. reflexivity. }
    exists (fun k => a1 k && negb (cp k)). split; [|rewrite pop_compared_good; [rewrite map_map; reflexivity|]].
    - apply W. intros k I. destruct (a1 k), (cp k); cbn; auto; split; auto; discriminate.
    - apply not_true_iff_false. intros X. apply existsb_exists in X as (q & Q & BQ). apply in_map_iff in Q as (k & <- & I). apply not_true_iff_false in NC. apply NC, existsb_exists. exists k. split; [exact I|]. unfold clash. rewrite E1, E3. cbn [bad] in BQ. rewrite andb_assoc. exact BQ.
  Qed.
  Lemma final_bad ow : existsb (clash ow) overlap = true -> (length (t_index t) + length (t_index o) < length (fst (final_of ow)) + length (snd (final_of ow)) + length overlap)%nat.
  Proof.
    intros NC. apply existsb_exists in NC as (k & I & C). unfold clash in C. apply andb_true_iff in C as (C & R). apply negb_true_iff in C. unfold final_of. cbv zeta.
    assert (LO : (0 < length overlap)%nat) by (destruct overlap; [contradiction | cbn; lia]). destruct (Nat.eqb_spec (length overlap) 0) as [X | _]; [lia|]. destruct (is_true ow); [discriminate R|].
    assert (FC : forallb cp overlap = false) by (apply not_true_iff_false; intros X; rewrite forallb_forall in X; rewrite (X k I) in C; discriminate). destruct (is_false ow) eqn:E3.
    - cbn [negb andb]. rewrite FC. cbn [fst snd]. lia.
    - replace (existsb (fun k => a1 k && a2 k) overlap) with true by (symmetry; apply existsb_exists; exists k; auto). cbn [negb andb]. rewrite FC.
      assert (E : length overlap = length (map (fun k => (k, (cp k, (a1 k, a2 k)))) overlap)) by (symmetry; apply map_length). rewrite E. apply pop_compared_bad.
      + rewrite map_map. cbn [fst]. rewrite map_id. apply overlap_NoDup.
      + apply (gd_once t Gt).
      + apply (gd_once o Go).
      + rewrite map_map. cbn [fst]. rewrite map_id. apply keys_in, incl_refl.
      + apply existsb_exists. exists (k, (cp k, (a1 k, a2 k))). split; [apply in_map_iff; eauto|]. cbn [bad]. rewrite C. exact R.
  Qed.
  Lemma same_cells_spec i j : same_cells t o i j = true <-> same_record t i o j.
  Proof.
    unfold same_cells, same_record. rewrite forallb_forall. split.
    - intros H f F. destruct (known_get t (gd_table t Gt) f F) as (c & E & _). specialize (H (f, c) (dget_In _ str_eq _ _ _ E)). cbn [fst snd] in H. destruct (dget String.eqb f (t_data o)) as [c'|] eqn:E'; [|discriminate].
      unfold cell_eqb in H. destruct (list_eq_dec Z.eq_dec (nth i c []) (nth j c' [])) as [EQ|]; [|discriminate]. unfold cell_at. rewrite E, E'. exact EQ.
    - intros H (f & c) I. cbn [fst snd]. assert (F : In f (fields t)) by (apply in_map_iff; exists (f, c); auto). assert (E : dget String.eqb f (t_data t) = Ok c) by (apply (In_dget _ str_eq); [apply (ok_fields t (gd_table t Gt)) | exact I]).
      specialize (H f F). unfold cell_at in H. rewrite E in H. assert (F' : In f (fields o)) by (rewrite <- (proj1 AL); exact F). destruct (known_get o (gd_table o Go) f F') as (c' & E' & _). rewrite E' in H |- *. unfold cell_eqb. destruct (list_eq_dec Z.eq_dec (nth i c []) (nth j c' [])); [reflexivity | contradiction].
  Qed.
  Lemma clash_spec ow : existsb (clash ow) overlap = false <-> forall k i j, has t k i -> has o k j -> ~ conflict ow t i o j.
  Proof.
    assert (CS : forall k i j, has t k i -> has o k j -> (clash ow k = true <-> conflict ow t i o j)).
    { intros k i j A B. unfold clash, conflict, cp, a1, a2. rewrite (pos_has t Gt k i A), (pos_has o Go k j B), andb_true_iff, negb_true_iff, <- not_true_iff_false, same_cells_spec. unfold active.
      destruct ow as [[|]|]; cbn [is_true is_false]; [intuition discriminate | tauto | rewrite andb_true_iff; tauto]. }
    rewrite <- not_true_iff_false, existsb_exists. split.
    - intros N k i j A B C. apply N. exists k. split; [apply overlap_In; split; eauto | apply (CS k i j); assumption].
    - intros H (k & I & C). apply common_at in I as (A & B). apply (H k _ _ A B), (CS k _ _ A B), C.
  Qed.

  (** The table *)
  Section Sum.
    Context (ow : option bool) (g : list Z -> bool) (W : winner_ok ow g).
    Let F := pop_masked (map (fun k => (k, g k)) overlap) (t_index t) (t_index o).
    Let A := isort Nat.leb (map snd (fst F)).
    Let B := isort Nat.leb (map snd (snd F)).
    Lemma lost k b : In (k, b) (map (fun k => (k, g k)) overlap) <-> In k overlap /\ g k = b.
    Proof. rewrite in_map_iff. split; [intros (k' & E & I); injection E as -> E; auto | intros (I & <-); eauto]. Qed.
    Lemma in_A i : In i A <-> exists k, has t k i /\ (In k overlap -> g k = true).
    Proof.
      unfold A. rewrite isort_In, in_map_iff. split.
      - intros ((k & i') & E & I). cbn in E. subst i'. apply (proj1 (pop_masked_In _ _ _ _)) in I as (I & N). cbn [fst] in N. rewrite lost in N. exists k. split; [apply (in_index t Gt), I|]. intros O. destruct (g k); [reflexivity | exfalso; auto].
      - intros (k & H & N). exists (k, i). split; [reflexivity|]. apply (proj1 (pop_masked_In _ _ _ _)). split; [apply (in_index t Gt), H|]. cbn [fst]. rewrite lost. intros (O & X). rewrite (N O) in X. discriminate.
    Qed.
    Lemma in_B j : In j B <-> exists k, has o k j /\ (In k overlap -> g k = false).
    Proof.
      unfold B. rewrite isort_In, in_map_iff. split.
      - intros ((k & i') & E & I). cbn in E. subst i'. apply (proj2 (pop_masked_In _ _ _ _)) in I as (I & N). cbn [fst] in N. rewrite lost in N. exists k. split; [apply (in_index o Go), I|]. intros O. destruct (g k); [exfalso; auto | reflexivity].
      - intros (k & H & N). exists (k, j). split; [reflexivity|]. apply (proj2 (pop_masked_In _ _ _ _)). split; [apply (in_index o Go), H|]. cbn [fst]. rewrite lost. intros (O & X). rewrite (N O) in X. discriminate.
    Qed.
    Lemma sizes : (length (t_index t) + length (t_index o) = length (fst F) + length (snd F) + length overlap)%nat /\ NoDup (dkeys (fst F)) /\ NoDup (dkeys (snd F)).
    Proof.
      destruct (pop_masked_size (map (fun k => (k, g k)) overlap) (t_index t) (t_index o)) as (L & N1 & N2).
      - rewrite map_map. cbn [fst]. rewrite map_id. apply overlap_NoDup.
      - apply (gd_once t Gt).
      - apply (gd_once o Go).
      - rewrite map_map. cbn [fst]. rewrite map_id. apply keys_in, incl_refl.
      - rewrite map_length in L. split; [fold F in L; lia | auto].
    Qed.
    Lemma A_NoDup : NoDup A.
    Proof.
      eapply Permutation_NoDup; [apply isort_perm|]. apply (positions_nodup t Gt); [apply sizes|]. intros p I. apply (proj1 (pop_masked_In _ _ _ _)) in I. apply I.
    Qed.
    Lemma B_NoDup : NoDup B.
    Proof.
      eapply Permutation_NoDup; [apply isort_perm|]. apply (positions_nodup o Go); [apply sizes|]. intros p I. apply (proj2 (pop_masked_In _ _ _ _)) in I. apply I.
    Qed.
    Definition column_of (f : string) : list cell := map (cell_at t f) A ++ map (cell_at o f) B.
    Lemma cols_form : mapM (fun p => do c <- dget String.eqb (fst p) (t_data o); Ok (fst p, take [] (snd p) A ++ take [] c B)) (t_data t) = Ok (map (fun p => (fst p, column_of (fst p))) (t_data t)).
    Proof.
      apply mapM_all. intros (f & c) I. cbn [fst snd]. assert (Ff : In f (fields t)) by (apply in_map_iff; exists (f, c); auto). assert (E : dget String.eqb f (t_data t) = Ok c) by (apply (In_dget _ str_eq); [apply (ok_fields t (gd_table t Gt)) | exact I]).
      assert (F' : In f (fields o)) by (rewrite <- (proj1 AL); exact Ff). destruct (known_get o (gd_table o Go) f F') as (c' & E' & _). rewrite E'. cbn [bind]. unfold column_of, take. do 3 f_equal; apply map_ext; intros i; unfold cell_at; rewrite ?E, ?E'; reflexivity.
    Qed.
    Let u : table := {| t_key := t_key t; t_data := map (fun p => (fst p, column_of (fst p))) (t_data t); t_size := (length A + length B)%nat; t_mask := take false mask1 A ++ take false mask2 B; t_index := []; t_stored := [] |}.
    Lemma u_fields : fields u = fields t.
    Proof. unfold fields, u. cbn [t_data]. rewrite map_map. reflexivity. Qed.
    Lemma u_ok : table_ok u.
    Proof.
      constructor.
      - rewrite u_fields. apply (ok_fields t (gd_table t Gt)).
      - apply Forall_forall. intros p I. unfold u in I. cbn [t_data] in I. apply in_map_iff in I as (q & <- & _). cbn [snd]. unfold column_of. rewrite app_length, !map_length. reflexivity.
      - unfold u. cbn [t_mask t_size]. unfold take. rewrite app_length, !map_length. reflexivity.
      - rewrite u_fields. apply (ok_key t (gd_table t Gt)).
    Qed.
    Lemma u_cell f p : In f (fields t) -> (p < length A + length B)%nat -> cell_at u f p = if (p <? length A)%nat then cell_at t f (nth p A 0%nat) else cell_at o f (nth (p - length A) B 0%nat).
    Proof.
      intros Ff L. assert (E : dget String.eqb f (t_data u) = Ok (column_of f)).
      { apply (In_dget _ str_eq); [apply (ok_fields u u_ok)|]. unfold u. cbn [t_data]. apply in_map_iff in Ff as (q & <- & I). apply in_map_iff. exists q. auto. }
      unfold cell_at at 1. rewrite E. unfold column_of. destruct (Nat.ltb_spec p (length A)).
      - rewrite app_nth1 by (rewrite map_length; assumption). rewrite (nth_indep _ [] (cell_at t f 0%nat)) by (rewrite map_length; assumption). apply map_nth.
      - rewrite app_nth2 by (rewrite map_length; assumption). rewrite map_length. rewrite (nth_indep _ [] (cell_at o f 0%nat)) by (rewrite map_length; lia). apply map_nth.
    Qed.
    Lemma u_key p : (p < length A + length B)%nat -> key_of u p = if (p <? length A)%nat then key_of t (nth p A 0%nat) else key_of o (nth (p - length A) B 0%nat).
    Proof.
      intros L. unfold key_of. rewrite <- (proj2 AL). change (t_key u) with (t_key t). destruct (p <? length A)%nat eqn:E; unfold names_of; apply map_ext_in; intros f I; f_equal; rewrite u_cell by (try exact L; apply (ok_key t (gd_table t Gt)), I); rewrite E; reflexivity.
    Qed.
    (** Where a record of the sum comes from *)
    Lemma from k p : has u k p ->
      (p < length A)%nat /\ has t k (nth p A 0%nat) /\ (In k overlap -> g k = true) /\ same_record u p t (nth p A 0%nat) /\ nth p (t_mask u) false = nth (nth p A 0%nat) mask1 false \/
      (length A <= p)%nat /\ has o k (nth (p - length A) B 0%nat) /\ (In k overlap -> g k = false) /\ same_record u p o (nth (p - length A) B 0%nat) /\ nth p (t_mask u) false = nth (nth (p - length A) B 0%nat) mask2 false.
    Proof.
      intros (L & K). change (t_size u) with (length A + length B)%nat in L. rewrite u_key in K by exact L. destruct (Nat.ltb_spec p (length A)) as [LT | GE].
      - left. split; [exact LT|]. assert (IA : In (nth p A 0%nat) A) by (apply nth_In, LT). apply in_A in IA as (k' & H & N). assert (k' = k) as -> by (destruct H as (_ & <-); exact K). split; [exact H|]. split; [exact N|]. split.
        + intros f Ff. rewrite u_fields in Ff. rewrite u_cell by assumption. destruct (Nat.ltb_spec p (length A)); [reflexivity | lia].
        + unfold u. cbn [t_mask]. unfold take. rewrite app_nth1 by (rewrite map_length; exact LT). apply (nth_map (fun i => nth i mask1 false)), LT.
      - right. split; [exact GE|]. assert (IB : In (nth (p - length A) B 0%nat) B) by (apply nth_In; lia). apply in_B in IB as (k' & H & N). assert (k' = k) as -> by (destruct H as (_ & <-); exact K). split; [exact H|]. split; [exact N|]. split.
        + intros f Ff. rewrite u_fields in Ff. rewrite u_cell by assumption. destruct (Nat.ltb_spec p (length A)); [lia | reflexivity].
        + unfold u. cbn [t_mask]. unfold take. rewrite app_nth2 by (rewrite map_length; exact GE). rewrite map_length. apply (nth_map (fun i => nth i mask2 false)). lia.
    Qed.
    Lemma u_inj i j : (i < t_size u)%nat -> (j < t_size u)%nat -> key_of u i = key_of u j -> i = j.
    Proof.
      intros Li Lj K. destruct (from (key_of u i) i) as [(P1 & H1 & N1 & _) | (P1 & H1 & N1 & _)]; [split; [exact Li | reflexivity] | |]; (destruct (from (key_of u i) j) as [(P2 & H2 & N2 & _) | (P2 & H2 & N2 & _)]; [split; [exact Lj | symmetry; exact K] | |]).
      - apply (proj1 (NoDup_nth A 0%nat) A_NoDup); try assumption. exact (has_fun t Gt _ _ _ H1 H2).
      - exfalso. assert (I : In (key_of u i) overlap) by (apply overlap_In; split; eauto). rewrite (N1 I) in N2. discriminate (N2 I).
      - exfalso. assert (I : In (key_of u i) overlap) by (apply overlap_In; split; eauto). rewrite (N1 I) in N2. discriminate (N2 I).
      - change (t_size u) with (length A + length B)%nat in Li, Lj. assert ((i - length A)%nat = (j - length A)%nat); [|lia]. apply (proj1 (NoDup_nth B 0%nat) B_NoDup); try lia. exact (has_fun o Go _ _ _ H1 H2).
    Qed.
    Lemma at_A k i : has t k i -> (In k overlap -> g k = true) -> exists p, has u k p.
    Proof.
      intros H N. assert (I : In i A) by (apply in_A; eauto). apply (In_nth _ _ 0%nat) in I as (p & L & E). exists p. split; [change (t_size u) with (length A + length B)%nat; lia|]. rewrite u_key by lia. destruct (Nat.ltb_spec p (length A)); [|lia]. rewrite E. apply H.
    Qed.
    Lemma at_B k j : has o k j -> (In k overlap -> g k = false) -> exists p, has u k p.
    Proof.
      intros H N. assert (I : In j B) by (apply in_B; eauto). apply (In_nth _ _ 0%nat) in I as (p & L & E). exists (length A + p)%nat. split; [change (t_size u) with (length A + length B)%nat; lia|]. rewrite u_key by lia. destruct (Nat.ltb_spec (length A + p) (length A)); [lia|].
      replace (length A + p - length A)%nat with p by lia. rewrite E. apply H.
    Qed.
    Lemma sum_ok : exists t', set_index u = Ok t' /\ sum ow t o t'.
    Proof.
      destruct (set_index_good u u_ok u_inj) as (ix & E & GD & _). rewrite E. eexists. split; [reflexivity|]. set (t' := {| t_key := t_key u; t_data := t_data u; t_size := t_size u; t_mask := t_mask u; t_index := ix; t_stored := t_stored u |}) in *.
      assert (FR : forall k p, has t' k p -> has u k p) by (intros k p H; exact H).
      assert (NO : forall k, ~ In k overlap <-> ~ common k) by (intros k; rewrite overlap_In; reflexivity).
      constructor.
      - exact GD.
      - split; [symmetry; exact u_fields | reflexivity].
      - intros k. split.
        + intros (p & H). destruct (from k p H) as [(_ & X & _) | (_ & X & _)]; eauto.
        + intros [(i & H) | (j & H)].
          * destruct (in_dec (list_eq_dec Z.eq_dec) k overlap) as [I | N]; [|apply (at_A k i H); contradiction]. destruct (g k) eqn:Eg; [apply (at_A k i H); auto|]. apply (at_B k (p2 k)); [apply common_at, I | auto].
          * destruct (in_dec (list_eq_dec Z.eq_dec) k overlap) as [I | N]; [|apply (at_B k j H); contradiction]. destruct (g k) eqn:Eg; [|apply (at_B k j H); auto]. apply (at_A k (p1 k)); [apply common_at, I | auto].
      - intros k p i H Hi NJ. destruct (from k p H) as [(_ & X & _ & SR & M) | (_ & X & _)]; [|destruct (NJ _ X)]. rewrite (has_fun t Gt k _ _ X Hi) in SR, M. split; [|exact SR].
        unfold active. change (t_mask t') with (t_mask u). rewrite M. rewrite (proj2 (proj2 mask1_spec) k i Hi); [reflexivity|]. apply NO. intros (_ & j & J). destruct (NJ j J).
      - intros k p j H Hj NI. destruct (from k p H) as [(_ & X & _) | (_ & X & _ & SR & M)]; [destruct (NI _ X)|]. rewrite (has_fun o Go k _ _ X Hj) in SR, M. split; [|exact SR].
        unfold active. change (t_mask t') with (t_mask u). rewrite M. rewrite (proj2 (proj2 mask2_spec) k j Hj); [reflexivity|]. apply NO. intros ((i & I) & _). destruct (NI i I).
      - intros k p i j H Hi Hj. assert (IO : In k overlap) by (apply overlap_In; split; eauto). specialize (W k IO). pose proof (pos_has t Gt k i Hi) as P1. pose proof (pos_has o Go k j Hj) as P2.
        assert (AA : a1 k || a2 k = true <-> active t i \/ active o j) by (unfold a1, a2, active; rewrite P1, P2; apply orb_true_iff).
        assert (CS : cp k = true -> same_record t i o j) by (unfold cp; rewrite P1, P2; apply same_cells_spec).
        assert (A1 : a1 k = true <-> active t i) by (unfold a1, active; rewrite P1; reflexivity).
        assert (ALu : forall q, same_record t' p t q <-> same_record u p t q) by (intros q; reflexivity).
        destruct (from k p H) as [(_ & X & N & SR & M) | (_ & X & N & SR & M)].
        + rewrite (has_fun t Gt k _ _ X Hi) in SR, M. split; [unfold active at 1; change (t_mask t') with (t_mask u); pose proof (proj1 (proj2 mask1_spec) k IO) as MM; rewrite P1 in MM; rewrite M, MM; exact AA|].
          specialize (N IO). destruct ow as [[|]|]; cbn [is_true] in W; [congruence | |]; (split; [intros _; exact SR | intros NA; exfalso; apply NA, A1; destruct (a1 k); [reflexivity | rewrite (proj2 W eq_refl) in N; discriminate N]]).
        + rewrite (has_fun o Go k _ _ X Hj) in SR, M. split; [unfold active at 1; change (t_mask t') with (t_mask u); pose proof (proj1 (proj2 mask2_spec) k IO) as MM; rewrite P2 in MM; rewrite M, MM; exact AA|].
          specialize (N IO). assert (Q : is_true ow = false -> (active t i -> same_record t' p t i) /\ (~ active t i -> same_record t' p o j)).
          { intros ET. rewrite ET in W. split; [|intros _; exact SR]. intros AC. apply A1 in AC. destruct (proj1 W AC) as [Z | Z]; [congruence|]. intros f Ff. transitivity (cell_at o f j); [exact (SR f Ff)|]. symmetry. apply (CS Z). change (In f (fields u)) in Ff. rewrite u_fields in Ff. exact Ff. }
          destruct ow as [[|]|]; [exact SR | apply Q; reflexivity | apply Q; reflexivity].
    Qed.
  End Sum.

  Theorem add_exact merge ow : (exists t', add t o merge ow false = Ok t') <-> allowed t o merge ow.
  Proof.
    unfold add. rewrite add_check_form. unfold allowed. rewrite <- clash_spec. 
    assert (ME : (is_true merge && negb (dict_eqb (t_index t) (t_index o)) = false /\ negb (length overlap =? 0)%nat && is_false merge = false) <-> match merge with Some true => same_places t o | Some false => forall k i j, ~ (has t k i /\ has o k j) | None => True end).
    { destruct merge as [[|]|]; cbn [is_true is_false].
      - rewrite andb_false_r, andb_true_l, negb_false_iff, same_dict. tauto.
      - rewrite andb_true_r, negb_false_iff, Nat.eqb_eq. cbn [andb]. split.
        + intros (_ & E) k i j (X & Y). apply length_zero_iff_nil in E. assert (I : In k overlap) by (apply overlap_In; split; eauto). rewrite E in I. contradiction.
        + intros N. split; [reflexivity|]. destruct overlap as [|k l] eqn:E; [reflexivity|]. exfalso. destruct (common_at k) as (X & Y); [rewrite E; left; reflexivity|]. apply (N k _ _ (conj X Y)).
      - rewrite andb_false_r. tauto. }
    rewrite <- ME. destruct (is_true merge && negb (dict_eqb (t_index t) (t_index o))); [split; [intros (? & X); discriminate X | intros ((X & _) & _); discriminate X]|].
    destruct (negb (length overlap =? 0)%nat && is_false merge); [split; [intros (? & X); discriminate X | intros ((_ & X) & _); discriminate X]|].
    destruct (existsb (clash ow) overlap) eqn:NC.
    - pose proof (final_bad ow NC) as L. destruct (Nat.eqb_spec (length (t_index t) + length (t_index o)) (length (fst (final_of ow)) + length (snd (final_of ow)) + length overlap)); [lia|]. cbn [negb bind]. split; [intros (? & X); discriminate X | intros (_ & X); discriminate X].
    - destruct (final_ok ow NC) as (g & W & E). rewrite E. rewrite (proj1 (sizes g)), Nat.eqb_refl. cbn [negb bind]. rewrite (cols_form g). cbn [bind]. destruct (sum_ok ow g W) as (t' & E' & _). split; [auto|]. intros _. exists t'. exact E'.
  Qed.
  Theorem add_sum merge ow t' : add t o merge ow false = Ok t' -> sum ow t o t'.
  Proof.
    unfold add. rewrite add_check_form. destruct (is_true merge && negb (dict_eqb (t_index t) (t_index o))); [discriminate|]. destruct (negb (length overlap =? 0)%nat && is_false merge); [discriminate|].
    destruct (existsb (clash ow) overlap) eqn:NC.
    - pose proof (final_bad ow NC) as L. destruct (Nat.eqb_spec (length (t_index t) + length (t_index o)) (length (fst (final_of ow)) + length (snd (final_of ow)) + length overlap)); [lia | discriminate].
    - destruct (final_ok ow NC) as (g & W & E). rewrite E. rewrite (proj1 (sizes g)), Nat.eqb_refl. cbn [negb bind]. rewrite (cols_form g). cbn [bind]. destruct (sum_ok ow g W) as (t1 & E' & SU). intros H. rewrite E' in H. injection H as <-. exact SU.
  Qed.
End Add.
