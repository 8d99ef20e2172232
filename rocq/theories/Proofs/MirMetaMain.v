(** Proofs about the metadata tables of Mir data sets: values, masks, keys, groups, going back. *)
From Coq Require Import List ZArith Bool Arith String Lia Sorting.Sorted Permutation.
From Verif Require Import Lib.Py Lib.Np Lib.Dict Lib.Sorting Model.MirMeta Spec.MirMetaSpec Proofs.MirMetaProofs.
Import ListNotations.
Notation length := List.length.
Open Scope list_scope.
Open Scope Z_scope.

(** * Values *)
Theorem get_exact t f um q vs : table_ok t -> index_ok t -> fair um q ->
  (get_value t f um q = Ok vs <-> In f (fields t) /\ exists ps, chosen t um q ps /\ vs = map (cell_at t f) ps).
Proof.
  intros OK IX FA. unfold get_value, column. split.
  - destruct (index_query t um q) as [ix|] eqn:EI; [|discriminate]. cbn [bind]. destruct (field_dec t f) as [K | N]; [|rewrite (unknown_get t f N); discriminate].
    destruct (known_get t OK f K) as (c & E & L). rewrite E. cbn [bind]. destruct (positions (t_size t) ix) as [ps|] eqn:EP; [|discriminate]. cbn [bind]. intros H. injection H as <-.
    split; [exact K|]. exists ps. split; [apply (query_spec t OK um q ps IX FA); eauto|]. unfold take. apply map_ext. intros i. apply column_at, E.
  - intros (K & ps & C & ->). apply (query_spec t OK um q ps IX FA) in C as (ix & -> & EP). cbn [bind]. destruct (known_get t OK f K) as (c & E & L). rewrite E. cbn [bind]. rewrite EP. cbn [bind]. f_equal. unfold take. apply map_ext. intros i. apply column_at, E.
Qed.

Lemma chosen_lt t um q ps i : chosen t um q ps -> In i ps -> (i < t_size t)%nat.
Proof.
  destruct q as [|ws both|ks|l]; cbn [chosen].
  - intros (_ & H) I. apply H in I. tauto.
  - intros (_ & _ & H) I. apply H in I. tauto.
  - intros (_ & F) I. induction F as [|k p ks ps (L & _) F IH]; [contradiction|]. destruct I as [<- | I]; [exact L | apply IH, I].
  - intros (_ & -> & F) I. rewrite Forall_forall in F. apply F, I.
Qed.

Lemma set_nth_same {A} i (v : A) l d : (i < length l)%nat -> nth i (set_nth i v l) d = v.
Proof. intros L. rewrite nth_set_nth by exact L. rewrite Nat.eqb_refl. reflexivity. Qed.
Lemma set_nth_other {A} i j (v : A) d : forall l, i <> j -> nth j (set_nth i v l) d = nth j l d.
Proof.
  revert i j. induction i as [|i IH]; intros j [|x l] N; try reflexivity; destruct j as [|j]; try reflexivity; [contradiction N; reflexivity|].
  cbn [set_nth nth]. apply IH. congruence.
Qed.
Lemma put_same x ps : forall c, (forall i, In i ps -> (i < length c)%nat) ->
  length (fold_left (fun c p => set_nth p x c) ps c) = length c /\
  forall i, nth i (fold_left (fun c p => set_nth p x c) ps c) [] = if in_dec Nat.eq_dec i ps then x else nth i c ([] : cell).
Proof.
  induction ps as [|p ps IH]; intros c B; [split; [reflexivity|]; intros i; destruct (in_dec Nat.eq_dec i []); [contradiction | reflexivity]|]. cbn [fold_left].
  destruct (IH (set_nth p x c)) as (L & H). { intros i I. rewrite set_nth_length. apply B. right; exact I. }
  split; [rewrite L; apply set_nth_length|]. intros i. rewrite H. destruct (in_dec Nat.eq_dec i ps) as [I | N].
  - destruct (in_dec Nat.eq_dec i (p :: ps)) as [_ | X]; [reflexivity | exfalso; apply X; right; exact I].
  - destruct (Nat.eq_dec p i) as [-> | NE].
    + rewrite set_nth_same by (apply B; left; reflexivity). destruct (in_dec Nat.eq_dec i (i :: ps)) as [_ | X]; [reflexivity | exfalso; apply X; left; reflexivity].
    + rewrite set_nth_other by congruence. destruct (in_dec Nat.eq_dec i (p :: ps)) as [[X | X] | _]; [contradiction | contradiction | reflexivity].
Qed.
Lemma put_each : forall ps xs c, length xs = length ps -> (forall i, In i ps -> (i < length c)%nat) ->
  let c' := fold_left (fun c px => set_nth (fst px) (snd px) c) (combine ps xs) c in
  length c' = length c /\ (forall i, ~ In i ps -> nth i c' [] = nth i c ([] : cell)) /\
  (NoDup ps -> forall k, (k < length ps)%nat -> nth (nth k ps 0%nat) c' [] = nth k xs []).
Proof.
  induction ps as [|p ps IH]; intros xs c L B; [cbn; split; [reflexivity|]; split; [reflexivity | intros; lia]|].
  destruct xs as [|x xs]; [discriminate L|]. cbv zeta. cbn [combine fold_left fst snd]. destruct (IH xs (set_nth p x c)) as (L' & O & E); [cbn in L; lia | intros i I; rewrite set_nth_length; apply B; right; exact I|]. cbv zeta in *.
  split; [rewrite L'; apply set_nth_length|]. split.
  - intros i N. rewrite O by (intros I; apply N; right; exact I). apply set_nth_other. intros ->. apply N. left. reflexivity.
  - intros ND k LT. inversion ND as [|? ? NI ND']; subst. destruct k as [|k].
    + cbn [nth]. rewrite O by exact NI. apply set_nth_same, B. left. reflexivity.
    + cbn [nth]. apply E; [exact ND' | cbn in LT; lia].
Qed.

Theorem set_exact t f v um q : table_ok t -> index_ok t -> fair um q ->
  ((exists t', set_value t f v um q = Ok t') <->
   In f (fields t) /\ exists ps, chosen t um q ps /\ match v with Same _ => True | Each xs => length xs = length ps end) /\
  forall t', set_value t f v um q = Ok t' -> table_ok t' /\ exists ps, chosen t um q ps /\ replaced t t' f v ps.
Proof.
  intros OK IX FA.
  assert (M : forall ps, In f (fields t) -> chosen t um q ps -> match v with Same _ => True | Each xs => length xs = length ps end ->
    exists t', set_value t f v um q = Ok t' /\ table_ok t' /\ replaced t t' f v ps).
  { intros ps K C LV. unfold set_value, column. pose proof (fun i => chosen_lt t um q ps i C) as B. apply (query_spec t OK um q ps IX FA) in C as (ix & -> & EP). cbn [bind].
    destruct (known_get t OK f K) as (c & E & L). rewrite E. cbn [bind]. rewrite EP. cbn [bind].
    assert (PU : exists c', put c ps v = Ok c' /\ length c' = length c /\ (forall i, ~ In i ps -> nth i c' [] = nth i c []) /\
        match v with Same x => forall i, In i ps -> nth i c' [] = x | Each xs => NoDup ps -> forall k, (k < length ps)%nat -> nth (nth k ps 0%nat) c' [] = nth k xs [] end).
    { unfold put. destruct v as [x | xs].
      - destruct (put_same x ps c) as (L' & H); [intros i I; rewrite L; apply B, I|]. eexists. split; [reflexivity|]. split; [exact L'|]. split.
        + intros i N. rewrite H. destruct (in_dec Nat.eq_dec i ps); [contradiction | reflexivity].
        + intros i I. rewrite H. destruct (in_dec Nat.eq_dec i ps); [reflexivity | contradiction].
      - rewrite LV, Nat.eqb_refl. destruct (put_each ps xs c LV) as (L' & O & H); [intros i I; rewrite L; apply B, I|]. eexists. split; [reflexivity|]. auto. }
    destruct PU as (c' & -> & L' & O & H). cbn [bind]. eexists. split; [reflexivity|].
    assert (KF : map fst (dset String.eqb f c' (t_data t)) = map fst (t_data t)) by (apply (dset_keys _ str_eq); exact K).
    assert (CA : forall g i, cell_at {| t_key := t_key t; t_data := dset String.eqb f c' (t_data t); t_size := t_size t; t_mask := t_mask t; t_index := t_index t; t_stored := if dmem String.eqb f (t_stored t) then t_stored t else dset String.eqb f c (t_stored t) |} g i = if String.eqb g f then nth i c' [] else cell_at t g i).
    { intros g i. unfold cell_at. cbn [t_data]. rewrite (dget_dset _ str_eq). destruct (String.eqb g f); reflexivity. }
    split.
    - constructor; unfold fields; cbn [t_data t_size t_mask t_key].
      + rewrite KF. apply (ok_fields t OK).
      + apply Forall_forall. intros (g & c0) I. cbn [snd]. assert (ND : NoDup (map fst (dset String.eqb f c' (t_data t)))) by (rewrite KF; apply (ok_fields t OK)).
        apply (In_dget _ str_eq _ _ _ ND) in I. rewrite (dget_dset _ str_eq) in I. destruct (String.eqb g f); [injection I as <-; congruence|].
        apply (dget_In _ str_eq) in I. pose proof (ok_columns t OK) as F. rewrite Forall_forall in F. apply (F _ I).
      + apply (ok_mask t OK).
      + rewrite KF. apply (ok_key t OK).
    - unfold replaced. cbn [t_key t_size t_mask t_index]. do 4 (split; [reflexivity|]). split; [exact KF|]. split.
      + intros g i D. rewrite CA. destruct (String.eqb_spec g f) as [-> | NE]; [|reflexivity]. destruct D as [X | N]; [contradiction|]. rewrite (O i N). apply column_at, E.
      + destruct v as [x | xs].
        * intros i I. rewrite CA, String.eqb_refl. apply H, I.
        * intros ND k LT. rewrite CA, String.eqb_refl. apply H; assumption. }
  assert (N : forall t', set_value t f v um q = Ok t' -> In f (fields t) /\ exists ps, chosen t um q ps /\ match v with Same _ => True | Each xs => length xs = length ps end).
  { intros t'. unfold set_value, column. destruct (index_query t um q) as [ix|] eqn:EI; [|discriminate]. cbn [bind]. destruct (field_dec t f) as [K | NK]; [|rewrite (unknown_get t f NK); discriminate].
    destruct (known_get t OK f K) as (c & E & L). rewrite E. cbn [bind]. destruct (positions (t_size t) ix) as [ps|] eqn:EP; [|discriminate]. cbn [bind]. intros H. split; [exact K|].
    exists ps. split; [apply (query_spec t OK um q ps IX FA); eauto|]. destruct v as [x | xs]; [exact I|]. unfold put in H. destruct (Nat.eqb_spec (length xs) (length ps)); [assumption | discriminate H]. }
  split; [split|].
  - intros (t' & E). apply (N t' E).
  - intros (K & ps & C & LV). destruct (M ps K C LV) as (t' & E & _). eauto.
  - intros t' E. destruct (N t' E) as (K & ps & C & LV). destruct (M ps K C LV) as (t'' & E' & O' & R). rewrite E in E'. injection E' as <-. split; [exact O'|]. exists ps. auto.
Qed.

Lemma replaced_index t t' f v ps : replaced t t' f v ps -> ~ In f (t_key t) -> index_ok t -> index_ok t'.
Proof.
  intros (K & SZ & _ & IX & _ & O & _) NI H k p. rewrite IX, SZ. rewrite (H k p). unfold key_of. rewrite K. replace (names_of t' (t_key t) p) with (names_of t (t_key t) p); [reflexivity|].
  unfold names_of. apply map_ext_in. intros g G. rewrite (O g p); [reflexivity|]. left. intros ->. contradiction.
Qed.

(** * Masks *)
Lemma all_true_spec m : all_true m = true <-> forall i, (i < length m)%nat -> nth i m false = true.
Proof.
  unfold all_true. rewrite forallb_forall. split.
  - intros H i L. apply H, nth_In, L.
  - intros H b I. apply (In_nth _ _ false) in I as (i & L & <-). apply H, L.
Qed.
Lemma index_ok_mask t m : index_ok t -> index_ok (with_mask t m).
Proof. exact (fun H => H). Qed.
Lemma gen_mask_spec t q m : table_ok t -> index_ok t -> generate_mask t q = Ok m ->
  exists ps, chosen t (Some false) q ps /\ length m = t_size t /\ forall i, (i < t_size t)%nat -> (nth i m false = true <-> In i ps).
Proof.
  intros OK IX. unfold generate_mask. destruct (index_query t (Some false) q) as [ix|] eqn:EI; [|discriminate]. cbn [bind]. destruct (positions (t_size t) ix) as [ps|] eqn:EP; [|discriminate]. cbn [bind]. intros H. injection H as <-.
  exists ps. split; [apply (query_spec t OK (Some false) q ps IX); [destruct q as [| ws [|] | |]; cbn; auto | eauto]|]. rewrite map_length, seq_length. split; [reflexivity|].
  intros i L. rewrite (nth_indep _ false (isinN 0%nat ps)) by (rewrite map_length, seq_length; exact L). rewrite (map_nth (fun k => isinN k ps)), seq_nth by exact L. cbn [Nat.add]. unfold isinN. rewrite (memb_spec Nat.eqb Nat.eqb_eq). reflexivity.
Qed.
Lemma scatter_length : forall mask m, length (scatter mask m) = length mask.
Proof. induction mask as [|[|] mask IH]; intros m; cbn; [reflexivity | destruct m; cbn; rewrite IH; reflexivity | rewrite IH; reflexivity]. Qed.
(** The k-th active record *)
Lemma scatter_spec : forall mask m i, length m = length (filter (fun b => b) mask) -> (i < length mask)%nat ->
  nth i (scatter mask m) false = nth i mask false && nth (length (filter (fun b => b) (firstn i mask))) m false.
Proof.
  induction mask as [|b mask IH]; intros m i L LT; [cbn in LT; lia|]. destruct b.
  - cbn [filter length] in L. destruct m as [|x m]; [discriminate L|]. cbn [scatter]. destruct i as [|i]; [reflexivity|]. cbn [nth firstn filter length]. apply IH; [cbn in L; lia | cbn in LT; lia].
  - cbn [scatter]. destruct i as [|i]; [reflexivity|]. cbn [nth firstn filter]. apply IH; [exact L | cbn in LT; lia].
Qed.

Theorem mask_exact t q reset am b t' um : table_ok t -> index_ok t -> set_mask t None um q reset am = Ok (b, t') ->
  table_ok t' /\ t' = with_mask t (t_mask t') /\ (b = true <-> t_mask t' <> t_mask t) /\
  exists ps, chosen t (Some false) q ps /\
    forall i, (i < t_size t)%nat -> (active t' i <->
      if reset || all_true (t_mask t) then In i ps else if am then active t i /\ In i ps else active t i \/ In i ps).
Proof.
  intros OK IX. unfold set_mask. destruct (generate_mask t q) as [m|] eqn:E; [|discriminate]. cbn [bind]. destruct (gen_mask_spec t q m OK IX E) as (ps & C & L & M).
  pose proof (ok_mask t OK) as LM.
  assert (X : exists m', (if negb (reset || all_true (t_mask t)) then if (length m =? length (t_mask t))%nat then Ok (zip_with (if am then andb else orb) (t_mask t) m) else Err ValueError else Ok m) = Ok m' /\ length m' = t_size t /\
     forall i, (i < t_size t)%nat -> (nth i m' false = true <-> if reset || all_true (t_mask t) then In i ps else if am then active t i /\ In i ps else active t i \/ In i ps)).
  { destruct (reset || all_true (t_mask t)); cbn [negb]; [exists m; auto|]. rewrite L, LM, Nat.eqb_refl. eexists. split; [reflexivity|]. split; [rewrite zip_length; lia|].
    intros i LT. rewrite zip_nth by lia. unfold active. destruct am; [rewrite andb_true_iff | rewrite orb_true_iff]; rewrite (M i LT); reflexivity. }
  destruct X as (m' & -> & L' & M'). cbn [bind]. assert (OM : table_ok (with_mask t m')) by (destruct OK; constructor; assumption).
  destruct (list_eq_dec bool_dec (t_mask t) m') as [EQ | NE]; intros H; injection H as <- <-.
  - split; [exact OK|]. split; [destruct t; reflexivity|]. split; [split; [discriminate | intros X; exfalso; apply X; reflexivity]|]. exists ps. split; [exact C|]. intros i LT. rewrite <- (M' i LT). unfold active. rewrite EQ. reflexivity.
  - split; [exact OM|]. split; [reflexivity|]. split; [split; [intros _ X; apply NE; symmetry; exact X | reflexivity]|]. exists ps. split; [exact C|]. exact M'.
Qed.
(** A mask given for the active records leaves those active that it marks. *)
Theorem mask_given t m b t' q : table_ok t -> length m = length (filter (fun b => b) (t_mask t)) -> set_mask t (Some m) true q false true = Ok (b, t') ->
  table_ok t' /\ t' = with_mask t (t_mask t') /\ (b = true <-> t_mask t' <> t_mask t) /\
  forall i, (i < t_size t)%nat -> (active t' i <-> active t i /\ nth (length (filter (fun b => b) (firstn i (t_mask t)))) m false = true).
Proof.
  intros OK L. pose proof (ok_mask t OK) as LM. unfold set_mask. cbn [andb orb].
  assert (AT : all_true (t_mask t) = true -> filter (fun b => b) (t_mask t) = t_mask t /\ forall i, (i < t_size t)%nat -> length (filter (fun b => b) (firstn i (t_mask t))) = i).
  { intros A. unfold all_true in A. rewrite forallb_forall in A. assert (F : forall l : list bool, (forall b, In b l -> b = true) -> filter (fun b => b) l = l).
    { induction l as [|x l IH]; intros H; [reflexivity|]. cbn [filter]. rewrite (H x) by (left; reflexivity). f_equal. apply IH. intros; apply H; right; assumption. }
    split; [apply F, A|]. intros i LT. rewrite F; [apply firstn_length_le; lia|]. intros x I. apply A. rewrite <- (firstn_skipn i (t_mask t)). apply in_app_iff. auto. }
  assert (X : exists m', (do m0 <- (if negb (all_true (t_mask t)) then if (length m =? length (filter (fun b => b) (t_mask t)))%nat then Ok (scatter (t_mask t) m) else Err ValueError else Ok m);
     (if negb (all_true (t_mask t)) then if (length m0 =? length (t_mask t))%nat then Ok (zip_with andb (t_mask t) m0) else Err ValueError else Ok m0)) = Ok m' /\ length m' = t_size t /\
     forall i, (i < t_size t)%nat -> (nth i m' false = true <-> active t i /\ nth (length (filter (fun b => b) (firstn i (t_mask t)))) m false = true)).
  { destruct (all_true (t_mask t)) eqn:A; cbn [negb].
    - destruct (AT eq_refl) as (A1 & A2). exists m. cbn [bind]. split; [reflexivity|]. rewrite A1 in L. split; [lia|]. intros i LT. rewrite (A2 i LT). unfold active. rewrite (proj1 (all_true_spec _) A) by lia. tauto.
    - rewrite L, Nat.eqb_refl. cbn [bind]. rewrite scatter_length, Nat.eqb_refl. eexists. split; [reflexivity|]. split; [rewrite zip_length; rewrite ?scatter_length; lia|].
      intros i LT. rewrite zip_nth by (rewrite ?scatter_length; lia). rewrite scatter_spec by (assumption || lia). unfold active. rewrite !andb_true_iff. tauto. }
  destruct X as (m' & EX & L' & M').
  destruct (if negb (all_true (t_mask t)) then if (length m =? length (filter (fun b => b) (t_mask t)))%nat then Ok (scatter (t_mask t) m) else Err ValueError else Ok m) as [m0|]; [|discriminate EX]. cbn [bind] in EX |- *. rewrite EX. cbn [bind].
  assert (OM : table_ok (with_mask t m')) by (destruct OK; constructor; assumption).
  destruct (list_eq_dec bool_dec (t_mask t) m') as [EQ | NE]; intros H; injection H as <- <-.
  - split; [exact OK|]. split; [destruct t; reflexivity|]. split; [split; [discriminate | intros X; exfalso; apply X; reflexivity]|]. intros i LT. rewrite <- (M' i LT). unfold active. rewrite EQ. reflexivity.
  - split; [exact OM|]. split; [reflexivity|]. split; [split; [intros _ X; apply NE; symmetry; exact X | reflexivity]|]. exact M'.
Qed.

(** * The values of several fields, and the header keys *)
Lemma mapM_all {A B} (f : A -> result B) (g : A -> B) l : (forall x, In x l -> f x = Ok (g x)) -> mapM f l = Ok (map g l).
Proof.
  induction l as [|x l IH]; intros H; [reflexivity|]. cbn [mapM map]. rewrite (H x) by (left; reflexivity). cbn [bind]. rewrite IH by (intros; apply H; right; assumption). reflexivity.
Qed.
Lemma mapM_Ok_In {A B} (f : A -> result B) l ys : mapM f l = Ok ys -> forall x, In x l -> exists y, f x = Ok y.
Proof. intros H. apply mapM_Ok_Forall2 in H. induction H as [|x y l ys E F IH]; intros z I; [contradiction|]. destruct I as [<- | I]; eauto. Qed.
Lemma map_nth_seq (l : list nat) : map (fun i => nth i l 0%nat) (seq 0 (length l)) = l.
Proof.
  apply (nth_ext _ _ 0%nat 0%nat); [rewrite map_length, seq_length; reflexivity|]. intros i L. rewrite map_length, seq_length in L.
  rewrite (nth_indep _ 0%nat (nth 0 l 0%nat)) by (rewrite map_length, seq_length; exact L). rewrite (map_nth (fun i => nth i l 0%nat)), seq_nth by exact L. reflexivity.
Qed.
Lemma values_at t fs um q ix ps : table_ok t -> index_query t um q = Ok ix -> positions (t_size t) ix = Ok ps -> incl fs (fields t) ->
  values t fs um q = Ok (map (names_of t fs) ps).
Proof.
  intros OK E P IN. unfold values. rewrite (mapM_all _ (fun f => map (cell_at t f) ps)).
  - cbn [bind]. rewrite E. cbn [bind]. rewrite P. cbn [bind]. f_equal. rewrite <- (map_nth_seq ps) at 2. rewrite map_map. apply map_ext_in. intros j J. apply in_seq in J. unfold names_of. rewrite map_map. apply map_ext. intros f.
    unfold scalar. f_equal. rewrite (nth_indep _ [] (cell_at t f 0%nat)) by (rewrite map_length; lia). apply map_nth.
  - intros f I. unfold get_value. rewrite E. cbn [bind]. unfold column. destruct (known_get t OK f (IN f I)) as (c & EC & L). rewrite EC. cbn [bind]. rewrite P. cbn [bind]. f_equal. unfold take. apply map_ext. intros i. apply column_at, EC.
Qed.
Lemma values_spec t fs um q rows : table_ok t -> index_ok t -> fair um q -> fs <> [] ->
  (values t fs um q = Ok rows <-> incl fs (fields t) /\ exists ps, chosen t um q ps /\ rows = map (names_of t fs) ps).
Proof.
  intros OK IX FA _. split.
  - intros H. assert (H' := H). unfold values in H. destruct (mapM (fun f => get_value t f um q) fs) as [cols|] eqn:M; [|discriminate H]. cbn [bind] in H. destruct (index_query t um q) as [ix|] eqn:EI; [|discriminate H]. cbn [bind] in H.
    destruct (positions (t_size t) ix) as [ps|] eqn:EP; [|discriminate H]. assert (IN : incl fs (fields t)).
    { intros f I. destruct (mapM_Ok_In _ _ _ M f I) as (c & E). apply (get_exact t f um q c OK IX FA) in E. tauto. }
    split; [exact IN|]. exists ps. split; [apply (query_spec t OK um q ps IX FA); eauto|]. rewrite (values_at t fs um q ix ps OK EI EP IN) in H'. congruence.
  - intros (IN & ps & C & ->). apply (query_spec t OK um q ps IX FA) in C as (ix & EI & EP). apply (values_at t fs um q ix ps); assumption.
Qed.
Theorem keys_exact t um q ks : table_ok t -> index_ok t -> fair um q -> t_key t <> [] ->
  (get_header_keys t um q = Ok ks <-> exists ps, chosen t um q ps /\ ks = map (key_of t) ps).
Proof.
  intros OK IX FA NE. unfold get_header_keys. rewrite values_spec by assumption. split; [intros (_ & H); exact H | intros H; split; [apply (ok_key t OK) | exact H]].
Qed.

(** * Sorting keeps the order of equal elements *)
Lemma insert_stable (leb : nat -> nat -> bool) (tot : forall x y, leb x y = true \/ leb y x = true) (tr : forall x y z, leb x y = true -> leb y z = true -> leb x z = true) x :
  let R := fun a b => leb a b = true /\ (leb b a = true -> (a < b)%nat) in
  forall l, Forall (fun y => (x < y)%nat) l -> StronglySorted R l -> StronglySorted R (insert leb x l).
Proof.
  intros R. induction l as [|y l IH]; intros F H; cbn [insert]; [repeat constructor|]. inversion H as [|? ? H1 H2]; subst. inversion F as [|? ? F1 F2]; subst. destruct (leb x y) eqn:E.
  - constructor; [exact H|]. constructor; [split; [exact E | intros _; exact F1]|]. apply Forall_forall. intros z Z. rewrite Forall_forall in H2, F2. destruct (H2 z Z) as (A & _). split; [exact (tr _ _ _ E A) | intros _; apply F2, Z].
  - constructor; [apply IH; assumption|]. apply Forall_forall. intros z Z. assert (In z (x :: l)) as [<- | I] by (eapply Permutation_in; [symmetry; apply insert_perm | exact Z]).
    + split; [destruct (tot x y); congruence | congruence].
    + rewrite Forall_forall in H2. apply H2, I.
Qed.
Lemma isort_stable (leb : nat -> nat -> bool) (tot : forall x y, leb x y = true \/ leb y x = true) (tr : forall x y z, leb x y = true -> leb y z = true -> leb x z = true) :
  forall l, StronglySorted lt l -> StronglySorted (fun a b => leb a b = true /\ (leb b a = true -> (a < b)%nat)) (isort leb l).
Proof.
  induction l as [|x l IH]; intros H; [constructor|]. inversion H as [|? ? H1 H2]; subst. cbn [isort]. apply (insert_stable leb tot tr x); [|apply IH, H1].
  apply Forall_forall. intros y I. apply (proj1 (isort_In leb y l)) in I. rewrite Forall_forall in H2. apply H2, I.
Qed.
Lemma lex_total : forall a b, lex_leb a b = true \/ lex_leb b a = true.
Proof.
  induction a as [|x a IH]; intros [|y b]; cbn [lex_leb]; auto. destruct (IH b) as [H | H]; rewrite H; destruct (Z.ltb_spec x y), (Z.eqb_spec x y), (Z.ltb_spec y x), (Z.eqb_spec y x); cbn; auto; lia.
Qed.
Lemma lex_cases x a y b : lex_leb (x :: a) (y :: b) = true <-> x < y \/ x = y /\ lex_leb a b = true.
Proof. cbn [lex_leb]. rewrite orb_true_iff, andb_true_iff, Z.ltb_lt, Z.eqb_eq. reflexivity. Qed.
Lemma lex_trans : forall a b c, lex_leb a b = true -> lex_leb b c = true -> lex_leb a c = true.
Proof.
  induction a as [|x a IH]; intros b c H H'; [reflexivity|]. destruct b as [|y b]; [discriminate H|]. destruct c as [|z c]; [discriminate H'|]. apply lex_cases in H, H'. apply lex_cases.
  destruct H as [H | (-> & H)], H' as [H' | (-> & H')]; [left; lia | left; lia | left; lia | right; split; [reflexivity | exact (IH _ _ H H')]].
Qed.
Lemma lex_antisym : forall a b, lex_leb a b = true -> lex_leb b a = true -> a = b.
Proof.
  induction a as [|x a IH]; intros [|y b] H H'; try reflexivity; try discriminate. apply lex_cases in H, H'. destruct H as [H | (-> & H)], H' as [H' | (E & H')]; try lia. f_equal. apply IH; assumption.
Qed.

(** * Groups *)
Definition ordered (p q : list Z * nat) : Prop := lex_leb (rev (fst p)) (rev (fst q)) = true /\ (fst p = fst q -> (snd p < snd q)%nat).
Lemma sorted_rows_sorted rows : StronglySorted ordered (sorted_rows rows).
Proof.
  unfold sorted_rows, lexsort, argsort_by. apply (proj1 (StronglySorted_map ordered (fun i => (nth i rows [], i)) _)).
  apply (StronglySorted_impl (fun i j => lex_leb (rev (nth i rows [])) (rev (nth j rows [])) = true /\ (lex_leb (rev (nth j rows [])) (rev (nth i rows [])) = true -> (i < j)%nat))).
  - intros i j _ _ (H & T). split; [exact H|]. cbn [fst snd]. intros E. apply T. rewrite E. destruct (lex_total (rev (nth j rows [])) (rev (nth j rows []))); assumption.
  - apply isort_stable; [intros; apply lex_total | intros ? ? ?; apply lex_trans | apply seq_sorted].
Qed.
Lemma sorted_rows_In rows k j : In (k, j) (sorted_rows rows) <-> (j < length rows)%nat /\ nth j rows [] = k.
Proof.
  unfold sorted_rows, lexsort. rewrite in_map_iff. split.
  - intros (i & E & I). injection E as <- <-. apply argsort_by_In in I. auto.
  - intros (L & <-). exists j. split; [reflexivity|]. apply argsort_by_In, L.
Qed.
Lemma runs_spec : forall l, StronglySorted ordered l ->
  NoDup (map fst (runs l)) /\
  (forall k xs, In (k, xs) (runs l) -> xs <> [] /\ StronglySorted lt xs /\ forall j, In j xs <-> In (k, j) l) /\
  (forall k j, In (k, j) l -> exists xs, In (k, xs) (runs l)) /\
  match l, runs l with [], [] => True | (k, _) :: _, (k', _) :: _ => k = k' | _, _ => False end.
Proof.
  induction l as [|(k, x) l IH]; intros H; [cbn; repeat split; try constructor; contradiction|]. inversion H as [|? ? H1 H2]; subst. destruct (IH H1) as (N & G & C & HD). clear IH. cbn [runs]. rewrite Forall_forall in H2.
  destruct (runs l) as [|(k', xs) r] eqn:ER.
  - destruct l as [|(k0, x0) l]; [|rewrite ER in HD; contradiction]. cbn. split; [repeat constructor; auto|]. split; [|split; [|reflexivity]].
    + intros k0 xs [E | []]. injection E as <- <-. split; [discriminate|]. split; [repeat constructor|]. intros j. split; [intros [<- | []]; auto | intros [E | []]; injection E as <-; left; reflexivity].
    + intros k0 j [E | []]. injection E as <- <-. eauto.
  - destruct l as [|(k0, x0) l]; [discriminate ER|]. rewrite ER in HD. subst k0. destruct (eqb_key k k') eqn:EK.
    + apply eqb_key_eq in EK. subst k'. split; [exact N|]. split; [|split; [|reflexivity]].
      * intros k1 ys [E | I].
        -- injection E as <- <-. destruct (G k xs) as (NE & SO & M); [left; reflexivity|]. split; [discriminate|]. split.
           ++ constructor; [exact SO|]. apply Forall_forall. intros j J. apply M in J. apply (H2 _ J). reflexivity.
           ++ intros j. cbn [In]. rewrite (M j). split; [intros [<- | I]; auto | intros [E | I]; [injection E as <-; auto | auto]].
        -- destruct (G k1 ys) as (NE & SO & M); [right; exact I|]. split; [exact NE|]. split; [exact SO|]. intros j. rewrite (M j). split; [intros J; right; exact J | intros [E | J]; [|exact J]].
           injection E as -> ->. exfalso. cbn [map fst] in N. inversion N as [|? ? N1 N2]. apply N1. apply in_map_iff. exists (k1, ys). auto.
      * intros k1 j [E | I]; [injection E as <- <-; exists (x :: xs); left; reflexivity|]. destruct (C k1 j I) as (ys & [E | Y]); [injection E as <- <-; exists (x :: xs); left; reflexivity | exists ys; right; exact Y].
    + assert (NEW : forall k1 j, In (k1, j) ((k', x0) :: l) -> k1 <> k).
      { intros k1 j I ->. assert (K1 : lex_leb (rev k) (rev k') = true) by (apply (H2 (k', x0)); left; reflexivity).
        assert (K2 : lex_leb (rev k') (rev k) = true).
        { destruct I as [E | I]; [injection E as -> _; destruct (lex_total (rev k) (rev k)); assumption|]. inversion H1 as [|? ? H3 H4]; subst. rewrite Forall_forall in H4. apply (H4 (k, j) I). }
        pose proof (lex_antisym _ _ K1 K2) as EQ. apply (f_equal (@rev Z)) in EQ. rewrite !rev_involutive in EQ. apply eqb_key_eq in EQ. congruence. }
      split; [|split; [|split; [|reflexivity]]].
      * cbn [map fst] in N |- *. constructor; [|exact N]. intros I. change (k' :: map fst r) with (map fst ((k', xs) :: r)) in I. apply in_map_iff in I as ((k1 & ys) & E & I). cbn in E. subst k1. destruct (G k ys I) as (NE & _ & M).
        destruct ys as [|y ys]; [contradiction|]. apply (NEW k y); [apply M; left; reflexivity | reflexivity].
      * intros k1 ys [E | I].
        -- injection E as <- <-. split; [discriminate|]. split; [repeat constructor|]. intros j. split; [intros [<- | []]; left; reflexivity | intros [E | J]; [injection E as <-; left; reflexivity | exfalso; apply (NEW k j J); reflexivity]].
        -- destruct (G k1 ys I) as (NE & SO & M). split; [exact NE|]. split; [exact SO|]. intros j. rewrite (M j). split; [intros J; right; exact J | intros [E | J]; [|exact J]].
           injection E as -> ->. exfalso. destruct ys as [|y ys]; [contradiction|]. apply (NEW k1 y); [apply M; left; reflexivity | reflexivity].
      * intros k1 j [E | J]; [injection E as <- <-; exists [x]; left; reflexivity|]. destruct (C k1 j J) as (ys & Y). exists ys. right. exact Y.
Qed.
Theorem groups_exact t fs um q g : table_ok t -> index_ok t -> fair um q -> fs <> [] -> group_by t fs um q = Ok g ->
  exists ps, chosen t um q ps /\ grouping t fs ps g.
Proof.
  intros OK IX FA NE. unfold group_by. destruct (values t fs um q) as [rows|] eqn:E; [|discriminate]. cbn [bind]. intros H. injection H as <-. apply values_spec in E as (IN & ps & C & ->); try assumption.
  exists ps. split; [exact C|]. destruct (runs_spec (sorted_rows (map (names_of t fs) ps)) (sorted_rows_sorted _)) as (N & G & A & _).
  assert (RI : forall k j, In (k, j) (sorted_rows (map (names_of t fs) ps)) <-> (j < length ps)%nat /\ names_of t fs (nth j ps 0%nat) = k).
  { intros k j. rewrite sorted_rows_In, map_length. split; intros (L & E); split; try exact L; rewrite <- E; [symmetry|]; rewrite (nth_indep _ [] (names_of t fs 0%nat)) by (rewrite map_length; exact L); apply map_nth. }
  constructor.
  - exact N.
  - intros k l I. destruct (G k l I) as (NL & SO & M). split; [exact NL|]. split; [exact SO|]. intros j. rewrite (M j). apply RI.
  - intros j L. assert (I : In (names_of t fs (nth j ps 0%nat), j) (sorted_rows (map (names_of t fs) ps))) by (apply RI; auto). destruct (A _ _ I) as (xs & X). exists xs. split; [exact X|]. apply (G _ _ X), I.
Qed.

(** * Reading a table *)
Lemma dict_of_new {V} (l : list (list Z * V)) : NoDup (map fst l) -> dict_of eqb_key l = l.
Proof.
  unfold dict_of. assert (G : forall (l1 d : list (list Z * V)), NoDup (map fst (d ++ l1)) -> fold_left (fun d p => dset eqb_key (fst p) (snd p) d) l1 d = d ++ l1).
  { clear l. induction l1 as [|(k, v) l0 IH]; intros d N; [symmetry; apply app_nil_r|]. cbn [fold_left fst snd]. rewrite (dset_keys_new _ eqb_key_eq).
    - rewrite IH; rewrite <- app_assoc; [reflexivity | exact N].
    - unfold dkeys. rewrite map_app in N. cbn [map fst] in N. apply NoDup_remove_2 in N. intros I. apply N, in_app_iff. auto. }
  intros N. exact (G l [] N).
Qed.
Lemma load_form key n data t0 : load key n data = Ok t0 ->
  exists ix, t0 = {| t_key := key; t_data := data; t_size := n; t_mask := repeat true n; t_index := ix; t_stored := [] |}.
Proof. unfold load, set_index. destruct (values _ _ _ _); [|discriminate]. cbn [bind]. intros H. injection H as <-. eexists. reflexivity. Qed.
Theorem load_exact key n data : NoDup (map fst data) -> Forall (fun p => length (snd p) = n) data -> incl key (map fst data) ->
  exists t, load key n data = Ok t /\ table_ok t /\ t_key t = key /\ t_data t = data /\ t_size t = n /\ t_stored t = [] /\ (forall i, (i < n)%nat -> active t i) /\
  ((forall i j, (i < n)%nat -> (j < n)%nat -> key_of t i = key_of t j -> i = j) -> index_ok t).
Proof.
  intros ND CO IN. set (t1 := {| t_key := key; t_data := data; t_size := n; t_mask := repeat true n; t_index := []; t_stored := [] |}).
  assert (OK : table_ok t1) by (constructor; [exact ND | exact CO | apply repeat_length | exact IN]).
  assert (V : values t1 (t_key t1) (Some false) QAll = Ok (map (key_of t1) (seq 0 n))) by (apply (values_at t1 key _ _ Everything); [exact OK | reflexivity | reflexivity | exact IN]).
  unfold load. fold t1. unfold set_index. rewrite V. cbn [bind]. eexists. split; [reflexivity|]. split; [destruct OK; constructor; assumption|]. cbn [t_key t_data t_size t_stored]. do 4 (split; [reflexivity|]).
  split; [intros i L; unfold active; cbn [t_mask t1]; apply nth_repeat_lt, L|]. intros INJ. change (forall i j, (i < n)%nat -> (j < n)%nat -> key_of t1 i = key_of t1 j -> i = j) in INJ.
  set (L := sorted_rows (map (key_of t1) (seq 0 n))).
  assert (LI : forall k p, In (k, p) L <-> (p < n)%nat /\ key_of t1 p = k).
  { intros k p. unfold L. rewrite sorted_rows_In, map_length, seq_length. split; intros (A & <-); split; try exact A; [symmetry|]; (rewrite (nth_indep _ [] (key_of t1 0%nat)) by (rewrite map_length, seq_length; exact A)); rewrite map_nth, seq_nth by exact A; reflexivity. }
  assert (NL : NoDup (map fst L)).
  { assert (S2 : NoDup (map snd L)).
    { unfold L, sorted_rows. rewrite map_map. cbn [snd]. rewrite map_id. unfold lexsort. eapply Permutation_NoDup; [symmetry; apply argsort_by_perm | apply seq_NoDup]. }
    assert (U : forall k p p', In (k, p) L -> In (k, p') L -> p = p') by (intros k p p' (A & B)%LI (A' & B')%LI; apply INJ; congruence).
    clear - S2 U. clearbody L. induction L as [|(k, p) l IH]; [constructor|]. cbn [map fst snd] in S2 |- *. inversion S2 as [|? ? N1 N2]; subst. constructor.
    - intros I. apply in_map_iff in I as ((k' & p') & E & I). cbn in E. subst k'. assert (p = p') by (apply (U k); [left; reflexivity | right; exact I]). subst p'. apply N1, in_map_iff. exists (k, p). auto.
    - apply IH; [exact N2|]. intros k0 a b A B. apply (U k0); right; assumption. }
  intros k p. cbn [t_index t_size]. fold L. rewrite (dict_of_new L NL). split; [intros H; apply (dget_In _ eqb_key_eq) in H; apply LI in H; exact H | intros H; apply (In_dget _ eqb_key_eq); [exact NL | apply LI; exact H]].
Qed.

(** * Going back to the table read *)
Record kept (key : list string) (n : nat) (data : list (string * list cell)) (t : table) : Prop := {
  ke_key : t_key t = key;
  ke_size : t_size t = n;
  ke_fields : map fst (t_data t) = map fst data;
  ke_nodup : NoDup (map fst (t_stored t));
  ke_stored : forall f c, dget String.eqb f (t_stored t) = Ok c -> dget String.eqb f data = Ok c;
  ke_data : forall f, ~ In f (map fst (t_stored t)) -> dget String.eqb f (t_data t) = dget String.eqb f data }.
Lemma not_stored t f : dmem String.eqb f (t_stored t) = false <-> ~ In f (map fst (t_stored t)).
Proof. rewrite <- not_true_iff_false, (dmem_In _ str_eq). reflexivity. Qed.
Section Kept.
  Context (key : list string) (n : nat) (data : list (string * list cell)).
  Lemma kept_set t f v um q t' : kept key n data t -> set_value t f v um q = Ok t' -> kept key n data t'.
  Proof.
    intros K. unfold set_value, column. destruct (index_query t um q) as [ix|]; [|discriminate]. cbn [bind]. destruct (dget String.eqb f (t_data t)) as [c|] eqn:E; [|discriminate]. cbn [bind].
    destruct (positions (t_size t) ix) as [ps|]; [|discriminate]. cbn [bind]. destruct (put c ps v) as [c'|]; [|discriminate]. cbn [bind]. intros H. injection H as <-.
    assert (F : In f (dkeys (t_data t))) by (apply (dmem_In _ str_eq), dmem_dget; eauto). pose proof (ke_nodup _ _ _ _ K) as ND.
    constructor; cbn [t_key t_size t_data t_stored].
    - apply (ke_key _ _ _ _ K).
    - apply (ke_size _ _ _ _ K).
    - rewrite <- (ke_fields _ _ _ _ K). apply (dset_keys _ str_eq), F.
    - destruct (dmem String.eqb f (t_stored t)); [exact ND | apply (dset_NoDup _ str_eq), ND].
    - intros g c0. destruct (dmem String.eqb f (t_stored t)) eqn:M; [apply (ke_stored _ _ _ _ K)|]. rewrite (dget_dset _ str_eq). destruct (String.eqb_spec g f) as [-> | NE]; [|apply (ke_stored _ _ _ _ K)].
      intros H. injection H as <-. rewrite <- (ke_data _ _ _ _ K) by (apply not_stored, M). exact E.
    - intros g NI. rewrite (dget_dset _ str_eq). destruct (String.eqb_spec g f) as [-> | NE].
      + exfalso. apply NI. destruct (dmem String.eqb f (t_stored t)) eqn:M; [apply (dmem_In _ str_eq), M | apply (dset_In_keys _ str_eq); auto].
      + apply (ke_data _ _ _ _ K). intros I. apply NI. destruct (dmem String.eqb f (t_stored t)); [exact I | apply (dset_In_keys _ str_eq); auto].
  Qed.
  Lemma kept_mask t m : kept key n data t -> kept key n data (with_mask t m).
  Proof. intros []; constructor; assumption. Qed.
  Lemma kept_index t ix : kept key n data t -> kept key n data {| t_key := t_key t; t_data := t_data t; t_size := t_size t; t_mask := t_mask t; t_index := ix; t_stored := t_stored t |}.
  Proof. intros []; constructor; assumption. Qed.
  Lemma kept_back t f c : kept key n data t -> dget String.eqb f (t_stored t) = Ok c ->
    kept key n data {| t_key := t_key t; t_data := dset String.eqb f c (t_data t); t_size := t_size t; t_mask := t_mask t; t_index := t_index t; t_stored := ddel String.eqb f (t_stored t) |}.
  Proof.
    intros K E. pose proof (ke_stored _ _ _ _ K f c E) as D. assert (F : In f (dkeys (t_data t))).
    { unfold dkeys. rewrite (ke_fields _ _ _ _ K). apply (dmem_In _ str_eq), dmem_dget. eauto. }
    constructor; cbn [t_key t_size t_data t_stored].
    - apply (ke_key _ _ _ _ K).
    - apply (ke_size _ _ _ _ K).
    - rewrite <- (ke_fields _ _ _ _ K). apply (dset_keys _ str_eq), F.
    - apply (ddel_NoDup String.eqb), (ke_nodup _ _ _ _ K).
    - intros g c0. rewrite (dget_ddel _ str_eq). destruct (String.eqb g f); [discriminate | apply (ke_stored _ _ _ _ K)].
    - intros g NI. rewrite (dget_dset _ str_eq). destruct (String.eqb_spec g f) as [-> | NE]; [symmetry; exact D|]. apply (ke_data _ _ _ _ K). intros I. apply NI, (ddel_keys _ str_eq). auto.
  Qed.
  Lemma put_back_kept : forall fs t t', kept key n data t -> put_back t fs = Ok t' -> kept key n data t'.
  Proof.
    induction fs as [|f fs IH]; intros t t' K; cbn [put_back]; [intros H; injection H as <-; exact K|]. destruct (dget String.eqb f (t_stored t)) as [c|] eqn:E; [|discriminate]. cbn [bind]. apply IH, kept_back; assumption.
  Qed.
  Lemma put_back_all : forall fs t, kept key n data t -> dkeys (t_stored t) = fs ->
    exists t', put_back t fs = Ok t' /\ kept key n data t' /\ t_stored t' = [].
  Proof.
    induction fs as [|f fs IH]; intros t K E; cbn [put_back].
    - exists t. split; [reflexivity|]. split; [exact K|]. destruct (t_stored t); [reflexivity | discriminate E].
    - destruct (t_stored t) as [|(f' & c) r] eqn:ES; [discriminate E|]. injection E as -> E. assert (G : dget String.eqb f (t_stored t) = Ok c) by (rewrite ES; cbn; rewrite String.eqb_refl; reflexivity).
      rewrite <- ES, G. cbn [bind]. apply IH; [apply kept_back; assumption|]. cbn [t_stored]. rewrite ES. unfold ddel. cbn [filter fst]. rewrite String.eqb_refl. cbn [negb].
      pose proof (ke_nodup _ _ _ _ K) as ND. rewrite ES in ND. cbn [map fst] in ND. inversion ND as [|? ? N1 N2]; subst. f_equal. clear - N1. induction r as [|(g & d) r IH]; [reflexivity|]. cbn [filter fst]. destruct (String.eqb_spec f g) as [-> | NE].
      + exfalso. apply N1. left. reflexivity.
      + cbn [negb map fst]. f_equal. apply IH. intros I. apply N1. right. exact I.
  Qed.
  Lemma same_dict : forall d d' : list (string * list cell), map fst d = map fst d' -> NoDup (map fst d) -> (forall f, dget String.eqb f d = dget String.eqb f d') -> d = d'.
  Proof.
    induction d as [|(f & c) d IH]; intros [|(f' & c') d'] E ND H; try discriminate; [reflexivity|]. cbn [map fst] in E, ND. injection E as <- E. inversion ND as [|? ? N1 N2]; subst.
    pose proof (H f) as Hf. cbn [dget] in Hf. rewrite String.eqb_refl in Hf. injection Hf as <-. f_equal. apply IH; [exact E | exact N2|]. intros g. pose proof (H g) as Hg. cbn [dget] in Hg. destruct (String.eqb g f) eqn:EG; [|exact Hg]. apply String.eqb_eq in EG. rewrite EG.
    assert (X : forall l : list (string * list cell), ~ In f (map fst l) -> dget String.eqb f l = Err KeyError).
    { clear. induction l as [|(g & c) l IH]; intros N; [reflexivity|]. cbn [dget]. destruct (String.eqb_spec f g) as [-> | NE]; [exfalso; apply N; left; reflexivity | apply IH; intros I; apply N; right; exact I]. }
    rewrite !X; [reflexivity | rewrite <- E; exact N1 | exact N1].
  Qed.
  Lemma reset_kept t t0 : NoDup (map fst data) -> kept key n data t -> load key n data = Ok t0 -> reset t = Ok t0.
  Proof.
    intros ND K L. unfold reset, reset_values. destruct (put_back_all _ t K eq_refl) as (t1 & -> & K1 & S1). cbn [bind].
    assert (ED : t_data t1 = data).
    { apply same_dict; [apply (ke_fields _ _ _ _ K1) | rewrite (ke_fields _ _ _ _ K1); exact ND|]. intros f. apply (ke_data _ _ _ _ K1). rewrite S1. intros []. }
    assert (SM : exists b, set_mask t1 None true QAll true true = Ok (b, with_mask t1 (repeat true n))).
    { unfold set_mask, generate_mask. cbn [index_query bind positions orb negb]. rewrite (ke_size _ _ _ _ K1).
      replace (map (fun k => isinN k (seq 0 n)) (seq 0 n)) with (repeat true n).
      - destruct (list_eq_dec bool_dec (t_mask t1) (repeat true n)) as [E | NE]; [|eauto]. exists false. do 2 f_equal. rewrite <- E. destruct t1; reflexivity.
      - apply (nth_ext _ _ false false); [rewrite repeat_length, map_length, seq_length; reflexivity|]. intros i LT. rewrite repeat_length in LT. rewrite nth_repeat_lt by exact LT.
        rewrite (nth_indep _ false (isinN 0%nat (seq 0 n))) by (rewrite map_length, seq_length; exact LT). rewrite (map_nth (fun k => isinN k (seq 0 n))), seq_nth by exact LT. symmetry. apply (memb_spec Nat.eqb Nat.eqb_eq). apply in_seq. lia. }
    destruct SM as (b & ->). cbn [bind snd]. pose proof (ke_key _ _ _ _ K1) as E1. pose proof (ke_size _ _ _ _ K1) as E2. unfold load in L. destruct t1 as [ky dt sz mk ix st]. cbn [t_key t_data t_size t_stored] in *. subst. exact L.
  Qed.
  Lemma apply_kept t0 o t t' : NoDup (map fst data) -> load key n data = Ok t0 -> kept key n data t0 -> kept key n data t -> apply o t = Ok t' -> kept key n data t'.
  Proof.
    intros ND L K0 K. destruct o as [f v um q | m um q r a | fs |]; cbn [apply].
    - apply kept_set, K.
    - destruct (set_mask t m um q r a) as [(b & t1)|] eqn:E; [|discriminate]. cbn [bind snd]. intros H. injection H as <-. unfold set_mask in E.
      destruct (match m with Some _ => _ | None => _ end) as [m1|]; [|discriminate E]. cbn [bind] in E. destruct (if negb _ then _ else _) as [m2|]; [|discriminate E]. cbn [bind] in E. destruct (list_eq_dec bool_dec (t_mask t) m2); injection E as <- <-; [exact K | apply kept_mask, K].
    - unfold reset_values. destruct fs as [fs|]; [destruct (forallb _ fs); [|discriminate]|]; apply put_back_kept, K.
    - intros E. rewrite (reset_kept t t0 ND K L) in E. injection E as <-. exact K0.
  Qed.
End Kept.
Theorem back key n data ops t0 t : NoDup (map fst data) -> load key n data = Ok t0 -> run ops t0 = Ok t -> reset t = Ok t0.
Proof.
  intros ND L R. assert (K0 : kept key n data t0).
  { destruct (load_form _ _ _ _ L) as (ix & ->). constructor; cbn; try reflexivity; [constructor | discriminate]. }
  assert (K : kept key n data t).
  { revert R. generalize K0. generalize t0 at 1 2 as t1. induction ops as [|o ops IH]; intros t1 K1; cbn [run]; [intros H; injection H as <-; exact K1|]. destruct (apply o t1) as [t2|] eqn:E; [|discriminate]. cbn [bind]. apply IH. exact (apply_kept key n data t0 o t1 t2 ND L K0 K1 E). }
  exact (reset_kept key n data t t0 ND K L).
Qed.
