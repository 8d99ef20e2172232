(** Proofs about selecting records of a Mir data set. *)
From Coq Require Import List ZArith Bool Arith String Lia Sorting.Sorted.
From Verif Require Import Lib.Py Lib.Np Lib.Dict Model.MirMeta Spec.MirMetaSpec Proofs.MirMetaProofs Proofs.MirMetaMain Model.MirSelect Spec.MirSelectSpec.
Import ListNotations.
Notation length := List.length.
Open Scope list_scope.
Open Scope Z_scope.

(** * Masks of the active records *)
Definition rank (mask : list bool) (i : nat) : nat := length (filter (fun b => b) (firstn i mask)).
Lemma rank_where : forall mask n i, (i < length mask)%nat -> nth i mask false = true ->
  (rank mask i < length (where_from n (fun b => b) mask))%nat /\ nth (rank mask i) (where_from n (fun b => b) mask) 0%nat = (n + i)%nat.
Proof.
  unfold rank. induction mask as [|b mask IH]; intros n i L H; [cbn in L; lia|]. destruct i as [|i].
  - cbn in H. subst b. cbn. split; lia.
  - cbn [nth length] in H, L. destruct (IH (S n) i) as (A & B); [lia | exact H|]. cbn [firstn filter where_from]. destruct b; cbn [length nth].
    + rewrite B. split; [lia | lia].
    + rewrite B. split; [exact A | lia].
Qed.
Lemma where_length : forall mask n, length (where_from n (fun b => b) mask) = length (filter (fun b => b) mask).
Proof. induction mask as [|[|] mask IH]; intros n; cbn; rewrite ?IH; reflexivity. Qed.
Definition marks (t : table) (m : list bool) (P : nat -> Prop) : Prop :=
  length m = length (filter (fun b => b) (t_mask t)) /\ forall i, (i < t_size t)%nat -> active t i -> (nth (rank (t_mask t) i) m false = true <-> P i).
Lemma marks_zip f t m m' P Q R : (forall a b, f a b = true <-> R (a = true) (b = true)) -> (forall A B C D, (A <-> B) -> (C <-> D) -> (R A C <-> R B D)) ->
  table_ok t -> marks t m P -> marks t m' Q -> marks t (zip_with f m m') (fun i => R (P i) (Q i)).
Proof.
  intros HF HR OK (L & H) (L' & H'). split; [rewrite zip_length; lia|]. intros i LT AC. destruct (rank_where (t_mask t) 0%nat i) as (A & _); [rewrite (ok_mask t OK); exact LT | exact AC|]. rewrite where_length in A.
  rewrite zip_nth by lia. rewrite HF. apply HR; [apply H | apply H']; assumption.
Qed.
Lemma set_given t m : table_ok t -> length m = length (filter (fun b => b) (t_mask t)) -> exists b t', set_mask t (Some m) true QAll false true = Ok (b, t').
Proof.
  intros OK L. unfold set_mask. cbn [andb orb]. destruct (all_true (t_mask t)) eqn:A; cbn [negb bind].
  - destruct (list_eq_dec bool_dec (t_mask t) m); eauto.
  - rewrite L, Nat.eqb_refl. cbn [bind]. rewrite scatter_length, Nat.eqb_refl. cbn [bind]. destruct (list_eq_dec bool_dec (t_mask t) _); eauto.
Qed.
Lemma narrow_ok t m P : table_ok t -> marks t m P -> exists t', narrow t m = Ok t' /\ masked_from t t' /\ forall i, (i < t_size t)%nat -> (active t' i <-> active t i /\ P i).
Proof.
  intros OK (L & H). destruct (set_given t m OK L) as (b & t' & E). unfold narrow. rewrite E. cbn [bind snd]. exists t'. split; [reflexivity|]. destruct (mask_given t m b t' QAll OK L E) as (OK' & W & _ & M). split; [split; assumption|].
  intros i LT. rewrite (M i LT). split; intros (A & B); (split; [exact A|]); apply (H i LT A); exact B.
Qed.

(** * Key masks *)
Lemma existsb_key r l : existsb (eqb_key r) l = true <-> In r l.
Proof. rewrite existsb_exists. split; [intros (x & I & E); apply eqb_key_eq in E; congruence | intros I; exists r; split; [exact I | apply eqb_key_eq; reflexivity]]. Qed.
Lemma active_values t fs : table_ok t -> incl fs (fields t) -> values t fs (Some true) QAll = Ok (map (names_of t fs) (nonzero (fun b => b) (t_mask t))).
Proof. intros OK IN. apply (values_at t fs _ _ (Mask (t_mask t))); [exact OK | reflexivity | reflexivity | exact IN]. Qed.
Lemma in_active t i : table_ok t -> (In i (nonzero (fun b => b) (t_mask t)) <-> (i < t_size t)%nat /\ active t i).
Proof. intros OK. rewrite nonzero_true, (ok_mask t OK). reflexivity. Qed.
Lemma key_mask_ok this other rev check : table_ok this -> table_ok other ->
  let f1 := if rev : bool then check else t_key this in let f2 := if rev then t_key other else check in
  incl f1 (fields this) -> incl f2 (fields other) ->
  (forall i j, (i < t_size this)%nat -> (j < t_size other)%nat -> cipher check (names_of this f1 i) = cipher check (names_of other f2 j) -> names_of this f1 i = names_of other f2 j) ->
  exists m, key_mask this other rev check = Ok m /\ marks this m (fun i => exists j, (j < t_size other)%nat /\ active other j /\ names_of this f1 i = names_of other f2 j).
Proof.
  intros OK OK' f1 f2 I1 I2 CI. unfold key_mask. fold f1 f2. rewrite (active_values this f1 OK I1). cbn [bind]. rewrite (active_values other f2 OK' I2). cbn [bind]. eexists. split; [reflexivity|]. split.
  - rewrite !map_length. apply where_length.
  - intros i LT AC. destruct (rank_where (t_mask this) 0%nat i) as (A & B); [rewrite (ok_mask this OK); exact LT | exact AC|]. cbn [Nat.add] in B. fold (nonzero (fun b : bool => b) (t_mask this)) in A, B.
    rewrite map_map. rewrite (nth_map (fun x => existsb (eqb_key (cipher check (names_of this f1 x))) (map (cipher check) (map (names_of other f2) (nonzero (fun b => b) (t_mask other))))) _ _ 0%nat false A). rewrite B, existsb_key, map_map, in_map_iff. split.
    + intros (j & E & J). apply (in_active other j OK') in J as (Lj & Aj). exists j. split; [exact Lj|]. split; [exact Aj|]. apply CI; auto.
    + intros (j & Lj & Aj & E). exists j. split; [rewrite E; reflexivity | apply (in_active other j OK'); auto].
Qed.
Lemma narrow_by_ok this other rev check : table_ok this -> table_ok other ->
  let f1 := if rev : bool then check else t_key this in let f2 := if rev then t_key other else check in
  incl f1 (fields this) -> incl f2 (fields other) ->
  (forall i j, (i < t_size this)%nat -> (j < t_size other)%nat -> cipher check (names_of this f1 i) = cipher check (names_of other f2 j) -> names_of this f1 i = names_of other f2 j) ->
  exists t', narrow_by this other rev check = Ok t' /\ masked_from this t' /\
    forall i, (i < t_size this)%nat -> (active t' i <-> active this i /\ exists j, (j < t_size other)%nat /\ active other j /\ names_of this f1 i = names_of other f2 j).
Proof.
  intros OK OK' f1 f2 I1 I2 CI. destruct (key_mask_ok this other rev check OK OK' I1 I2 CI) as (m & E & M). unfold narrow_by. rewrite E. cbn [bind]. apply narrow_ok; assumption.
Qed.
Lemma cipher_one f r r' : cipher [f] r = cipher [f] r' -> r = r'.
Proof. exact (fun H => H). Qed.
Lemma cipher_two f g (a b a' b' : Z) : 0 <= b < 4294967296 -> 0 <= b' < 4294967296 -> cipher [f; g] [a; b] = cipher [f; g] [a'; b'] -> [a; b] = [a'; b'].
Proof. intros R R' H. cbn [cipher length Nat.eqb] in H. injection H as H. assert (a = a') by lia. subst a'. assert (b = b') by lia. subst b'. reflexivity. Qed.

(** * Tables with other masks *)
Lemma mf_refl t : table_ok t -> masked_from t t.
Proof. intros OK. split; [destruct t; reflexivity | exact OK]. Qed.
Lemma mf_trans t t1 t2 : masked_from t t1 -> masked_from t1 t2 -> masked_from t t2.
Proof. intros (E & _) (E' & OK). split; [|exact OK]. rewrite E', E. reflexivity. Qed.
Lemma mf_size t t' : masked_from t t' -> t_size t' = t_size t.
Proof. intros (-> & _). reflexivity. Qed.
Lemma mf_key t t' : masked_from t t' -> t_key t' = t_key t.
Proof. intros (-> & _). reflexivity. Qed.
Lemma mf_fields t t' : masked_from t t' -> fields t' = fields t.
Proof. intros (-> & _). reflexivity. Qed.
Lemma mf_val t t' f i : masked_from t t' -> val t' f i = val t f i.
Proof. intros (-> & _). reflexivity. Qed.
Lemma mf_linked t t' k fs : masked_from t t' -> linked t k fs -> linked t' k fs.
Proof. intros M [A B C]. constructor; [apply M | rewrite (mf_key t t' M); exact B | rewrite (mf_fields t t' M); exact C]. Qed.
Lemma mf_range t t' : masked_from t t' -> in_range t -> in_range t'.
Proof. intros M R i L. rewrite (mf_val t t' _ _ M). apply R. rewrite <- (mf_size t t' M). exact L. Qed.
Lemma all_active_spec t : table_ok t -> (all_true (t_mask t) = true <-> all_active t).
Proof. intros OK. rewrite all_true_spec, (ok_mask t OK). reflexivity. Qed.

(** One value of one field, or two, matched *)
Definition ex (t : table) (P : nat -> Prop) : Prop := exists j, (j < t_size t)%nat /\ active t j /\ P j.
Lemma link1 this other rev f k fs k' fs' : linked this k fs -> linked other k' fs' -> In f fs -> In f fs' -> (if rev : bool then k' else k) = [f] ->
  exists t', narrow_by this other rev [f] = Ok t' /\ masked_from this t' /\ forall i, (i < t_size this)%nat -> (active t' i <-> active this i /\ ex other (fun j => val this f i = val other f j)).
Proof.
  intros [OK K I] [OK' K' I'] F F' E. assert (E1 : (if rev then [f] else t_key this) = [f]) by (destruct rev; [reflexivity | rewrite K; exact E]). assert (E2 : (if rev then t_key other else [f]) = [f]) by (destruct rev; [rewrite K'; exact E | reflexivity]).
  destruct (narrow_by_ok this other rev [f] OK OK') as (t' & EN & M & A).
  - rewrite E1. intros x [<- | []]. apply I, F.
  - rewrite E2. intros x [<- | []]. apply I', F'.
  - intros i j _ _. apply cipher_one.
  - exists t'. split; [exact EN|]. split; [exact M|]. intros i L. rewrite (A i L). rewrite E1, E2. unfold ex, names_of, val. cbn [map]. split; intros (B & j & X & Y & Z); (split; [exact B|]); exists j; (split; [exact X|]); (split; [exact Y|]); [injection Z as Z; exact Z | rewrite Z; reflexivity].
Qed.
Lemma link2_mask this other rev f k fs k' fs' g : linked this k fs -> linked other k' fs' -> in_range this -> in_range other ->
  (if rev : bool then k' else k) = [g; "inhid"%string] -> In (if rev then f else g) fs -> In "inhid"%string fs -> In (if rev then g else f) fs' -> In "inhid"%string fs' ->
  exists m, key_mask this other rev [f; "inhid"%string] = Ok m /\ marks this m (fun i => ex other (fun j => val this (if rev then f else g) i = val other (if rev then g else f) j /\ val this "inhid" i = val other "inhid" j)).
Proof.
  intros [OK K I] [OK' K' I'] R R' E F1 F2 F3 F4. assert (E1 : (if rev then [f; "inhid"%string] else t_key this) = [if rev then f else g; "inhid"%string]) by (destruct rev; [reflexivity | rewrite K; exact E]).
  assert (E2 : (if rev then t_key other else [f; "inhid"%string]) = [if rev then g else f; "inhid"%string]) by (destruct rev; [rewrite K'; exact E | reflexivity]).
  destruct (key_mask_ok this other rev [f; "inhid"%string] OK OK') as (m & EM & L & M).
  - rewrite E1. intros x [<- | [<- | []]]; apply I; assumption.
  - rewrite E2. intros x [<- | [<- | []]]; apply I'; assumption.
  - rewrite E1, E2. intros i j Li Lj. unfold names_of. cbn [map]. apply cipher_two; [exact (R i Li) | exact (R' j Lj)].
  - exists m. split; [exact EM|]. split; [exact L|]. intros i LT AC. rewrite (M i LT AC). rewrite E1, E2. unfold ex, names_of, val. cbn [map].
    split; intros (j & X & Y & Z); exists j; (split; [exact X|]); (split; [exact Y|]); [injection Z as Z1 Z2; auto | destruct Z as (Z1 & Z2); rewrite Z1, Z2; reflexivity].
Qed.

(** * _update_filter *)
Record steps (p p' : parser) (B1 : nat -> Prop) : Prop := {
  st_b1 : forall b, (b < t_size (p_bl p))%nat -> (B1 b <-> active (p_bl p) b /\ in_file p b /\ (all_active (p_sp p) \/ ex (p_sp p) (fun s => of_bl p s b)));
  st_eng : forall e, (e < t_size (p_eng p))%nat -> (active (p_eng p') e <-> active (p_eng p) e /\
    ((p_ac p = None /\ forall b, (b < t_size (p_bl p))%nat -> B1 b) \/
     (exists b, (b < t_size (p_bl p))%nat /\ B1 b /\ (of_ant p "iant1" b e \/ of_ant p "iant2" b e)) \/
     exists ac, p_ac p = Some ac /\ ex ac (fun a => of_eng p ac a e)));
  st_in : forall i, (i < t_size (p_in p))%nat -> (active (p_in p') i <-> active (p_in p) i /\
    (all_active (p_eng p') \/ ex (p_eng p') (fun e => val (p_eng p) "inhid" e = val (p_in p) "inhid" i)) /\
    (all_active (p_we p) \/ ex (p_we p) (fun w => of_we p i w)));
  st_we : forall w, (w < t_size (p_we p))%nat -> (active (p_we p') w <-> active (p_we p) w /\ ex (p_in p') (fun i => of_we p i w));
  st_bl : forall b, (b < t_size (p_bl p))%nat -> (active (p_bl p') b <-> B1 b /\ ex (p_in p') (fun i => of_in p b i) /\
    ex (p_eng p') (fun e => of_ant p "iant1" b e) /\ ex (p_eng p') (fun e => of_ant p "iant2" b e));
  st_sp : forall s, (s < t_size (p_sp p))%nat -> (active (p_sp p') s <-> active (p_sp p) s /\ ex (p_bl p') (fun b => of_bl p s b));
  st_ac : forall ac ac', p_ac p = Some ac -> p_ac p' = Some ac' -> forall a, (a < t_size ac)%nat -> (active ac' a <-> active ac a /\ ex (p_eng p') (fun e => of_eng p ac a e)) }.

Lemma files_ok t files : table_ok t -> In "inhid"%string (fields t) -> files <> [] ->
  exists b t', set_mask t None true (QWhere (map (fun l => ("inhid"%string, CEq, Many l)) files) false) false true = Ok (b, t') /\ masked_from t t' /\
  forall i, (i < t_size t)%nat -> (active t' i <-> active t i /\ exists l, In l files /\ exists z, In z (cell_at t "inhid" i) /\ In z l).
Proof.
  intros OK F NE. set (ws := map (fun l => ("inhid"%string, CEq, Many l)) files).
  assert (KN : forall w, In w ws -> known t w /\ sensible w) by (intros w I; apply in_map_iff in I as (l & <- & _); split; [exact F | exact Logic.I]).
  destruct (where_all_spec t OK false ws (repeat false (t_size t)) false) as (m & ok & E & L & O & M); [apply repeat_length | intros w I _; apply KN, I|].
  assert (OT : ok = true) by (apply O; right; destruct files as [|l files]; [contradiction|]; left; apply KN; left; reflexivity). subst ok.
  assert (G : exists m', generate_mask t (QWhere ws false) = Ok m' /\ length m' = t_size t /\ forall i, (i < t_size t)%nat -> (nth i m' false = true <-> meets t false ws i)).
  { unfold generate_mask. replace (index_query t (Some false) (QWhere ws false)) with (Ok (Mask m) : result index).
    - cbn [bind positions]. eexists. split; [reflexivity|]. rewrite map_length, seq_length. split; [reflexivity|]. intros i LT. rewrite (nth_map (fun k => isinN k (nonzero (fun b => b) m)) _ _ 0%nat false) by (rewrite seq_length; exact LT). rewrite seq_nth by exact LT. cbn [Nat.add].
      unfold isinN. rewrite (memb_spec Nat.eqb Nat.eqb_eq), nonzero_true, (M i LT), nth_repeat_lt by exact LT. rewrite L. split; [intros (_ & [X | X]); [discriminate | exact X] | auto].
    - destruct ws as [|w ws'] eqn:EW; [destruct files; [contradiction | discriminate EW]|]. cbn [index_query]. rewrite E. reflexivity. }
  destruct G as (m' & G & L' & M'). unfold set_mask. rewrite G. cbn [bind orb]. pose proof (ok_mask t OK) as LM.
  assert (MT : forall i, meets t false ws i <-> exists l, In l files /\ exists z, In z (cell_at t "inhid" i) /\ In z l).
  { intros i. unfold meets. split.
    - intros (w & I & _ & z & Z & C). apply in_map_iff in I as (l & <- & I). exists l. split; [exact I|]. exists z. split; [exact Z | exact C].
    - intros (l & I & z & Z & C). exists ("inhid"%string, CEq, Many l). split; [apply in_map_iff; eauto|]. split; [exact F|]. exists z. split; [exact Z | exact C]. }
  assert (X : exists m2, (if negb (all_true (t_mask t)) then if (length m' =? length (t_mask t))%nat then Ok (zip_with andb (t_mask t) m') else Err ValueError else Ok m') = Ok m2 /\ length m2 = t_size t /\ forall i, (i < t_size t)%nat -> (nth i m2 false = true <-> active t i /\ meets t false ws i)).
  { destruct (all_true (t_mask t)) eqn:A; cbn [negb].
    - exists m'. split; [reflexivity|]. split; [exact L'|]. intros i LT. rewrite (M' i LT). split; [|tauto]. intros H. split; [apply (proj1 (all_true_spec _) A); lia | exact H].
    - rewrite L', LM, Nat.eqb_refl. eexists. split; [reflexivity|]. split; [rewrite zip_length; lia|]. intros i LT. rewrite zip_nth by lia. rewrite andb_true_iff, (M' i LT). reflexivity. }
  destruct X as (m2 & -> & L2 & M2). cbn [bind]. assert (OM : table_ok (with_mask t m2)) by (destruct OK; constructor; assumption).
  destruct (list_eq_dec bool_dec (t_mask t) m2) as [EQ | NQ].
  - exists false, t. split; [reflexivity|]. split; [apply mf_refl, OK|]. intros i LT. rewrite <- MT, <- (M2 i LT), <- EQ. reflexivity.
  - exists true, (with_mask t m2). split; [reflexivity|]. split; [split; [reflexivity | exact OM]|]. intros i LT. rewrite <- MT, <- (M2 i LT). reflexivity.
Qed.

(** A table narrowed by another unless all the other's records are active *)
Lemma link1_unless this other rev f k fs k' fs' : linked this k fs -> linked other k' fs' -> In f fs -> In f fs' -> (if rev : bool then k' else k) = [f] ->
  exists t', (if all_true (t_mask other) then Ok this else narrow_by this other rev [f]) = Ok t' /\ masked_from this t' /\
    forall i, (i < t_size this)%nat -> (active t' i <-> active this i /\ (all_active other \/ ex other (fun j => val this f i = val other f j))).
Proof.
  intros LT LO F F' E. destruct (all_true (t_mask other)) eqn:A.
  - exists this. split; [reflexivity|]. split; [apply mf_refl, LT|]. apply (all_active_spec _ (li_table _ _ _ LO)) in A. intros i _. tauto.
  - destruct (link1 this other rev f k fs k' fs' LT LO F F' E) as (t' & EN & M & H). exists t'. split; [exact EN|]. split; [exact M|]. intros i L. rewrite (H i L).
    assert (NA : ~ all_active other) by (intros X; apply (all_active_spec _ (li_table _ _ _ LO)) in X; congruence). tauto.
Qed.
Ltac inl := cbn; tauto.

Theorem update_form p : parser_ok p -> exists p' B1, update_filter p = Ok p' /\ remasked p p' /\ steps p p' B1.
Proof.
  intros [LI LB LS LE LW LA NF RB RE RA].
  (* the files *)
  assert (S0 : exists bl0, match p_cross p with Some files => do r <- set_mask (p_bl p) None true (QWhere (map (fun l => ("inhid"%string, CEq, Many l)) files) false) false true; Ok (snd r) | None => Ok (p_bl p) end = Ok bl0 /\ masked_from (p_bl p) bl0 /\
     forall b, (b < t_size (p_bl p))%nat -> (active bl0 b <-> active (p_bl p) b /\ in_file p b)).
  { unfold in_file. destruct (p_cross p) as [files|].
    - destruct (files_ok (p_bl p) files) as (x & t' & E & M & H); [apply LB | apply (li_fields _ _ _ LB); inl | congruence|]. rewrite E. cbn [bind snd]. eauto.
    - exists (p_bl p). split; [reflexivity|]. split; [apply mf_refl, LB | tauto]. }
  destruct S0 as (bl0 & E0 & M0 & A0). unfold update_filter. rewrite E0. cbn [bind]. clear E0.
  pose proof (mf_linked _ _ _ _ M0 LB) as LB0. rewrite (li_key _ _ _ LB0).
  destruct (link1_unless bl0 (p_sp p) false "blhid" _ _ _ _ LB0 LS) as (bl1 & E1 & M1 & A1); [inl | inl | reflexivity|]. rewrite E1. cbn [bind]. clear E1.
  pose proof (mf_linked _ _ _ _ M1 LB0) as LB1. pose proof (mf_trans _ _ _ M0 M1) as M01.
  pose proof (mf_range _ _ M01 RB) as RB1.
  (* the antennas *)
  assert (SE : exists eng1, (if (match p_ac p with Some _ => true | None => false end) || negb (all_true (t_mask bl1)) then
                do m1 <- key_mask (p_eng p) bl1 false ant1;
                do m2 <- key_mask (p_eng p) bl1 false ant2;
                do m <- match p_ac p with
                        | Some ac => do m3 <- key_mask (p_eng p) ac false (t_key (p_eng p)); Ok (zip_with orb (zip_with orb m1 m2) m3)
                        | None => Ok (zip_with orb m1 m2)
                        end;
                narrow (p_eng p) m
              else Ok (p_eng p)) = Ok eng1 /\ masked_from (p_eng p) eng1 /\
     forall e, (e < t_size (p_eng p))%nat -> (active eng1 e <-> active (p_eng p) e /\
       ((p_ac p = None /\ forall b, (b < t_size (p_bl p))%nat -> active bl1 b) \/
        (exists b, (b < t_size (p_bl p))%nat /\ active bl1 b /\ (of_ant p "iant1" b e \/ of_ant p "iant2" b e)) \/
        exists ac, p_ac p = Some ac /\ ex ac (fun a => of_eng p ac a e)))).
  { destruct (link2_mask (p_eng p) bl1 false "iant1" _ _ _ _ "antenna" LE LB1 RE RB1) as (m1 & E1 & K1); [reflexivity | inl | inl | inl | inl|].
    destruct (link2_mask (p_eng p) bl1 false "iant2" _ _ _ _ "antenna" LE LB1 RE RB1) as (m2 & E2 & K2); [reflexivity | inl | inl | inl | inl|].
    pose proof (marks_zip orb _ _ _ _ _ or orb_true_iff ltac:(intros; tauto) (li_table _ _ _ LE) K1 K2) as K12.
    assert (EQ : forall e, (e < t_size (p_eng p))%nat -> ((ex bl1 (fun j => val (p_eng p) "antenna" e = val bl1 "iant1" j /\ val (p_eng p) "inhid" e = val bl1 "inhid" j) \/ ex bl1 (fun j => val (p_eng p) "antenna" e = val bl1 "iant2" j /\ val (p_eng p) "inhid" e = val bl1 "inhid" j)) <->
       exists b, (b < t_size (p_bl p))%nat /\ active bl1 b /\ (of_ant p "iant1" b e \/ of_ant p "iant2" b e))).
    { intros e Le. unfold ex, of_ant. rewrite (mf_size _ _ M01). split.
      - intros [(j & X & Y & Z) | (j & X & Y & Z)]; rewrite !(mf_val _ _ _ _ M01) in Z; exists j; auto 6.
      - intros (b & X & Y & [(_ & Z) | (_ & Z)]); [left | right]; exists b; rewrite !(mf_val _ _ _ _ M01); auto. }
    fold ant1 in E1. fold ant2 in E2. destruct (p_ac p) as [ac|] eqn:EA; cbn [orb].
    - rewrite E1. cbn [bind]. rewrite E2. cbn [bind]. rewrite (li_key _ _ _ LE).
      destruct (link2_mask (p_eng p) ac false "antenna" _ _ _ _ "antenna" LE (LA ac eq_refl) RE (RA ac eq_refl)) as (m3 & E3 & K3); [reflexivity | inl | inl | inl | inl|]. rewrite E3. cbn [bind].
      pose proof (marks_zip orb _ _ _ _ _ or orb_true_iff ltac:(intros; tauto) (li_table _ _ _ LE) K12 K3) as K.
      destruct (narrow_ok _ _ _ (li_table _ _ _ LE) K) as (eng1 & EN & M & A). exists eng1. split; [exact EN|]. split; [exact M|]. intros e Le. rewrite (A e Le), (EQ e Le). split; intros (X & Y); (split; [exact X|]).
      + right. destruct Y as [Y | Y]; [left; exact Y | right]. exists ac. split; [reflexivity|]. destruct Y as (a & La & Aa & Y). exists a. split; [exact La|]. split; [exact Aa|]. split; [exact Le | exact Y].
      + destruct Y as [(Y & _) | [Y | (ac' & EQ' & a & La & Aa & _ & Y)]]; [discriminate | left; exact Y | right]. injection EQ' as <-. exists a. auto.
    - destruct (all_true (t_mask bl1)) eqn:AT; cbn [negb].
      + exists (p_eng p). split; [reflexivity|]. split; [apply mf_refl, LE|]. intros e Le. apply (all_active_spec _ (li_table _ _ _ LB1)) in AT. unfold all_active in AT. rewrite (mf_size _ _ M01) in AT. tauto.
      + rewrite E1. cbn [bind]. rewrite E2. cbn [bind]. destruct (narrow_ok _ _ _ (li_table _ _ _ LE) K12) as (eng1 & EN & M & A). exists eng1. split; [exact EN|]. split; [exact M|]. intros e Le. rewrite (A e Le), (EQ e Le). split; intros (X & Y); (split; [exact X|]).
        * right. left. exact Y.
        * destruct Y as [(_ & Y) | [Y | (ac' & EQ' & _)]]; [exfalso | exact Y | discriminate]. assert (X' : all_active bl1) by (intros b Lb; apply Y; rewrite <- (mf_size _ _ M01); exact Lb). apply (all_active_spec _ (li_table _ _ _ LB1)) in X'. congruence. }
  destruct SE as (eng1 & EE & ME & AE). rewrite EE. cbn [bind]. clear EE. pose proof (mf_linked _ _ _ _ ME LE) as LE1. pose proof (mf_range _ _ ME RE) as RE1.
  (* the integrations *)
  rewrite (li_key _ _ _ LI). destruct (link1_unless (p_in p) eng1 false "inhid" _ _ _ _ LI LE1) as (in1 & E1 & MI1 & AI1); [inl | inl | reflexivity|]. rewrite E1. cbn [bind]. clear E1.
  pose proof (mf_linked _ _ _ _ MI1 LI) as LI1. rewrite (li_key _ _ _ LW).
  destruct (link1_unless in1 (p_we p) true "ints" _ _ _ _ LI1 LW) as (in2 & E1 & MI2 & AI2); [inl | inl | reflexivity|]. rewrite E1. cbn [bind]. clear E1.
  pose proof (mf_linked _ _ _ _ MI2 LI1) as LI2. pose proof (mf_trans _ _ _ MI1 MI2) as MI.
  destruct (link1 (p_we p) in2 false "ints" _ _ _ _ LW LI2) as (we1 & E1 & MW & AW); [inl | inl | reflexivity|]. rewrite E1. cbn [bind]. clear E1.
  rewrite (li_key _ _ _ LI2). destruct (link1 bl1 in2 true "inhid" _ _ _ _ LB1 LI2) as (bl2 & E1 & MB2 & AB2); [inl | inl | reflexivity|]. rewrite E1. cbn [bind]. clear E1.
  pose proof (mf_linked _ _ _ _ MB2 LB1) as LB2. pose proof (mf_trans _ _ _ M01 MB2) as M02. pose proof (mf_range _ _ M02 RB) as RB2.
  destruct (link2_mask bl2 eng1 true "iant1" _ _ _ _ "antenna" LB2 LE1 RB2 RE1) as (m1 & E1 & K1); [reflexivity | inl | inl | inl | inl|]. fold ant1 in E1. rewrite E1. cbn [bind]. clear E1.
  destruct (link2_mask bl2 eng1 true "iant2" _ _ _ _ "antenna" LB2 LE1 RB2 RE1) as (m2 & E1 & K2); [reflexivity | inl | inl | inl | inl|]. fold ant2 in E1. rewrite E1. cbn [bind]. clear E1.
  pose proof (marks_zip andb _ _ _ _ _ and andb_true_iff ltac:(intros; tauto) (li_table _ _ _ LB2) K1 K2) as K12.
  destruct (narrow_ok _ _ _ (li_table _ _ _ LB2) K12) as (bl3 & E1 & MB3 & AB3). rewrite E1. cbn [bind]. clear E1. pose proof (mf_linked _ _ _ _ MB3 LB2) as LB3. pose proof (mf_trans _ _ _ M02 MB3) as M03.
  rewrite (li_key _ _ _ LB3). destruct (link1 (p_sp p) bl3 true "blhid" _ _ _ _ LS LB3) as (sp1 & E1 & MS & AS); [inl | inl | reflexivity|]. rewrite E1. cbn [bind]. clear E1.
  assert (SA : exists ac1, match p_ac p with Some ac => do a <- narrow_by ac eng1 true (t_key eng1); Ok (Some a) | None => Ok None end = Ok ac1 /\ match p_ac p, ac1 with Some a, Some a' => masked_from a a' | None, None => True | _, _ => False end /\
     forall ac ac', p_ac p = Some ac -> ac1 = Some ac' -> forall a, (a < t_size ac)%nat -> (active ac' a <-> active ac a /\ ex eng1 (fun e => of_eng p ac a e))).
  { destruct (p_ac p) as [ac|] eqn:EA; [|exists None; split; [reflexivity|]; split; [exact Logic.I | discriminate]]. rewrite (li_key _ _ _ LE1).
    destruct (link2_mask ac eng1 true "antenna" _ _ _ _ "antenna" (LA ac eq_refl) LE1 (RA ac eq_refl) RE1) as (m3 & E3 & K3); [reflexivity | inl | inl | inl | inl|].
    destruct (narrow_ok _ _ _ (li_table _ _ _ (LA ac eq_refl)) K3) as (ac1 & EN & M & A). unfold narrow_by. rewrite E3. cbn [bind]. rewrite EN. cbn [bind]. exists (Some ac1). split; [reflexivity|]. split; [exact M|].
    intros ? ? [= <-] [= <-] a La. rewrite (A a La). unfold ex, of_eng. split; intros (X & e & Le & Ae & Y); (split; [exact X|]); exists e; (split; [exact Le|]); (split; [exact Ae|]); rewrite !(mf_val _ _ _ _ ME) in *; rewrite (mf_size _ _ ME) in Le; intuition congruence. }
  destruct SA as (ac1 & -> & MA & AA). cbn [bind]. eexists. exists (active bl1). split; [reflexivity|]. split; [constructor; cbn; auto|].
  constructor; cbn [p_in p_bl p_sp p_eng p_we p_ac].
  - intros b Lb. rewrite (A1 b) by (rewrite (mf_size _ _ M0); exact Lb). rewrite (A0 b Lb). rewrite and_assoc. unfold ex, of_bl. split; intros (X & Y & [Z | (s & Ls & As & Z)]); (split; [exact X|]); (split; [exact Y|]); auto; right; exists s; rewrite (mf_val _ _ _ _ M0) in *; intuition congruence.
  - exact AE.
  - intros i Li. rewrite (AI2 i) by (rewrite (mf_size _ _ MI1); exact Li). rewrite (AI1 i Li). rewrite and_assoc. unfold ex, of_we. split; intros (X & Y & Z); (split; [exact X|]); split.
    + destruct Y as [Y | (e & ? & ? & Y)]; [left; exact Y | right; exists e; rewrite (mf_val _ _ _ _ ME) in Y; auto].
    + destruct Z as [Z | (w & ? & ? & Z)]; [left; exact Z | right; exists w; rewrite (mf_val _ _ _ _ MI1) in Z; auto 6].
    + destruct Y as [Y | (e & ? & ? & Y)]; [left; exact Y | right; exists e; rewrite (mf_val _ _ _ _ ME); auto].
    + destruct Z as [Z | (w & ? & ? & _ & Z)]; [left; exact Z | right; exists w; rewrite (mf_val _ _ _ _ MI1); auto 6].
  - intros w Lw. rewrite (AW w Lw). unfold ex, of_we. split; intros (X & i & ? & ? & Y); (split; [exact X|]); exists i; rewrite (mf_val _ _ _ _ MI) in *; intuition congruence.
  - intros b Lb. rewrite (AB3 b) by (rewrite (mf_size _ _ M02); exact Lb). rewrite (AB2 b) by (rewrite (mf_size _ _ M01); exact Lb). rewrite and_assoc.
    assert (Q1 : ex in2 (fun j => val bl1 "inhid" b = val in2 "inhid" j) <-> ex in2 (fun i => of_in p b i)).
    { unfold ex, of_in. rewrite (mf_val _ _ _ _ M01). split; intros (i & Li & ? & Y); exists i; rewrite (mf_val _ _ _ _ MI) in *; rewrite (mf_size _ _ MI) in *; intuition congruence. }
    assert (Q2 : forall f, ex eng1 (fun j => val bl2 f b = val eng1 "antenna" j /\ val bl2 "inhid" b = val eng1 "inhid" j) <-> ex eng1 (fun e => of_ant p f b e)).
    { intros f. unfold ex, of_ant. rewrite !(mf_val _ _ _ _ M02). split; intros (e & Le & ? & Y); exists e; rewrite !(mf_val _ _ _ _ ME) in *; rewrite (mf_size _ _ ME) in *; intuition congruence. }
    rewrite Q1, !Q2. reflexivity.
  - intros s Ls. rewrite (AS s Ls). unfold ex, of_bl. split; intros (X & b & ? & ? & Y); (split; [exact X|]); exists b; rewrite (mf_val _ _ _ _ M03) in *; rewrite (mf_size _ _ M03) in *; intuition congruence.
  - exact AA.
Qed.

(** * What is left active *)
Section Update.
Variables p p' : parser.
Variable B1 : nat -> Prop.
Hypothesis RM : remasked p p'.
Hypothesis ST : steps p p' B1.

Lemma eng_of_b1 f b e : (b < t_size (p_bl p))%nat -> B1 b -> f = "iant1"%string \/ f = "iant2"%string -> of_ant p f b e -> active (p_eng p) e -> active (p_eng p') e.
Proof. intros Lb HB F O A. apply (st_eng _ _ _ ST e (proj1 O)). split; [exact A|]. right. left. exists b. split; [exact Lb|]. split; [exact HB|]. destruct F as [-> | ->]; auto. Qed.
Lemma eng_old e : (e < t_size (p_eng p))%nat -> active (p_eng p') e -> active (p_eng p) e.
Proof. intros L H. apply (st_eng _ _ _ ST e L) in H. tauto. Qed.
Lemma in_old i : (i < t_size (p_in p))%nat -> active (p_in p') i -> active (p_in p) i.
Proof. intros L H. apply (st_in _ _ _ ST i L) in H. tauto. Qed.
Lemma sz_in : t_size (p_in p') = t_size (p_in p). Proof. apply mf_size, RM. Qed.
Lemma sz_bl : t_size (p_bl p') = t_size (p_bl p). Proof. apply mf_size, RM. Qed.
Lemma sz_eng : t_size (p_eng p') = t_size (p_eng p). Proof. apply mf_size, RM. Qed.
Lemma sz_we : t_size (p_we p') = t_size (p_we p). Proof. apply mf_size, RM. Qed.
Lemma sz_sp : t_size (p_sp p') = t_size (p_sp p). Proof. apply mf_size, RM. Qed.

Theorem sp_exact s : (s < t_size (p_sp p))%nat ->
  (active (p_sp p') s <-> selected p (active (p_in p)) (active (p_bl p)) (active (p_sp p)) (active (p_eng p)) (active (p_we p)) s).
Proof.
  intros Ls. rewrite (st_sp _ _ _ ST s Ls). unfold selected. split; intros (A & H); (split; [exact A|]).
  - destruct H as (b & Lb & Ab & O). exists b. split; [exact O|]. apply (st_bl _ _ _ ST b (proj1 O)) in Ab as (HB & (i & _ & Ai & Oi) & (e & _ & Ae & Oe) & e' & _ & Ae' & Oe').
    pose proof (proj1 (st_b1 _ _ _ ST b (proj1 O)) HB) as (Xb & Xf & _). split; [exact Xb|]. split; [exact Xf|]. split; [|split].
    + exists i. split; [exact Oi|]. apply (st_in _ _ _ ST i (proj1 Oi)) in Ai as (Xi & _ & W). split; [exact Xi|]. destruct W as [W | (w & _ & Aw & Ow)]; [left; exact W | right; eauto].
    + exists e. split; [exact Oe | apply eng_old; [apply Oe | exact Ae]].
    + exists e'. split; [exact Oe' | apply eng_old; [apply Oe' | exact Ae']].
  - destruct H as (b & O & Ab & F & (i & Oi & Ai & W) & (e & Oe & Ae) & e' & Oe' & Ae'). pose proof (proj1 O) as Lb.
    assert (HB : B1 b) by (apply (st_b1 _ _ _ ST b Lb); split; [exact Ab|]; split; [exact F|]; right; exists s; auto).
    pose proof (eng_of_b1 "iant1" b e Lb HB (or_introl eq_refl) Oe Ae) as Xe. pose proof (eng_of_b1 "iant2" b e' Lb HB (or_intror eq_refl) Oe' Ae') as Xe'.
    exists b. rewrite sz_bl. split; [exact Lb|]. split; [|exact O]. apply (st_bl _ _ _ ST b Lb). split; [exact HB|]. split; [|split].
    + exists i. rewrite sz_in. split; [apply Oi|]. split; [|exact Oi]. apply (st_in _ _ _ ST i (proj1 Oi)). split; [exact Ai|]. split.
      * right. exists e. rewrite sz_eng. split; [apply Oe|]. split; [exact Xe|]. destruct Oe as (_ & _ & Oe), Oi as (_ & Oi). congruence.
      * destruct W as [W | (w & Ow & Aw)]; [left; exact W | right; exists w; split; [apply Ow | auto]].
    + exists e. rewrite sz_eng. split; [apply Oe | auto].
    + exists e'. rewrite sz_eng. split; [apply Oe' | auto].
Qed.
Lemma of_bl_same s b : of_bl p' s b <-> of_bl p s b.
Proof. unfold of_bl. rewrite sz_bl, (mf_val _ _ _ _ (rm_bl _ _ RM)), (mf_val _ _ _ _ (rm_sp _ _ RM)). reflexivity. Qed.
Lemma of_in_same b i : of_in p' b i <-> of_in p b i.
Proof. unfold of_in. rewrite sz_in, (mf_val _ _ _ _ (rm_bl _ _ RM)), (mf_val _ _ _ _ (rm_in _ _ RM)). reflexivity. Qed.
Lemma of_ant_same f b e : of_ant p' f b e <-> of_ant p f b e.
Proof. unfold of_ant. rewrite sz_eng, !(mf_val _ _ _ _ (rm_bl _ _ RM)), !(mf_val _ _ _ _ (rm_eng _ _ RM)). reflexivity. Qed.
Lemma of_we_same i w : of_we p' i w <-> of_we p i w.
Proof. unfold of_we. rewrite sz_we, (mf_val _ _ _ _ (rm_we _ _ RM)), (mf_val _ _ _ _ (rm_in _ _ RM)). reflexivity. Qed.
Lemma of_eng_same ac ac' a e : masked_from ac ac' -> (of_eng p' ac' a e <-> of_eng p ac a e).
Proof. intros M. unfold of_eng. rewrite sz_eng, !(mf_val _ _ _ _ M), !(mf_val _ _ _ _ (rm_eng _ _ RM)). reflexivity. Qed.
Lemma in_file_same b : in_file p' b <-> in_file p b.
Proof. unfold in_file. rewrite (rm_cross _ _ RM). destruct (rm_bl _ _ RM) as (-> & _). reflexivity. Qed.

Theorem ac_exact ac ac' a : p_ac p = Some ac -> p_ac p' = Some ac' -> (a < t_size ac)%nat ->
  (active ac' a <-> active ac a /\ exists e, of_eng p ac a e /\ active (p_eng p) e).
Proof.
  intros E E' La. rewrite (st_ac _ _ _ ST ac ac' E E' a La). split; intros (A & e & H); (split; [exact A|]); exists e.
  - destruct H as (_ & Ae & O). split; [exact O | apply eng_old; [apply O | exact Ae]].
  - destruct H as (O & Ae). rewrite sz_eng. split; [apply O|]. split; [|exact O]. apply (st_eng _ _ _ ST e (proj1 O)). split; [exact Ae|]. right. right. exists ac. split; [exact E|]. exists a. auto.
Qed.
Lemma ac_pair ac' : p_ac p' = Some ac' -> exists ac, p_ac p = Some ac /\ masked_from ac ac'.
Proof. intros E. pose proof (rm_ac _ _ RM) as M. rewrite E in M. destruct (p_ac p) as [ac|]; [eauto | destruct M]. Qed.
Theorem all_consistent : consistent p'.
Proof.
  constructor.
  - intros s Ls A. rewrite sz_sp in Ls. apply (st_sp _ _ _ ST s Ls) in A as (_ & b & _ & Ab & O). exists b. rewrite of_bl_same. auto.
  - intros b Lb A. rewrite sz_bl in Lb. apply (st_bl _ _ _ ST b Lb) in A as (_ & (i & _ & Ai & O) & _). exists i. rewrite of_in_same. auto.
  - intros b Lb A. rewrite sz_bl in Lb. apply (st_bl _ _ _ ST b Lb) in A as (_ & _ & (i & _ & Ai & O) & _). exists i. rewrite of_ant_same. auto.
  - intros b Lb A. rewrite sz_bl in Lb. apply (st_bl _ _ _ ST b Lb) in A as (_ & _ & _ & i & _ & Ai & O). exists i. rewrite of_ant_same. auto.
  - intros i w Li A O. rewrite sz_in in Li. rewrite of_we_same in O. pose proof (proj1 (st_in _ _ _ ST i Li) A) as (_ & _ & [W | (w' & Lw & Aw & Ow)]).
    + exists w. rewrite of_we_same. split; [exact O|]. apply (st_we _ _ _ ST w (proj1 O)). split; [apply W, O|]. exists i. rewrite sz_in. auto.
    + exists w'. rewrite of_we_same. split; [exact Ow|]. apply (st_we _ _ _ ST w' Lw). split; [exact Aw|]. exists i. rewrite sz_in. auto.
  - intros w Lw A. rewrite sz_we in Lw. apply (st_we _ _ _ ST w Lw) in A as (_ & i & Li & Ai & O). exists i. rewrite of_we_same. auto.
  - intros ac' a E La A. destruct (ac_pair ac' E) as (ac & E0 & M). rewrite (mf_size _ _ M) in La. apply (st_ac _ _ _ ST ac ac' E0 E a La) in A as (_ & e & _ & Ae & O). exists e. rewrite (of_eng_same ac ac' a e M). auto.
Qed.
(** Spectral and autocorrelation records left are left by another pass. *)
Theorem stays s : (forall i, (i < t_size (p_in p))%nat -> exists w, of_we p i w) -> (s < t_size (p_sp p))%nat -> active (p_sp p') s ->
  selected p' (active (p_in p')) (active (p_bl p')) (active (p_sp p')) (active (p_eng p')) (active (p_we p')) s.
Proof.
  intros WE Ls A. pose proof all_consistent as [C1 C2 C3 C4 C5 C6 C7]. split; [exact A|]. destruct (C1 s) as (b & O & Ab); [rewrite sz_sp; exact Ls | exact A|]. exists b. split; [exact O|]. split; [exact Ab|].
  pose proof (proj1 O) as Lb. pose proof Lb as Lb'. rewrite sz_bl in Lb'. pose proof (proj1 (st_bl _ _ _ ST b Lb') Ab) as (HB & _). apply (st_b1 _ _ _ ST b Lb') in HB as (_ & F & _). split; [apply in_file_same; exact F|]. split; [|split; [apply C3 | apply C4]; assumption].
  destruct (C2 b Lb Ab) as (i & Oi & Ai). exists i. split; [exact Oi|]. split; [exact Ai|]. right. pose proof (proj1 Oi) as Li. pose proof Li as Li'. rewrite sz_in in Li'. destruct (WE i Li') as (w & Ow). apply of_we_same in Ow. apply (C5 i w Li Ai Ow).
Qed.
End Update.

Lemma remasked_ok p p' : parser_ok p -> remasked p p' -> parser_ok p'.
Proof.
  intros [LI LB LS LE LW LA NF RB RE RA] [I B S' E W A C]. constructor.
  - exact (mf_linked _ _ _ _ I LI).
  - exact (mf_linked _ _ _ _ B LB).
  - exact (mf_linked _ _ _ _ S' LS).
  - exact (mf_linked _ _ _ _ E LE).
  - exact (mf_linked _ _ _ _ W LW).
  - intros ac EA. rewrite EA in A. destruct (p_ac p) as [a|] eqn:EP; [|destruct A]. exact (mf_linked _ _ _ _ A (LA a eq_refl)).
  - rewrite C. exact NF.
  - exact (mf_range _ _ B RB).
  - exact (mf_range _ _ E RE).
  - intros ac EA. rewrite EA in A. destruct (p_ac p) as [a|] eqn:EP; [|destruct A]. exact (mf_range _ _ A (RA a eq_refl)).
Qed.
Lemma remasked_trans p p1 p2 : remasked p p1 -> remasked p1 p2 -> remasked p p2.
Proof.
  intros [I B S' E W A C] [I2 B2 S2 E2 W2 A2 C2]. constructor; eauto using mf_trans; [|congruence].
  destruct (p_ac p), (p_ac p1), (p_ac p2); try tauto. eauto using mf_trans.
Qed.

(** * select *)
Lemma choose_ok t wa reset : table_ok t -> wa <> Some [] -> (forall w, In w (asked wa) -> sensible w) ->
  exists m t', search t (match wa with Some ws => QWhere ws true | None => QAll end) = Ok m /\ put_mask t m reset true = Ok t' /\ masked_from t t' /\
  forall i, (i < t_size t)%nat -> (active t' i <-> (reset = true \/ active t i) /\ meets t true (asked wa) i).
Proof.
  intros OK NE SN.
  assert (G : exists m, search t (match wa with Some ws => QWhere ws true | None => QAll end) = Ok m /\ exists m', match m with Some m => Ok m | None => generate_mask t QAll end = Ok m' /\ length m' = t_size t /\ forall i, (i < t_size t)%nat -> (nth i m' false = true <-> meets t true (asked wa) i)).
  { assert (GA : exists m', generate_mask t QAll = Ok m' /\ length m' = t_size t /\ forall i, (i < t_size t)%nat -> nth i m' false = true).
    { eexists. split; [reflexivity|]. rewrite map_length, seq_length. split; [reflexivity|]. intros i LT. cbv beta.
      rewrite (nth_map (fun k => isinN k (seq 0 (t_size t))) _ _ 0%nat false) by (rewrite seq_length; exact LT). rewrite seq_nth by exact LT. cbn [Nat.add]. unfold isinN. rewrite (memb_spec Nat.eqb Nat.eqb_eq). apply in_seq. lia. }
    destruct GA as (ma & EA & LA & HA). destruct wa as [ws|]; [|exists (Some ma); unfold search; rewrite EA; split; [reflexivity|]; exists ma; split; [reflexivity|]; split; [exact LA|]; intros i LT; split; [intros _ w [] | intros _; apply HA, LT]].
    destruct ws as [|w ws']; [congruence|]. set (ws := w :: ws') in *. cbn [asked] in *.
    destruct (where_all_spec t OK true ws (repeat true (t_size t)) false) as (m & ok & E & L & O & M); [apply repeat_length | intros w' I _; apply SN, I|].
    unfold search, generate_mask at 1. replace (index_query t (Some false) (QWhere ws true)) with (if ok then Ok (Mask m) else Err MirMetaError : result index) by (unfold ws; cbn [index_query]; fold ws; rewrite E; reflexivity).
    destruct ok; cbn [bind positions].
    - eexists. split; [reflexivity|]. eexists. split; [reflexivity|]. rewrite map_length, seq_length. split; [reflexivity|]. intros i LT. rewrite (nth_map (fun k => isinN k (nonzero (fun b => b) m)) _ _ 0%nat false) by (rewrite seq_length; exact LT). rewrite seq_nth by exact LT. cbn [Nat.add].
      unfold isinN. rewrite (memb_spec Nat.eqb Nat.eqb_eq), nonzero_true, (M i LT), nth_repeat_lt by exact LT. rewrite L. tauto.
    - exists None. split; [reflexivity|]. exists ma. split; [exact EA|]. split; [exact LA|]. intros i LT. split; [|intros _; apply HA, LT]. intros _ w' I K. exfalso. assert (X : false = true) by (apply O; right; apply Exists_exists; eauto). discriminate X. }
  destruct G as (m & E & m' & E' & L' & M'). exists m. unfold put_mask, set_mask.
  replace (match m with Some m0 => if false && negb (all_true (t_mask t)) then if (length m0 =? length (filter (fun b => b) (t_mask t)))%nat then Ok (scatter (t_mask t) m0) else Err ValueError else Ok m0 | None => generate_mask t QAll end) with (Ok m' : result (list bool)) by (destruct m; symmetry; exact E').
  cbn [bind]. pose proof (ok_mask t OK) as LM.
  assert (X : exists m2, (if negb (reset || all_true (t_mask t)) then if (length m' =? length (t_mask t))%nat then Ok (zip_with andb (t_mask t) m') else Err ValueError else Ok m') = Ok m2 /\ length m2 = t_size t /\ forall i, (i < t_size t)%nat -> (nth i m2 false = true <-> (reset = true \/ active t i) /\ meets t true (asked wa) i)).
  { destruct reset; cbn [orb negb]; [exists m'; split; [reflexivity|]; split; [exact L'|]; intros i LT; rewrite (M' i LT); tauto|]. destruct (all_true (t_mask t)) eqn:A; cbn [negb].
    - exists m'. split; [reflexivity|]. split; [exact L'|]. intros i LT. rewrite (M' i LT). assert (active t i) by (apply (proj1 (all_true_spec _) A); lia). tauto.
    - rewrite L', LM, Nat.eqb_refl. eexists. split; [reflexivity|]. split; [rewrite zip_length; lia|]. intros i LT. rewrite zip_nth by lia. rewrite andb_true_iff, (M' i LT). unfold active. split; [tauto|]. intros ([X | X] & Y); [discriminate | auto]. }
  destruct X as (m2 & -> & L2 & M2). cbn [bind]. assert (OM : table_ok (with_mask t m2)) by (destruct OK; constructor; assumption).
  destruct (list_eq_dec bool_dec (t_mask t) m2) as [EQ | NQ]; cbn [bind snd].
  - exists t. split; [exact E|]. split; [reflexivity|]. split; [apply mf_refl, OK|]. intros i LT. rewrite <- (M2 i LT), <- EQ. reflexivity.
  - exists (with_mask t m2). split; [exact E|]. split; [reflexivity|]. split; [split; [reflexivity | exact OM]|]. intros i LT. rewrite <- (M2 i LT). reflexivity.
Qed.
Theorem select_form p wa reset : parser_ok p -> wa <> Some [] -> (forall w, In w (asked wa) -> sensible w) ->
  exists p1, select p wa true true reset = update_filter p1 /\ remasked p p1 /\
  (forall i, (i < t_size (p_in p))%nat -> (active (p_in p1) i <-> kept_by reset wa (p_in p) i)) /\
  (forall i, (i < t_size (p_bl p))%nat -> (active (p_bl p1) i <-> kept_by reset wa (p_bl p) i)) /\
  (forall i, (i < t_size (p_sp p))%nat -> (active (p_sp p1) i <-> kept_by reset wa (p_sp p) i)) /\
  (forall i, (i < t_size (p_eng p))%nat -> (active (p_eng p1) i <-> kept_by reset wa (p_eng p) i)) /\
  (forall i, (i < t_size (p_we p))%nat -> (active (p_we p1) i <-> kept_by reset wa (p_we p) i)) /\
  (forall ac, p_ac p = Some ac -> exists ac1, p_ac p1 = Some ac1 /\ forall i, (i < t_size ac)%nat -> (active ac1 i <-> kept_by reset wa ac i)).
Proof.
  intros PO NE SN. unfold select.
  destruct (choose_ok (p_in p) wa reset (li_table _ _ _ (po_in _ PO)) NE SN) as (m1 & t1 & S1 & P1 & M1 & A1). destruct (choose_ok (p_bl p) wa reset (li_table _ _ _ (po_bl _ PO)) NE SN) as (m2 & t2 & S2 & P2 & M2 & A2).
  destruct (choose_ok (p_sp p) wa reset (li_table _ _ _ (po_sp _ PO)) NE SN) as (m3 & t3 & S3 & P3 & M3 & A3). destruct (choose_ok (p_eng p) wa reset (li_table _ _ _ (po_eng _ PO)) NE SN) as (m4 & t4 & S4 & P4 & M4 & A4).
  destruct (choose_ok (p_we p) wa reset (li_table _ _ _ (po_we _ PO)) NE SN) as (m5 & t5 & S5 & P5 & M5 & A5).
  rewrite S1; cbn [bind]; rewrite S2; cbn [bind]; rewrite S3; cbn [bind]; rewrite S4; cbn [bind]; rewrite S5; cbn [bind].
  destruct (p_ac p) as [ac|] eqn:EA.
  - destruct (choose_ok ac wa reset (li_table _ _ _ (po_ac _ PO ac EA)) NE SN) as (m6 & t6 & S6 & P6 & M6 & A6). rewrite S6; cbn [bind]; rewrite P1; cbn [bind]; rewrite P2; cbn [bind]; rewrite P3; cbn [bind]; rewrite P4; cbn [bind]; rewrite P5; cbn [bind]; rewrite P6; cbn [bind].
    eexists. split; [reflexivity|]. split; [constructor; cbn [p_in p_bl p_sp p_eng p_we p_ac p_cross]; try rewrite EA; auto|]. cbn [p_in p_bl p_sp p_eng p_we p_ac]. repeat (split; [assumption|]). intros ? [= <-]. eauto.
  - cbn [bind]; rewrite P1; cbn [bind]; rewrite P2; cbn [bind]; rewrite P3; cbn [bind]; rewrite P4; cbn [bind]; rewrite P5; cbn [bind].
    eexists. split; [reflexivity|]. split; [constructor; cbn [p_in p_bl p_sp p_eng p_we p_ac p_cross]; try rewrite EA; auto|]. cbn [p_in p_bl p_sp p_eng p_we p_ac]. repeat (split; [assumption|]). discriminate.
Qed.
Lemma selected_same p p1 (Q1 Q2 Q3 Q4 Q5 P1 P2 P3 P4 P5 : nat -> Prop) s : remasked p p1 -> (s < t_size (p_sp p))%nat ->
  (forall i, (i < t_size (p_in p))%nat -> (Q1 i <-> P1 i)) -> (forall i, (i < t_size (p_bl p))%nat -> (Q2 i <-> P2 i)) -> (forall i, (i < t_size (p_sp p))%nat -> (Q3 i <-> P3 i)) ->
  (forall i, (i < t_size (p_eng p))%nat -> (Q4 i <-> P4 i)) -> (forall i, (i < t_size (p_we p))%nat -> (Q5 i <-> P5 i)) ->
  selected p1 Q1 Q2 Q3 Q4 Q5 s -> selected p P1 P2 P3 P4 P5 s.
Proof.
  intros RM Ls H1 H2 H3 H4 H5 (A & b & O & B & F & (i & Oi & Ai & W) & (e & Oe & Ae) & e' & Oe' & Ae'). apply (of_bl_same p p1 RM) in O. apply (in_file_same p p1 RM) in F. apply (of_in_same p p1 RM) in Oi. apply (of_ant_same p p1 RM) in Oe. apply (of_ant_same p p1 RM) in Oe'.
  split; [apply (H3 s Ls); exact A|]. exists b. split; [exact O|]. split; [apply H2; [apply O | exact B]|]. split; [exact F|]. split; [|split].
  - exists i. split; [exact Oi|]. split; [apply H1; [apply Oi | exact Ai]|]. destruct W as [W | (w & Ow & Aw)].
    + left. intros w Lw. apply (H5 w Lw). apply W. rewrite (sz_we p p1 RM). exact Lw.
    + right. apply (of_we_same p p1 RM) in Ow. exists w. split; [exact Ow|]. apply H5; [apply Ow | exact Aw].
  - exists e. split; [exact Oe|]. apply H4; [apply Oe | exact Ae].
  - exists e'. split; [exact Oe'|]. apply H4; [apply Oe' | exact Ae'].
Qed.
Lemma selected_back p p1 (Q1 Q2 Q3 Q4 Q5 P1 P2 P3 P4 P5 : nat -> Prop) s : remasked p p1 -> (s < t_size (p_sp p))%nat ->
  (forall i, (i < t_size (p_in p))%nat -> (Q1 i <-> P1 i)) -> (forall i, (i < t_size (p_bl p))%nat -> (Q2 i <-> P2 i)) -> (forall i, (i < t_size (p_sp p))%nat -> (Q3 i <-> P3 i)) ->
  (forall i, (i < t_size (p_eng p))%nat -> (Q4 i <-> P4 i)) -> (forall i, (i < t_size (p_we p))%nat -> (Q5 i <-> P5 i)) ->
  selected p P1 P2 P3 P4 P5 s -> selected p1 Q1 Q2 Q3 Q4 Q5 s.
Proof.
  intros RM Ls H1 H2 H3 H4 H5 (A & b & O & B & F & (i & Oi & Ai & W) & (e & Oe & Ae) & e' & Oe' & Ae').
  split; [apply (H3 s Ls); exact A|]. exists b. split; [apply (of_bl_same p p1 RM); exact O|]. split; [apply H2; [apply O | exact B]|]. split; [apply (in_file_same p p1 RM); exact F|]. split; [|split].
  - exists i. split; [apply (of_in_same p p1 RM); exact Oi|]. split; [apply H1; [apply Oi | exact Ai]|]. destruct W as [W | (w & Ow & Aw)].
    + left. intros w Lw. rewrite (sz_we p p1 RM) in Lw. apply (H5 w Lw). apply W, Lw.
    + right. exists w. split; [apply (of_we_same p p1 RM); exact Ow|]. apply H5; [apply Ow | exact Aw].
  - exists e. split; [apply (of_ant_same p p1 RM); exact Oe|]. apply H4; [apply Oe | exact Ae].
  - exists e'. split; [apply (of_ant_same p p1 RM); exact Oe'|]. apply H4; [apply Oe' | exact Ae'].
Qed.
