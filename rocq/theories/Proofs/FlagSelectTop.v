(** UVFlag.select as a whole. *)
From Coq Require Import List ZArith Bool Arith QArith String Lia Sorted.
From Verif Require Import Lib.Py Lib.Np Lib.Cube Lib.Sorting Model.Pol Model.Select Model.UVCal Model.FlagSelect
  Spec.SelectSpec Spec.FlagSelectSpec Proofs.SelectRows Proofs.SelectProofs Proofs.SelectTotal Proofs.FlagSelectProofs.
Import ListNotations.
Notation length := List.length.
Open Scope list_scope.
Open Scope Z_scope.

Section Select.
Variables (xo : option string) (cr : flag_criteria) (u : uflag).
Hypothesis OK : flag_ok u.

Lemma compare_rows : compare_length u = nrows u.
Proof.
  unfold compare_length. destruct (g_type u) eqn:T; [|reflexivity|];
  (apply (how_many_unique (g_time u)); [apply (fo_times u OK) | apply how_many_NoDup, (fo_other u OK); unfold is_baseline; congruence]).
Qed.

(** *** Rows *)
Definition ant_part : result (option (list nat)) :=
  match fc_antenna_nums cr, g_type u with
  | Some nums, TypeBaseline => do l <- flag_ant_rows u nums; Ok (Some l)
  | _, _ => Ok None
  end.
Definition ants_part : result (option (list Z)) :=
  match fc_antenna_nums cr, g_type u with
  | Some nums, TypeAntenna => do l <- flag_ant_inds u nums; Ok (Some (map Z.of_nat l))
  | _, _ => Ok (fc_ant_inds cr)
  end.
Definition time_part (inds : option (list Z)) : result (option (list Z)) :=
  match fc_times cr with
  | None => Ok inds
  | Some times => do l <- flag_time_rows u times; Ok (Some (Select.join inds (where_inds l)))
  end.

Lemma type_eq (x y : flag_type) : {x = y} + {x <> y}.
Proof. decide equality. Qed.

Lemma ant_part_spec :
  (forall rows, ant_part = Ok rows ->
     (forall l n, is_baseline u -> fc_antenna_nums cr = Some l -> In n l -> In n (g_ant1 u ++ g_ant2 u)) /\
     (rows = None <-> ~ (is_baseline u /\ fc_antenna_nums cr <> None)) /\
     (forall l t, rows = Some l -> (In t l <-> (t < nrows u)%nat /\
        forall l, is_baseline u -> fc_antenna_nums cr = Some l -> In (fst (row_pair u t)) l /\ In (snd (row_pair u t)) l))) /\
  ((forall l n, is_baseline u -> fc_antenna_nums cr = Some l -> In n l -> In n (g_ant1 u ++ g_ant2 u)) -> exists rows, ant_part = Ok rows).
Proof.
  unfold ant_part. destruct (type_eq (g_type u) TypeBaseline) as [B|B].
  - rewrite B. destruct (fc_antenna_nums cr) as [nums|].
    + destruct (ant_rows_spec u OK nums B) as (S & T). split.
      * intros rows H. apply bind_Ok in H as (l & H & E). injection E as <-. destruct (S l H) as (S1 & S2).
        split; [intros l' n _ E I; injection E as <-; apply S1, I|]. split; [split; [discriminate | intros N; exfalso; apply N; split; [exact B | discriminate]]|].
        intros l' t E. injection E as <-. rewrite S2. split.
        -- intros (L & X). split; [exact L|]. intros l' _ E. injection E as <-. exact X.
        -- intros (L & X). split; [exact L|]. apply X; [exact B | reflexivity].
      * intros H. destruct T as (rows & ->); [intros n I; apply (H nums n B eq_refl I)|]. cbn [bind]. eauto.
    + split; [|eauto]. intros rows H. injection H as <-. split; [discriminate|]. split; [split; [intros _ (_ & N); congruence | reflexivity] | discriminate].
  - assert (E : match fc_antenna_nums cr with
                | Some nums => match g_type u with TypeBaseline => do l <- flag_ant_rows u nums; Ok (Some l) | _ => Ok None end
                | None => Ok None end = Ok (@None (list nat))).
    { destruct (fc_antenna_nums cr), (g_type u); try reflexivity. congruence. }
    rewrite E. split; [|eauto]. intros rows H. injection H as <-. split; [intros l n X; contradiction|].
    split; [split; [intros _ (X & _); contradiction | reflexivity] | discriminate].
Qed.

Lemma where_In (l : list nat) z : In z (where_inds l) <-> exists i, z = Z.of_nat i /\ In i l.
Proof. unfold where_inds. rewrite in_map_iff. split; intros (i & A & B); exists i; auto. Qed.

(** All the indices after the antennas, pairs and times. *)
Lemma inds_spec rows bls pols inds : ant_part = Ok rows -> flag_bls cr u = Ok (bls, pols) ->
  time_part (ant_inds rows bls (fc_blt_inds cr)) = Ok inds ->
  (forall l x, fc_times cr = Some l -> In x l -> In x (g_time u)) /\
  (inds = None <-> fc_blt_inds cr = None /\ ~ restricts_otherwise cr u) /\
  (forall t, (t < nrows u)%nat -> (holds inds (Z.of_nat t) <-> flag_row_wanted cr u t)) /\
  (restricts_otherwise cr u -> forall l z, inds = Some l -> In z l -> exists t, z = Z.of_nat t /\ (t < nrows u)%nat) /\
  (~ restricts_otherwise cr u -> inds = fc_blt_inds cr).
Proof.
  intros HA HB HT. destruct (proj1 ant_part_spec rows HA) as (_ & A1 & A2).
  destruct (bls_spec cr u OK bls pols HB) as (BB & _ & _ & B1 & B2 & _).
  set (i1 := ant_inds rows bls (fc_blt_inds cr)) in *.
  set (some := is_baseline u /\ (fc_antenna_nums cr <> None \/ fc_bls cr <> None)).
  assert (C1 : i1 = None <-> fc_blt_inds cr = None /\ ~ some).
  { unfold i1, ant_inds. destruct rows as [r|], bls as [b|].
    - split; [discriminate|]. intros (_ & N). exfalso. apply N. split; [apply BB; intros E; apply B1 in E; discriminate|]. right. intros E. apply B1 in E. discriminate.
    - split; [discriminate|]. intros (_ & N). exfalso.
      assert (X : ~ ~ (is_baseline u /\ fc_antenna_nums cr <> None)) by (intros X; apply A1 in X; discriminate). apply X. intros (K1 & K2). apply N. split; [exact K1 | left; exact K2].
    - split; [discriminate|]. intros (_ & N). exfalso. apply N. split; [apply BB; intros E; apply B1 in E; discriminate|]. right. intros E. apply B1 in E. discriminate.
    - split; [|tauto]. intros E. split; [exact E|]. intros (K & [K1|K1]); [apply (proj1 A1 eq_refl); auto | apply K1, B1; reflexivity]. }
  assert (C2 : forall t, (t < nrows u)%nat -> (holds i1 (Z.of_nat t) <->
      (forall l, fc_blt_inds cr = Some l -> In (Z.of_nat t) l) /\
      (forall l, is_baseline u -> fc_antenna_nums cr = Some l -> In (fst (row_pair u t)) l /\ In (snd (row_pair u t)) l) /\
      (forall l, fc_bls cr = Some l -> exists a b p, In (a, b, p) l /\ row_of u t a b))).
  { intros t L. change (forall l, fc_blt_inds cr = Some l -> In (Z.of_nat t) l) with (holds (fc_blt_inds cr) (Z.of_nat t)).
    assert (NA : rows = None -> forall l, is_baseline u -> fc_antenna_nums cr = Some l -> In (fst (row_pair u t)) l /\ In (snd (row_pair u t)) l).
    { intros E l K1 K2. exfalso. apply (proj1 A1 E). split; [exact K1 | congruence]. }
    assert (NB : bls = None -> forall l, fc_bls cr = Some l -> exists a b p, In (a, b, p) l /\ row_of u t a b).
    { intros E l K. apply B1 in E. congruence. }
    assert (YA : forall r, rows = Some r -> (In t r <-> forall l, is_baseline u -> fc_antenna_nums cr = Some l -> In (fst (row_pair u t)) l /\ In (snd (row_pair u t)) l)).
    { intros r E. rewrite (A2 r t E). tauto. }
    assert (YB : forall r, bls = Some r -> (In t r <-> forall l, fc_bls cr = Some l -> exists a b p, In (a, b, p) l /\ row_of u t a b)).
    { intros r E. rewrite (B2 r t E). tauto. }
    unfold i1, ant_inds. destruct rows as [r|], bls as [b|].
    - rewrite holds_Some, join_In, inter_In, !where_inds_In, (YA r eq_refl), (YB b eq_refl). reflexivity.
    - rewrite holds_Some, join_In, where_inds_In, (YA r eq_refl). specialize (NB eq_refl). tauto.
    - rewrite holds_Some, join_In, where_inds_In, (YB b eq_refl). specialize (NA eq_refl). tauto.
    - specialize (NA eq_refl). specialize (NB eq_refl). tauto. }
  assert (C3 : some -> forall l z, i1 = Some l -> In z l -> exists t, z = Z.of_nat t /\ (t < nrows u)%nat).
  { intros (K & K') l z E I. unfold i1, ant_inds in E. destruct rows as [r|], bls as [b|].
    - injection E as <-. apply join_In in I as (_ & I). apply inter_In in I as (I & _). apply where_In in I as (t & -> & I). exists t. split; [reflexivity|]. apply (A2 r t eq_refl), I.
    - injection E as <-. apply join_In in I as (_ & I). apply where_In in I as (t & -> & I). exists t. split; [reflexivity|]. apply (A2 r t eq_refl), I.
    - injection E as <-. apply join_In in I as (_ & I). apply where_In in I as (t & -> & I). exists t. split; [reflexivity|]. apply (B2 b t eq_refl), I.
    - exfalso. destruct K' as [K'|K']; [apply (proj1 A1 eq_refl); auto | apply K', B1; reflexivity]. }
  assert (C4 : ~ some -> i1 = fc_blt_inds cr).
  { intros N. unfold i1, ant_inds. destruct rows as [r|], bls as [b|]; [| | |reflexivity]; exfalso.
    - apply N. split; [apply BB; intros E; apply B1 in E; discriminate|]. right. intros E. apply B1 in E. discriminate.
    - assert (X : ~ ~ (is_baseline u /\ fc_antenna_nums cr <> None)) by (intros X; apply A1 in X; discriminate). apply X. intros (K1 & K2). apply N. split; [exact K1 | left; exact K2].
    - apply N. split; [apply BB; intros E; apply B1 in E; discriminate|]. right. intros E. apply B1 in E. discriminate. }
  clearbody i1. unfold time_part in HT. unfold restricts_otherwise, flag_row_wanted. fold some. destruct (fc_times cr) as [times|].
  - apply bind_Ok in HT as (l & H & E). injection E as <-. destruct (proj1 (time_rows_spec u times) l H) as (S1 & S2).
    split; [intros l' x E I; injection E as <-; apply S1, I|].
    split; [split; [discriminate | intros (_ & N); exfalso; apply N; left; discriminate]|].
    split; [|split].
    + intros t L. rewrite holds_Some, join_In, where_inds_In, S2, (C2 t L). split.
      * intros ((X1 & X2 & X3) & _ & X4). split; [exact X1|]. split; [intros l' E; injection E as <-; exact X4 | auto].
      * intros (X1 & X4 & X2 & X3). split; [auto|]. split; [exact L | apply X4; reflexivity].
    + intros _ l' z E I. injection E as <-. apply join_In in I as (_ & I). apply where_In in I as (t & -> & I). exists t. split; [reflexivity | apply S2, I].
    + intros N. exfalso. apply N. left. discriminate.
  - injection HT as <-. split; [discriminate|]. split; [rewrite C1; split; intros (X & N); (split; [exact X|]); tauto|].
    split; [|split].
    + intros t L. rewrite (C2 t L). split; [intros (X1 & X2 & X3) | intros (X1 & _ & X2 & X3)]; auto. split; [exact X1|]. split; [discriminate | auto].
    + intros [N|K]; [congruence | apply C3, K].
    + intros N. apply C4. tauto.
Qed.

(** *** Antennas *)
Definition ants_index (ants : option (list Z)) : result (option (list nat)) :=
  match ants, g_type u with
  | Some l, TypeAntenna =>
      do idx <- mapM (fun c => match norm_index (length (g_ants u)) c with Some j => Ok j | None => Err IndexError end) l;
      Ok (Some idx)
  | _, _ => Ok None
  end.

Lemma nonzero_one l n : NoDup l -> In n l -> exists a, nonzero (Z.eqb n) l = [a] /\ (a < length l)%nat /\ nth a l 0 = n.
Proof.
  clear. intros ND I. apply (In_nth _ _ 0) in I as (a & L & E). exists a. split; [|auto]. symmetry. apply (nonzero_unique 0); [repeat constructor|].
  intros i. rewrite Z.eqb_eq. split.
  - intros [<- | []]. auto.
  - intros (L' & E'). left. apply (proj1 (NoDup_nth _ 0) ND); congruence.
Qed.

Lemma index_mapM n l idx : mapM (fun c => match norm_index n c with Some j => Ok j | None => Err IndexError end) l = Ok idx <->
  Forall2 (fun c a => denotes n c a) l idx.
Proof.
  clear. split.
  - intros H. apply mapM_Ok_Forall2 in H. induction H as [|c a l idx H _ IH]; constructor; [|exact IH].
    apply norm_index_denotes. destruct (norm_index n c); [congruence | discriminate].
  - intros H. apply mapM_Forall2_Ok. induction H as [|c a l idx H _ IH]; constructor; [|exact IH].
    apply norm_index_denotes in H. rewrite H. reflexivity.
Qed.
Lemma index_total n l : (forall c, In c l -> exists a, denotes n c a) ->
  exists idx, mapM (fun c => match norm_index n c with Some j => Ok j | None => Err IndexError end) l = Ok idx.
Proof. clear. intros H. apply mapM_total. intros c I. destruct (H c I) as (a & D). apply norm_index_denotes in D. rewrite D. eauto. Qed.

Lemma ants_spec ants idx : ants_part = Ok ants -> ants_index ants = Ok idx ->
  (forall l n, is_antenna u -> fc_antenna_nums cr = Some l -> In n l -> In n (g_ants u)) /\
  (forall l c, is_antenna u -> fc_antenna_nums cr = None -> fc_ant_inds cr = Some l -> In c l -> exists a, denotes (length (g_ants u)) c a) /\
  antennas_chosen cr u (or_all (nants u) idx) /\ (is_antenna u \/ idx = None).
Proof.
  unfold ants_part, ants_index, antennas_chosen, is_antenna, nants. destruct (g_type u) eqn:T.
  - intros _ H. assert (idx = None) as -> by (destruct ants; congruence). split; [discriminate|]. split; [discriminate|]. split; [reflexivity | auto].
  - intros _ H. assert (idx = None) as -> by (destruct ants; congruence). split; [discriminate|]. split; [discriminate|]. split; [reflexivity | auto].
  - destruct (fo_antenna u OK T) as (ND & _). destruct (fc_antenna_nums cr) as [nums|] eqn:EN.
    + intros H H'. apply bind_Ok in H as (l & H & E). injection E as <-. apply bind_Ok in H' as (x & H' & E). injection E as <-.
      unfold flag_ant_inds in H. apply bind_Ok in H as (ls & H & E). injection E as <-. apply mapM_Ok_Forall2 in H.
      apply index_mapM in H'.
      assert (X : x = List.concat ls).
      { remember (map Z.of_nat (List.concat ls)) as zs eqn:EZ. clear -H' EZ. revert EZ. generalize (List.concat ls) as q. induction H' as [|c a zs x D _ IH]; intros q EZ.
        - symmetry in EZ. apply map_eq_nil in EZ. congruence.
        - destruct q as [|b q]; [discriminate|]. injection EZ as -> E. f_equal; [|apply IH, E]. destruct D as (L & D). lia. }
      assert (A : (forall n, In n nums -> In n (g_ants u)) /\ (forall a, In a (List.concat ls) -> (a < length (g_ants u))%nat) /\
                  map (fun a => nth a (g_ants u) 0) (List.concat ls) = nums).
      { clear -H ND. induction H as [|n q nums ls H _ IH]; [split; [intros n [] | split; [intros a [] | reflexivity]]|].
        destruct IH as (I1 & I2 & I3). destruct (isinZ n (g_ants u)) eqn:EI; [|discriminate]. injection H as <-. apply isinZ_spec in EI.
        destruct (nonzero_one _ n ND EI) as (a & -> & L & E). cbn [List.concat app map]. split; [|split].
        - intros m [<- | I]; auto.
        - intros m [<- | I]; auto.
        - rewrite I3, E. reflexivity. }
      destruct A as (A1 & A2 & A3). cbn [or_all]. subst x.
      split; [intros l n _ E I; injection E as <-; apply A1, I|]. split; [discriminate|]. split; [split; assumption | auto].
    + intros H. assert (ants = fc_ant_inds cr) as -> by congruence. destruct (fc_ant_inds cr) as [l|].
      * intros H'. apply bind_Ok in H' as (x & H' & E). injection E as <-. apply index_mapM in H'. split; [discriminate|]. split; [|split].
        -- intros l' c _ _ E I. injection E as <-. clear -H' I. induction H' as [|c' a l x D _ IH]; [contradiction|]. destruct I as [<- | I]; eauto.
        -- cbn [or_all]. split; [|exact H']. intros a I. clear -H' I. induction H' as [|c' a' l x D _ IH]; [contradiction|]. destruct I as [<- | I]; [apply D | auto].
        -- auto.
      * intros H'. assert (idx = None) as -> by congruence. split; [discriminate|]. split; [discriminate|]. split; [|auto]. cbn [or_all].
        split; [|reflexivity]. intros a I. apply in_seq in I. lia.
Qed.

Lemma ants_total : (forall l n, is_antenna u -> fc_antenna_nums cr = Some l -> In n l -> In n (g_ants u)) ->
  (forall l c, is_antenna u -> fc_antenna_nums cr = None -> fc_ant_inds cr = Some l -> In c l -> exists a, denotes (length (g_ants u)) c a) ->
  exists ants idx, ants_part = Ok ants /\ ants_index ants = Ok idx.
Proof.
  intros H1 H2. unfold ants_part, ants_index. destruct (type_eq (g_type u) TypeAntenna) as [T|T].
  - destruct (fo_antenna u OK T) as (ND & _). rewrite T. destruct (fc_antenna_nums cr) as [nums|].
    + assert (X : exists ls, flag_ant_inds u nums = Ok ls /\ forall a, In a ls -> (a < length (g_ants u))%nat).
      { unfold flag_ant_inds.
        destruct (mapM_total (fun n => if isinZ n (g_ants u) then Ok (nonzero (Z.eqb n) (g_ants u)) else Err ValueError) nums) as (ls & E).
        { intros n I. rewrite (proj2 (isinZ_spec _ _) (H1 nums n T eq_refl I)). eauto. }
        rewrite E. cbn [bind]. eexists. split; [reflexivity|]. intros a I. apply in_concat in I as (q & I & J). apply mapM_Ok_Forall2 in E.
        clear -E I J. induction E as [|n q' nums ls H _ IH]; [contradiction|]. destruct I as [<- | I]; [|auto].
        destruct (isinZ n (g_ants u)); [|discriminate]. injection H as <-. apply nonzero_lt in J. exact J. }
      destruct X as (ls & -> & B). cbn [bind].
      destruct (index_total (length (g_ants u)) (map Z.of_nat ls)) as (idx & E).
      { intros c I. apply in_map_iff in I as (a & <- & I). exists a. split; [apply B, I | left; reflexivity]. }
      eexists _, _. split; [reflexivity|]. cbv beta iota. rewrite E. reflexivity.
    + destruct (fc_ant_inds cr) as [l|].
      * destruct (index_total (length (g_ants u)) l (fun c => H2 l c T eq_refl eq_refl)) as (idx & E).
        eexists _, _. split; [reflexivity|]. cbv beta iota. rewrite E. reflexivity.
      * eexists _, _. split; reflexivity.
  - exists (fc_ant_inds cr), None. split.
    + destruct (fc_antenna_nums cr), (g_type u); try reflexivity. congruence.
    + destruct (fc_ant_inds cr), (g_type u); try reflexivity. congruence.
Qed.

(** *** Channels *)
Lemma chans_spec chans : flag_chans cr u = Ok chans ->
  (forall l x, fc_frequencies cr = Some l -> In x l -> In x (g_freq u)) /\
  (forall l c, fc_freq_chans cr = Some l -> In c l -> exists f, denotes (nchans u) c f) /\
  (fc_freq_chans cr <> None -> nchans u <> 1%nat) /\
  positions_of (nchans u) (flag_chan_wanted cr u) (or_all (nchans u) chans).
Proof.
  unfold flag_chans, nchans. intros H. apply bind_Ok in H as (freqs & H & H').
  assert (K : (freqs = None <-> fc_frequencies cr = None /\ fc_freq_chans cr = None) /\
              (forall l c, fc_freq_chans cr = Some l -> In c l -> exists f, denotes (length (g_freq u)) c f) /\
              (fc_freq_chans cr <> None -> length (g_freq u) <> 1%nat) /\
              (forall l, freqs = Some l -> forall x, In x l <->
                 (exists l, fc_frequencies cr = Some l /\ In x l) \/
                 (exists l c f, fc_freq_chans cr = Some l /\ In c l /\ denotes (length (g_freq u)) c f /\ nth f (g_freq u) 0 = x))).
  { destruct (fc_freq_chans cr) as [cs|].
    - apply bind_Ok in H as (l & H & E). unfold flag_chan_freqs in H. destruct (Nat.eqb_spec (length (g_freq u)) 1) as [N|N]; [discriminate|].
      apply bind_Ok in H as (pos & H & E'). injection E' as <-. apply index_mapM in H.
      assert (D : forall c, In c cs -> exists f, denotes (length (g_freq u)) c f).
      { clear -H. induction H as [|c a cs pos D _ IH]; [intros c [] | intros c' [<- | I]; eauto]. }
      assert (P : forall x, In x (take 0 (g_freq u) pos) <-> exists c f, In c cs /\ denotes (length (g_freq u)) c f /\ nth f (g_freq u) 0 = x).
      { clear -H. intros x. unfold take. induction H as [|c a cs pos D _ IH]; cbn [map In].
        - split; [intros [] | intros (c & f & [] & _)].
        - rewrite IH. split.
          + intros [E | (c' & f & I & Y)]; [exists c, a; auto | exists c', f; auto].
          + intros (c' & f & [<- | I] & Y).
            * left. destruct Y as (D' & E). assert (a = f) as -> by (apply norm_index_denotes in D, D'; congruence). exact E.
            * right. eauto. }
      destruct (fc_frequencies cr) as [fs|]; injection E as <-.
      + split; [split; [discriminate | intros (? & ?); discriminate]|]. split; [intros l' c E I; injection E as <-; apply D, I|]. split; [intros _; exact N|].
        intros l' E x. injection E as <-. rewrite uniqueZ_In, in_app_iff, P. split.
        * intros [I | (c & f & I & Y)]; [left; eauto | right; exists cs, c, f; auto].
        * intros [(l' & E & I) | (l' & c & f & E & I & Y)]; injection E as <-; [left; exact I | right; eauto].
      + split; [split; [discriminate | intros (? & ?); discriminate]|]. split; [intros l' c E I; injection E as <-; apply D, I|]. split; [intros _; exact N|].
        intros l' E x. injection E as <-. rewrite P. split.
        * intros (c & f & I & Y). right. exists cs, c, f. auto.
        * intros [(l' & E & I) | (l' & c & f & E & I & Y)]; [discriminate | injection E as <-; eauto].
    - injection H as <-. split; [tauto|]. split; [discriminate|]. split; [congruence|]. intros l E x. split.
      + intros I. left. exists l. auto.
      + intros [(l' & E' & I) | (l' & c & f & E' & _)]; [assert (l' = l) as -> by congruence; exact I | discriminate]. }
  destruct K as (K1 & K2 & K3 & K4).
  destruct freqs as [fs|].
  - specialize (K4 fs eq_refl). destruct (forallb (fun f => isinZ f (g_freq u)) fs) eqn:F; [|discriminate]. injection H' as <-. rewrite forallb_forall in F.
    split; [intros l x E I; apply isinZ_spec, F, K4; left; eauto|]. split; [exact K2|]. split; [exact K3|]. cbn [or_all].
    split; [apply nonzero_sorted|]. intros f. rewrite (nonzero_spec 0), isinZ_spec, K4. unfold flag_chan_wanted, nchans.
    assert (N : ~ (fc_frequencies cr = None /\ fc_freq_chans cr = None)) by (intros X; apply K1 in X; discriminate). tauto.
  - injection H' as <-. destruct (proj1 K1 eq_refl) as (E1 & E2). split; [intros l x E; congruence|]. split; [exact K2|]. split; [exact K3|].
    apply positions_all. intros f _. left. auto.
Qed.

Lemma chans_total : (forall l x, fc_frequencies cr = Some l -> In x l -> In x (g_freq u)) ->
  (forall l c, fc_freq_chans cr = Some l -> In c l -> exists f, denotes (nchans u) c f) ->
  (fc_freq_chans cr <> None -> nchans u <> 1%nat) -> exists chans, flag_chans cr u = Ok chans.
Proof.
  intros H1 H2 H3. unfold flag_chans.
  assert (X : exists freqs, match fc_freq_chans cr with
              | None => Ok (fc_frequencies cr)
              | Some chans => do l <- flag_chan_freqs u chans;
                  match fc_frequencies cr with None => Ok (Some l) | Some freqs => Ok (Some (uniqueZ (freqs ++ l))) end
              end = Ok freqs /\ forall l x, freqs = Some l -> In x l -> In x (g_freq u)).
  { destruct (fc_freq_chans cr) as [cs|].
    - unfold flag_chan_freqs. destruct (Nat.eqb_spec (length (g_freq u)) 1) as [N|N]; [exfalso; apply H3; [discriminate | exact N]|].
      destruct (index_total (length (g_freq u)) cs (fun c => H2 cs c eq_refl)) as (pos & E). rewrite E. cbn [bind]. apply index_mapM in E.
      assert (T : forall x, In x (take 0 (g_freq u) pos) -> In x (g_freq u)).
      { intros x I. unfold take in I. apply in_map_iff in I as (f & <- & I). apply nth_In. clear -E I.
        induction E as [|c a cs pos D _ IH]; [contradiction|]. destruct I as [<- | I]; [apply D | auto]. }
      destruct (fc_frequencies cr) as [fs|]; eexists; (split; [reflexivity|]); intros l x E' I; injection E' as <-.
      + apply (proj1 (uniqueZ_In _ _)) in I. apply in_app_iff in I as [I|I]; [apply (H1 fs x eq_refl I) | apply T, I].
      + apply T, I.
    - eexists. split; [reflexivity|]. exact H1. }
  destruct X as (freqs & -> & F). cbn [bind]. destruct freqs as [fs|]; [|eauto].
  rewrite (proj2 (forallb_forall _ _)); [eauto|]. intros x I. apply isinZ_spec, (F fs x eq_refl I).
Qed.

(** *** Polarizations *)
Lemma means_number q p : pol_number xo q = Ok p <-> means xo q p.
Proof. destruct q; cbn [pol_number means]; [|reflexivity]. split; [congruence | intros ->; reflexivity]. Qed.

Lemma pols_spec asked pols : flag_pols xo asked u = Ok pols ->
  (forall l q, asked = Some l -> In q l -> exists p, means xo q p /\ In p (g_pols u)) /\
  positions_of (npols u) (fun k => forall l, asked = Some l -> exists q, In q l /\ means xo q (nth k (g_pols u) 0)) (or_all (npols u) pols).
Proof.
  unfold flag_pols. destruct asked as [l|].
  - intros H. apply bind_Ok in H as (ls & H & E). injection E as <-. apply mapM_Ok_Forall2 in H. cbn [or_all].
    assert (X : forall q, In q l -> exists p, means xo q p /\ In p (g_pols u)).
    { clear -H. induction H as [|q k l ls H _ IH]; [intros q [] | intros q' [<- | I]; [|auto]].
      apply bind_Ok in H as (n & H & E). destruct (isinZ n (g_pols u)) eqn:EI; [|discriminate]. exists n. split; [apply means_number, H | apply isinZ_spec, EI]. }
    split; [intros l' q E I; injection E as <-; apply X, I|]. split; [apply uniqueN_sorted|].
    intros k. rewrite uniqueN_In, in_concat.
    assert (Y : (exists ks, In ks ls /\ In k ks) <-> (k < npols u)%nat /\ exists q, In q l /\ means xo q (nth k (g_pols u) 0)).
    { clear -H. induction H as [|q ks l ls H _ IH].
      - split; [intros (x & [] & _) | intros (_ & q & [] & _)].
      - apply bind_Ok in H as (n & H & E). destruct (isinZ n (g_pols u)) eqn:EI; [|discriminate]. injection E as <-. split.
        + intros (x & [<- | I] & J).
          * apply (nonzero_spec 0) in J as (L & J). apply Z.eqb_eq in J. split; [exact L|]. exists q. split; [left; reflexivity | apply means_number; congruence].
          * destruct (proj1 IH (ex_intro _ x (conj I J))) as (L & q' & I' & M). split; [exact L|]. exists q'. split; [right; exact I' | exact M].
        + intros (L & q' & [<- | I] & M).
          * eexists. split; [left; reflexivity|]. apply (nonzero_spec 0). split; [exact L|]. apply Z.eqb_eq. apply means_number in M. congruence.
          * destruct (proj2 IH (conj L (ex_intro _ q' (conj I M)))) as (x & I' & J). exists x. split; [right; exact I' | exact J]. }
    rewrite Y. split; intros (L & Z); (split; [exact L|]); [intros l' E; injection E as <-; exact Z | apply Z; reflexivity].
  - intros H. injection H as <-. split; [discriminate|]. apply positions_all. intros k _ l E. discriminate.
Qed.

Lemma pols_total asked : (forall l q, asked = Some l -> In q l -> exists p, means xo q p /\ In p (g_pols u)) -> exists pols, flag_pols xo asked u = Ok pols.
Proof.
  intros H. unfold flag_pols. destruct asked as [l|]; [|eauto].
  destruct (mapM_total (fun p => do n <- pol_number xo p; if isinZ n (g_pols u) then Ok (nonzero (Z.eqb n) (g_pols u)) else Err ValueError) l) as (ls & ->).
  - intros q I. destruct (H l q eq_refl I) as (p & M & J). apply means_number in M. rewrite M. cbn [bind]. apply isinZ_spec in J. rewrite J. eauto.
  - cbn [bind]. eauto.
Qed.
End Select.
