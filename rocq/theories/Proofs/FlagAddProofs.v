(** UVFlag.__add__. *)
From Coq Require Import List ZArith Bool Arith Lia.
From Verif Require Import Lib.Py Lib.Np Lib.Sorting Model.UVFlag Model.UVCal Model.FlagSelect Model.FlagAdd
  Spec.SelectSpec Spec.FlagSelectSpec Spec.FlagAddSpec Proofs.FlagSelectProofs.
Import ListNotations.
Notation length := List.length.
Open Scope list_scope.
Open Scope Z_scope.

Lemma all_near_within tol l l' : all_near tol l l' = true <-> within tol l l'.
Proof.
  unfold all_near, within. revert l'. induction l as [|x l IH]; intros [|y l']; cbn [length combine forallb fst snd].
  - split; [constructor | reflexivity].
  - split; [discriminate | intros H; inversion H].
  - split; [discriminate | intros H; inversion H].
  - cbn [Nat.eqb]. specialize (IH l'). rewrite andb_true_iff in IH. unfold near at 1. split.
    + intros H. apply andb_true_iff in H as (E & H). apply andb_true_iff in H as (H & F). apply Z.leb_le in H. constructor; [exact H | apply IH; auto].
    + intros H. inversion_clear H as [|? ? ? ? A B]. apply IH in B as (B1 & B2). rewrite B1, B2, (proj2 (Z.leb_le _ _) A). reflexivity.
Qed.
Lemma all_near_eq l l' : all_near 0 l l' = true <-> l = l'.
Proof.
  rewrite all_near_within. split.
  - intros H. induction H as [|x y l l' H _ IH]; [reflexivity|]. f_equal; [lia | exact IH].
  - intros <-. unfold within. induction l; constructor; [lia | assumption].
Qed.

Lemma uniqueZ_full l : length (uniqueZ l) = length l <-> NoDup l.
Proof.
  split.
  - intros E. apply (@NoDup_incl_NoDup _ (uniqueZ l) l); [apply uniqueZ_NoDup | lia | intros x; apply uniqueZ_In].
  - intros H. apply (how_many_unique l); [apply uniqueZ_how_many | apply how_many_NoDup, H].
Qed.

Lemma first_seen_In seen l x : In x (first_seen seen l) <-> In x l /\ ~ In x seen.
Proof.
  revert seen. induction l as [|y l IH]; intros seen; cbn [first_seen In]; [tauto|].
  destruct (isinZ y seen) eqn:E.
  - apply isinZ_spec in E. rewrite IH. split; [tauto|]. intros ([<- | I] & N); [contradiction | auto].
  - apply isinZ_false in E. cbn [In]. rewrite IH. cbn [In]. split.
    + intros [<- | (I & N)]; [split; [auto | exact E] | split; [auto | tauto]].
    + intros ([<- | I] & N); [auto|]. destruct (Z.eq_dec y x) as [D|D]; [auto|]. right. split; [exact I|]. tauto.
Qed.
Lemma first_seen_NoDup seen l : NoDup (first_seen seen l).
Proof.
  revert seen. induction l as [|y l IH]; intros seen; cbn [first_seen]; [constructor|].
  destruct (isinZ y seen); [apply IH|]. constructor; [|apply IH]. rewrite first_seen_In. cbn [In]. tauto.
Qed.

Lemma type_eqb_spec x y : type_eqb x y = true <-> x = y.
Proof. destruct x, y; split; try discriminate; reflexivity. Qed.

(** *** When *)
Section Add.
Variables (tols : flag_tols) (ax : flag_axis) (a b : uflag).
Hypothesis OKa : flag_ok a.
Hypothesis OKb : flag_ok b.

Lemma addable_spec : addable tols ax a b <->
  type_eqb (g_type a) (g_type b) = true /\ Bool.eqb (flag_mode a) (flag_mode b) = true /\ flag_compatible tols ax a b = true.
Proof.
  clear. rewrite type_eqb_spec, eqb_true_iff. unfold addable, same_freqs, same_times, same_pairs, is_antenna, is_baseline, flag_compatible.
  assert (M : flag_mode a = flag_mode b <-> (length (g_vals a) = 1%nat <-> length (g_vals b) = 1%nat)).
  { unfold flag_mode. destruct (Nat.eqb_spec (length (g_vals a)) 1), (Nat.eqb_spec (length (g_vals b)) 1); split; intros H; try reflexivity; try discriminate; tauto. }
  rewrite M, !andb_true_iff. clear M.
  assert (N : forall tol l l', within tol l l' <-> all_near tol l l' = true) by (intros; symmetry; apply all_near_within).
  rewrite !N.
  destruct ax, (g_type a); rewrite ?andb_true_iff, ?all_near_eq; split; intros H; decompose [and] H; clear H; repeat split; intros; try congruence; try tauto; auto.
  all: try match goal with H : _ <> _ -> _ |- _ => specialize (H ltac:(discriminate)); tauto end.
  all: try (repeat match goal with H : _ <> _ -> _ |- _ => specialize (H ltac:(discriminate)) end; repeat match goal with H : ?x = ?x -> _ |- _ => specialize (H eq_refl) end; tauto).
Qed.

Definition added (vals : list (arr4 Z)) : uflag :=
  match ax with
  | AxTime | AxBaseline => add_rows ax a b vals
  | AxAntenna => add_ants a b vals
  | AxFrequency => add_freqs a b vals
  | AxPol => add_pols a b vals
  end.
Definition cat : arr4 Z -> arr4 Z -> arr4 Z :=
  match ax with
  | AxTime | AxBaseline => cat2 (length (g_time a))
  | AxAntenna => cat0 (length (g_ants a))
  | AxFrequency => cat1 (length (g_freq a))
  | AxPol => cat3 (length (g_pols a))
  end.

Lemma added_type vals : g_type (added vals) = g_type a.
Proof. unfold added. destruct ax; reflexivity. Qed.

(** The final check. *)
Lemma added_fine vals : g_type a = g_type b -> axis_of_type ax a ->
  (match ax with AxFrequency => negb (length (uniqueZ (g_freq (added vals))) =? length (g_freq (added vals)))%nat | _ => false end = false /\
   match g_type (added vals) with TypeBaseline => false | _ => negb (g_Ntimes (added vals) =? length (g_time (added vals)))%nat end = false)
  <-> no_overlap ax a b.
Proof.
  intros TE AT. rewrite added_type. unfold no_overlap.
  assert (NT : forall l, negb (length (uniqueZ l) =? length l)%nat = false <-> NoDup l).
  { intros l. rewrite negb_false_iff, Nat.eqb_eq. apply uniqueZ_full. }
  assert (AP : forall l l' : list Z, NoDup (l ++ l') <-> NoDup l /\ NoDup l' /\ apart l l').
  { clear. intros l l'. induction l as [|x l IH]; cbn [app].
    - split; [intros H; split; [constructor | split; [exact H | intros x []]] | tauto].
    - split.
      + intros H. inversion_clear H as [|? ? N D]. apply IH in D as (D1 & D2 & D3). rewrite in_app_iff in N.
        split; [constructor; tauto | split; [exact D2|]]. intros y [<- | I]; [tauto | apply D3, I].
      + intros (D1 & D2 & D3). inversion_clear D1 as [|? ? N D]. constructor.
        * rewrite in_app_iff. intros [I | I]; [tauto | apply (D3 x); [left; reflexivity | exact I]].
        * apply IH. split; [exact D | split; [exact D2|]]. intros y I. apply D3. right. exact I. }
  pose proof (fo_other a OKa) as DT. unfold is_baseline in *.
  assert (OWN : g_type a <> TypeBaseline -> negb (length (uniqueZ (g_time a)) =? length (g_time a))%nat = false).
  { intros N. apply NT, DT, N. }
  assert (DTb := fo_other b OKb). unfold is_baseline in DTb. rewrite <- TE in DTb. destruct AT as (AT & _). unfold is_baseline in AT.
  unfold added. destruct ax; cbn [add_rows add_ants add_freqs add_pols g_freq g_time g_Ntimes].
  - split.
    + intros (_ & H). split; [discriminate|]. intros _ N. destruct (g_type a); try congruence; apply NT, AP in H; apply H.
    + intros (_ & H). split; [reflexivity|]. destruct (g_type a); try reflexivity; apply NT, AP;
        (split; [apply DT; discriminate|]; split; [apply DTb; discriminate | apply H; [reflexivity | discriminate]]).
  - split; [intros _; split; discriminate|]. intros _. split; [reflexivity|]. rewrite (AT eq_refl). reflexivity.
  - split; [intros _; split; discriminate|]. intros _. split; [reflexivity|]. destruct (g_type a); try reflexivity; apply OWN; discriminate.
  - split.
    + intros (H & _). split; [|discriminate]. intros _. apply AP, NT, H.
    + intros (H & _). split; [apply NT, AP, H; reflexivity|]. destruct (g_type a); try reflexivity; apply OWN; discriminate.
  - split; [intros _; split; discriminate|]. intros _. split; [reflexivity|]. destruct (g_type a); try reflexivity; apply OWN; discriminate.
Qed.

Definition both (xs ys : list (arr4 Z)) : list (arr4 Z) := map (fun p => cat (fst p) (snd p)) (combine xs ys).
Lemma add_open r : flag_add tols ax a b = Ok r <->
  addable tols ax a b /\ axis_of_type ax a /\ no_overlap ax a b /\ (length (g_vals a) <= length (g_vals b))%nat /\
  r = added (both (g_vals a) (g_vals b)).
Proof.
  pose proof addable_spec as AS. pose proof (added_fine (both (g_vals a) (g_vals b))) as AF. unfold flag_add.
  destruct (type_eqb (g_type a) (g_type b)) eqn:T; cbn [negb];
    [|split; [discriminate | intros (H & _); apply AS in H as (H & _); discriminate]].
  destruct (Bool.eqb (flag_mode a) (flag_mode b)) eqn:M; cbn [negb];
    [|split; [discriminate | intros (H & _); apply AS in H as (_ & H & _); discriminate]].
  destruct (flag_compatible tols ax a b) eqn:C; cbn [negb];
    [|split; [discriminate | intros (H & _); apply AS in H as (_ & _ & H); discriminate]].
  assert (A : addable tols ax a b) by (apply AS; auto).
  apply type_eqb_spec in T. specialize (AF T).
  match goal with |- (do r0 <- ?m; _) = _ <-> _ =>
    assert (E : (axis_of_type ax a -> m = if (length (g_vals a) <=? length (g_vals b))%nat then Ok (added (both (g_vals a) (g_vals b))) else Err ValueError) /\
                (~ axis_of_type ax a -> m = Err ValueError))
  end.
  { unfold axis_of_type, is_baseline, is_antenna, cat_all, added, both, cat. clear.
    destruct ax, (g_type a) eqn:E, (length (g_vals a) <=? length (g_vals b))%nat; split; intros H; cbn [bind]; try reflexivity; exfalso;
      try (apply H; split; congruence); destruct H as (H1 & H2); try (specialize (H1 eq_refl); congruence); specialize (H2 eq_refl); congruence. }
  assert (D : axis_of_type ax a \/ ~ axis_of_type ax a).
  { unfold axis_of_type, is_baseline, is_antenna. clear. destruct ax, (g_type a); first [left; split; congruence | right; intros (H1 & H2); first [specialize (H1 eq_refl); congruence | specialize (H2 eq_refl); congruence]]. }
  destruct D as [D | D].
  - rewrite (proj1 E D). specialize (AF D). destruct (Nat.leb_spec (length (g_vals a)) (length (g_vals b))) as [L | L]; cbn [bind].
    + destruct (match ax with AxFrequency => _ | _ => _ end); [split; [discriminate | intros (_ & _ & H & _); apply AF in H as (H & _); discriminate]|].
      destruct (match g_type _ with TypeBaseline => _ | _ => _ end); [split; [discriminate | intros (_ & _ & H & _); apply AF in H as (_ & H); discriminate]|].
      split.
      * intros H. injection H as <-. split; [exact A|]. split; [exact D|]. split; [apply AF; auto|]. auto.
      * intros (_ & _ & _ & _ & ->). reflexivity.
    + split; [discriminate | intros (_ & _ & _ & H & _); lia].
  - rewrite (proj2 E D). cbn [bind]. split; [discriminate | tauto].
Qed.

(** *** What *)
Lemma both_values i f t p : (length (g_vals a) <= length (g_vals b))%nat ->
  values (added (both (g_vals a) (g_vals b))) i f t p =
  map (fun v : arr4 Z * arr4 Z => cat (fst v) (snd v) i f t p) (combine (g_vals a) (g_vals b)).
Proof.
  intros _. unfold values, added, both. destruct ax; cbn [add_rows add_ants add_freqs add_pols g_vals]; apply map_map.
Qed.
Lemma map_fst_combine {A B C} (g : A -> C) (l : list A) (l' : list B) : (length l <= length l')%nat ->
  map (fun v => g (fst v)) (combine l l') = map g l.
Proof.
  clear. revert l'. induction l as [|x l IH]; intros [|y l'] L; cbn [combine map fst length] in *; [reflexivity..|lia|]. f_equal. apply IH. lia.
Qed.
Lemma map_snd_combine {A B C} (g : B -> C) (l : list A) (l' : list B) : (length l <= length l')%nat ->
  map (fun v => g (snd v)) (combine l l') = firstn (length l) (map g l').
Proof.
  clear. revert l'. induction l as [|x l IH]; intros [|y l'] L; cbn [combine map snd length firstn] in *; [reflexivity..|lia|]. f_equal. apply IH. lia.
Qed.

Lemma one_window_flex (u : uflag) w : flag_ok u -> g_spws u = w -> (length w <= 1)%nat -> g_flex u = repeat (nth 0 w 0) (length (g_freq u)).
Proof.
  clear. intros OK <- L. destruct (fo_windows u OK) as (_ & M). destruct (fo_chans u OK) as (_ & E). unfold nchans in E. rewrite <- E. clear E.
  destruct (g_spws u) as [|w [|]]; [| |cbn in L; lia].
  - destruct (g_flex u) as [|x l]; [reflexivity|]. exfalso. apply (M x). left. reflexivity.
  - cbn [nth]. assert (H : forall x, In x (g_flex u) -> x = w) by (intros x I; apply M in I as [I | []]; auto).
    clear M. induction (g_flex u) as [|x l IH]; [reflexivity|]. cbn [length repeat]. f_equal; [apply H; left; reflexivity | apply IH; intros y I; apply H; right; exact I].
Qed.

Lemma freqs_flex vals : g_flex (add_freqs a b vals) = g_flex a ++ g_flex b /\
  NoDup (g_spws (add_freqs a b vals)) /\ same_members (g_spws (add_freqs a b vals)) (g_flex a ++ g_flex b).
Proof.
  cbn [add_freqs g_flex g_spws]. destruct ((_ || _) || _)%bool eqn:E.
  - split; [reflexivity|]. split; [apply first_seen_NoDup|]. intros x. rewrite first_seen_In. cbn [In]. tauto.
  - apply orb_false_iff in E as (E & S). apply orb_false_iff in E as (L1 & L2). apply Nat.ltb_ge in L1, L2. apply negb_false_iff, all_near_eq in S.
    assert (F : g_flex a ++ g_flex b = repeat (nth 0 (g_spws a) 0) (length (g_freq a ++ g_freq b))).
    { rewrite (one_window_flex a (g_spws a) OKa eq_refl L1), (one_window_flex b (g_spws a) OKb (eq_sym S) L1), app_length, repeat_app. reflexivity. }
    split; [symmetry; exact F|]. split; [apply (fo_windows a OKa)|]. intros x. rewrite in_app_iff, <- (proj2 (fo_windows a OKa) x), <- (proj2 (fo_windows b OKb) x), S. tauto.
Qed.

Lemma added_joined : addable tols ax a b -> axis_of_type ax a -> (length (g_vals a) <= length (g_vals b))%nat ->
  flag_joined ax a b (added (both (g_vals a) (g_vals b))).
Proof.
  intros AD AT L.
  assert (FF : ax = AxFrequency -> forall vals, g_flex (added vals) = g_flex a ++ g_flex b).
  { unfold added. intros -> vals. apply (freqs_flex vals). }
  constructor.
  - apply added_type.
  - unfold added. destruct ax; split; split; intros; try tauto; try (exfalso; intuition congruence); reflexivity.
  - intros B. unfold added, is_baseline in *. destruct ax; (split; [|split]); split; intros; cbn [add_rows add_ants add_freqs add_pols g_ant1 g_ant2 g_bl]; rewrite ?B; try (exfalso; intuition congruence); reflexivity.
  - intros B. unfold added. destruct ax; split; intros; try congruence; reflexivity.
  - split; [|split].
    + unfold added. destruct ax; split; intros; try congruence; reflexivity.
    + unfold added. destruct ax; split; intros; try congruence; reflexivity.
    + split; [intros E; apply FF, E|]. unfold added. destruct ax; intros; try congruence; reflexivity.
  - unfold added. destruct ax; split; intros; try congruence; reflexivity.
  - intros i f t p Li Lf Lt Lp. rewrite both_values by exact L. unfold values, nants, nchans, nrows, npols in *.
    rewrite <- (map_fst_combine (fun v : arr4 Z => v i f t p) (g_vals a) (g_vals b) L). apply map_ext. intros (x, y). unfold cat, cat0, cat1, cat2, cat3. cbn [fst snd].
    destruct AT as (_ & AT). unfold is_antenna in AT.
    destruct ax; try rewrite (AT eq_refl) in Li; match goal with |- (if (?i <? ?n)%nat then _ else _) = _ => destruct (Nat.ltb_spec i n); [reflexivity | lia] end.
  - intros i f t p _ _ _ _. rewrite both_values by exact L. unfold values, nants, nchans, nrows, npols in *.
    rewrite <- (map_snd_combine (fun v : arr4 Z => v i f t p) (g_vals a) (g_vals b) L). apply map_ext. intros (x, y). unfold cat, cat0, cat1, cat2, cat3. cbn [fst snd].
    destruct AT as (_ & AT). unfold is_antenna in AT. unfold shift.
    destruct ax; try rewrite (AT eq_refl); match goal with |- (if (?k + ?i <? ?n)%nat then _ else _) = _ => destruct (Nat.ltb_spec (k + i) n); [lia|]; replace (k + i - n)%nat with i by lia; reflexivity end.
Qed.

Lemma within_length tol l l' : within tol l l' -> length l = length l'.
Proof. clear. intros H. induction H; cbn [length]; congruence. Qed.

Lemma added_ok vals : addable tols ax a b -> axis_of_type ax a -> no_overlap ax a b -> (ax = AxAntenna -> apart (g_ants a) (g_ants b)) ->
  flag_ok (added vals).
Proof.
  intros (TE & _ & SF & _ & ST & SA & SP) AT NO AP.
  assert (FO := fun (H : g_type (added vals) <> TypeBaseline) => proj2 (proj2 (added_fine vals TE AT) NO)). clear NO. rewrite added_type in FO.
  assert (APP : forall l l' : list Z, NoDup l -> NoDup l' -> apart l l' -> NoDup (l ++ l')).
  { clear. intros l l' D1 D2 D3. induction D1 as [|x l N _ IH]; [exact D2|]. cbn [app]. constructor.
    - rewrite in_app_iff. intros [I | I]; [tauto | apply (D3 x); [left; reflexivity | exact I]].
    - apply IH. intros y I. apply D3. right. exact I. }
  pose proof (freqs_flex vals) as FX.
  pose proof (fo_rows a OKa) as R1. pose proof (fo_rows b OKb) as R2. pose proof (fo_chans a OKa) as (C1 & C2). pose proof (fo_chans b OKb) as (C3 & C4).
  unfold nrows, nchans in *.
  constructor; unfold nrows, nchans.
  - unfold added. destruct ax; cbn [add_rows add_ants add_freqs add_pols g_lst g_time]; rewrite ?app_length; lia.
  - unfold added. destruct ax; try (split; assumption). rewrite (proj1 FX). cbn [add_freqs g_widths g_freq]. rewrite !app_length. lia.
  - unfold added. destruct ax; try exact (fo_windows a OKa). rewrite (proj1 FX). apply FX.
  - unfold added. destruct ax; cbn [add_rows add_ants add_freqs add_pols g_time g_Ntimes]; apply uniqueZ_how_many.
  - intros B. unfold is_baseline in B. rewrite added_type in B. destruct (fo_baseline a OKa B) as (B1 & B2 & B3 & B4 & B5).
    assert (B' : is_baseline b) by (unfold is_baseline; congruence). destruct (fo_baseline b OKb B') as (B1' & B2' & B3' & _ & _). unfold nrows in *.
    unfold added. destruct ax; cbn [add_rows add_ants add_freqs add_pols g_time g_ant1 g_ant2 g_bl g_Nants g_Nbls]; rewrite ?B, ?app_length;
      try (split; [lia | split; [lia | split; [lia | split; assumption]]]).
    + split; [lia|]. split; [lia|]. split; [lia|]. split; [apply uniqueZ_how_many|].
      destruct (SP ltac:(discriminate) B) as (E & _). rewrite <- E. destruct B5 as (d & D1 & D2 & D3). exists d. split; [exact D1|]. split; [|exact D3].
      intros x. rewrite in_app_iff, (D2 x). tauto.
    + split; [lia|]. split; [lia|]. split; [lia|]. split; apply uniqueZ_how_many.
    + destruct AT as (_ & AT). specialize (AT eq_refl). unfold is_antenna in AT. congruence.
  - intros B. unfold is_baseline in B. rewrite added_type in B. apply uniqueZ_full. specialize (FO B).
    destruct (g_type a); try congruence; apply negb_false_iff, Nat.eqb_eq in FO; rewrite <- FO; unfold added; destruct ax; reflexivity.
  - intros B. unfold is_antenna in B. rewrite added_type in B. destruct (fo_antenna a OKa B) as (A1 & A2).
    assert (B' : is_antenna b) by (unfold is_antenna; congruence). destruct (fo_antenna b OKb B') as (A3 & _).
    unfold added. destruct ax; cbn [add_rows add_ants add_freqs add_pols g_ants g_Nants]; rewrite ?B; try (split; assumption).
    split; [apply APP; [exact A1 | exact A3 | apply AP; reflexivity] | reflexivity].
Qed.
End Add.
