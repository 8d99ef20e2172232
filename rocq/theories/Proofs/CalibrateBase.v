(** Feeds, antenna names and complex arithmetic for uvcalibrate. *)
From Coq Require Import List ZArith QArith Qcanon Bool Arith Sorted String Ascii Lia.
From Verif Require Import Lib.Py Lib.Np Lib.Sorting Lib.Dict Lib.Cube Model.Pol Model.UVData Model.Access Model.FreqAvg
  Model.UVFlag Model.Calibrate Spec.PolSpec Spec.UVDataSpec Spec.AccessSpec Spec.FlagSpec Spec.CalibrateSpec
  Proofs.PolProofs.
Import ListNotations.
Open Scope Z_scope.
Open Scope list_scope.
Notation length := List.length.

(** ** Orientations and feeds *)
Lemma side_map x : side_of x = match omap_of (Some x) with OEast => Some East | ONorth => Some North | ONone => None end.
Proof.
  unfold side_of, omap_of, x_orientation_pol_map, XORIENTMAP. cbn [dget existsb].
  destruct (String.eqb (lower x) "east"); [reflexivity|]. destruct (String.eqb (lower x) "north") eqn:E1.
  - apply String.eqb_eq in E1. rewrite E1. reflexivity.
  - destruct (String.eqb (lower x) "e"); [reflexivity|]. destruct (String.eqb (lower x) "n") eqn:E2.
    + apply String.eqb_eq in E2. rewrite E2. reflexivity.
    + destruct (String.eqb (lower x) "ew"); [reflexivity|]. destruct (String.eqb (lower x) "ns"); reflexivity.
Qed.
Definition crossed_map (m k : omap) : bool := match m, k with OEast, ONorth | ONorth, OEast => true | _, _ => false end.
Lemma crossed_omap xo k : crossed xo k = crossed_map (omap_of xo) (omap_of (Some k)).
Proof.
  unfold crossed. destruct xo as [x|]; [|reflexivity]. rewrite !side_map. destruct (omap_of (Some x)), (omap_of (Some k)); reflexivity.
Qed.

Definition use_xo (xo : option string) (k : string) : option string := match xo with None => Some k | Some x => Some x end.
Definition instr : list Z := [-1; -2; -3; -4; -5; -6; -7; -8].
Lemma instr_In p : -8 <= p <= -1 -> In p instr.
Proof. unfold instr. simpl. lia. Qed.

Lemma feeds_ok xo k p s : -8 <= p <= -1 -> polnum2str xo p = Ok s ->
  polstr2num (use_xo xo k) s = Ok p /\
  exists f1 f2, dget String.eqb s POL_TO_FEED_DICT = Ok (f1, f2) /\
    (forall j, jstr2num (Some k) f1 = Ok j -> j = turned (crossed xo k) (fst (feeds p))) /\
    (forall j, jstr2num (Some k) f2 = Ok j -> j = turned (crossed xo k) (snd (feeds p))).
Proof.
  intros Hp Hs. rewrite crossed_omap. setoid_rewrite (jstr2num_repr (Some k)). rewrite polstr2num_repr.
  rewrite polnum2str_repr in Hs.
  assert (Eu : omap_of (use_xo xo k) = match xo with None => omap_of (Some k) | Some _ => omap_of xo end) by (destruct xo; reflexivity).
  rewrite Eu. clear Eu.
  assert (D : (xo = None /\ omap_of xo = ONone) \/ exists x, xo = Some x) by (destruct xo; eauto).
  apply instr_In in Hp. generalize dependent (omap_of (Some k)). intros mk.
  destruct D as [[-> Em]|[x ->]].
  - rewrite Em in *. unfold instr in Hp. simpl in Hp.
    repeat destruct Hp as [<-|Hp]; [..|contradiction];
      (vm_compute in Hs; injection Hs as <-; destruct mk; (split; [vm_compute; reflexivity|]; eexists; eexists; split; [vm_compute; reflexivity|]);
       split; intros j Hj; vm_compute in Hj; try discriminate Hj; injection Hj as <-; vm_compute; reflexivity).
  - cbv iota. generalize dependent (omap_of (Some x)). intros mx Hs. unfold instr in Hp. simpl in Hp.
    repeat destruct Hp as [<-|Hp]; [..|contradiction];
      (destruct mx; vm_compute in Hs; injection Hs as <-; destruct mk; (split; [vm_compute; reflexivity|]; eexists; eexists; split; [vm_compute; reflexivity|]);
       split; intros j Hj; vm_compute in Hj; try discriminate Hj; injection Hj as <-; vm_compute; reflexivity).
Qed.

(** ** Places in arrays *)
Lemma fold_min_le (l : list Z) d x : In x l -> fold_right Z.min d l <= x.
Proof. induction l as [|y l IH]; [contradiction|]. intros [->|H]; cbn [fold_right]; [lia|]. specialize (IH H). lia. Qed.
Lemma fold_min_ge (l : list Z) d m : m <= d -> (forall x, In x l -> m <= x) -> m <= fold_right Z.min d l.
Proof. intros Hd H. induction l as [|y l IH]; [exact Hd|]. cbn [fold_right]. specialize (IH (fun x K => H x (or_intror K))). specialize (H y (or_introl eq_refl)). lia. Qed.

Lemma argmin_abs_at l k x : NoDup l -> nth_error l k = Some x -> argmin_abs x l = k.
Proof.
  intros ND Hk. unfold argmin_abs. set (d := map (fun y => Z.abs (y - x)) l).
  assert (E : fold_right Z.min (hd 0 d) d = 0).
  { apply Z.le_antisymm.
    - apply fold_min_le. unfold d. apply in_map_iff. exists x. split; [lia|]. eapply nth_error_In; eauto.
    - assert (H : forall y, In y d -> 0 <= y) by (unfold d; intros y Hy; apply in_map_iff in Hy; destruct Hy as (z & <- & _); lia).
      apply fold_min_ge; [|exact H]. destruct d as [|z d']; [simpl; lia|apply H; left; reflexivity]. }
  rewrite E. destruct (index_of Z.eqb 0 d) as [i|] eqn:Ei.
  - apply (index_of_Some Z.eqb Z.eqb_eq 0) in Ei. destruct Ei as (Hi & Hn & _). unfold d in Hi, Hn. rewrite map_length in Hi.
    rewrite (nth_map _ l i 0 0) in Hn by exact Hi. apply (proj1 (NoDup_nth_error l) ND); [exact Hi|].
    rewrite Hk, (nth_error_nth' l 0 Hi). f_equal. lia.
  - exfalso. apply (index_of_None Z.eqb Z.eqb_eq) in Ei. apply Ei. unfold d. apply in_map_iff. exists x. split; [lia|]. eapply nth_error_In; eauto.
Qed.

(** ** Names *)
Lemma fold_dset_get {K V} (eqb : K -> K -> bool) (He : forall x y, eqb x y = true <-> x = y) (l : list (K * V)) :
  NoDup (map fst l) -> forall d k v, In (k, v) l ->
  dget eqb k (fold_left (fun d p => dset eqb (fst p) (snd p) d) l d) = Ok v.
Proof.
  assert (Miss : forall (l : list (K * V)) d k, ~ In k (map fst l) ->
            dget eqb k (fold_left (fun d p => dset eqb (fst p) (snd p) d) l d) = dget eqb k d).
  { clear l. induction l as [|[k v] l IH]; intros d x Hx; [reflexivity|]. cbn [fold_left fst snd].
    rewrite IH by (intros K1; apply Hx; right; exact K1). rewrite (dget_dset eqb He).
    destruct (eqb x k) eqn:E; [|reflexivity]. apply He in E. elim Hx. left. symmetry; exact E. }
  induction l as [|[k v] l IH]; intros ND d x y Hx; [contradiction|].
  cbn [map fst] in ND. apply NoDup_cons_iff in ND. destruct ND as [Hn ND]. cbn [fold_left fst snd]. destruct Hx as [Hx|Hx].
  - injection Hx as <- <-. rewrite Miss by exact Hn. rewrite (dget_dset eqb He), (proj2 (He k k) eq_refl). reflexivity.
  - apply IH; assumption.
Qed.
Lemma fold_dset_none {K V} (eqb : K -> K -> bool) (He : forall x y, eqb x y = true <-> x = y) (l : list (K * V)) k v :
  dget eqb k (dict_of eqb l) = Ok v -> In (k, v) l.
Proof.
  unfold dict_of. assert (G : forall (l : list (K * V)) d, dget eqb k (fold_left (fun d p => dset eqb (fst p) (snd p) d) l d) = Ok v ->
     In (k, v) l \/ dget eqb k d = Ok v).
  { clear l. induction l as [|[a b] l IH]; intros d H; [right; exact H|]. cbn [fold_left fst snd] in H. apply IH in H.
    destruct H as [H|H]; [left; right; exact H|]. rewrite (dget_dset eqb He) in H. destruct (eqb k a) eqn:E; [|right; exact H].
    apply He in E. injection H as ->. subst a. left; left; reflexivity. }
  intros H. apply G in H. destruct H as [H|H]; [exact H|discriminate].
Qed.

Lemma combine_In_nth {A B} (l : list A) (m : list B) x y : In (x, y) (combine l m) <-> exists k, nth_error l k = Some x /\ nth_error m k = Some y.
Proof.
  revert m. induction l as [|a l IH]; intros m.
  - simpl. split; [contradiction|]. intros (k & H & _). destruct k; discriminate.
  - destruct m as [|b m]; simpl.
    + split; [contradiction|]. intros (k & _ & H). destruct k; discriminate.
    + rewrite IH. split.
      * intros [H|(k & H)]; [injection H as <- <-; exists 0%nat; auto|exists (S k); exact H].
      * intros (k & H1 & H2). destruct k as [|k]; [left; simpl in *; congruence|right; exists k; auto].
Qed.
Lemma map_fst_combine {A B} (l : list A) (m : list B) : length l = length m -> map fst (combine l m) = l.
Proof. revert m. induction l as [|a l IH]; intros [|b m] H; simpl in *; try discriminate; [reflexivity|]. f_equal. apply IH. congruence. Qed.

Lemma antenna_of_spec v c a m : NoDup (v_numbers v) -> length (v_names v) = length (v_numbers v) ->
  NoDup (k_names c) -> length (k_names c) = length (k_numbers c) ->
  (antenna_of v c a = Some m <-> exists name, named (v_numbers v) (v_names v) a name /\ named (k_numbers c) (k_names c) m name).
Proof.
  intros N1 L1 N2 L2. unfold antenna_of, named. split.
  - destruct (dget Z.eqb a _) as [name|] eqn:E1; [|discriminate]. destruct (dget String.eqb name _) as [n|] eqn:E2; [|discriminate].
    intros H. injection H as ->. exists name.
    apply (fold_dset_none Z.eqb Z.eqb_eq) in E1. apply (fold_dset_none String.eqb String.eqb_eq) in E2.
    apply combine_In_nth in E1. apply combine_In_nth in E2. split; [exact E1|]. destruct E2 as (k & ? & ?). eauto.
  - intros (name & H1 & k & H2 & H3). apply (proj2 (combine_In_nth _ _ _ _)) in H1.
    assert (E1 : dget Z.eqb a (dict_of Z.eqb (combine (v_numbers v) (v_names v))) = Ok name)
      by (apply (fold_dset_get Z.eqb Z.eqb_eq); [rewrite map_fst_combine by congruence; exact N1|exact H1]).
    rewrite E1.
    assert (E2 : dget String.eqb name (dict_of String.eqb (combine (k_names c) (k_numbers c))) = Ok m)
      by (apply (fold_dset_get String.eqb String.eqb_eq); [rewrite map_fst_combine by congruence; exact N2|apply combine_In_nth; eauto]).
    rewrite E2. reflexivity.
Qed.

Section Solution.
  Context (v : vdata) (c : cal) (Hw : well_formed v c).

  Lemma solution_spec a feed J r : (forall j, jstr2num (Some (k_xo c)) feed = Ok j -> j = J) ->
    solution c (antenna_of v c a) feed = Ok r ->
    match r with
    | Some s => solves v c a J s /\ forall s', solves v c a J s' -> s' = s
    | None => forall s, ~ solves v c a J s
    end.
  Proof.
    destruct Hw as (_ & _ & _ & N1 & L1 & N2 & L2 & N3 & N4 & _). intros HJ H. unfold solution in H.
    destruct (antenna_of v c a) as [m|] eqn:Ea.
    - pose proof (proj1 (antenna_of_spec v c a m N1 L1 N2 L2) Ea) as (name & Hv & Hk).
      assert (U : forall m', (exists name m'', named (v_numbers v) (v_names v) a name /\ named (k_numbers c) (k_names c) m'' name /\ m'' = m') -> m' = m).
      { intros m' (name' & m'' & A & B & <-). assert (K : antenna_of v c a = Some m'') by (apply antenna_of_spec; eauto). congruence. }
      destruct (isinZ m (k_ants c)) eqn:Ei.
      + apply isinZ_spec in Ei. apply bind_Ok in H as (j & Ej & H). apply HJ in Ej. subst j.
        apply In_nth_error in Ei. destruct Ei as (ka & Hka). destruct (isinZ J (k_jones c)) eqn:Ejj.
        * apply isinZ_spec in Ejj. apply In_nth_error in Ejj. destruct Ejj as (kj & Hkj). injection H as <-.
          rewrite (argmin_abs_at _ _ _ N3 Hka), (argmin_abs_at _ _ _ N4 Hkj). split.
          -- split; [|exact Hkj]. exists name, m. auto.
          -- intros [a' j'] [(n' & m' & A & B & C) D]. cbn [fst snd] in *. f_equal.
             ++ assert (m' = m) by (apply U; exists n', m'; auto). subst m'. apply (proj1 (NoDup_nth_error _) N3); [apply nth_error_Some; congruence|congruence].
             ++ apply (proj1 (NoDup_nth_error _) N4); [apply nth_error_Some; congruence|congruence].
        * injection H as <-. intros [a' j'] [_ D]. apply isinZ_false in Ejj. apply Ejj. eapply nth_error_In; eauto.
      + injection H as <-. intros [a' j'] [(n' & m' & A & B & C) D]. assert (m' = m) by (apply U; exists n', m'; auto). subst m'.
        apply isinZ_false in Ei. apply Ei. eapply nth_error_In; eauto.
    - injection H as <-. intros [a' j'] [(n' & m' & A & B & C) D].
      assert (K : antenna_of v c a = Some m') by (apply antenna_of_spec; eauto). congruence.
  Qed.
End Solution.

(** ** Complex arithmetic *)
Lemma cmul_1_r x : cmul x (1, 0)%Qc = x.
Proof. destruct x as [a b]. unfold cmul. cbn [fst snd]. f_equal; ring. Qed.
Lemma cquot_1_r x : cquot x (1, 0)%Qc = x.
Proof.
  destruct x as [a b]. unfold cquot, cscale, cmul, conjq, norm2. cbn [fst snd].
  assert (E : (1 * 1 + 0 * 0 = 1)%Qc) by ring. rewrite E. f_equal; field; intros H; discriminate H.
Qed.
Lemma Qc_sq_nonneg (a : Qc) : (0 <= a * a)%Qc.
Proof.
  destruct (Qclt_le_dec a 0) as [H|H].
  - replace (a * a)%Qc with ((- a) * (- a))%Qc by ring. assert (0 <= - a)%Qc.
    { apply Qclt_le_weak in H. apply Qcopp_le_compat in H. exact H. }
    rewrite <- (Qcmult_0_l (- a)). apply Qcmult_le_compat_r; assumption.
  - rewrite <- (Qcmult_0_l a). apply Qcmult_le_compat_r; assumption.
Qed.
Lemma norm2_nonneg x : (0 <= norm2 x)%Qc.
Proof.
  unfold norm2. rewrite <- (Qcplus_0_l 0). apply Qcplus_le_compat; apply Qc_sq_nonneg.
Qed.
Lemma Qc_sum_zero (a b : Qc) : (0 <= a)%Qc -> (0 <= b)%Qc -> (a + b = 0)%Qc -> a = 0%Qc.
Proof.
  intros Ha Hb E. apply Qcle_antisym; [|exact Ha]. rewrite <- E. rewrite <- (Qcplus_0_r a) at 1. apply Qcplus_le_compat; [apply Qcle_refl|exact Hb].
Qed.
Lemma norm2_zero x : norm2 x = 0%Qc -> x = (0, 0)%Qc.
Proof.
  destruct x as [a b]. unfold norm2. cbn [fst snd]. intros E.
  assert (A : (a * a = 0)%Qc) by (apply (Qc_sum_zero _ _ (Qc_sq_nonneg a) (Qc_sq_nonneg b) E)).
  assert (B : (b * b = 0)%Qc) by (apply (Qc_sum_zero _ _ (Qc_sq_nonneg b) (Qc_sq_nonneg a)); rewrite Qcplus_comm; exact E).
  apply Qcmult_integral in A. apply Qcmult_integral in B. destruct A as [->| ->], B as [->| ->]; reflexivity.
Qed.
Lemma cquot_cmul x g : g <> (0, 0)%Qc -> cmul (cquot x g) g = x.
Proof.
  intros Hg. assert (Hn : norm2 g <> 0%Qc) by (intros E; apply Hg, norm2_zero, E).
  destruct x as [a b], g as [p q]. unfold cquot, cscale, cmul, conjq, norm2 in *. cbn [fst snd] in *. f_equal; field; exact Hn.
Qed.
Lemma cmul_cquot x g : g <> (0, 0)%Qc -> cquot (cmul x g) g = x.
Proof.
  intros Hg. assert (Hn : norm2 g <> 0%Qc) by (intros E; apply Hg, norm2_zero, E).
  destruct x as [a b], g as [p q]. unfold cquot, cscale, cmul, conjq, norm2 in *. cbn [fst snd] in *. f_equal; field; exact Hn.
Qed.
Lemma cmul_scale w x g : cmul (cscale w x) g = cscale w (cmul x g).
Proof. destruct x, g. unfold cmul, cscale. cbn [fst snd]. f_equal; ring. Qed.
Lemma cquot_scale w x g : cquot (cscale w x) g = cscale w (cquot x g).
Proof. destruct x, g. unfold cquot, cmul, cscale, conjq. cbn [fst snd]. f_equal; ring. Qed.
Lemma cscale_1 x : cscale 1 x = x.
Proof. destruct x. unfold cscale. cbn [fst snd]. f_equal; ring. Qed.
Lemma cscale_cscale w z x : cscale w (cscale z x) = cscale (w * z)%Qc x.
Proof. destruct x. unfold cscale. cbn [fst snd]. f_equal; ring. Qed.
Lemma close0_spec g : close0 g = true <-> negligible g.
Proof. unfold close0, negligible, norm2, tiny. rewrite Qle_bool_iff. reflexivity. Qed.
