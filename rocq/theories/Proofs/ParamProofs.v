(** Equality of objects, sum_vis *)
From Coq Require Import List ZArith Bool Arith QArith Qabs String Ascii Lia Sorted Permutation.
From Verif Require Import Lib.Py Lib.Cube Lib.Sorting Lib.Dict Spec.PhaseSpec Model.Tools Model.Param Spec.ParamSpec Proofs.PhaseProofs
  Proofs.SelectTotal.
Import ListNotations.
Notation length := List.length.
Open Scope Z_scope.
Open Scope list_scope.

Lemma close_near t x y : close t x y = true <-> near t x y.
Proof. apply isclose_near. Qed.

Lemma list_eqb_Forall2 {A} (eqb : A -> A -> bool) (R : A -> A -> Prop) : (forall x y, eqb x y = true <-> R x y) ->
  forall a b, list_eqb eqb a b = true <-> Forall2 R a b.
Proof.
  intros H a. induction a as [|x a IH]; intros [|y b]; cbn [list_eqb].
  - split; constructor.
  - split; [discriminate|inversion 1].
  - split; [discriminate|inversion 1].
  - rewrite andb_true_iff, H, IH. split; [intros [? ?]; constructor; assumption|inversion 1; auto].
Qed.
Lemma Forall2_eq {A} (a b : list A) : Forall2 eq a b <-> a = b.
Proof.
  split; [induction 1; congruence|intros ->]. induction b; constructor; auto.
Qed.
Lemma list_eqb_eq {A} (eqb : A -> A -> bool) : (forall x y, eqb x y = true <-> x = y) -> forall a b, list_eqb eqb a b = true <-> a = b.
Proof. intros H a b. rewrite (list_eqb_Forall2 eqb eq H), Forall2_eq. reflexivity. Qed.

Lemma param_eq_spec p q : param_eq p q = true <-> same_param p q.
Proof.
  unfold param_eq, same_param. destruct (p_value p) as [|x|s x|x|x|x]; destruct (p_value q) as [|y|s' y|y|y|y]; cbn [value_near].
  all: try (split; [intros H; right; split; auto|intros [[]|[H _]]; exact H]; fail).
  all: try (split; [discriminate|intros [[]|[_ [H|H]]]; discriminate]; fail).
  - split; auto.
  - rewrite close_near. split; [auto|intros [H|[_ [H|H]]]; [exact H|discriminate..]].
  - rewrite andb_true_iff, (list_eqb_eq Nat.eqb Nat.eqb_eq), (list_eqb_Forall2 _ _ (close_near (p_tols p))).
    split; [auto|intros [H|[_ [H|H]]]; [exact H|discriminate..]].
  - rewrite orb_true_iff, !String.eqb_eq. split; [auto|intros [H|[_ [H|H]]]; [exact H|discriminate..]].
  - rewrite (list_eqb_eq String.eqb String.eqb_eq). split; [auto|intros [H|[_ [H|H]]]; [exact H|discriminate..]].
  - rewrite Z.eqb_eq. split; [auto|intros [H|[_ [H|H]]]; [exact H|discriminate..]].
Qed.

Lemma mem_str_In s l : mem_str s l = true <-> In s l.
Proof.
  unfold mem_str. rewrite existsb_exists. split; [intros (x & H & E); apply String.eqb_eq in E; subst; exact H|].
  intros H. exists s. split; [exact H|apply String.eqb_refl].
Qed.
Lemma same_set_spec a b : same_set a b = true <-> forall s, In s a <-> In s b.
Proof.
  unfold same_set. rewrite andb_true_iff, !forallb_forall. split.
  - intros [H1 H2] s. split; intros H; apply mem_str_In; auto.
  - intros H. split; intros s Hs; apply mem_str_In, H, Hs.
Qed.
Lemma names_of_In r o n : In n (names_of r o) <-> exists p, has o n p /\ p_required p = r.
Proof.
  unfold names_of, has. rewrite in_map_iff. split.
  - intros ([n' p] & E & H). apply filter_In in H as [H1 H2]. cbn in *. subst. exists p. split; [exact H1|]. apply eqb_prop, H2.
  - intros (p & H & <-). exists (n, p). split; [reflexivity|]. apply filter_In. split; [exact H|]. apply eqb_reflx.
Qed.

Lemma compare_all a b l r : mapM (compare_at a b) l = Ok r ->
  forallb (fun x => x) r = true <->
  forall n, In n l -> exists p q, dget String.eqb n a = Ok p /\ dget String.eqb n b = Ok q /\ same_param p q.
Proof.
  intros H. apply mapM_Ok_Forall2 in H. induction H as [|n x l r Hx _ IH].
  - split; [intros _ n []|reflexivity].
  - cbn [forallb]. rewrite andb_true_iff, IH. unfold compare_at in Hx.
    destruct (dget String.eqb n a) as [p|] eqn:Ea; [|discriminate]. destruct (dget String.eqb n b) as [q|] eqn:Eb; [|discriminate].
    injection Hx as Hx. split.
    + intros [X H] m [<-|Hm]; [|apply H, Hm]. exists p, q. split; [exact Ea|]. split; [exact Eb|]. apply param_eq_spec. congruence.
    + intros H'. split; [|intros m Hm; apply H'; right; exact Hm]. destruct (H' n (or_introl eq_refl)) as (p' & q' & E1 & E2 & S).
      rewrite Ea in E1. rewrite Eb in E2. injection E1 as <-. injection E2 as <-. rewrite <- Hx. apply param_eq_spec, S.
Qed.
Lemma compare_total a b l : (forall n, In n l -> In n (dkeys a) /\ In n (dkeys b)) -> exists r, mapM (compare_at a b) l = Ok r.
Proof.
  intros H. apply mapM_total. intros n Hn. destruct (H n Hn) as [Ha Hb]. unfold compare_at.
  apply (dmem_In String.eqb String.eqb_eq), dmem_dget in Ha as (p & ->).
  apply (dmem_In String.eqb String.eqb_eq), dmem_dget in Hb as (q & ->). eauto.
Qed.

Lemma has_key o n p : has o n p -> In n (dkeys o).
Proof. intros H. apply (in_map fst) in H. exact H. Qed.
Lemma has_dget o n p : params_ok o -> has o n p <-> dget String.eqb n o = Ok p.
Proof.
  intros [N _]. split; [apply (In_dget String.eqb String.eqb_eq), N|apply (dget_In String.eqb String.eqb_eq)].
Qed.

(** * Equality *)
Lemma uvbase_eq_spec af a b : params_ok a -> params_ok b ->
  exists r, uvbase_eq true af a b = Ok r /\
  (r = true <-> same_names a b /\
     forall n p q, ~ In n (map bare af) -> has a n p -> has b n q -> same_param p q).
Proof.
  intros Ha Hb. unfold uvbase_eq. cbn [andb].
  assert (SN : same_names a b <-> same_set (names_of true a) (names_of true b) = true /\ same_set (names_of false a) (names_of false b) = true).
  { rewrite !same_set_spec. unfold same_names. split.
    - intros H. split; intros s; rewrite !names_of_In; apply H.
    - intros [H1 H2] n [|]; rewrite <- !names_of_In; auto. }
  destruct (same_set (names_of true a) (names_of true b)) eqn:E1; cbn [negb].
  2:{ exists false. split; [reflexivity|]. split; [discriminate|]. intros [H _]. apply SN in H as [H _]. discriminate. }
  destruct (same_set (names_of false a) (names_of false b)) eqn:E2; cbn [negb].
  2:{ exists false. split; [reflexivity|]. split; [discriminate|]. intros [H _]. apply SN in H as [_ H]. discriminate. }
  assert (S : same_names a b) by (apply SN; auto). clear SN.
  assert (Hin : forall n, In n (names_of true a ++ names_of false a) <-> exists p, has a n p).
  { intros n. rewrite in_app_iff, !names_of_In. split; [intros [(p & H & _)|(p & H & _)]; eauto|].
    intros (p & H). destruct (p_required p) eqn:E; [left|right]; eauto. }
  destruct (compare_total a b (filter (fun n => negb (mem_str n (map bare af))) (names_of true a ++ names_of false a))) as (l & El).
  { intros n Hn. apply filter_In in Hn as [Hn _]. apply Hin in Hn as (p & Hp). split; [eapply has_key, Hp|].
    destruct (proj1 (S n (p_required p)) (ex_intro _ p (conj Hp eq_refl))) as (q & Hq & _). eapply has_key, Hq. }
  rewrite El. cbn [bind]. eexists. split; [reflexivity|]. rewrite (compare_all _ _ _ _ El). split.
  - intros H. split; [exact S|]. intros n p q Hn Hp Hq.
    destruct (H n) as (p' & q' & Ep & Eq & HS).
    { apply filter_In. split; [apply Hin; eauto|]. apply negb_true_iff. apply not_true_is_false. intros M. apply Hn, mem_str_In, M. }
    apply (has_dget a) in Hp; [|exact Ha]. apply (has_dget b) in Hq; [|exact Hb]. congruence.
  - intros [_ H] n Hn. apply filter_In in Hn as [Hn Hm]. apply Hin in Hn as (p & Hp).
    destruct (proj1 (S n (p_required p)) (ex_intro _ p (conj Hp eq_refl))) as (q & Hq & _).
    exists p, q. split; [apply has_dget; assumption|]. split; [apply has_dget; assumption|]. apply (H n); try assumption.
    apply negb_true_iff in Hm. intros I. apply mem_str_In in I. congruence.
Qed.

Lemma same_param_refl p : (0 <= fst (p_tols p))%Q -> (0 <= snd (p_tols p))%Q -> same_param p p.
Proof.
  intros H1 H2. left. destruct (p_value p); cbn [value_near]; auto.
  - apply near_refl; assumption.
  - split; [reflexivity|]. induction v; constructor; [apply near_refl; assumption|assumption].
Qed.

Lemma uvbase_eq_refl af a : params_ok a -> uvbase_eq true af a a = Ok true.
Proof.
  intros H. destruct (uvbase_eq_spec af a a H H) as (r & E & S). rewrite E. f_equal. apply S. split; [intros n r'; reflexivity|].
  intros n p q _ Hp Hq. apply has_dget in Hp; [|exact H]. apply has_dget in Hq; [|exact H].
  assert (p = q) as <- by congruence. apply has_dget in Hp; [|exact H]. apply same_param_refl; eapply (proj2 H), Hp.
Qed.

(** * Integers *)
Lemma near_int x y : Z.abs y < 100000 -> near DEFAULT_TOLS (inject_Z x) (inject_Z y) -> x = y.
Proof.
  intros Hy H. unfold near, DEFAULT_TOLS in H. cbn [fst snd] in H.
  rewrite <- inject_Z_opp, <- inject_Z_plus in H || (change (inject_Z x - inject_Z y)%Q with (inject_Z x + - inject_Z y)%Q in H; rewrite <- inject_Z_opp, <- inject_Z_plus in H).
  assert (A : forall z, Qabs (inject_Z z) = inject_Z (Z.abs z)) by (intros z; reflexivity). rewrite !A in H.
  unfold Qle, Qplus, Qmult, inject_Z in H. cbn [Qnum Qden] in H. lia.
Qed.
Lemma near_ints x y : (forall v, In v y -> Z.abs v < 100000) ->
  Forall2 (near DEFAULT_TOLS) (map inject_Z x) (map inject_Z y) -> x = y.
Proof.
  revert y. induction x as [|a x IH]; intros [|b y] Hy H; cbn [map] in H.
  - reflexivity.
  - inversion H.
  - inversion H.
  - inversion H; subst. f_equal; [apply near_int; [apply Hy; left; reflexivity|assumption]|]. apply IH; [intros v Hv; apply Hy; right; exact Hv|assumption].
Qed.

(** * sum_vis *)
Lemma left_out_ok a ov : override_ok a ov ->
  left_out (dkeys a ++ ["history"; "data_array"; "extra_keywords"]%string) ov =
  Ok (["history"; "data_array"; "extra_keywords"]%string ++ map bare ov).
Proof.
  intros H. unfold left_out.
  assert (E : forall l, (forall s, In s l -> s <> ""%string /\ In (bare s) (dkeys a ++ ["history"; "data_array"; "extra_keywords"]%string)) ->
    mapM (fun p => match p with EmptyString => Err IndexError
      | _ => if mem_str (bare p) (dkeys a ++ ["history"; "data_array"; "extra_keywords"]%string) then Ok (bare p) else Err ValueError end) l = Ok (map bare l)).
  { induction l as [|s l IH]; intros Hl; [reflexivity|]. cbn [mapM map]. destruct (Hl s (or_introl eq_refl)) as [Hs Hi].
    destruct s as [|c s]; [congruence|]. apply mem_str_In in Hi. rewrite Hi. cbn [bind]. rewrite IH; [reflexivity|].
    intros t Ht. apply Hl. right. exact Ht. }
  rewrite E; [reflexivity|exact H].
Qed.
Lemma left_out_bad (a : params) ov s : In s ov -> ~ In (bare s) (dkeys a ++ ["history"; "data_array"; "extra_keywords"]%string) ->
  exists e, left_out (dkeys a ++ ["history"; "data_array"; "extra_keywords"]%string) ov = Err e.
Proof.
  intros Hs Hn. unfold left_out.
  match goal with |- context [mapM ?f ov] => set (g := f) end.
  assert (E : exists e, mapM g ov = Err e).
  { induction ov as [|t ov IH]; [destruct Hs|]. cbn [mapM]. destruct Hs as [<-|Hs].
    - unfold g. destruct t as [|c t]; [cbn; eauto|].
      destruct (mem_str (bare (String c t)) (dkeys a ++ ["history"; "data_array"; "extra_keywords"]%string)) eqn:M; [|cbn; eauto].
      apply mem_str_In in M. contradiction.
    - destruct (g t) as [y|e]; cbn [bind]; [|eauto]. destruct (IH Hs) as (e & ->). cbn. eauto. }
  destruct E as (e & ->). cbn. eauto.
Qed.

Section Sum.
Variables (dif : bool) (ov : list string) (a b : visobj).
Let u := v_params a.
Let v := v_params b.
Hypothesis Hu : params_ok u.
Hypothesis Hv : params_ok v.
Hypothesis Hn : same_names u v.
Hypothesis Hf : exists f, has u "filename"%string f.
Hypothesis Hov : override_ok u ov.

Lemma key_both n : In n (dkeys u) <-> In n (dkeys v).
Proof.
  assert (K : forall o : params, In n (dkeys o) <-> exists p, has o n p).
  { intros o. unfold dkeys, has. rewrite in_map_iff. split; [intros ([m p] & <- & H); eauto|intros (p & H); exists (n, p); auto]. }
  rewrite !K. split; intros (p & H).
  - destruct (proj1 (Hn n (p_required p)) (ex_intro _ p (conj H eq_refl))) as (q & Hq & _). eauto.
  - destruct (proj2 (Hn n (p_required p)) (ex_intro _ p (conj H eq_refl))) as (q & Hq & _). eauto.
Qed.

Definition sum_compat : Prop := forall n p q, compared ov n -> has u n p -> has v n q -> same_param p q.

Lemma checked_In n : In n (filter (fun n => negb (mem_str n (["history"; "data_array"; "extra_keywords"]%string ++ map bare ov))) (dkeys u)) <->
  In n (dkeys u) /\ compared ov n.
Proof.
  rewrite filter_In, negb_true_iff. unfold compared. rewrite <- (mem_str_In n (_ ++ _)). rewrite <- not_true_iff_false. reflexivity.
Qed.

Lemma sum_cases : (sum_compat /\ exists f g, has u "filename"%string f /\ has v "filename"%string g /\
    sum_vis dif ov a b = Ok (mkvis (dset String.eqb "filename"%string
                 (mkparam (p_required f) (combine_filenames (p_value f) (p_value g)) (p_tols f) (p_ignore f)) u)
              (fun i j k => (if dif then csub else cplus) (v_data a i j k) (v_data b i j k))
              (dict_of String.eqb (v_keywords b ++ v_keywords a)))) \/
  (~ sum_compat /\ sum_vis dif ov a b = Err ValueError).
Proof.
  unfold sum_vis. fold u v. rewrite left_out_ok by exact Hov. cbn [bind].
  destruct (compare_total u v (filter (fun n => negb (mem_str n (["history"; "data_array"; "extra_keywords"]%string ++ map bare ov))) (dkeys u))) as (l & El).
  { intros n I. apply filter_In in I as [I _]. split; [exact I|]. apply key_both, I. }
  rewrite El. cbn [bind].
  assert (C : forallb (fun x => x) l = true <-> sum_compat).
  { rewrite (compare_all _ _ _ _ El). split.
    - intros H n p q Hc Hp Hq. destruct (H n) as (p' & q' & Ep & Eq & S).
      { apply checked_In. split; [eapply has_key, Hp|exact Hc]. }
      apply has_dget in Hp; [|exact Hu]. apply has_dget in Hq; [|exact Hv]. congruence.
    - intros H n I. apply checked_In in I as [I Hc]. pose proof (proj1 (key_both n) I) as J.
      apply (dmem_In String.eqb String.eqb_eq), dmem_dget in I as (p & Ep).
      apply (dmem_In String.eqb String.eqb_eq), dmem_dget in J as (q & Eq).
      exists p, q. split; [exact Ep|]. split; [exact Eq|]. apply (H n); [exact Hc|apply has_dget; assumption..]. }
  destruct (forallb (fun x => x) l) eqn:E; cbn [negb].
  - left. split; [apply C; reflexivity|]. destruct Hf as (f & F). pose proof (has_key _ _ _ F) as J. apply key_both in J.
    apply (dmem_In String.eqb String.eqb_eq), dmem_dget in J as (g & G).
    pose proof F as F'. apply (has_dget u) in F'; [|exact Hu]. rewrite F', G. cbn [bind]. exists f, g.
    split; [exact F|]. split; [apply has_dget; assumption|]. reflexivity.
  - right. split; [|reflexivity]. intros H. apply C in H. discriminate.
Qed.
End Sum.

Lemma dset_has o n p m q : params_ok o -> has (dset String.eqb n p o) m q <-> (m = n /\ q = p) \/ (m <> n /\ has o m q).
Proof.
  intros [N H]. assert (N' := dset_NoDup String.eqb String.eqb_eq n p o N). unfold has. split.
  - intros I. apply (In_dget String.eqb String.eqb_eq) in I; [|exact N'].
    rewrite (dget_dset String.eqb String.eqb_eq) in I. destruct (String.eqb_spec m n) as [E|E]; [left; split; congruence|right].
    split; [exact E|]. apply (dget_In String.eqb String.eqb_eq), I.
  - intros [[-> ->]|[E I]]; apply (dget_In String.eqb String.eqb_eq); rewrite (dget_dset String.eqb String.eqb_eq).
    + rewrite String.eqb_refl. reflexivity.
    + apply String.eqb_neq in E. rewrite E. apply (In_dget String.eqb String.eqb_eq); assumption.
Qed.

(** extra_keywords *)
Lemma dict_of_get (l : list (string * Z)) : forall d k, dget String.eqb k (fold_left (fun d p => dset String.eqb (fst p) (snd p) d) l d) =
  match dget String.eqb k (rev l) with Ok x => Ok x | Err _ => dget String.eqb k d end.
Proof.
  assert (App : forall (x y : list (string * Z)) k, dget String.eqb k (x ++ y) = match dget String.eqb k x with Ok z => Ok z | Err _ => dget String.eqb k y end).
  { intros x. induction x as [|[k' z] x IH]; intros y k; [reflexivity|]. cbn. destruct (k =? k')%string; auto. }
  induction l as [|[k0 x0] l IH]; intros d k; cbn [fold_left rev]; [reflexivity|]. rewrite IH, App. cbn [fst snd dget].
  destruct (dget String.eqb k (rev l)); [reflexivity|]. rewrite (dget_dset String.eqb String.eqb_eq). destruct (k =? k0)%string; reflexivity.
Qed.
Lemma keywords_merged (x y : list (string * Z)) k z : NoDup (dkeys x) -> NoDup (dkeys y) ->
  In (k, z) (dict_of String.eqb (y ++ x)) <-> In (k, z) x \/ (~ In k (map fst x) /\ In (k, z) y).
Proof.
  intros Nx Ny. unfold dict_of.
  assert (ND : forall (l d : list (string * Z)), NoDup (dkeys d) -> NoDup (dkeys (fold_left (fun d p => dset String.eqb (fst p) (snd p) d) l d))).
  { induction l as [|p l IH]; intros d Hd; cbn [fold_left]; [exact Hd|]. apply IH, (dset_NoDup String.eqb String.eqb_eq), Hd. }
  assert (G : In (k, z) (fold_left (fun d p => dset String.eqb (fst p) (snd p) d) (y ++ x) []) <->
    dget String.eqb k (fold_left (fun d p => dset String.eqb (fst p) (snd p) d) (y ++ x) []) = Ok z).
  { split; [apply (In_dget String.eqb String.eqb_eq), ND; constructor|apply (dget_In String.eqb String.eqb_eq)]. }
  rewrite G, fold_left_app, dict_of_get, dict_of_get. cbn [dget].
  assert (R : forall l : list (string * Z), NoDup (dkeys l) -> forall w, dget String.eqb k (rev l) = Ok w <-> In (k, w) l).
  { intros l Hl w. assert (Hr : NoDup (dkeys (rev l))) by (unfold dkeys; rewrite map_rev; apply NoDup_rev, Hl). split.
    - intros H. apply (dget_In String.eqb String.eqb_eq) in H. apply in_rev, H.
    - intros H. apply (In_dget String.eqb String.eqb_eq); [exact Hr|]. apply -> in_rev. exact H. }
  destruct (dget String.eqb k (rev x)) as [w|] eqn:Ex.
  - apply (R x Nx) in Ex. split.
    + intros H. injection H as <-. left. exact Ex.
    + intros [H|[H _]]; [|exfalso; apply H; apply (in_map fst) in Ex; exact Ex]. apply (R x Nx) in H. apply (R x Nx) in Ex. congruence.
  - assert (Kx : ~ In k (map fst x)).
    { intros H. apply in_map_iff in H as ([k' w] & E & H). cbn in E. subst k'. apply (R x Nx) in H. congruence. }
    destruct (dget String.eqb k (rev y)) as [w|] eqn:Ey.
    + apply (R y Ny) in Ey. split.
      * intros H. injection H as <-. right. auto.
      * intros [H|[_ H]]; [exfalso; apply Kx; apply (in_map fst) in H; exact H|]. apply (R y Ny) in H. apply (R y Ny) in Ey. congruence.
    + split; [discriminate|]. intros [H|[_ H]]; [exfalso; apply Kx; apply (in_map fst) in H; exact H|]. apply (R y Ny) in H. congruence.
Qed.

Lemma dedup_str_id l : NoDup l -> dedup_str l = l.
Proof.
  induction 1 as [|x l Hx _ IH]; [reflexivity|]. cbn. destruct (mem_str x l) eqn:E; [apply mem_str_In in E; contradiction|]. congruence.
Qed.
Lemma dedup_str_app l m : incl l m -> dedup_str (l ++ m) = dedup_str m.
Proof.
  induction l as [|x l IH]; intros H; [reflexivity|]. cbn. assert (E : mem_str x (l ++ m) = true).
  { apply mem_str_In, in_or_app. right. apply H. left. reflexivity. }
  rewrite E. apply IH. intros y Hy. apply H. right. exact Hy.
Qed.
Lemma combine_same l : NoDup l -> (forall i j x y, (i < j)%nat -> nth_error l i = Some x -> nth_error l j = Some y -> str_le x y) ->
  combine_filenames (VStrs l) (VStrs l) = VStrs l.
Proof.
  intros N S. cbn. rewrite dedup_str_app by apply incl_refl. rewrite dedup_str_id by exact N. f_equal.
  apply isort_sorted_id. clear N. induction l as [|x l IH]; constructor.
  - apply IH. intros i j y z Hij Hi Hj. apply (S (Datatypes.S i) (Datatypes.S j) y z); [lia|exact Hi|exact Hj].
  - apply Forall_forall. intros y Hy. apply In_nth_error in Hy as (j & Hj). specialize (S O (Datatypes.S j) x y ltac:(lia) eq_refl Hj).
    unfold le, str_leb. unfold str_le in S. destruct (String.compare x y); congruence.
Qed.

Lemma sum_ok dif ov a b r : summable a b -> override_ok (v_params a) ov -> sum_vis dif ov a b = Ok r ->
  (forall i j k, v_data r i j k = (if dif then csub else cplus) (v_data a i j k) (v_data b i j k)) /\
  (forall n p, n <> "filename"%string -> has (v_params r) n p <-> has (v_params a) n p) /\
  (forall k z, lookup (v_keywords r) k z <-> lookup (v_keywords a) k z \/ (~ In k (map fst (v_keywords a)) /\ lookup (v_keywords b) k z)).
Proof.
  intros (Ha & Hb & Hn & Hf & Ka & Kb) Hov E.
  destruct (sum_cases dif ov a b Ha Hb Hn Hf Hov) as [[_ (f & g & F & G & E')]|[_ E']]; rewrite E' in E; [|discriminate].
  injection E as <-. cbn [v_data v_params v_keywords]. split; [reflexivity|]. split.
  - intros n p Hne. rewrite dset_has by exact Ha. split; [intros [[H _]|[_ H]]; [contradiction|exact H]|auto].
  - intros k z. unfold lookup. apply keywords_merged; assumption.
Qed.

Lemma sum_decides dif ov a b : summable a b -> override_ok (v_params a) ov ->
  ((forall n p q, compared ov n -> has (v_params a) n p -> has (v_params b) n q -> same_param p q) ->
     exists r, sum_vis dif ov a b = Ok r) /\
  (forall n p q, compared ov n -> has (v_params a) n p -> has (v_params b) n q -> ~ same_param p q ->
     sum_vis dif ov a b = Err ValueError).
Proof.
  intros (Ha & Hb & Hn & Hf & Ka & Kb) Hov.
  destruct (sum_cases dif ov a b Ha Hb Hn Hf Hov) as [[C (f & g & F & G & E')]|[C E']].
  - split; [intros _; eauto|]. intros n p q Hc Hp Hq Hne. exfalso. apply Hne. exact (C n p q Hc Hp Hq).
  - split; [intros H; exfalso; apply C; exact H|]. intros. exact E'.
Qed.

Lemma sum_bad_name dif ov a b s : In s ov -> ~ In (bare s) (map fst (v_params a) ++ ["history"; "data_array"; "extra_keywords"]%string) ->
  exists e, sum_vis dif ov a b = Err e.
Proof.
  intros Hs Hn. destruct (left_out_bad (v_params a) ov s Hs Hn) as (e & E). exists e. unfold sum_vis. rewrite E. reflexivity.
Qed.

Lemma diff_of_sum ov a b s : summable a b -> override_ok (v_params a) ov -> filenames_fine ov (v_params a) (v_params b) ->
  sum_vis false ov a b = Ok s ->
  exists d, diff_vis ov s b = Ok d /\
  (forall i j k, v_data d i j k = v_data a i j k) /\
  (forall n p, n <> "filename"%string -> has (v_params d) n p <-> has (v_params a) n p).
Proof.
  intros (Ha & Hb & Hn & Hf & Ka & Kb) Hov Hfn E.
  destruct (sum_ok false ov a b s (conj Ha (conj Hb (conj Hn (conj Hf (conj Ka Kb))))) Hov E) as (D & P & _).
  destruct (sum_cases false ov a b Ha Hb Hn Hf Hov) as [[C (f & g & F & G & E')]|[_ E']]; rewrite E' in E; [|discriminate].
  set (f' := mkparam (p_required f) (combine_filenames (p_value f) (p_value g)) (p_tols f) (p_ignore f)) in *.
  assert (Ps : v_params s = dset String.eqb "filename"%string f' (v_params a)) by (injection E as <-; reflexivity).
  assert (Ks : v_keywords s = dict_of String.eqb (v_keywords b ++ v_keywords a)) by (injection E as <-; reflexivity).
  assert (Hs : forall n p, has (v_params s) n p <-> (n = "filename"%string /\ p = f') \/ (n <> "filename"%string /\ has (v_params a) n p)).
  { intros n p. rewrite Ps. apply dset_has, Ha. }
  assert (Keys : map fst (v_params s) = map fst (v_params a)).
  { rewrite Ps. apply (dset_keys String.eqb String.eqb_eq). eapply has_key, F. }
  assert (Uf : forall p, has (v_params a) "filename"%string p -> p = f).
  { intros p H. apply has_dget in H; [|exact Ha]. apply has_dget in F; [|exact Ha]. congruence. }
  assert (OKs : params_ok (v_params s)).
  { split; [rewrite Keys; apply Ha|]. intros n p H. apply Hs in H as [[-> ->]|[_ H]]; [cbn; eapply (proj2 Ha), F|eapply (proj2 Ha), H]. }
  assert (SNs : same_names (v_params s) (v_params b)).
  { intros n r. rewrite <- (Hn n r). split; intros (p & H & R).
    - apply Hs in H as [[-> ->]|[_ H]]; [exists f; split; [exact F|exact R]|eauto].
    - destruct (string_dec n "filename") as [->|Hne].
      + rewrite (Uf p H) in R. exists f'. split; [apply Hs; auto|exact R].
      + exists p. split; [apply Hs; auto|exact R]. }
  assert (OVs : override_ok (v_params s) ov) by (unfold override_ok; rewrite Keys; exact Hov).
  assert (NDs : NoDup (map fst (v_keywords s))).
  { rewrite Ks. unfold dict_of. clear. generalize (v_keywords b ++ v_keywords a). intros l.
    assert (H : NoDup (dkeys (@nil (string * Z)))) by constructor. revert H. generalize (@nil (string * Z)).
    induction l as [|p l IH]; intros d Hd; [exact Hd|]. cbn [fold_left]. apply IH, (dset_NoDup String.eqb String.eqb_eq), Hd. }
  assert (SM : summable s b).
  { refine (conj OKs (conj Hb (conj SNs (conj _ (conj NDs Kb))))). exists f'. apply Hs. auto. }
  destruct (sum_decides true ov s b SM OVs) as [Yes _]. destruct Yes as (d & Ed).
  - intros n p q Hc Hp Hq. apply Hs in Hp as [[-> ->]|[_ Hp]]; [|exact (C n p q Hc Hp Hq)].
    assert (q = g) as -> by (apply has_dget in Hq; [|exact Hb]; apply has_dget in G; [|exact Hb]; congruence).
    destruct Hfn as [Hx|Hx]; [contradiction|]. specialize (C _ f g Hc F G).
    destruct (Hx f g F G) as [[E1 E2]|(l & E1 & E2 & Nl & Sl)]; unfold same_param, f' in *; cbn [p_value p_tols p_ignore]; rewrite E1, E2 in *.
    + left. exact I.
    + left. rewrite combine_same by assumption. cbn. reflexivity.
  - exists d. split; [exact Ed|]. destruct (sum_ok true ov s b d SM OVs Ed) as (D' & P' & _). split.
    + intros i j k. rewrite D', D. unfold csub, cplus. destruct (v_data a i j k), (v_data b i j k). cbn. f_equal; lia.
    + intros n p Hne. rewrite (P' n p Hne). apply P, Hne.
Qed.
