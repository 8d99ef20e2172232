(** Averaging redundant baselines: all groups. *)
From Coq Require Import List ZArith QArith Qcanon Bool Arith Lia Permutation Sorted.
From Verif Require Import Lib.Py Lib.Np Lib.Cube Lib.Sorting Lib.QSum Model.FreqAvg Model.Redundancy Model.Compress Spec.RedundancySpec Spec.CompressSpec Proofs.RedundancyProofs Proofs.CompressProofs.
Import ListNotations.
Open Scope Z_scope.
Open Scope list_scope.

Lemma hd_In (g : list Z) : g <> [] -> In (hd 0 g) g.
Proof. destruct g; [contradiction|left; reflexivity]. Qed.
Lemma NoDup_part {A} (ls : list (list A)) l : NoDup (concat ls) -> In l ls -> NoDup l.
Proof.
  intros ND H. apply in_split in H. destruct H as (a & b & ->). rewrite concat_app in ND. cbn [concat] in ND. clear -ND.
  induction (concat a) as [|x r IH]; [|apply IH; cbn [app] in ND; apply NoDup_cons_iff in ND; apply ND]. cbn [app] in ND. induction l as [|x l IH]; [constructor|].
  cbn [app] in ND. apply NoDup_cons_iff in ND. destruct ND as [N ND]. constructor; [intros K; apply N, in_app_iff; left; exact K|apply IH, ND].
Qed.

Lemma loop_total tol conjs v kp gps : (forall g, In g gps -> g <> [] /\ forall b, In b g -> In b (c_bl v)) ->
  forall t, exists t', groups_loop tol conjs v (take 0 (c_bl v) kp) (take 0 (c_time v) kp) gps t = Ok t'.
Proof.
  induction gps as [|g gps IH]; intros H t; [exists t; reflexivity|]. cbn [groups_loop]. destruct (H g (or_introl eq_refl)) as [Ne Hb].
  destruct (group_total tol conjs v kp g (hd_In g Ne) t Ne Hb) as (t1 & ->). cbn [bind]. apply IH. intros g' Hg'. apply H. right; exact Hg'.
Qed.
Lemma loop_miss tol conjs v bl' tm' gps o j p : (forall g, In g gps -> nth o bl' 0 <> hd 0 g) ->
  forall t t', groups_loop tol conjs v bl' tm' gps t = Ok t' -> at_row t' o j p = at_row t o j p.
Proof.
  induction gps as [|g gps IH]; intros Hm t t' H; cbn [groups_loop] in H; [injection H as ->; reflexivity|]. apply bind_Ok in H. destruct H as (t1 & E1 & H).
  rewrite (IH (fun g' Hg' => Hm g' (or_intror Hg')) t1 t' H). apply (group_miss tol conjs v bl' tm' g t t1 o j p); [apply Hm; left; reflexivity|exact E1].
Qed.
Lemma loop_app tol conjs v bl' tm' a b : forall t t', groups_loop tol conjs v bl' tm' (a ++ b) t = Ok t' ->
  exists t1, groups_loop tol conjs v bl' tm' a t = Ok t1 /\ groups_loop tol conjs v bl' tm' b t1 = Ok t'.
Proof.
  induction a as [|g a IH]; intros t t' H; [exists t; split; [reflexivity|exact H]|]. cbn [app groups_loop] in *. apply bind_Ok in H. destruct H as (t1 & E1 & H).
  destruct (IH t1 t' H) as (t2 & E2 & H2). exists t2. split; [rewrite E1; exact E2|exact H2].
Qed.

(** ** The average over the joined rows *)
Lemma isin_existsb b l : isinZ b l = existsb (Z.eqb b) l.
Proof. apply eq_true_iff_eq. rewrite isinZ_spec, existsb_exists. split; [intros H; exists b; split; [exact H|apply Z.eqb_refl]|intros (x & H & E); apply Z.eqb_eq in E; subst x; exact H]. Qed.
Lemma filter_map_tag conjs v (q : nat -> bool) l : filter (fun m : nat * bool => q (fst m)) (map (tag conjs v) l) = map (tag conjs v) (filter q l).
Proof. induction l as [|i l IH]; [reflexivity|]. cbn [map filter]. cbn [tag fst]. destruct (q i); cbn [map]; rewrite IH; reflexivity. Qed.
Lemma forallb_map {A B} (f : B -> bool) (h : A -> B) l : forallb f (map h l) = forallb (fun x => f (h x)) l.
Proof. induction l as [|x l IH]; [reflexivity|]. cbn. rewrite IH. reflexivity. Qed.
Lemma filter_true {A} (q : A -> bool) l : (forall x, q x = true) -> filter q l = l.
Proof. intros H. induction l as [|x l IH]; [reflexivity|]. cbn. rewrite H, IH. reflexivity. Qed.
Lemma counted_tag conjs v l j p : counted v (map (tag conjs v) l) j p = map (tag conjs v) (counts v l j p).
Proof.
  unfold counted, all_flagged, counts. rewrite forallb_map. cbn [tag fst]. destruct (forallb _ l).
  - apply filter_true. reflexivity.
  - cbn [orb]. apply (filter_map_tag conjs v (fun i => negb (c_flag v i j p))).
Qed.
Lemma oriented_facing conjs v i j p : oriented_vis v j p (tag conjs v i) = facing conjs v i j p.
Proof. unfold oriented_vis, facing, tag. cbn [fst snd]. rewrite isin_existsb. reflexivity. Qed.
Lemma sum_ns_tag conjs v l j p : sum_ns v (map (tag conjs v) l) j p = total_ns v (counts v l j p) j p.
Proof. unfold sum_ns, total_ns. rewrite counted_tag, map_map. reflexivity. Qed.
Lemma avg_tag conjs v l j p : let c := counts v l j p in
  avg_vis v (map (tag conjs v) l) j p = cdiv (csum (map (fun i => cscale (c_ns v i j p) (facing conjs v i j p)) c)) (total_ns v c j p).
Proof.
  cbv zeta. unfold avg_vis. rewrite sum_ns_tag, counted_tag, map_map.
  rewrite (map_ext _ (fun i => cscale (c_ns v i j p) (facing conjs v i j p))); [reflexivity|]. intros i. rewrite oriented_facing. reflexivity.
Qed.

Theorem average_all tol gps conjs v : 0 < tol -> sound gps v ->
  exists w rows, compress_average tol gps conjs v = Ok w /\
    StronglySorted lt rows /\ (forall r, In r rows <-> (r < length (c_bl v))%nat /\ exists g, In g gps /\ bl_at v r = hd 0 g) /\
    length (c_bl w) = length rows /\ length (c_time w) = length rows /\
    forall o g j p, (o < length rows)%nat -> In g gps -> hd 0 g = bl_at v (nth o rows 0%nat) ->
      no_chains tol g v -> only_row tol v (nth o rows 0%nat) -> averaged tol conjs g v w (nth o rows 0%nat) o j p.
Proof.
  intros Ht (Hl & ND & Ne & Hd). rewrite Forall_forall in Ne. unfold compress_average. cbv zeta. set (kp := kept gps v).
  destruct (loop_total tol conjs v kp gps) with (t := mkTemp (fun i j p : nat => (Q2Qc 0, Q2Qc 0)) (fun i j p : nat => false) (fun i j p : nat => Q2Qc 0)) as (t' & E).
  { intros g Hg. split; [apply Ne, Hg|]. intros b Hb. apply Hd, in_concat. exists g. split; assumption. }
  rewrite E. cbn [bind]. eexists _, kp. split; [reflexivity|]. cbn [c_bl c_time c_nf c_np].
  assert (HK : forall r, In r kp <-> (r < length (c_bl v))%nat /\ exists g, In g gps /\ bl_at v r = hd 0 g).
  { intros r. unfold kp, kept. rewrite (nonzero_spec 0), isinZ_spec. unfold heads. rewrite in_map_iff. fold (bl_at v r). split; intros [A (g & B & C)]; (split; [exact A|exists g; split; congruence]). }
  split; [apply nonzero_sorted|]. split; [exact HK|]. split; [apply take_length|]. split; [apply take_length|].
  intros o g j p Lo Hg Eb NC OR. set (r := nth o kp 0%nat) in *.
  assert (A : exists l, Permutation l (map (tag conjs v) (joined tol g v r)) /\ at_row t' o j p = value conjs v (take 0 (c_bl v) kp) l o j p).
  { pose proof Hg as Hg'. apply in_split in Hg'. destruct Hg' as (g1 & g2 & Eg). rewrite Eg in E. apply loop_app in E. destruct E as (t1 & E1 & E2). cbn [groups_loop] in E2. apply bind_Ok in E2.
    destruct E2 as (t2 & E2 & E3). assert (Hh : In (hd 0 g) g) by (apply hd_In, Ne, Hg).
    destruct (group_hit tol Ht conjs v kp g) with (o := o) (r := r) (t := t1) (t' := t2) (j := j) (p := p) as (l & P & Ev).
    - apply nonzero_NoDup.
    - intros i Hi. apply HK, Hi.
    - apply (NoDup_part gps); assumption.
    - exact Hh.
    - exact Lo.
    - reflexivity.
    - symmetry; exact Eb.
    - exact NC.
    - exact OR.
    - exact E2.
    - exists l. split; [exact P|]. rewrite <- Ev. apply (loop_miss tol conjs v (take 0 (c_bl v) kp) (take 0 (c_time v) kp) g2 o j p) with (t := t2); [|exact E3].
      intros g' Hg' K. rewrite nth_take in K by exact Lo. fold r in K. fold (bl_at v r) in K. rewrite <- Eb in K. rewrite Eg in ND.
      apply (concat_once g1 g g2 g' (hd 0 g) ND Hh); [apply in_app_iff; right; exact Hg'|]. rewrite K. apply hd_In, Ne. rewrite Eg. apply in_app_iff. right; right; exact Hg'. }
  destruct A as (l & P & Ev). unfold at_row, value in Ev.
  rewrite (avg_vis_perm v _ _ j p P), (sum_ns_perm v _ _ j p P), (forallb_perm _ _ _ P) in Ev. rewrite sum_ns_tag, avg_tag, forallb_map in Ev. cbv zeta in Ev. cbn [tag fst] in Ev.
  injection Ev as V1 V2 V3. unfold averaged. cbv zeta.
  set (c := counts v (joined tol g v r) j p) in *. split; [|split; [|split; [|split]]].
  - unfold bl_at. cbn [c_bl]. apply nth_take, Lo.
  - unfold time_at. cbn [c_time]. apply nth_take, Lo.
  - exact V2.
  - exact V3.
  - intros Hz.
    assert (F : facing conjs (mkC (take 0 (c_bl v) kp) (take 0 (c_time v) kp) (c_nf v) (c_np v) (t_data t') (t_flag t') (t_ns t')) o j p
              = cdiv (csum (map (fun i => cscale (c_ns v i j p) (facing conjs v i j p)) c)) (total_ns v c j p)).
    { unfold facing at 1. unfold bl_at at 1. cbn [c_bl c_data]. rewrite <- isin_existsb. rewrite V1. destruct (isinZ (nth o (take 0 (c_bl v) kp) 0) conjs); [|reflexivity].
      unfold cconj. cbn [fst snd]. destruct (cdiv _ _) as [a b]. cbn [fst snd]. f_equal. ring. }
    rewrite F. unfold cdiv, csum. destruct (Qc_eq_dec _ _) as [Z|_]; [contradiction|]. cbn [fst snd]. rewrite !map_map. cbn [cscale fst snd]. split; field; exact Hz.
Qed.

(** Perfectly redundant data *)
Lemma Qcmult_integral_weak_eq (w a b : Qc) : (a * w = w * b)%Qc -> w <> Q2Qc 0 -> a = b.
Proof. intros H N. transitivity (a * w / w)%Qc; [field; exact N|]. rewrite H. field. exact N. Qed.
Lemma qsum_const {A} (f h : A -> Qc) l c : (forall x, In x l -> h x = c) -> qsum (map (fun x => f x * h x)%Qc l) = (qsum (map f l) * c)%Qc.
Proof. induction l as [|x l IH]; intros H; [cbn; ring|]. cbn [map qsum fold_right]. unfold qsum in *. cbn [fold_right]. rewrite IH by (intros y Hy; apply H; right; exact Hy). rewrite (H x (or_introl eq_refl)). ring. Qed.
Theorem average_same tol conjs g v w r o j p c : averaged tol conjs g v w r o j p ->
  (forall i, In i (counts v (joined tol g v r) j p) -> facing conjs v i j p = c) ->
  total_ns v (counts v (joined tol g v r) j p) j p <> Q2Qc 0 -> facing conjs w o j p = c.
Proof.
  intros (_ & _ & _ & _ & H) Hc Hz. specialize (H Hz). destruct H as [H1 H2]. set (l := counts _ _ _ _) in *.
  rewrite (qsum_const (fun i => c_ns v i j p) (fun i => fst (facing conjs v i j p)) l (fst c)) in H1 by (intros i Hi; rewrite Hc; [reflexivity|exact Hi]).
  rewrite (qsum_const (fun i => c_ns v i j p) (fun i => snd (facing conjs v i j p)) l (snd c)) in H2 by (intros i Hi; rewrite Hc; [reflexivity|exact Hi]).
  fold (total_ns v l j p) in H1, H2. rewrite (surjective_pairing c), (surjective_pairing (facing conjs w o j p)). f_equal.
  - apply (Qcmult_integral_weak_eq (total_ns v l j p)); assumption.
  - apply (Qcmult_integral_weak_eq (total_ns v l j p)); assumption.
Qed.

Theorem select_all gps v : length (c_time v) = length (c_bl v) ->
  exists rows, StronglySorted lt rows /\ (forall r, In r rows <-> (r < length (c_bl v))%nat /\ exists g, In g gps /\ bl_at v r = hd 0 g) /\
    let w := compress_select gps v in
    length (c_bl w) = length rows /\ length (c_time w) = length rows /\
    forall o j p, (o < length rows)%nat -> let r := nth o rows 0%nat in
      bl_at w o = bl_at v r /\ time_at w o = time_at v r /\ c_data w o j p = c_data v r j p /\ c_flag w o j p = c_flag v r j p /\ c_ns w o j p = c_ns v r j p.
Proof.
  intros _. exists (kept gps v). split; [apply nonzero_sorted|]. split.
  { intros r. unfold kept. rewrite (nonzero_spec 0), isinZ_spec. unfold heads. rewrite in_map_iff. fold (bl_at v r). split; intros [A (g & B & C)]; (split; [exact A|exists g; split; congruence]). }
  cbv zeta. unfold compress_select. cbv zeta. cbn [c_bl c_time c_data c_flag c_ns]. split; [apply take_length|]. split; [apply take_length|]. intros o j p Lo.
  split; [apply nth_take, Lo|]. split; [apply nth_take, Lo|]. unfold take0. repeat split; reflexivity.
Qed.
