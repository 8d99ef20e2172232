(** Calibration solutions put together: the second part of UVCal.__add__. *)
From Coq Require Import List ZArith Bool Arith Lia Permutation Sorted String.
From Verif Require Import Lib.Py Lib.Np Lib.Cube Lib.Sorting Spec.UVDataSpec Spec.FreqSpec Spec.AddSpec Spec.CalSpec
  Model.UVData Model.Reorder Model.Freq Model.Pol Model.Add Model.UVCal
  Proofs.FreqProofs Proofs.FreqReorder Proofs.ReorderProofs Proofs.AddAxis Proofs.AddMove Proofs.AddJoin
  Proofs.CalArrange Proofs.CalMove Proofs.CalReorder Proofs.CalAlign.
Import ListNotations.
Notation length := List.length.
Open Scope list_scope.
Open Scope Z_scope.
Notation Ntimes := UVCal.Ntimes.
Notation join := UVCal.join.
Notation chan_labels := UVCal.chan_labels.

Lemma where_from_map {A B} (f : B -> bool) (h : A -> B) l : forall n, where_from n f (map h l) = where_from n (fun x => f (h x)) l.
Proof. induction l as [|x l IH]; intros n; simpl; [reflexivity|]. rewrite IH. reflexivity. Qed.
Lemma nonzero_map {A B} (f : B -> bool) (h : A -> B) l : nonzero f (map h l) = nonzero (fun x => f (h x)) l.
Proof. apply where_from_map. Qed.

Definition agree {A B} (a : option A) (b : option B) : Prop := a = None <-> b = None.

Lemma new_in_lt {L} (d : L) (eqb : L -> L -> bool) (Heq : forall x y, eqb x y = true <-> x = y) la lb k : In k (new_in eqb la lb) -> (k < length lb)%nat.
Proof. intros H. apply (new_spec d eqb Heq) in H. apply H. Qed.

Lemma memb_map_pair w l : memb pair_eqb (w, 0) (map (fun w => (w, 0)) l) = memb Z.eqb w l.
Proof.
  apply eq_iff_eq_true. rewrite (memb_In _ pair_eqb_spec), (memb_In _ Z.eqb_eq), in_map_iff. split.
  - intros (x & E & H). injection E as ->. exact H.
  - intros H. exists w. auto.
Qed.

Lemma grown_NoDup {L} (d : L) (eqb : L -> L -> bool) (Heq : forall x y, eqb x y = true <-> x = y) la lb : NoDup la -> NoDup lb ->
  NoDup (la ++ take d lb (new_in eqb la lb)).
Proof.
  intros Na Nb. apply NoDup_app_intro; [exact Na|apply (new_NoDup d eqb la lb Nb)|].
  intros x Hx Hc. apply (new_labels d eqb Heq) in Hc. tauto.
Qed.
Lemma grown_In {L} (d : L) (eqb : L -> L -> bool) (Heq : forall x y, eqb x y = true <-> x = y) la lb x :
  In x (la ++ take d lb (new_in eqb la lb)) <-> In x la \/ In x lb.
Proof.
  rewrite in_app_iff. pose proof (new_labels d eqb Heq la lb x) as N. unfold new in N. rewrite N.
  destruct (memb eqb x la) eqn:E.
  - apply (memb_In eqb Heq) in E. tauto.
  - apply (memb_notIn eqb Heq) in E. tauto.
Qed.

(** An optional list joined to another *)
Definition jo {A} (d : A) (a b : option (list A)) (added order : list nat) : option (list A) :=
  match a, b with Some a, Some b => Some (joined d a b added order) | _, _ => None end.
Lemma ojoined_eq {A} (d : A) a b added order n : agree a b -> (forall l, a = Some l -> length l = n) ->
  ojoined d a b added (order_if added (n + length added) order) = Ok (jo d a b added (order_if added (n + length added) order)).
Proof.
  intros [H1 H2] Hn. unfold ojoined, jo. destruct added as [|k added].
  - destruct a as [a|], b as [b|]; try reflexivity.
    + f_equal. f_equal. unfold joined, order_if. change (take d b []) with (@nil A). rewrite app_nil_r, Nat.add_0_r, <- (Hn a eq_refl).
      symmetry. apply take_seq.
    + specialize (H2 eq_refl). discriminate.
  - destruct a as [a|], b as [b|]; try reflexivity. specialize (H2 eq_refl). discriminate.
Qed.
Lemma jo_nth {A} (d : A) a b added order n i : agree a b -> (forall l, a = Some l -> length l = n) ->
  (i < length order)%nat -> (nth i order 0 < n + length added)%nat ->
  option_map (fun l => nth i l d) (jo d a b added order) =
  if (nth i order 0 <? n)%nat then option_map (fun l => nth (nth i order 0%nat) l d) a
  else option_map (fun l => nth (nth (nth i order 0 - n) added 0)%nat l d) b.
Proof.
  intros [H1 H2] Hn Hi Ho. unfold jo. destruct a as [a|], b as [b|]; cbn [option_map].
  - rewrite (nth_joined d a b added order i n (Hn a eq_refl) Hi). destruct (nth i order 0 <? n)%nat; [reflexivity|].
    apply Nat.ltb_lt in Ho. rewrite Ho. reflexivity.
  - specialize (H2 eq_refl). discriminate.
  - specialize (H1 eq_refl). discriminate.
  - destruct (nth i order 0 <? n)%nat; reflexivity.
Qed.
Lemma jo_length {A} (d : A) a b added order l : jo d a b added order = Some l -> length l = length order.
Proof. unfold jo. destruct a, b; try discriminate. intros E. injection E as <-. apply take_length. Qed.

Section JoinCal.
Variables (u v : ucal).
Hypothesis Hu : cal_ok u.
Hypothesis Hv : cal_ok v.
Hypothesis Hw : c_wide v = c_wide u.
Hypothesis Kfj : agree (c_flex_jones u) (c_flex_jones v).
Hypothesis Kta : agree (c_time_array u) (c_time_array v).
Hypothesis Ktr : agree (c_time_range u) (c_time_range v).
Hypothesis Kla : agree (c_lst_array u) (c_lst_array v).
Hypothesis Klr : agree (c_lst_range u) (c_lst_range v).
Hypothesis Kra : agree (c_ref_ant u) (c_ref_ant v).
Hypothesis Hranges : forall lu lv p q, c_time_range u = Some lu -> c_time_range v = Some lv -> In p lu -> In q lv -> fst p = fst q -> p = q.

Let anew := new_in Z.eqb (c_ants u) (c_ants v).
Let fnew := new_freqs u v.
Let tnew := new_in Z.eqb (time_keys u) (time_keys v).
Let jnew := new_in Z.eqb (c_jones u) (c_jones v).
Let la := c_ants u ++ take 0 (c_ants v) anew.
Let lf := chans u ++ take (0, 0) (chans v) fnew.
Let lt := time_keys u ++ take 0 (time_keys v) tnew.
Let lj := c_jones u ++ take 0 (c_jones v) jnew.
Definition to_a := nonzero (fun x => memb Z.eqb x (c_ants v)) la.
Definition to_f := nonzero (fun x => memb pair_eqb x (chans v)) lf.
Definition to_t := nonzero (fun x => memb Z.eqb x (time_keys v)) lt.
Definition to_j := nonzero (fun x => memb Z.eqb x (c_jones v)) lj.

Lemma new_freqs_eq : fnew = new_in pair_eqb (chans u) (chans v).
Proof.
  unfold fnew, new_freqs, chans. rewrite Hw. destruct (c_wide u) eqn:W.
  - unfold new_in. rewrite nonzero_map. apply nonzero_ext_in. intros w _. rewrite memb_map_pair. reflexivity.
  - apply (new_channels_eq (fo_uvd (freq_view u)) (fo_uvd (freq_view v))); apply view_ok; assumption.
Qed.

Definition cell4 (ta tf tt tj : list nat) (a f t j : nat) : cplx * bool * option Z :=
  match index_of Nat.eqb (nth a ta O) to_a, index_of Nat.eqb (nth f tf O) to_f, index_of Nat.eqb (nth t tt O) to_t, index_of Nat.eqb (nth j tj O) to_j with
  | Some a', Some f', Some t', Some j' => entry v a' f' t' j'
  | _, _, _, _ =>
      if (nth a ta O <? Nants u)%nat && (nth f tf O <? Nchans u)%nat && (nth t tt O <? Ntimes u)%nat && (nth j tj O <? Njones u)%nat
      then entry u (nth a ta O) (nth f tf O) (nth t tt O) (nth j tj O)
      else ((0, 0), true, None)
  end.
(** not in both objects *)
Definition apart (ta tf tt tj : list nat) (a f t j : nat) : Prop :=
  (nth a ta 0 < Nants u)%nat -> (nth f tf 0 < Nchans u)%nat -> (nth t tt 0 < Ntimes u)%nat -> (nth j tj 0 < Njones u)%nat ->
  In (nth a ta O) to_a -> In (nth f tf O) to_f -> In (nth t tt O) to_t -> In (nth j tj O) to_j -> False.
Definition total3 (tf tt tj : list nat) (f t j : nat) : Z :=
  match c_tqual v, index_of Nat.eqb (nth f tf O) to_f, index_of Nat.eqb (nth t tt O) to_t, index_of Nat.eqb (nth j tj O) to_j with
  | Some q, Some f', Some t', Some j' => q f' t' j'
  | _, _, _, _ =>
      match c_tqual u with
      | Some q => if (nth f tf O <? Nchans u)%nat && (nth t tt O <? Ntimes u)%nat && (nth j tj O <? Njones u)%nat
                  then q (nth f tf O) (nth t tt O) (nth j tj O) else 0
      | None => 0
      end
  end.

Record csum (ta tf tt tj : list nat) (r : ucal) : Prop := {
  cs_pa : Permutation ta (seq 0 (Nants u + length anew));
  cs_pf : Permutation tf (seq 0 (Nchans u + length fnew));
  cs_pt : Permutation tt (seq 0 (Ntimes u + length tnew));
  cs_pj : Permutation tj (seq 0 (Njones u + length jnew));
  cs_gain : c_gain r = c_gain u;
  cs_wide : c_wide r = c_wide u;
  cs_compat : c_compat r = c_compat u;
  cs_ants : c_ants r = take 0 la ta;
  cs_chans : chans r = take (0, 0) lf tf;
  cs_infos : infos r = take (0, 0) (infos u ++ take (0, 0) (infos v) fnew) tf;
  cs_keys : time_keys r = take 0 lt tt;
  cs_ta : c_time_array r = jo 0 (c_time_array u) (c_time_array v) tnew tt;
  cs_tr : c_time_range r = jo (0, 0) (c_time_range u) (c_time_range v) tnew tt;
  cs_la : c_lst_array r = jo 0 (c_lst_array u) (c_lst_array v) tnew tt;
  cs_lr : c_lst_range r = jo (0, 0) (c_lst_range u) (c_lst_range v) tnew tt;
  cs_ra : c_ref_ant r = jo 0 (c_ref_ant u) (c_ref_ant v) tnew tt;
  cs_it : c_int_time r = joined 0 (c_int_time u) (c_int_time v) tnew tt;
  cs_jones : c_jones r = take 0 lj tj;
  cs_entry : forall a f t j, apart ta tf tt tj a f t j -> entry r a f t j = graded u v (cell4 ta tf tt tj a f t j);
  cs_none : c_tqual r = None <-> anew <> [] \/ (c_tqual u = None /\ c_tqual v = None);
  cs_tq : forall q f t j, c_tqual r = Some q -> q f t j = total3 tf tt tj f t j;
  cs_same : fnew = [] -> c_spws r = c_spws u /\ c_flex_jones r = c_flex_jones u;
  cs_spws_wide : c_wide u = true -> c_spws r = take 0 (c_spws u ++ take 0 (c_spws v) fnew) tf /\
    (fnew <> [] -> tf = argsortZ (c_spws u ++ take 0 (c_spws v) fnew));
  cs_spws_chan : c_wide u = false -> fnew <> [] -> StronglySorted Z.le (c_spws r);
  cs_fj_none : c_flex_jones u = None -> c_flex_jones r = None;
  cs_fj : forall a b, c_flex_jones u = Some a -> c_flex_jones v = Some b -> fnew <> [] ->
    c_flex_jones r = Some (if c_wide u then a ++ take 0 b fnew else firstn (length (c_spws r)) (a ++ b));
  cs_ok : cal_ok r }.

Lemma len_keys : length lt = (Ntimes u + length tnew)%nat.
Proof. unfold lt. rewrite app_length, take_length. reflexivity. Qed.
Lemma len_ants : length la = (Nants u + length anew)%nat.
Proof. unfold la. rewrite app_length, take_length. reflexivity. Qed.
Lemma len_jones : length lj = (Njones u + length jnew)%nat.
Proof. unfold lj. rewrite app_length, take_length. reflexivity. Qed.
Lemma len_chans : length lf = (Nchans u + length fnew)%nat.
Proof. unfold lf. rewrite app_length, take_length, (chans_length u Hu). reflexivity. Qed.

Lemma range_length l : c_time_range u = Some l -> length l = Ntimes u.
Proof. apply range_len. Qed.

Lemma times_t2o_eq :
  match c_time_range u, c_time_range v with
  | Some r, Some s =>
      nonzero (fun p => isinZ (fst p) (map fst s) && isinZ (snd p) (map snd s)) (r ++ take (0, 0) s tnew)
  | _, _ => nonzero (fun t => isinZ t (time_keys v)) lt
  end = to_t.
Proof.
  unfold to_t. destruct (c_time_range u) as [r|] eqn:Er; [|reflexivity]. destruct (c_time_range v) as [s|] eqn:Es; [|reflexivity].
  assert (E : lt = map fst (r ++ take (0, 0) s tnew)).
  { unfold lt. rewrite map_app. f_equal; [unfold time_keys; rewrite Er; reflexivity|].
    rewrite <- (take_map fst (0, 0) 0); [unfold time_keys; rewrite Es; reflexivity|].
    intros k Hk. apply (new_in_lt 0 Z.eqb Z.eqb_eq) in Hk. unfold time_keys in Hk. rewrite Es, map_length in Hk. exact Hk. }
  rewrite E, nonzero_map. apply nonzero_ext_in. intros p Hp. unfold time_keys. rewrite Es. fold (isinZ (fst p) (map fst s)).
  destruct (isinZ (fst p) (map fst s)) eqn:Ei; [|reflexivity]. cbn [andb]. apply isinZ_spec in Ei. apply in_map_iff in Ei as (q & Eq & Hq).
  apply isinZ_spec. apply in_map_iff.
  assert (p = q) as ->; [|eauto]. apply in_app_or in Hp as [Hp|Hp].
  - eapply Hranges; eauto.
  - assert (Hp' : In p s).
    { unfold take in Hp. apply in_map_iff in Hp as (k & <- & Hk). apply nth_In.
      apply (new_in_lt 0 Z.eqb Z.eqb_eq) in Hk. unfold time_keys in Hk. rewrite Es, map_length in Hk. exact Hk. }
    apply cal_ok_lists in Hv as (_ & _ & _ & N & _). unfold time_keys in N. rewrite Es in N.
    destruct (In_nth _ _ (0, 0) Hp') as (i & Hi & Ei'), (In_nth _ _ (0, 0) Hq) as (k & Hk & Ek). subst p q.
    f_equal. apply (proj1 (NoDup_nth _ 0) N); [rewrite map_length; exact Hi|rewrite map_length; exact Hk|].
    rewrite !(nth_map fst s _ (0, 0) 0) by assumption. symmetry. exact Eq.
Qed.

Lemma freqs_t2o_wide : c_wide u = true -> nonzero (fun w => isinZ w (c_spws v)) (c_spws u ++ take 0 (c_spws v) fnew) = to_f.
Proof.
  intros W. unfold to_f, lf, chans. rewrite Hw, W. rewrite (take_map (fun w => (w, 0)) 0 (0, 0)).
  - rewrite <- map_app, nonzero_map. apply nonzero_ext_in. intros w _. rewrite memb_map_pair. reflexivity.
  - intros k Hk. unfold fnew, new_freqs in Hk. rewrite W in Hk. apply (new_in_lt 0 Z.eqb Z.eqb_eq) in Hk. exact Hk.
Qed.

Lemma nonzero_and {A} (f g : A -> bool) l : (forall x, In x l -> f x = true) -> nonzero (fun x => f x && g x) l = nonzero g l.
Proof. intros H. apply nonzero_ext_in. intros x Hx. rewrite (H x Hx). reflexivity. Qed.

Lemma order4_eq {A} (c : arr4 A) ta tf tt tj n1 n2 n3 n4 a f t j :
  Permutation ta (seq 0 n1) -> Permutation tf (seq 0 n2) -> Permutation tt (seq 0 n3) -> Permutation tj (seq 0 n4) ->
  on3 (data_order tj) (on2 (data_order tt) (on1 (data_order tf) (on0 (data_order ta) c))) a f t j =
  c (nth a ta O) (nth f tf O) (nth t tt O) (nth j tj O).
Proof.
  intros P1 P2 P3 P4. rewrite (data_order_perm _ _ P1), (data_order_perm _ _ P2), (data_order_perm _ _ P3), (data_order_perm _ _ P4). reflexivity.
Qed.

Lemma index_of_In x l q : index_of Nat.eqb x l = Some q -> In x l.
Proof. intros E. apply (index_of_Some Nat.eqb Nat.eqb_eq 0%nat) in E as (Hq & <- & _). apply nth_In, Hq. Qed.

Lemma Forall2_intro {A B} (R : A -> B -> Prop) da db l : forall m, length l = length m ->
  (forall i, (i < length l)%nat -> R (nth i l da) (nth i m db)) -> Forall2 R l m.
Proof.
  induction l as [|x l IH]; intros [|y m] E H; try discriminate; constructor.
  - apply (H 0%nat). simpl. lia.
  - apply IH; [simpl in E; lia|]. intros i Hi. apply (H (S i)). simpl. lia.
Qed.

Lemma first_windows (spws wv all : list Z) : NoDup spws -> (length spws <= length all)%nat ->
  mapM (fun w => match index_of Z.eqb w (spws ++ wv) with
                 | Some i => match nth_error all i with Some p => Ok p | None => Err IndexError end
                 | None => Err IndexError end) spws = Ok (firstn (length spws) all).
Proof.
  intros N L. apply mapM_Forall2_Ok. apply (Forall2_intro _ 0 0).
  - rewrite firstn_length. lia.
  - intros i Hi. assert (E : index_of Z.eqb (nth i spws 0) (spws ++ wv) = Some i).
    { destruct (index_of Z.eqb (nth i spws 0) (spws ++ wv)) as [k|] eqn:E.
      - apply (index_of_Some Z.eqb Z.eqb_eq 0) in E as (Hk & Ek & Hm). f_equal.
        destruct (Nat.lt_trichotomy i k) as [H|[H|H]]; [|congruence|].
        + exfalso. apply (Hm i H). apply app_nth1, Hi.
        + rewrite app_nth1 in Ek by lia. apply (proj1 (NoDup_nth spws 0) N); [lia|exact Hi|exact Ek].
      - exfalso. apply (index_of_None Z.eqb Z.eqb_eq) in E. apply E, in_or_app. left. apply nth_In, Hi. }
    rewrite E. rewrite (nth_error_nth' all 0) by lia. f_equal.
    rewrite <- (firstn_skipn (length spws) all) at 1. apply app_nth1. rewrite firstn_length. lia.
Qed.

Lemma join_spec :
  length to_a = Nants v -> length to_f = Nchans v -> length to_t = Ntimes v -> length to_j = Njones v ->
  match tqual_problem u v anew fnew tnew jnew with
  | Some e => join anew fnew tnew jnew u v = Err e
  | None => exists ta tf tt tj r, join anew fnew tnew jnew u v = Ok r /\ csum ta tf tt tj r
  end.
Proof.
  intros Qa Qf Qt Qj.
  pose proof (proj1 (cal_ok_lists u) Hu) as (((U1 & U2 & U3 & U4 & U5) & Uf & Un & Ul) & Na & Nf & Nt & Nj).
  pose proof (proj1 (cal_ok_lists v) Hv) as (((V1 & V2 & V3 & V4 & V5) & Vf & Vn & Vl) & Ma & Mf & Mt & Mj).
  unfold join. cbv zeta.
  change (c_ants u ++ take 0 (c_ants v) anew) with la.
  change (time_keys u ++ take 0 (time_keys v) tnew) with lt.
  change (c_jones u ++ take 0 (c_jones v) jnew) with lj.
  rewrite times_t2o_eq.
  change (nonzero (fun p => isinZ p (c_jones v)) lj) with to_j.
  change (nonzero (fun p => isinZ p (c_ants v)) la) with to_a.
  set (freqs := c_freqs u ++ take 0 (c_freqs v) fnew).
  set (widths := c_widths u ++ take 0 (c_widths v) fnew).
  set (flex := c_flex u ++ take 0 (c_flex v) fnew).
  set (wspws := c_spws u ++ take 0 (c_spws v) fnew).
  set (spws := if c_wide u then wspws else match fnew with [] => c_spws u | _ => isort Z.leb (take 0 flex (first_positions flex)) end).
  set (tf := order_if fnew (Nchans u + length fnew) (if c_wide u then argsortZ wspws else freq_order freqs flex spws)).
  set (ta := order_if anew (length la) (argsortZ la)).
  set (tt := order_if tnew (length lt) (argsortZ lt)).
  set (tj := order_if jnew (length lj) (argsortZ (map Z.abs lj))).
  assert (Cf : fnew = [] \/ exists n0 nf0, fnew = n0 :: nf0) by (clear; generalize fnew; intros [|n0 l]; eauto).
  (* the windows *)
  assert (Lfx : c_wide u = false -> length flex = (Nchans u + length fnew)%nat /\ length freqs = length flex /\ length widths = length flex).
  { intros W. unfold flex, freqs, widths, Nchans. rewrite !app_length, !take_length. rewrite W in Uf |- *. lia. }
  assert (Fb : forall k, In k fnew -> (k < Nchans v)%nat).
  { intros k Hk. rewrite new_freqs_eq in Hk. apply (new_in_lt (0, 0) pair_eqb pair_eqb_spec) in Hk. rewrite (chans_length v Hv) in Hk. exact Hk. }
  assert (Hsp : NoDup spws /\ (c_wide u = false -> forall x, In x flex <-> In x spws)).
  { unfold spws. destruct (c_wide u) eqn:W.
    - split; [|discriminate]. unfold wspws, fnew, new_freqs. rewrite W. apply (grown_NoDup 0 Z.eqb Z.eqb_eq); assumption.
    - destruct Cf as [En|(n0 & nf0 & En)]; rewrite En.
      + split; [exact Un|]. intros _ x. unfold flex. rewrite En. change (take 0 (c_flex v) []) with (@nil Z). rewrite app_nil_r. apply Uf.
      + pose proof (first_positions_spec flex) as Hap. split.
        * apply (Permutation_NoDup (isort_perm Z.leb _)). apply (appearance_NoDup flex), Hap.
        * intros _ x. rewrite isort_In. symmetry. apply Hap. }
  destruct Hsp as (NDsp & Isp).
  assert (Lws : c_wide u = true -> length wspws = (Nchans u + length fnew)%nat).
  { intros W. unfold wspws, Nchans. rewrite app_length, take_length, W. reflexivity. }
  assert (Pa : Permutation ta (seq 0 (Nants u + length anew))) by (rewrite <- len_ants; apply order_if_perm, argsortZ_perm).
  assert (Pt : Permutation tt (seq 0 (Ntimes u + length tnew))) by (rewrite <- len_keys; apply order_if_perm, argsortZ_perm).
  assert (Pj : Permutation tj (seq 0 (Njones u + length jnew))).
  { rewrite <- len_jones. apply order_if_perm. rewrite <- (map_length Z.abs lj). apply argsortZ_perm. }
  assert (Pf : Permutation tf (seq 0 (Nchans u + length fnew))).
  { apply order_if_perm. destruct (c_wide u) eqn:W.
    - rewrite <- (Lws eq_refl). apply argsortZ_perm.
    - rewrite <- (proj1 (Lfx eq_refl)). apply freq_order_perm; [exact NDsp|]. intros x. apply (Isp eq_refl). }
  destruct (perm_seq_facts _ _ Pa) as (Lta & _ & Bta & Ita).
  destruct (perm_seq_facts _ _ Pf) as (Ltf & _ & Btf & Itf).
  destruct (perm_seq_facts _ _ Pt) as (Ltt & _ & Btt & Itt).
  destruct (perm_seq_facts _ _ Pj) as (Ltj & _ & Btj & Itj).
  (* the Jones terms of the windows *)
  assert (Hfj : exists fj, match fnew, c_flex_jones u, c_flex_jones v with
           | [], fj, _ => Ok fj
           | _, None, _ => Ok None
           | _, Some _, None => Err TypeError
           | _, Some a, Some b =>
               if c_wide u then Ok (Some (a ++ take 0 b fnew))
               else
                 do l <- mapM (fun w => match index_of Z.eqb w (spws ++ c_spws v) with
                                        | Some i => match nth_error (a ++ b) i with Some p => Ok p | None => Err IndexError end
                                        | None => Err IndexError end) spws;
                 Ok (Some l)
           end = Ok fj /\ (fnew = [] -> fj = c_flex_jones u) /\ (c_flex_jones u = None -> fj = None) /\
     (forall a b, c_flex_jones u = Some a -> c_flex_jones v = Some b -> fnew <> [] ->
        fj = Some (if c_wide u then a ++ take 0 b fnew else firstn (length spws) (a ++ b))) /\
     (forall l, fj = Some l -> length l = length (if c_wide u then take 0 wspws tf else spws))).
  { assert (Lsp : c_wide u = false -> forall a b, c_flex_jones u = Some a -> c_flex_jones v = Some b -> (length spws <= length (a ++ b))%nat).
    { intros W a b Ea Eb. rewrite app_length, (Ul a Ea), (Vl b Eb), <- app_length. apply NoDup_incl_length; [exact NDsp|].
      intros x Hx. apply (Isp W) in Hx. unfold flex in Hx. apply in_or_app. apply in_app_or in Hx as [Hx|Hx]; [left|right].
      - rewrite W in Uf. apply Uf, Hx.
      - rewrite Hw, W in Vf. apply Vf. unfold take in Hx. apply in_map_iff in Hx as (k & <- & Hk). apply nth_In. apply Fb in Hk.
        unfold Nchans in Hk. rewrite Hw, W in Hk. lia. }
    destruct Cf as [En|(n0 & nf0 & En)]; rewrite En in Ltf |- *.
    - exists (c_flex_jones u). split; [reflexivity|]. split; [reflexivity|]. split; [auto|]. split; [congruence|].
      intros l El. rewrite (Ul l El). unfold spws. destruct (c_wide u) eqn:W; [|rewrite En; reflexivity]. rewrite take_length, Ltf. unfold Nchans. rewrite W. simpl. lia.
    - destruct (c_flex_jones u) as [a|] eqn:Ea; [|exists None; do 3 (split; [congruence|]); split; [congruence|discriminate]].
      destruct (c_flex_jones v) as [b|] eqn:Eb; [|destruct Kfj as [_ K]; specialize (K eq_refl); discriminate].
      destruct (c_wide u) eqn:W.
      + eexists. split; [reflexivity|]. split; [discriminate|]. split; [discriminate|]. split.
        * intros a' b' Ea' Eb' _. injection Ea' as <-. injection Eb' as <-. reflexivity.
        * intros l E. injection E as <-. rewrite app_length, !take_length, Ltf, (Ul a eq_refl). unfold Nchans. rewrite W. cbn [List.length]. rewrite take_length. reflexivity.
      + rewrite first_windows; [|exact NDsp|apply Lsp; reflexivity]. cbn [bind]. eexists. split; [reflexivity|]. split; [discriminate|].
        split; [discriminate|]. split.
        * intros a' b' Ea' Eb' _. injection Ea' as <-. injection Eb' as <-. reflexivity.
        * intros l E. injection E as <-. rewrite firstn_length. specialize (Lsp eq_refl a b eq_refl eq_refl). lia. }
  destruct Hfj as (fj & -> & Fj1 & Fj2 & Fj3 & Fj4). cbn [bind].
  assert (Et : tt = order_if tnew (Ntimes u + length tnew) (argsortZ lt)) by (unfold tt; rewrite len_keys; reflexivity).
  rewrite Et.
  rewrite (ojoined_eq 0 _ _ _ _ _ Kta U2), (ojoined_eq (0, 0) _ _ _ _ _ Ktr range_length), (ojoined_eq 0 _ _ _ _ _ Kla U3),
    (ojoined_eq (0, 0) _ _ _ _ _ Klr U4), (ojoined_eq 0 _ _ _ _ _ Kra U5). cbn [bind].
  rewrite <- Et.
  assert (Eto : (if c_wide u then nonzero (fun w => isinZ w (c_spws v)) wspws
    else nonzero (fun x => isinZ (fst x) spws && isinZ (fst x) (c_spws v) && memb pair_eqb x (chan_labels v)) (combine flex freqs)) = to_f).
  { pose proof freqs_t2o_wide as Fw. destruct (c_wide u) eqn:W; [apply Fw; reflexivity|].
    unfold to_f, lf, chans. rewrite Hw, W. rewrite Hw in Vf.
    unfold flex, freqs. rewrite combine_app, combine_take by lia. apply nonzero_ext_in. intros (w & f) Hx. cbn [fst].
    change (chan_labels v) with (combine (c_flex v) (c_freqs v)).
    destruct (memb pair_eqb (w, f) (combine (c_flex v) (c_freqs v))) eqn:E; [|rewrite andb_false_r; reflexivity].
    rewrite andb_true_r. apply andb_true_iff. split; apply isinZ_spec.
    - apply (Isp eq_refl). rewrite <- combine_take, <- combine_app in Hx by lia. eapply in_combine_l, Hx.
    - apply (memb_In _ pair_eqb_spec) in E. apply Vf. eapply in_combine_l, E. }
  rewrite Eto, Qa, Qf, Qt, Qj, !Nat.eqb_refl. cbn [andb negb].
  destruct (tqual_problem u v anew fnew tnew jnew); [reflexivity|].
  exists ta, tf, tt, tj. eexists. split; [reflexivity|].
  assert (Ekeys : match jo (0, 0) (c_time_range u) (c_time_range v) tnew tt with
                  | Some r => map fst r
                  | None => match jo 0 (c_time_array u) (c_time_array v) tnew tt with Some t => t | None => [] end end = take 0 lt tt).
  { unfold jo. destruct (c_time_range u) as [lu|] eqn:Eu, (c_time_range v) as [lv|] eqn:Ev; try (exfalso; destruct Ktr as [K1 K2]; discriminate (K1 eq_refl) || discriminate (K2 eq_refl)).
    - unfold joined, lt, time_keys. rewrite Eu, Ev.
      assert (Hk : forall k, In k tnew -> (k < length lv)%nat).
      { intros k Hk. apply (new_in_lt 0 Z.eqb Z.eqb_eq) in Hk. unfold time_keys in Hk. rewrite Ev, map_length in Hk. exact Hk. }
      rewrite (take_map fst (0, 0) 0 lv) by exact Hk. rewrite <- map_app. symmetry. apply take_map. intros k Hk'. apply Itt in Hk'.
      rewrite app_length, take_length. rewrite (range_length lu Eu). exact Hk'.
    - unfold lt, time_keys. rewrite Eu, Ev.
      destruct (c_time_array u) as [lu|] eqn:Eu', (c_time_array v) as [lv|] eqn:Ev'; try (exfalso; destruct Kta as [K1 K2]; discriminate (K1 eq_refl) || discriminate (K2 eq_refl)).
      + reflexivity.
      + assert (Z0 : tt = []).
        { assert (Z1 : Ntimes u = 0%nat) by (unfold Ntimes, time_keys; rewrite Eu, Eu'; reflexivity).
          assert (Z2 : tnew = []) by (unfold tnew, time_keys; rewrite Ev, Ev'; reflexivity).
          rewrite Z1, Z2 in Ltt. destruct tt; [reflexivity|discriminate]. }
        rewrite Z0. reflexivity. }
  assert (Echans : (if c_wide u then map (fun w => (w, 0)) (take 0 wspws tf) else combine (take 0 flex tf) (take 0 freqs tf)) = take (0, 0) lf tf).
  { unfold lf, chans. rewrite Hw. destruct (c_wide u) eqn:W.
    - rewrite (take_map (fun w => (w, 0)) 0 (0, 0) (c_spws v)).
      + rewrite <- map_app. symmetry. apply take_map. intros k Hk. apply Itf in Hk. fold wspws. rewrite (Lws eq_refl). exact Hk.
      + intros k Hk. apply Fb in Hk. unfold Nchans in Hk. rewrite Hw in Hk. exact Hk.
    - destruct (Lfx eq_refl) as (L1 & L2 & _). rewrite combine_take by lia. f_equal. unfold flex, freqs.
      rewrite Hw in Vf. rewrite combine_app, combine_take by lia. reflexivity. }
  assert (Einfos : (if c_wide u then joined (0, 0) (c_freq_range u) (c_freq_range v) fnew tf else map (fun w => (w, 0)) (take 0 widths tf)) =
                   take (0, 0) (infos u ++ take (0, 0) (infos v) fnew) tf).
  { unfold infos. rewrite Hw. destruct (c_wide u) eqn:W; [reflexivity|].
    rewrite (take_map (fun w => (w, 0)) 0 (0, 0) (c_widths v)).
    - rewrite <- map_app. symmetry. apply take_map. intros k Hk. apply Itf in Hk. fold widths. destruct (Lfx eq_refl) as (L1 & L2 & L3). lia.
    - intros k Hk. apply Fb in Hk. unfold Nchans in Hk. rewrite Hw in Hk, Vf. lia. }
  assert (NDs : NoDup (if c_wide u then take 0 wspws tf else spws)).
  { destruct (c_wide u) eqn:W; [|exact NDsp]. apply take_NoDup; [exact NDsp|]. rewrite (Lws eq_refl). exact Pf. }
  constructor; try assumption; try reflexivity;
    cbn [c_gain c_wide c_compat c_ants c_spws c_freq_range c_freqs c_widths c_flex c_flex_jones c_time_array c_time_range
    c_lst_array c_lst_range c_ref_ant c_int_time c_jones c_sol c_flags c_qual c_tqual chans infos time_keys].
  - rewrite <- Echans. unfold chans. cbn [c_wide c_spws c_flex c_freqs]. destruct (c_wide u); reflexivity.
  - rewrite <- Einfos. unfold infos. cbn [c_wide c_freq_range c_widths]. destruct (c_wide u); reflexivity.
  - intros a f t j Hap. unfold entry. cbn [c_sol c_flags c_qual].
    rewrite !(order4_eq _ _ _ _ _ _ _ _ _ _ _ _ _ Pa Pf Pt Pj). unfold cell4, apart in *.
    assert (Hap' : (nth a ta 0 <? Nants u)%nat && (nth f tf 0 <? Nchans u)%nat && (nth t tt 0 <? Ntimes u)%nat && (nth j tj 0 <? Njones u)%nat = true ->
      In (nth a ta O) to_a -> In (nth f tf O) to_f -> In (nth t tt O) to_t -> In (nth j tj O) to_j -> False).
    { intros Ec. rewrite !andb_true_iff, !Nat.ltb_lt in Ec. destruct Ec as (((C1 & C2) & C3) & C4). apply Hap; assumption. }
    unfold graded, entry. destruct (c_qual u) as [qu|] eqn:Equ, (c_qual v) as [qv|] eqn:Eqv; cbn [option_map];
      rewrite ?(order4_eq _ _ _ _ _ _ _ _ _ _ _ _ _ Pa Pf Pt Pj); unfold place4, pad4;
      destruct ((nth a ta 0 <? Nants u)%nat && (nth f tf 0 <? Nchans u)%nat && (nth t tt 0 <? Ntimes u)%nat && (nth j tj 0 <? Njones u)%nat);
      destruct (index_of Nat.eqb (nth a ta 0%nat) to_a) as [a'|] eqn:Ea; try reflexivity;
      destruct (index_of Nat.eqb (nth f tf 0%nat) to_f) as [f'|] eqn:Ef; try reflexivity;
      destruct (index_of Nat.eqb (nth t tt 0%nat) to_t) as [t'|] eqn:Et'; try reflexivity;
      destruct (index_of Nat.eqb (nth j tj 0%nat) to_j) as [j'|] eqn:Ej; try reflexivity;
      exfalso; apply Hap'; try reflexivity; eapply index_of_In; eassumption.
  - unfold empty. assert (Ca : anew = [] \/ exists n0 l, anew = n0 :: l) by (clear; generalize anew; intros [|n0 l]; eauto).
    destruct Ca as [En|(n0 & l & En)]; rewrite En; cbn [negb].
    + destruct (c_tqual u), (c_tqual v); split; try discriminate; try (intros [H|[H1 H2]]; [congruence|discriminate]); auto.
    + split; [intros _; left; discriminate|reflexivity].
  - intros q f t j E. unfold empty in E.
    assert (Ca : anew = [] \/ exists n0 l, anew = n0 :: l) by (clear; generalize anew; intros [|n0 l]; eauto).
    destruct Ca as [En|(n0 & l & En)]; rewrite En in E; cbn [negb] in E; [|discriminate].
    unfold total3. destruct (c_tqual u) as [qu|], (c_tqual v) as [qv|]; try discriminate; injection E as <-;
      unfold take2, take1, take0; rewrite (data_order_perm _ _ Pf), (data_order_perm _ _ Pt), (data_order_perm _ _ Pj); unfold place, Add.pad; try reflexivity.
  - intros En. split; [|apply Fj1, En]. unfold spws. rewrite En. destruct (c_wide u) eqn:W; [|reflexivity].
    unfold tf. rewrite En. cbn [order_if List.length]. unfold wspws. rewrite En. change (take 0 (c_spws v) []) with (@nil Z).
    rewrite app_nil_r, Nat.add_0_r. unfold Nchans. rewrite W. apply take_seq.
  - intros W. rewrite W. split; [reflexivity|]. intros Hne. unfold tf, order_if. rewrite W. destruct Cf as [En|(n0 & nf0 & En)]; [contradiction|]. unfold wspws. rewrite En. reflexivity.
  - intros W Hne. rewrite W. unfold spws. rewrite W. destruct Cf as [En|(n0 & nf0 & En)]; [contradiction|]. rewrite En.
    eapply StronglySorted_impl; [|apply isort_sorted].
    + intros x y _ _ H. apply Z.leb_le. exact H.
    + intros x y. destruct (Z.leb_spec x y); [left; reflexivity|right; apply Z.leb_le; lia].
    + intros x y z H1 H2. apply Z.leb_le in H1, H2. apply Z.leb_le. lia.
  - intros a b Ea Eb Hne. rewrite (Fj3 a b Ea Eb Hne). destruct (c_wide u); reflexivity.
  - apply cal_ok_lists. unfold cal_shaped, Ntimes, time_keys, chans.
    cbn [c_gain c_wide c_compat c_ants c_spws c_freq_range c_freqs c_widths c_flex c_flex_jones c_time_array c_time_range
      c_lst_array c_lst_range c_ref_ant c_int_time c_jones c_sol c_flags c_qual c_tqual].
    rewrite Ekeys. rewrite take_length.
    split; [split; [|split; [|split; [exact NDs|exact Fj4]]]|split; [|split; [|split]]].
    + split; [apply take_length|]. split; [apply jo_length|]. split; [apply jo_length|]. split; [apply jo_length|]. apply jo_length.
    + destruct (c_wide u) eqn:W; [unfold joined; rewrite !take_length; reflexivity|]. rewrite !take_length. split; [reflexivity|]. split; [reflexivity|].
      intros w. rewrite <- (Isp eq_refl). destruct (Lfx eq_refl) as (L1 & _).
      assert (Pm : Permutation (take 0 flex tf) flex) by (apply take_perm; rewrite L1; exact Pf).
      split; apply Permutation_in; [|symmetry]; exact Pm.
    + apply take_NoDup; [apply (grown_NoDup 0 Z.eqb Z.eqb_eq); assumption|]. rewrite len_ants. exact Pa.
    + assert (E : NoDup (take (0, 0) lf tf)).
      { apply take_NoDup; [|rewrite len_chans; exact Pf]. unfold lf. rewrite new_freqs_eq. apply (grown_NoDup (0, 0) pair_eqb pair_eqb_spec); assumption. }
      rewrite <- Echans in E. destruct (c_wide u); exact E.
    + apply take_NoDup; [apply (grown_NoDup 0 Z.eqb Z.eqb_eq); assumption|]. rewrite len_keys. exact Pt.
    + apply take_NoDup; [apply (grown_NoDup 0 Z.eqb Z.eqb_eq); assumption|]. rewrite len_jones. exact Pj.
Qed.
End JoinCal.
