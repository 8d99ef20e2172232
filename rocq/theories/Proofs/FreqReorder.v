(** Lemmas about reorder_freqs. *)
From Coq Require Import List ZArith Bool Arith Lia Sorted Permutation ZifyBool ZifyNat.
From Verif Require Import Lib.Py Lib.Np Lib.Sorting Lib.Cube Spec.UVDataSpec Spec.FreqSpec
  Model.UVData Model.Reorder Model.Freq Proofs.FreqProofs.
Import ListNotations.
Open Scope Z_scope.

(** ** Order of the windows *)
Lemma take_window_freqs w flex freqs : length freqs = length flex ->
  take 0 freqs (nonzero (Z.eqb w) flex) = window_freqs w flex freqs.
Proof.
  intros L. unfold nonzero.
  assert (H : forall n, map (fun i => nth (i - n) freqs 0) (where_from n (Z.eqb w) flex) = window_freqs w flex freqs).
  { revert freqs L. induction flex as [|v flex IH]; intros freqs L n; [reflexivity|].
    destruct freqs as [|f freqs]; [discriminate|]. cbn [where_from window_freqs].
    assert (E : map (fun i => nth (i - n) (f :: freqs) 0) (where_from (S n) (Z.eqb w) flex) = window_freqs w flex freqs).
    { rewrite <- (IH freqs ltac:(simpl in L; lia) (S n)). apply map_ext_in. intros i Hi. apply where_from_ge in Hi.
      replace (i - n)%nat with (S (i - S n)) by lia. reflexivity. }
    destruct (w =? v); [|exact E]. cbn [map]. rewrite Nat.sub_diag. cbn [nth]. f_equal. exact E. }
  rewrite <- (H 0%nat). unfold take. apply map_ext. intros i. rewrite Nat.sub_0_r. reflexivity.
Qed.

Lemma sorted_le_unique a : forall b, Permutation a b -> StronglySorted Z.le a -> StronglySorted Z.le b -> a = b.
Proof.
  induction a as [|x a IH]; intros b HP HA HB.
  - apply Permutation_nil in HP. congruence.
  - destruct b as [|y b]; [symmetry in HP; apply Permutation_nil in HP; discriminate|].
    inversion HA as [|? ? HA1 HA2]; subst. inversion HB as [|? ? HB1 HB2]; subst. rewrite Forall_forall in *.
    assert (x = y) as <-.
    { assert (H1 : In x (y :: b)) by (apply (Permutation_in _ HP); left; reflexivity).
      assert (H2 : In y (x :: a)) by (apply (Permutation_in _ (Permutation_sym HP)); left; reflexivity).
      destruct H1 as [->|H1]; [reflexivity|]. destruct H2 as [->|H2]; [reflexivity|].
      apply HB2 in H1. apply HA2 in H2. lia. }
    f_equal. apply IH; [|assumption|assumption]. apply Permutation_cons_inv in HP. exact HP.
Qed.

Lemma median2_twice l m : twice_median l m -> m = median2 l.
Proof.
  intros (s & HP & HS & ->). unfold median2.
  assert (s = isort Z.leb l) as ->; [|reflexivity].
  apply sorted_le_unique; [rewrite HP; apply isort_perm|exact HS|].
  eapply StronglySorted_impl; [|apply isort_sorted]; unfold le; intros; lia.
Qed.

Lemma median2_is l : twice_median l (median2 l).
Proof.
  exists (isort Z.leb l). split; [symmetry; apply isort_perm|]. split; [|reflexivity].
  eapply StronglySorted_impl; [|apply isort_sorted]; unfold le; intros; lia.
Qed.

Lemma take_map {A B} (f : A -> B) d d' l idx : (forall k, In k idx -> (k < length l)%nat) ->
  take d' (map f l) idx = map f (take d l idx).
Proof.
  intros H. unfold take. rewrite map_map. apply map_ext_in. intros k Hk. apply nth_map, H, Hk.
Qed.

Lemma sorted_by_key (key : Z -> Z) spws :
  StronglySorted (fun a b => key a <= key b) (take 0 spws (argsortZ (map key spws))).
Proof.
  apply StronglySorted_map. rewrite <- (take_map key 0 0).
  - apply argsortZ_sorted.
  - intros k Hk. apply (Permutation_in _ (argsortZ_perm _)) in Hk. rewrite map_length in Hk. apply in_seq in Hk. lia.
Qed.

Lemma sorted_strict l : NoDup l -> StronglySorted Z.le l -> StronglySorted Z.lt l.
Proof.
  intros N S. induction S as [|a l S IH Hf]; constructor.
  - apply IH. inversion N; assumption.
  - inversion N as [|? ? Na _]; subst. rewrite Forall_forall in *. intros x Hx. specialize (Hf x Hx).
    assert (a <> x) by (intros ->; contradiction). lia.
Qed.

Lemma take_rev {A} (d : A) l idx : take d l (rev idx) = rev (take d l idx).
Proof. unfold take. apply map_rev. Qed.

Lemma spw_positions_spec req u pos : freq_axis_ok u ->
  spw_positions req (freq_array u) (spw_array u) (flex_spw_id_array u) = Ok pos ->
  Permutation (take 0 (spw_array u) pos) (spw_array u) /\
  windows_as_requested req u (take 0 (spw_array u) pos).
Proof.
  intros ((Lw & Lx) & N & Hm) H.
  assert (P1 : forall keys, length keys = length (spw_array u) -> Permutation (take 0 (spw_array u) (argsortZ keys)) (spw_array u)).
  { intros keys E. apply take_perm. rewrite <- E. apply argsortZ_perm. }
  assert (Small : (1 <? length (spw_array u))%nat = false -> forall R : Z -> Z -> Prop, StronglySorted R (spw_array u)).
  { intros E R. destruct (spw_array u) as [|a [|b t]]; [constructor|repeat constructor|simpl in E; discriminate]. }
  destruct req as [idx|desc|desc|]; cbn [spw_positions windows_as_requested] in *.
  - destruct (is_index_array _ _) eqn:E; [|discriminate]. injection H as <-.
    apply is_index_array_spec in E as [E _]. split; [apply take_perm, E|]. unfold take. apply map_map.
  - destruct (1 <? _)%nat eqn:E.
    + injection H as <-.
      assert (HS : StronglySorted Z.lt (take 0 (spw_array u) (argsortZ (spw_array u)))).
      { apply sorted_strict; [|apply argsortZ_sorted]. apply (Permutation_NoDup (Permutation_sym (P1 _ eq_refl))), N. }
      destruct desc.
      * rewrite take_rev. split; [rewrite <- Permutation_rev; apply P1; reflexivity|]. apply StronglySorted_rev. exact HS.
      * split; [apply P1; reflexivity|exact HS].
    + injection H as <-. rewrite take_seq. split; [reflexivity|]. destruct desc; apply Small, eq_refl.
  - destruct (1 <? _)%nat eqn:E.
    + injection H as <-. set (key := fun w => median2 (take 0 (freq_array u) (nonzero (Z.eqb w) (flex_spw_id_array u)))).
      assert (HP : Permutation (take 0 (spw_array u) (argsortZ (map key (spw_array u)))) (spw_array u))
        by (apply P1, map_length).
      assert (K : forall w m, twice_median (window_freqs w (flex_spw_id_array u) (freq_array u)) m -> m = key w).
      { intros w m Hm'. unfold key. rewrite take_window_freqs by lia. apply median2_twice, Hm'. }
      destruct desc.
      * rewrite take_rev. split; [rewrite <- Permutation_rev; exact HP|]. apply StronglySorted_rev.
        eapply StronglySorted_impl; [|apply (sorted_by_key key)]. cbv beta. intros a b _ _ Hab m m' H1 H2.
        apply K in H1, H2. lia.
      * split; [exact HP|].
        eapply StronglySorted_impl; [|apply (sorted_by_key key)]. cbv beta. intros a b _ _ Hab m m' H1 H2.
        apply K in H1, H2. lia.
    + injection H as <-. rewrite take_seq. split; [reflexivity|]. apply Small, eq_refl.
  - discriminate.
Qed.

(** ** Grouping *)
Lemma filter_eqb_repeat w l : filter (Z.eqb w) l = repeat w (count_occ Z.eq_dec l w).
Proof.
  induction l as [|a l IH]; [reflexivity|]. cbn [filter count_occ].
  destruct (Z.eq_dec a w) as [->|Hne]; [rewrite Z.eqb_refl; simpl; f_equal; exact IH|].
  destruct (w =? a) eqn:E; [lia|exact IH].
Qed.

Lemma take_concat {A} (d : A) l ll : take d l (concat ll) = concat (map (take d l) ll).
Proof. unfold take. induction ll as [|a ll IH]; [reflexivity|]. simpl. rewrite map_app, IH. reflexivity. Qed.

Lemma group_spec worder flex idx : group_spws worder flex = Ok idx ->
  NoDup worder -> (forall w, In w flex -> In w worder) ->
  Permutation idx (seq 0 (length flex)) /\ grouped flex (take 0 flex idx) worder /\
  (forall i j, (i < j < length flex)%nat -> nth i (take 0 flex idx) 0 = nth j (take 0 flex idx) 0 ->
     (nth i idx 0 < nth j idx 0)%nat).
Proof.
  intros H N Hm. unfold group_spws in H.
  assert (idx = concat (map (fun w => nonzero (Z.eqb w) flex) worder)) as ->.
  { destruct worder; [discriminate|]. injection H as <-. reflexivity. }
  clear H.
  assert (HP : Permutation (concat (map (fun w => nonzero (Z.eqb w) flex) worder)) (seq 0 (length flex))).
  { apply NoDup_Permutation; [|apply seq_NoDup|].
    - clear Hm. induction worder as [|w ws IH]; [constructor|]. inversion N as [|? ? Nw N']; subst. cbn [map concat].
      assert (HD : forall l1 l2 : list nat, NoDup l1 -> NoDup l2 -> (forall x, In x l1 -> ~ In x l2) -> NoDup (l1 ++ l2)).
      { clear. induction l1 as [|a l1 IH]; intros l2 H1 H2 HX; [exact H2|]. inversion H1; subst. simpl. constructor.
        - rewrite in_app_iff. intros [|]; [contradiction|]. apply (HX a); [left; reflexivity|assumption].
        - apply IH; try assumption. intros x Hx. apply HX. right. exact Hx. }
      apply HD; [apply nonzero_NoDup|apply IH, N'|]. intros i Hi Hc. apply (nonzero_spec 0) in Hi as [_ Hi].
      apply in_concat in Hc as (l & Hl & Hc). apply in_map_iff in Hl as (v & <- & Hv).
      apply (nonzero_spec 0) in Hc as [_ Hc]. assert (w = v) by lia. subst. contradiction.
    - intros i. rewrite in_concat, in_seq. split.
      + intros (l & Hl & Hi). apply in_map_iff in Hl as (v & <- & Hv). apply (nonzero_spec 0) in Hi. lia.
      + intros Hi. exists (nonzero (Z.eqb (nth i flex 0)) flex). split.
        * apply in_map_iff. exists (nth i flex 0). split; [reflexivity|]. apply Hm, nth_In. lia.
        * apply (nonzero_spec 0). split; [lia|]. apply Z.eqb_refl. }
  split; [exact HP|]. split.
  - unfold grouped. rewrite take_concat, map_map. f_equal. apply map_ext. intros w.
    rewrite take_nonzero_filter. apply filter_eqb_repeat.
  - intros i j Hij E. destruct (perm_seq_facts _ _ HP) as (L & _ & _ & _).
    rewrite !nth_take in E by lia.
    (* both positions lie in the block of one window *)
    assert (G : forall ws, NoDup ws -> forall i j, let l := concat (map (fun w => nonzero (Z.eqb w) flex) ws) in
      (i < j < length l)%nat -> nth (nth i l 0%nat) flex 0 = nth (nth j l 0%nat) flex 0 -> (nth i l 0 < nth j l 0)%nat).
    { clear. induction ws as [|w ws IH]; intros N i j l Hij E; [subst l; simpl in Hij; lia|].
      inversion N as [|? ? Nw N']; subst. subst l. cbn [map concat] in *.
      set (b := nonzero (Z.eqb w) flex) in *. set (r := concat _) in *. rewrite app_length in Hij.
      assert (Hb : forall k, (k < length b)%nat -> nth (nth k b 0%nat) flex 0 = w).
      { intros k Hk. assert (Hin : In (nth k b 0%nat) b) by (apply nth_In, Hk). apply (nonzero_spec 0) in Hin. lia. }
      assert (Hr : forall k, (k < length r)%nat -> nth (nth k r 0%nat) flex 0 <> w).
      { intros k Hk E'. assert (Hin : In (nth k r 0%nat) r) by (apply nth_In, Hk). apply in_concat in Hin as (l & Hl & Hin).
        apply in_map_iff in Hl as (v & <- & Hv). apply (nonzero_spec 0) in Hin.
        assert (v = w) by lia. subst. contradiction. }
      destruct (Nat.lt_ge_cases i (length b)) as [Hi|Hi], (Nat.lt_ge_cases j (length b)) as [Hj|Hj].
      - rewrite !app_nth1 by assumption. apply (proj1 (StronglySorted_nth lt 0%nat b) (nonzero_sorted _ _)); lia.
      - exfalso. rewrite app_nth1 in E by assumption. rewrite (app_nth2 b r) in E by assumption.
        rewrite Hb in E by assumption. symmetry in E. apply Hr in E; [exact E|lia].
      - lia.
      - rewrite !app_nth2 in * by assumption. apply IH; [exact N'|fold r; lia|exact E]. }
    apply (G worder N); lia || exact E.
Qed.

(** ** The whole sort *)
Definition freq_dir (desc : bool) (u : uvd) (x y : nat) : Prop :=
  if desc then nth y (freq_array u) 0 <= nth x (freq_array u) 0 else nth x (freq_array u) 0 <= nth y (freq_array u) 0.
Record sort_result (u : uvd) (so : option spw_request) (co : option chan_request) (ss : option (list Z))
    (ix : list nat) : Prop := {
  sr_perm : Permutation ix (seq 0 (Nfreqs u));
  sr_index : forall idx, co = Some (ChanIndex idx) -> ix = map Z.to_nat idx /\ Forall (fun i => 0 <= i < Z.of_nat (Nfreqs u)) idx;
  sr_group : forall req, so = Some req -> ss = None -> (forall idx, co <> Some (ChanIndex idx)) ->
    exists worder, Permutation worder (spw_array u) /\ windows_as_requested req u worder /\
      grouped (flex_spw_id_array u) (take 0 (flex_spw_id_array u) ix) worder;
  sr_stay : so = None \/ ss <> None -> (forall idx, co <> Some (ChanIndex idx)) ->
    take 0 (flex_spw_id_array u) ix = flex_spw_id_array u /\
    forall p, (p < Nfreqs u)%nat -> (co = None \/ ~ selected ss (nth p (flex_spw_id_array u) 0)) -> nth p ix 0%nat = p;
  sr_keep : co = None -> forall i j, (i < j < Nfreqs u)%nat ->
    nth (nth i ix 0%nat) (flex_spw_id_array u) 0 = nth (nth j ix 0%nat) (flex_spw_id_array u) 0 ->
    (nth i ix 0 < nth j ix 0)%nat;
  sr_sort : forall desc, co = Some (ChanFreq desc) -> forall i j, (i < j < Nfreqs u)%nat ->
    nth (nth i ix 0%nat) (flex_spw_id_array u) 0 = nth (nth j ix 0%nat) (flex_spw_id_array u) 0 ->
    selected ss (nth (nth i ix 0%nat) (flex_spw_id_array u) 0) -> freq_dir desc u (nth i ix 0%nat) (nth j ix 0%nat)
}.

Lemma take_ext_nth {A} (d : A) l ix iy : length ix = length iy ->
  (forall p, (p < length ix)%nat -> nth (nth p ix 0%nat) l d = nth (nth p iy 0%nat) l d) -> take d l ix = take d l iy.
Proof.
  intros L H. apply (nth_ext _ _ d d); [rewrite !take_length; exact L|]. rewrite take_length. intros p Hp.
  rewrite !nth_take by lia. apply H, Hp.
Qed.

Lemma sort_freq_named_spec u so co ss ix : freq_axis_ok u -> (forall idx, co <> Some (ChanIndex idx)) ->
  sort_freq_named (freq_array u) (spw_array u) (flex_spw_id_array u) so co ss = Ok (Some ix) ->
  sort_result u so co ss ix.
Proof.
  intros Hok Hci H. pose proof Hok as ((Lw & Lx) & N & Hm). fold (Nfreqs u) in *. unfold sort_freq_named in H. fold (Nfreqs u) in *.
  assert (H' : (ss <> None -> co <> None) /\
    (do idx <- match ss, so with
                | None, Some req => do pos <- spw_positions req (freq_array u) (spw_array u) (flex_spw_id_array u);
                    group_spws (take 0 (spw_array u) pos) (flex_spw_id_array u)
                | _, _ => Ok (seq 0 (Nfreqs u)) end;
     match co with
      | None => Ok (Some idx)
      | Some (ChanFreq desc) =>
          Ok (Some (fold_left (fun ix w => if (match ss with Some s => isinZ w s | None => true end)
            then chan_step desc (take 0 (freq_array u) idx) (take 0 (flex_spw_id_array u) idx) ix w else ix) (spw_array u) idx))
      | Some _ => Err ValueError end) = Ok (Some ix)).
  { destruct ss as [s|]; [|split; [congruence|exact H]]. destruct co; [|discriminate]. split; [discriminate|exact H]. }
  clear H. destruct H' as [Hss H]. apply bind_Ok in H as (idx0 & H0 & H).
  (* stage one *)
  assert (S1 : Permutation idx0 (seq 0 (Nfreqs u)) /\
    (forall req, so = Some req -> ss = None -> exists worder, Permutation worder (spw_array u) /\
       windows_as_requested req u worder /\ grouped (flex_spw_id_array u) (take 0 (flex_spw_id_array u) idx0) worder) /\
    (so = None \/ ss <> None -> idx0 = seq 0 (Nfreqs u)) /\
    (forall i j, (i < j < Nfreqs u)%nat -> nth i (take 0 (flex_spw_id_array u) idx0) 0 = nth j (take 0 (flex_spw_id_array u) idx0) 0 ->
       (nth i idx0 0 < nth j idx0 0)%nat)).
  { assert (Triv : idx0 = seq 0 (Nfreqs u) -> forall i j, (i < j < Nfreqs u)%nat -> (nth i idx0 0 < nth j idx0 0)%nat).
    { intros -> i j Hij. rewrite !seq_nth by lia. lia. }
    destruct ss as [s|]; [|destruct so as [req|]].
    - injection H0 as <-. split; [reflexivity|]. split; [intros ? _ ?; discriminate|]. split; [reflexivity|]. intros; apply Triv; auto.
    - apply bind_Ok in H0 as (pos & Hp & Hg). apply (spw_positions_spec req u pos Hok) in Hp as [HP HR].
      apply group_spec in Hg as (G1 & G2 & G3).
      + rewrite Lx in *. split; [exact G1|]. split.
        * intros req' E _. injection E as <-. exists (take 0 (spw_array u) pos). auto.
        * split; [intros [|]; congruence|exact G3].
      + apply (Permutation_NoDup (Permutation_sym HP)), N.
      + intros w Hw. apply (Permutation_in _ (Permutation_sym HP)). apply Hm, Hw.
    - injection H0 as <-. split; [reflexivity|]. split; [intros ? ?; discriminate|]. split; [reflexivity|]. intros; apply Triv; auto. }
  clear H0. destruct S1 as (P0 & G0 & T0 & K0).
  destruct (perm_seq_facts _ _ P0) as (L0 & N0 & B0 & _).
  destruct co as [[?|desc|]|].
  - destruct (Hci idx eq_refl).
  - injection H as <-. set (sel := fun w => match ss with Some s => isinZ w s | None => true end).
    pose proof (chan_inv_fold (freq_array u) (flex_spw_id_array u) idx0 (Nfreqs u) desc eq_refl Lx P0 sel (spw_array u) N) as (L & Nd & B & U & S).
    set (ix := fold_left _ _ _) in *.
    assert (Hflex : take 0 (flex_spw_id_array u) ix = take 0 (flex_spw_id_array u) idx0).
    { apply take_ext_nth; [lia|]. intros p Hp. rewrite L in Hp. destruct (B p Hp) as [_ E]. rewrite E, nth_take by lia. reflexivity. }
    assert (Hsel : forall w, In w (spw_array u) -> (In w (filter sel (spw_array u)) <-> selected ss w)).
    { intros w Hw. rewrite filter_In. unfold sel, selected. destruct ss; [rewrite isinZ_spec; tauto|tauto]. }
    assert (Hin : forall p, (p < Nfreqs u)%nat -> In (nth p (flex_spw_id_array u) 0) (spw_array u)).
    { intros p Hp. apply Hm, nth_In. lia. }
    split.
    + apply perm_seq_of; [exact L|exact Nd|]. intros p Hp. apply B, Hp.
    + intros idx E. discriminate.
    + intros req E1 E2 _. rewrite Hflex. apply G0; assumption.
    + intros E _. rewrite Hflex. specialize (T0 E). split.
      * rewrite T0. rewrite <- Lx. apply take_seq.
      * intros p Hp [|Hns]; [discriminate|]. rewrite U; [rewrite T0, seq_nth by exact Hp; reflexivity|exact Hp|].
        rewrite T0, <- Lx, take_seq. rewrite Hsel by (apply Hin, Hp). exact Hns.
    + discriminate.
    + intros d E. injection E as <-. intros i j Hij E Hs.
      destruct (B i ltac:(lia)) as [Bi Ei], (B j ltac:(lia)) as [Bj Ej].
      apply (S i j Hij); [congruence|]. rewrite <- Ei. apply Hsel; [apply Hin, Bi|exact Hs].
  - discriminate.
  - injection H as <-. split.
    + exact P0.
    + intros idx E. discriminate.
    + intros req E1 E2 _. apply G0; assumption.
    + intros E _. specialize (T0 E). subst idx0. split; [rewrite <- Lx; apply take_seq|].
      intros p Hp _. apply seq_nth, Hp.
    + intros _ i j Hij E. apply (K0 i j Hij). rewrite !nth_take by lia. exact E.
    + discriminate.
Qed.

Lemma sort_helper_spec u so co ss r : freq_axis_ok u ->
  sort_freq_helper (freq_array u) (spw_array u) (flex_spw_id_array u) so co ss = Ok r ->
  match r with
  | Some ix => sort_result u so co ss ix
  | None => sort_result u so co ss (seq 0 (Nfreqs u)) \/ (co = None /\ (so = None \/ ss <> None))
  end.
Proof.
  intros Hok H. unfold sort_freq_helper in H. apply bind_Ok in H as (o & Ho & H).
  assert (HS : match o with Some ix => sort_result u so co ss ix | None => co = None /\ (so = None \/ ss <> None) end).
  { assert (Named : (forall idx, co <> Some (ChanIndex idx)) ->
      sort_freq_named (freq_array u) (spw_array u) (flex_spw_id_array u) so co ss = Ok o ->
      match o with Some ix => sort_result u so co ss ix | None => co = None /\ (so = None \/ ss <> None) end).
    { intros Hn HN. destruct o as [ix|]; [apply sort_freq_named_spec; assumption|].
      unfold sort_freq_named in HN. destruct ss as [s|].
      - destruct co as [c|]; [|split; [reflexivity|right; discriminate]].
        apply bind_Ok in HN as (x & _ & HN). destruct c; discriminate.
      - apply bind_Ok in HN as (x & _ & HN). destruct co as [[]|]; discriminate. }
    assert (Idx : forall idx, co = Some (ChanIndex idx) ->
      (if is_index_array (length (freq_array u)) idx then Ok (Some (map Z.to_nat idx)) else Err ValueError) = Ok o ->
      match o with Some ix => sort_result u so co ss ix | None => co = None /\ (so = None \/ ss <> None) end).
    { intros idx Ec HI. destruct (is_index_array _ _) eqn:E; [|discriminate]. injection HI as <-.
      apply is_index_array_spec in E as [E1 E2]. split.
      - exact E1.
      - intros i Ei. rewrite Ec in Ei. injection Ei as <-. auto.
      - intros req _ _ Hc. destruct (Hc idx Ec).
      - intros _ Hc. destruct (Hc idx Ec).
      - rewrite Ec. discriminate.
      - rewrite Ec. discriminate. }
    destruct so as [req|]; destruct co as [[idx|d|]|].
    all: try (apply (Idx idx eq_refl); exact Ho).
    all: try (apply Named; [intros; discriminate|exact Ho]).
    injection Ho as <-. auto. }
  destruct o as [ix|].
  - destruct (increasing ix) eqn:E; injection H as <-; [|exact HS].
    left. rewrite <- (increasing_perm ix (Nfreqs u) E (sr_perm _ _ _ _ _ HS)). exact HS.
  - injection H as <-. right. exact HS.
Qed.

(** ** Windows in order of appearance *)
Lemma first_positions_spec l : appearance_order l (take 0 l (first_positions l)).
Proof.
  set (pos1 := fun v => match index_of Z.eqb v l with Some i => i | None => O end).
  assert (P : forall v, In v l -> (pos1 v < length l)%nat /\ nth (pos1 v) l 0 = v /\ forall j, (j < pos1 v)%nat -> nth j l 0 <> v).
  { intros v Hv. unfold pos1. destruct (index_of Z.eqb v l) as [i|] eqn:E.
    - apply (index_of_Some Z.eqb Z.eqb_eq 0) in E. exact E.
    - apply (index_of_None Z.eqb Z.eqb_eq) in E. contradiction. }
  assert (HI : forall k, In k (first_positions l) <-> exists v, In v l /\ k = pos1 v).
  { intros k. unfold first_positions. rewrite isort_In, in_map_iff. split.
    - intros (v & <- & Hv). apply (proj1 (uniqueZ_In _ _)) in Hv. exists v. auto.
    - intros (v & Hv & ->). exists v. split; [reflexivity|]. apply (proj2 (uniqueZ_In _ _)). exact Hv. }
  assert (HN : NoDup (first_positions l)).
  { unfold first_positions. eapply Permutation_NoDup; [apply isort_perm|].
    assert (HU : forall v, In v (uniqueZ l) -> In v l) by (intros v; apply uniqueZ_In). fold pos1.
    pose proof (uniqueZ_NoDup l) as N. revert HU N. generalize (uniqueZ l). induction l0 as [|v t IH]; intros HU N; [constructor|].
    inversion N as [|? ? Nv N']; subst. cbn [map]. constructor; [|apply IH; [intros; apply HU; right; assumption|exact N']].
    intros Hc. apply in_map_iff in Hc as (w & E & Hw). apply Nv.
    destruct (P v (HU v (or_introl eq_refl))) as (_ & E1 & _). destruct (P w (HU w (or_intror Hw))) as (_ & E2 & _).
    unfold pos1 in *. rewrite <- E1, <- E, E2. exact Hw. }
  split.
  - intros w. unfold take. rewrite in_map_iff. split.
    + intros (k & <- & Hk). apply HI in Hk as (v & Hv & ->). destruct (P v Hv) as (_ & -> & _). exact Hv.
    + intros Hw. exists (pos1 w). split; [apply P, Hw|]. apply HI. exists w. auto.
  - unfold take. apply (proj1 (StronglySorted_map _ _ _)).
    assert (HS : StronglySorted Nat.lt (first_positions l)).
    { assert (HS : StronglySorted Nat.le (first_positions l)).
      { unfold first_positions. eapply StronglySorted_impl; [|apply isort_sorted]; unfold le; intros; lia. }
      clear - HS HN. induction HS as [|a t HS IH Hf]; constructor.
      - apply IH. inversion HN; assumption.
      - inversion HN; subst. rewrite Forall_forall in *. intros x Hx. specialize (Hf x Hx).
        assert (a <> x) by (intros ->; contradiction). unfold Nat.lt. lia. }
    eapply StronglySorted_impl; [|exact HS]. cbv beta. intros x y Hx Hy Hxy.
    apply HI in Hx as (v & Hv & ->). apply HI in Hy as (w & Hw & ->).
    destruct (P v Hv) as (B1 & E1 & F1), (P w Hw) as (B2 & E2 & F2). rewrite E1, E2.
    exists (pos1 v). split; [rewrite (nth_error_nth' _ 0 B1), E1; reflexivity|].
    intros j Hj Hc. apply (F2 j); [unfold Nat.lt in Hxy; lia|]. apply nth_error_nth with (d := 0) in Hc. exact Hc.
Qed.

Lemma appearance_NoDup l s : appearance_order l s -> NoDup s.
Proof.
  intros [_ H]. induction H as [|a t H IH Hf]; constructor; [|exact IH].
  intros Hc. rewrite Forall_forall in Hf. destruct (Hf a Hc) as (i & Hi & Hn). apply (Hn i (Nat.le_refl i)). exact Hi.
Qed.

(** ** reorder_freqs *)
Lemma chan_copied_refl u j : chan_copied u j u j.
Proof. unfold chan_copied. repeat split. Qed.

Lemma off_freq_refl u : off_freq_same u u.
Proof. unfold off_freq_same, same_blt_axis. repeat split. Qed.

Lemma rearranged_id o : obj_ok o -> freqs_rearranged (seq 0 (Nfreqs (fo_uvd o))) o o.
Proof.
  intros ((Hs & _) & _). unfold freqs_rearranged. cbv zeta. fold (Nfreqs (fo_uvd o)).
  split; [reflexivity|]. split; [reflexivity|]. split; [exact Hs|]. split.
  - intros j Hj. rewrite seq_nth by exact Hj. apply chan_copied_refl.
  - split; [|apply off_freq_refl]. destruct (eq_coeffs o); [|exact I]. intros a j Hj. rewrite seq_nth by exact Hj. reflexivity.
Qed.

Lemma reorder_freqs_spec so co ss o o' : obj_ok o -> reorder_freqs so co ss o = Ok o' ->
  exists sigma, freqs_rearranged sigma o o' /\ obj_ok o' /\
  (sort_result (fo_uvd o) so co ss sigma \/ (o' = o /\ co = None /\ (so = None \/ ss <> None))) /\
  (o' = o \/ appearance_order (flex_spw_id_array (fo_uvd o')) (spw_array (fo_uvd o'))) /\
  flex_spw_id_array (fo_uvd o') = take 0 (flex_spw_id_array (fo_uvd o)) sigma /\
  freq_array (fo_uvd o') = take 0 (freq_array (fo_uvd o)) sigma /\
  (forall w p, window_pol o' w p <-> window_pol o w p) /\
  (flex_spw_polarization_array o = None <-> flex_spw_polarization_array o' = None).
Proof.
  intros Hok H. pose proof Hok as (Hax & Hfp). unfold reorder_freqs in H.
  apply bind_Ok in H as (r & Hr & H). apply (sort_helper_spec _ _ _ _ _ Hax) in Hr.
  pose proof Hax as ((Lw & Lx) & N & Hm).
  destruct r as [ix|].
  - pose proof (sr_perm _ _ _ _ _ Hr) as P. destruct (perm_seq_facts _ _ P) as (L & Nd & B & Hi).
    apply bind_Ok in H as (fp & Hf & H). injection H as <-.
    set (u := fo_uvd o) in *. set (flex := take 0 (flex_spw_id_array u) ix) in *.
    pose proof (first_positions_spec flex) as HA. set (ns := take 0 flex (first_positions flex)) in *.
    assert (Hflex : Permutation flex (flex_spw_id_array u)).
    { apply take_perm. rewrite Lx. exact P. }
    assert (Hns : forall w, In w ns <-> In w (spw_array u)).
    { intros w. destruct HA as [HA _]. rewrite HA, <- Hm. split; apply Permutation_in; [|symmetry]; exact Hflex. }
    assert (PN : Permutation ns (spw_array u)).
    { apply NoDup_Permutation; [apply (appearance_NoDup _ _ HA)|exact N|exact Hns]. }
    assert (LN : length ns = length (spw_array u)) by apply (Permutation_length PN).
    assert (Hfp' : match flex_spw_polarization_array o with
      | None => fp = None
      | Some f => exists inds, fp = Some (take 0 f inds) /\ length inds = length ns /\
          forall k, (k < length ns)%nat -> (nth k inds 0 < length (spw_array u))%nat /\ nth (nth k inds 0%nat) (spw_array u) 0 = nth k ns 0
      end).
    { destruct (flex_spw_polarization_array o) as [f|]; [|injection Hf as <-; reflexivity].
      apply bind_Ok in Hf as (inds & Hi' & Hf). injection Hf as <-. exists inds. split; [reflexivity|].
      unfold spw_sort_inds in Hi'. destruct (_ <? _)%nat; [discriminate|]. apply bind_Ok in Hi' as (pos & Hpos & Hi').
      injection Hi' as <-. rewrite LN, Nat.sub_diag. cbn [repeat]. rewrite app_nil_r.
      pose proof (mapM_Ok_length _ _ _ Hpos) as Lp. split; [congruence|]. intros k Hk.
      pose proof (mapM_Ok_nth _ _ _ 0 0%nat Hpos k ltac:(lia)) as E. cbv beta in E.
      destruct (index_of Z.eqb (nth k ns 0) (spw_array u)) as [i|] eqn:Ei; [|discriminate]. injection E as <-.
      apply (index_of_Some Z.eqb Z.eqb_eq 0) in Ei. tauto. }
    exists ix. repeat match goal with |- _ /\ _ => split end; cbn [fo_uvd eq_coeffs flex_spw_polarization_array take_freqs freq_array channel_width flex_spw_id_array spw_array]; try reflexivity.
    + unfold freqs_rearranged. cbn [fo_uvd eq_coeffs take_freqs freq_array channel_width flex_spw_id_array spw_array]. fold u.
      split; [exact P|]. split; [rewrite take_length; exact L|]. split.
      { split; cbn [take_freqs freq_array channel_width flex_spw_id_array]; rewrite !take_length; reflexivity. }
      split.
      { intros j Hj. unfold chan_copied. cbn [take_freqs freq_array channel_width flex_spw_id_array data_array flag_array nsample_array].
        rewrite !nth_take by (unfold Nfreqs in *; lia). repeat split. }
      split; [|unfold off_freq_same, same_blt_axis; cbn; repeat split].
      destruct (eq_coeffs o); [|exact I]. intros; reflexivity.
    + split; [split; [|split]|].
      * split; cbn [fo_uvd take_freqs freq_array channel_width flex_spw_id_array]; rewrite !take_length; reflexivity.
      * cbn [fo_uvd take_freqs spw_array]. apply (appearance_NoDup _ _ HA).
      * cbn [fo_uvd take_freqs spw_array flex_spw_id_array]. intros w. destruct HA as [HA _]. symmetry. apply HA.
      * cbn [fo_uvd take_freqs spw_array flex_spw_polarization_array]. intros f E. subst fp.
        destruct (flex_spw_polarization_array o) as [f0|]; [|discriminate]. destruct Hfp' as (inds & E & Li & _). injection E as ->.
        rewrite take_length. exact Li.
    + left. exact Hr.
    + right. exact HA.
    + intros w p. unfold window_pol. cbn [fo_uvd take_freqs spw_array flex_spw_polarization_array]. fold u.
      destruct (flex_spw_polarization_array o) as [f0|]; [|subst fp; split; intros (f & k & E & _); discriminate].
      destruct Hfp' as (inds & -> & Li & HK). specialize (Hfp f0 eq_refl). fold u in Hfp. split.
      * intros (f & k & E & Hk & Ew & Ep). injection E as <-. destruct (HK k Hk) as [K1 K2].
        exists f0, (nth k inds 0%nat). split; [reflexivity|]. split; [exact K1|]. split; [congruence|].
        rewrite (nth_error_nth' _ 0) in Ep by (rewrite take_length; lia). injection Ep as <-.
        rewrite nth_take by lia. apply nth_error_nth'. lia.
      * intros (f & k & E & Hk & Ew & Ep). injection E as <-.
        assert (Hw : In w ns) by (apply Hns; rewrite <- Ew; apply nth_In, Hk).
        destruct (In_nth _ _ 0 Hw) as (q & Hq & Eq). destruct (HK q Hq) as [K1 K2].
        exists (take 0 f0 inds), q. split; [reflexivity|]. split; [exact Hq|]. split; [exact Eq|].
        rewrite (nth_error_nth' _ 0) by (rewrite take_length; lia). rewrite nth_take by lia.
        assert (nth q inds 0%nat = k) as ->.
        { apply (proj1 (NoDup_nth (spw_array u) 0) N); [exact K1|exact Hk|congruence]. }
        f_equal. apply nth_error_nth. exact Ep.
    + destruct (flex_spw_polarization_array o) as [f0|].
      * destruct Hfp' as (? & -> & _). split; discriminate.
      * subst fp. split; reflexivity.
  - injection H as <-. exists (seq 0 (Nfreqs (fo_uvd o))). split; [apply rearranged_id, Hok|]. split; [exact Hok|].
    split; [destruct Hr as [Hr|Hr]; [left; exact Hr|right; split; [reflexivity|exact Hr]]|].
    split; [left; reflexivity|]. fold (Nfreqs (fo_uvd o)) in *.
    split; [rewrite <- Lx, take_seq; reflexivity|]. split; [unfold Nfreqs; rewrite take_seq; reflexivity|].
    split; [intros; reflexivity|reflexivity].
Qed.

(** ** The statements used in the property file *)
Section Uses.
Variables (so : option spw_request) (co : option chan_request) (ss : option (list Z)) (o o' : freqobj).
Hypothesis Hok : obj_ok o.
Hypothesis H : reorder_freqs so co ss o = Ok o'.
Let u := fo_uvd o.
Let u' := fo_uvd o'.

Lemma rf_moves : exists sigma, freqs_rearranged sigma o o' /\ obj_ok o' /\
  (forall w p, window_pol o' w p <-> window_pol o w p) /\
  (flex_spw_polarization_array o = None <-> flex_spw_polarization_array o' = None) /\
  (o' = o \/ appearance_order (flex_spw_id_array u') (spw_array u')).
Proof. destruct (reorder_freqs_spec _ _ _ _ _ Hok H) as (s & H1 & H2 & _ & H3 & _ & _ & H4 & H5). exists s. auto. Qed.

Lemma rf_grouped req : so = Some req -> ss = None -> (forall idx, co <> Some (ChanIndex idx)) ->
  exists worder, Permutation worder (spw_array u) /\ windows_as_requested req u worder /\
    grouped (flex_spw_id_array u) (flex_spw_id_array u') worder.
Proof.
  intros E1 E2 E3. destruct (reorder_freqs_spec _ _ _ _ _ Hok H) as (s & _ & _ & HS & _ & HX & _).
  destruct HS as [HS|(_ & _ & [|])]; [|congruence|congruence]. unfold u'. rewrite HX. apply (sr_group _ _ _ _ _ HS req E1 E2 E3).
Qed.

Lemma rf_sorted desc : co = Some (ChanFreq desc) -> channels_sorted desc (selected ss) u'.
Proof.
  intros E. destruct (reorder_freqs_spec _ _ _ _ _ Hok H) as (s & HR & _ & HS & _ & HX & HF & _).
  destruct HS as [HS|(_ & E' & _)]; [|congruence]. destruct (perm_seq_facts _ _ (sr_perm _ _ _ _ _ HS)) as (L & _).
  unfold channels_sorted, u'. rewrite HX, HF, take_length. intros i j Hij Ew Hsel. rewrite !nth_take in * by lia.
  apply (sr_sort _ _ _ _ _ HS desc E i j ltac:(lia) Ew Hsel).
Qed.

Lemma rf_stay : so = None \/ ss <> None -> (forall idx, co <> Some (ChanIndex idx)) ->
  flex_spw_id_array u' = flex_spw_id_array u /\
  forall p, (p < Nfreqs u)%nat -> (co = None \/ ~ selected ss (nth p (flex_spw_id_array u) 0)) -> chan_copied u p u' p.
Proof.
  intros E1 E2. destruct (reorder_freqs_spec _ _ _ _ _ Hok H) as (s & HR & _ & HS & _ & HX & HF & _).
  destruct HS as [HS|(-> & _)]; [|split; [reflexivity|intros; apply chan_copied_refl]].
  destruct (sr_stay _ _ _ _ _ HS E1 E2) as [S1 S2]. split; [unfold u'; rewrite HX; exact S1|].
  intros p Hp Hns. destruct HR as (_ & _ & _ & HC & _). specialize (HC p Hp). rewrite (S2 p Hp Hns) in HC. exact HC.
Qed.

Lemma rf_keep : co = None -> exists sigma, freqs_rearranged sigma o o' /\
  forall i j, (i < j < Nfreqs u)%nat -> nth i (flex_spw_id_array u') 0 = nth j (flex_spw_id_array u') 0 ->
  (nth i sigma 0 < nth j sigma 0)%nat.
Proof.
  intros E. destruct (reorder_freqs_spec _ _ _ _ _ Hok H) as (s & HR & _ & HS & _ & HX & HF & _).
  destruct HS as [HS|(-> & _)].
  - exists s. split; [exact HR|]. destruct (perm_seq_facts _ _ (sr_perm _ _ _ _ _ HS)) as (L & _).
    unfold u'. rewrite HX. intros i j Hij Ew. fold u in L, Ew. rewrite !nth_take in Ew by lia. apply (sr_keep _ _ _ _ _ HS E i j Hij Ew).
  - exists (seq 0 (Nfreqs u)). split; [apply rearranged_id, Hok|]. intros i j Hij _. rewrite !seq_nth by lia. lia.
Qed.

Lemma rf_index idx : co = Some (ChanIndex idx) ->
  Permutation (map Z.to_nat idx) (seq 0 (Nfreqs u)) /\ Forall (fun i => 0 <= i < Z.of_nat (Nfreqs u)) idx /\
  forall j, (j < Nfreqs u)%nat -> chan_copied u (Z.to_nat (nth j idx 0)) u' j.
Proof.
  intros E. destruct (reorder_freqs_spec _ _ _ _ _ Hok H) as (s & HR & _ & HS & _).
  destruct HS as [HS|(_ & E' & _)]; [|congruence]. destruct (sr_index _ _ _ _ _ HS idx E) as [-> HF].
  pose proof (sr_perm _ _ _ _ _ HS) as P. split; [exact P|]. split; [exact HF|].
  intros j Hj. destruct HR as (_ & _ & _ & HC & _). specialize (HC j Hj).
  destruct (perm_seq_facts _ _ P) as (L & _). rewrite map_length in L. fold u in L.
  rewrite (nth_map Z.to_nat idx j 0 0%nat) in HC by lia. exact HC.
Qed.
End Uses.

Lemma rf_nothing ss o : reorder_freqs None None ss o = Ok o.
Proof. reflexivity. Qed.

Lemma rf_total so co ss o : obj_ok o -> spw_array (fo_uvd o) <> [] ->
  so <> Some SpwOther -> co <> Some ChanOther ->
  (forall idx, so = Some (SpwIndex idx) -> Permutation idx (map Z.of_nat (seq 0 (length (spw_array (fo_uvd o)))))) ->
  (forall idx, co = Some (ChanIndex idx) -> Permutation idx (map Z.of_nat (seq 0 (Nfreqs (fo_uvd o))))) ->
  exists o', reorder_freqs so co ss o = Ok o'.
Proof.
  intros Hok Hne Hso Hco Hsi Hci. pose proof Hok as (Hax & _). set (u := fo_uvd o) in *.
  assert (HS : exists r, sort_freq_helper (freq_array u) (spw_array u) (flex_spw_id_array u) so co ss = Ok r).
  { assert (HP : forall req, so = Some req -> exists idx, (do pos <- spw_positions req (freq_array u) (spw_array u) (flex_spw_id_array u);
      group_spws (take 0 (spw_array u) pos) (flex_spw_id_array u)) = Ok idx).
    { intros req E. assert (HP : exists pos, spw_positions req (freq_array u) (spw_array u) (flex_spw_id_array u) = Ok pos).
      { destruct req as [idx|d|d|]; cbn [spw_positions].
        - rewrite is_index_array_complete by (apply Hsi, E). eexists; reflexivity.
        - destruct (1 <? _)%nat; eexists; reflexivity.
        - destruct (1 <? _)%nat; eexists; reflexivity.
        - congruence. }
      destruct HP as (pos & HP). rewrite HP. cbn [bind]. apply (spw_positions_spec _ _ _ Hax) in HP as [HP _].
      unfold group_spws. destruct (take 0 (spw_array u) pos); [|eexists; reflexivity].
      apply Permutation_nil in HP. contradiction. }
    assert (HN : (forall idx, co <> Some (ChanIndex idx)) -> exists r,
      sort_freq_named (freq_array u) (spw_array u) (flex_spw_id_array u) so co ss = Ok r).
    { intros Hn. unfold sort_freq_named. destruct ss as [s|].
      - destruct co as [[idx|d|]|]; [destruct (Hn idx eq_refl)|cbn [bind]; eexists; reflexivity|congruence|eexists; reflexivity].
      - destruct so as [req|].
        + destruct (HP req eq_refl) as (idx & ->). cbn [bind].
          destruct co as [[i|d|]|]; [destruct (Hn i eq_refl)|eexists; reflexivity|congruence|eexists; reflexivity].
        + cbn [bind]. destruct co as [[i|d|]|]; [destruct (Hn i eq_refl)|eexists; reflexivity|congruence|eexists; reflexivity]. }
    unfold sort_freq_helper.
    assert (HB : forall x : result (option (list nat)), (exists r, x = Ok r) ->
      exists r, (do idx <- x; match idx with None => Ok None | Some ix => if increasing ix then Ok None else Ok (Some ix) end) = Ok r).
    { intros x (r & ->). cbn [bind]. destruct r as [ix|]; [destruct (increasing ix)|]; eexists; reflexivity. }
    apply HB. destruct so as [req|]; destruct co as [[idx|d|]|]; try congruence.
    all: try (rewrite is_index_array_complete by (apply Hci; reflexivity); eexists; reflexivity).
    all: try (apply HN; intros; discriminate).
    eexists; reflexivity. }
  destruct HS as (r & HS). unfold reorder_freqs. fold u. rewrite HS. cbn [bind].
  destruct r as [ix|]; [|eexists; reflexivity].
  destruct (flex_spw_polarization_array o) as [fp|]; [|cbn [bind]; eexists; reflexivity].
  apply (sort_helper_spec _ _ _ _ _ Hax) in HS. pose proof (sr_perm _ _ _ _ _ HS) as P.
  pose proof Hax as ((Lw & Lx) & N & Hm).
  set (flex := take 0 (flex_spw_id_array u) ix). set (ns := take 0 flex (first_positions flex)).
  assert (PN : Permutation ns (spw_array u)).
  { pose proof (first_positions_spec flex) as HA.
    apply NoDup_Permutation; [apply (appearance_NoDup _ _ HA)|exact N|]. intros w. destruct HA as [HA _]. unfold ns. rewrite HA, <- Hm.
    assert (Hflex : Permutation flex (flex_spw_id_array u)) by (apply take_perm; rewrite Lx; exact P).
    split; apply Permutation_in; [|symmetry]; exact Hflex. }
  assert (HI : exists inds, spw_sort_inds (spw_array u) ns = Ok inds).
  { unfold spw_sort_inds. rewrite (Permutation_length PN), Nat.ltb_irrefl.
    assert (HM : forall l, (forall w, In w l -> In w (spw_array u)) -> exists pos,
      mapM (fun w => match index_of Z.eqb w (spw_array u) with Some i => Ok i | None => Err IndexError end) l = Ok pos).
    { induction l as [|w l IH]; intros Hl; [eexists; reflexivity|]. cbn [mapM].
      destruct (index_of Z.eqb w (spw_array u)) eqn:E; [|apply (index_of_None Z.eqb Z.eqb_eq) in E; exfalso; apply E, Hl; left; reflexivity].
      cbn [bind]. destruct (IH ltac:(intros; apply Hl; right; assumption)) as (pos & ->). cbn [bind]. eexists; reflexivity. }
    destruct (HM ns) as (pos & ->); [intros w Hw; apply (Permutation_in _ PN), Hw|]. cbn [bind]. eexists; reflexivity. }
  destruct HI as (inds & ->). cbn [bind]. eexists; reflexivity.
Qed.

(** The list of windows is not brought into the requested order when the channels already are. *)
Definition fsample (spws flex freqs : list Z) (fp : option (list Z)) : freqobj :=
  mkFreqobj {| time_array := [1]; lst_array := [1]; ant_1_array := [0]; ant_2_array := [1]; baseline_array := [67585];
     integration_time := [10]; uvw_array := [(1, 2, 3)]; phase_center_id_array := [0];
     phase_center_app_ra := [1]; phase_center_app_dec := [1]; phase_center_frame_pa := [1];
     freq_array := freqs; channel_width := map (fun f => f + 1) freqs; flex_spw_id_array := flex; spw_array := spws;
     polarization_array := [-5]; data_array := fun i j k => (Z.of_nat j, 1); flag_array := fun i j k => Nat.eqb j 1;
     nsample_array := fun i j k => Z.of_nat j; Nbls := 1; Ntimes := 1; blt_order := None;
     blts_are_rectangular := None; time_axis_faster_than_bls := false; Nants_telescope := 2 |}
    (Some (fun a j => Z.of_nat (a + 10 * j))) fp.

Lemma spw_array_left_behind : exists o o', obj_ok o /\ reorder_freqs (Some (SpwNumber false)) None None o = Ok o' /\
  ~ StronglySorted Z.lt (spw_array (fo_uvd o')).
Proof.
  exists (fsample [2; 1] [1; 1; 2; 2] [10; 20; 30; 40] None), (fsample [2; 1] [1; 1; 2; 2] [10; 20; 30; 40] None).
  split; [|split; [reflexivity|]].
  - split; [|discriminate]. split; [split; reflexivity|]. split; [repeat constructor; simpl; lia|]. intros w. simpl. tauto.
  - simpl. intros HS. inversion HS as [|? ? _ HF]; subst. inversion HF; subst. lia.
Qed.

Lemma repeated_window_numbers : exists spws flex, check_flex_spw_contiguous spws flex = Ok tt /\
  (forall w, In w flex <-> In w spws) /\ ~ contiguous flex.
Proof.
  exists [1; 1; 2], [1; 2; 1]. split; [reflexivity|]. split; [intros w; simpl; tauto|].
  intros H. specialize (H 0%nat 1%nat 2%nat ltac:(lia) ltac:(simpl; lia) eq_refl). discriminate.
Qed.
