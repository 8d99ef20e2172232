(** The second part of __add__: padding, placing the data of other, sorting. *)
From Coq Require Import List ZArith Bool Arith Lia Permutation Sorted.
From Verif Require Import Lib.Py Lib.Np Lib.Cube Lib.Sorting Lib.Dict Spec.UVDataSpec Spec.BltSpec Spec.FreqSpec Spec.PhaseSpec Spec.AddSpec Model.Hdf5
  Model.UVData Model.Reorder Model.Freq Model.PhaseCenter Model.Add
  Proofs.Hdf5Proofs Proofs.FreqProofs Proofs.FreqReorder Proofs.ReorderProofs Proofs.AddAxis Proofs.AddMove.
Import ListNotations.
Notation length := List.length.
Open Scope Z_scope.

(** ** Sorting permutations *)
Lemma consecutive_seq l : consecutive l = true -> l = seq (hd 0%nat l) (length l).
Proof.
  induction l as [|a l IH]; intros H; [reflexivity|]. destruct l as [|b l]; [reflexivity|].
  cbn [consecutive] in H. apply andb_true_iff in H as [E H]. apply Nat.eqb_eq in E. specialize (IH H).
  cbn [hd length seq] in IH |- *. rewrite E in IH. rewrite E. f_equal. exact IH.
Qed.
Lemma data_order_perm l n : Permutation l (seq 0 n) -> data_order l = l.
Proof.
  intros P. unfold data_order. destruct ((1 <? length l)%nat && consecutive l) eqn:E; [|reflexivity].
  apply andb_true_iff in E as [L E]. apply Nat.ltb_lt in L. apply consecutive_seq in E.
  pose proof (Permutation_length P) as Ln. rewrite seq_length in Ln.
  assert (H0 : In 0%nat l) by (apply (Permutation_in _ (Permutation_sym P)), in_seq; lia).
  rewrite E in H0. apply in_seq in H0. rewrite E at 2. replace (hd 0%nat l) with 0%nat by lia. reflexivity.
Qed.

Lemma assign_perm pos vals f n : Permutation f (seq 0 n) -> NoDup pos -> Forall (fun i => (i < n)%nat) pos ->
  Permutation vals (take O f pos) -> Permutation (assign_at pos vals f) (seq 0 n).
Proof.
  intros P Np Fp Pv. destruct (perm_seq_facts _ _ P) as (L & N & B & _). rewrite Forall_forall in Fp.
  assert (Lv : length vals = length pos) by (rewrite (Permutation_length Pv); apply take_length).
  assert (Bp : Forall (fun i => (i < length f)%nat) pos) by (apply Forall_forall; rewrite L; exact Fp).
  set (res := assign_at pos vals f).
  assert (Rin : forall q, (q < length pos)%nat -> nth (nth q pos 0%nat) res 0%nat = nth q vals 0%nat)
    by (intros q Hq; apply nth_assign_in; assumption).
  assert (Rout : forall p, ~ In p pos -> nth p res 0%nat = nth p f 0%nat) by (intros p Hp; apply nth_assign_out, Hp).
  assert (Rin' : forall p, In p pos -> exists p', In p' pos /\ nth p res 0%nat = nth p' f 0%nat).
  { intros p Hp. destruct (In_nth _ _ 0%nat Hp) as (q & Hq & <-). rewrite Rin by exact Hq.
    assert (Hin : In (nth q vals 0%nat) (take O f pos)) by (apply (Permutation_in _ Pv), nth_In; lia).
    unfold take in Hin. apply in_map_iff in Hin as (p' & E & Hp'). exists p'. auto. }
  assert (Lres : length res = n) by (unfold res; rewrite assign_at_len; exact L).
  assert (Dv : NoDup vals).
  { apply (Permutation_NoDup (Permutation_sym Pv)). apply (NoDup_nth _ 0%nat). rewrite take_length. intros i j Hi Hj E.
    rewrite !nth_take in E by assumption.
    apply (proj1 (NoDup_nth f 0%nat) N) in E; [|rewrite L; apply Fp, nth_In, Hi|rewrite L; apply Fp, nth_In, Hj].
    apply (proj1 (NoDup_nth pos 0%nat) Np) in E; assumption. }
  apply perm_seq_of; [exact Lres| |].
  - apply (NoDup_nth res 0%nat). intros i j Hi Hj E. rewrite Lres in Hi, Hj.
    destruct (in_dec Nat.eq_dec i pos) as [Di|Di], (in_dec Nat.eq_dec j pos) as [Dj|Dj].
    + destruct (In_nth _ _ 0%nat Di) as (a & Ha & Ea), (In_nth _ _ 0%nat Dj) as (b & Hb & Eb). subst i j.
      rewrite !Rin in E by assumption. f_equal. apply (proj1 (NoDup_nth vals 0%nat) Dv); [lia|lia|exact E].
    + exfalso. destruct (Rin' i Di) as (p' & Hp' & Ep). rewrite (Rout j Dj), Ep in E.
      apply (proj1 (NoDup_nth f 0%nat) N) in E; [subst; contradiction| |lia]. apply Fp in Hp'. lia.
    + exfalso. destruct (Rin' j Dj) as (p' & Hp' & Ep). rewrite (Rout i Di), Ep in E.
      apply (proj1 (NoDup_nth f 0%nat) N) in E; [subst; contradiction|lia|]. apply Fp in Hp'. lia.
    + rewrite !Rout in E by assumption. apply (proj1 (NoDup_nth f 0%nat) N); [lia|lia|exact E].
  - intros p Hp. destruct (in_dec Nat.eq_dec p pos) as [D|D]; [|rewrite Rout by exact D; apply B, Hp].
    destruct (Rin' p D) as (p' & Hp' & ->). apply B, Fp, Hp'.
Qed.

Lemma sort_window_perm freqs flex f w n : Permutation f (seq 0 n) -> Permutation (sort_window freqs flex f w) (seq 0 n).
Proof.
  intros P. unfold sort_window. destruct (_ || _); [exact P|].
  apply assign_perm; [exact P|apply nonzero_NoDup| |].
  - apply Forall_forall. intros i Hi. apply nonzero_lt in Hi. rewrite (Permutation_length P), seq_length in Hi. exact Hi.
  - apply take_perm. set (sub := take O f _). rewrite <- (take_length 0 freqs sub). apply argsortZ_perm.
Qed.
Lemma fold_windows_perm freqs flex n ws : forall f, Permutation f (seq 0 n) ->
  Permutation (fold_left (sort_window freqs flex) ws f) (seq 0 n).
Proof. induction ws as [|w ws IH]; intros f P; simpl; [exact P|]. apply IH, sort_window_perm, P. Qed.

Lemma freq_order_perm freqs flex spws : NoDup spws -> (forall w, In w flex -> In w spws) ->
  Permutation (freq_order freqs flex spws) (seq 0 (length flex)).
Proof.
  intros N H. unfold freq_order. apply fold_windows_perm.
  assert (Pw : Permutation (isort Z.leb spws) spws) by (symmetry; apply isort_perm).
  destruct (isort Z.leb spws) as [|w ws] eqn:E.
  - destruct flex as [|x flex]; [reflexivity|]. exfalso. destruct (Permutation_in _ (Permutation_sym Pw) (H x (or_introl eq_refl))).
  - apply (group_spec (w :: ws) flex); [reflexivity| |].
    + apply (Permutation_NoDup (Permutation_sym Pw)), N.
    + intros x Hx. apply (Permutation_in _ (Permutation_sym Pw)), H, Hx.
Qed.

(** ** One axis of the sum *)
Record axis {L} (d : L) (la lb lr : list L) (sg nw to tau : list nat) : Prop := {
  ax_nodup : NoDup lr;
  ax_in : forall x, In x lr <-> In x la \/ In x lb;
  ax_len : length lr = length tau;
  ax_len' : length lr = (length la + length nw)%nat;
  ax_lenb : length to = length lb;
  ax_b : forall i, (i < length lr)%nat ->
    match index_of Nat.eqb (nth i tau 0%nat) to with
    | Some q => (q < length lb)%nat /\ nth q lb d = nth i lr d
    | None => ~ In (nth i lr d) lb
    end;
  ax_a : forall i, (i < length lr)%nat ->
    ((nth i tau 0 < length la)%nat /\ (nth (nth i tau 0%nat) sg 0 < length la)%nat /\
     nth (nth (nth i tau 0%nat) sg 0%nat) la d = nth i lr d) \/
    ((length la <= nth i tau 0 < length la + length nw)%nat /\ (nth (nth i tau 0 - length la) nw 0 < length lb)%nat /\
     nth (nth (nth i tau 0 - length la) nw 0)%nat lb d = nth i lr d /\ ~ In (nth i lr d) la) }.

Lemma axis_intro {L} (d : L) eqb (Heq : forall x y, eqb x y = true <-> x = y) la lb ti oi tau :
  NoDup la -> NoDup lb -> paired d la lb ti oi -> first_shared d la lb ->
  Permutation tau (seq 0 (length la + length (new_in eqb la lb))) ->
  axis d la lb (take d (take d la (order_of (length la) ti oi) ++ take d lb (new_in eqb la lb)) tau)
    (order_of (length la) ti oi) (new_in eqb la lb)
    (nonzero (fun x => memb eqb x lb) (la ++ take d lb (new_in eqb la lb))) tau.
Proof.
  intros Na Nb Hp Hs P. destruct (perm_seq_facts _ _ P) as (Lt & _ & Bt & _).
  change (take d la (order_of (length la) ti oi) ++ take d lb (new_in eqb la lb)) with (padded d eqb la lb ti oi).
  change (nonzero (fun x => memb eqb x lb) (la ++ take d lb (new_in eqb la lb))) with (t2o d eqb la lb).
  pose proof (padded_len d eqb Heq la lb Na ti oi Hp) as Lp. unfold new in Lp.
  assert (Pl : Permutation (take d (padded d eqb la lb ti oi) tau) (padded d eqb la lb ti oi)) by (apply take_perm; rewrite Lp; exact P).
  constructor.
  - apply (Permutation_NoDup (Permutation_sym Pl)). apply (padded_NoDup d eqb Heq la lb Na Nb ti oi Hp).
  - intros x. rewrite <- (padded_In d eqb Heq la lb Na ti oi Hp). split; apply Permutation_in; [|symmetry]; exact Pl.
  - apply take_length.
  - rewrite take_length. exact Lt.
  - apply (t2o_length d eqb Heq la lb Na Nb ti oi Hp).
  - intros i Hi. rewrite take_length in Hi. rewrite nth_take by exact Hi.
    pose proof (t2o_find d eqb Heq la lb Na Nb ti oi Hp (nth i tau 0%nat) Hs) as F. rewrite Lp in F.
    apply F, Bt. lia.
  - intros i Hi. rewrite take_length in Hi. rewrite nth_take by exact Hi.
    assert (Hb : (nth i tau 0 < length la + length (new_in eqb la lb))%nat) by (apply Bt; lia).
    destruct (Nat.lt_ge_cases (nth i tau 0%nat) (length la)) as [Hl|Hg].
    + left. split; [exact Hl|]. rewrite (padded_old d eqb Heq la lb Na ti oi Hp) by exact Hl.
      split; [|reflexivity]. apply (sigma_keeps d eqb Heq la lb Na ti oi Hp _ Hl).
    + right. split; [lia|]. rewrite (padded_new d eqb Heq la lb Na ti oi Hp) by (rewrite Lp; lia). unfold new.
      assert (Hi' : In (nth (nth i tau 0 - length la) (new_in eqb la lb) 0)%nat (new_in eqb la lb)) by (apply nth_In; lia).
      apply (new_spec d eqb Heq la lb) in Hi'. tauto.
Qed.

(** An axis of the result whose labels are the list [lr] *)
Lemma on_axis_list {L} (d : L) l (f : nat -> L) n x : length l = n -> (forall i, (i < n)%nat -> f i = nth i l d) ->
  (on_axis n f x <-> In x l).
Proof.
  intros El E. unfold on_axis. split.
  - intros (i & Hi & <-). rewrite E by exact Hi. apply nth_In. lia.
  - intros H. destruct (In_nth _ _ d H) as (i & Hi & Ex). exists i. rewrite E by lia. split; [lia|exact Ex].
Qed.
Lemma distinct_list {L} (d : L) l (f : nat -> L) n : length l = n -> (forall i, (i < n)%nat -> f i = nth i l d) ->
  (distinct n f <-> NoDup l).
Proof.
  intros El E. rewrite (NoDup_nth l d). unfold distinct. rewrite El. split; intros H i j Hi Hj.
  - rewrite <- !E by assumption. apply H; assumption.
  - rewrite !E by assumption. apply H; assumption.
Qed.
Lemma shared_first_list {L} (d : L) la lb (fa fb : nat -> L) na nb : length la = na -> length lb = nb ->
  (forall i, (i < na)%nat -> fa i = nth i la d) -> (forall i, (i < nb)%nat -> fb i = nth i lb d) ->
  shared_first na nb fa fb -> first_shared d la lb.
Proof.
  intros La Lb Ea Eb H i j Hij Hj. rewrite Lb in Hij. rewrite <- Eb in * by lia.
  apply (on_axis_list d la fa na _ La Ea). apply (H i j Hij). apply (on_axis_list d la fa na _ La Ea). exact Hj.
Qed.

Lemma nth_joined {A} (dd : A) (a b : list A) added order i na : length a = na -> (i < length order)%nat ->
  nth i (joined dd a b added order) dd =
  if (nth i order 0 <? na)%nat then nth (nth i order 0%nat) a dd else
  if (nth i order 0 <? na + length added)%nat then nth (nth (nth i order 0 - na) added 0)%nat b dd else dd.
Proof.
  intros La Hi. unfold joined. rewrite nth_take by exact Hi. destruct (Nat.ltb_spec (nth i order 0%nat) na).
  - apply app_nth1. lia.
  - rewrite app_nth2, La by lia. destruct (Nat.ltb_spec (nth i order 0%nat) (na + length added)).
    + rewrite nth_take by lia. reflexivity.
    + apply nth_overflow. rewrite take_length. lia.
Qed.

Lemma combine_take {A B} (da : A) (db : B) la lb ix : length la = length lb ->
  combine (take da la ix) (take db lb ix) = take (da, db) (combine la lb) ix.
Proof.
  intros E. induction ix as [|i ix IH]; [reflexivity|]. unfold take in *. cbn [map combine]. rewrite IH, combine_nth by exact E. reflexivity.
Qed.
Lemma combine_app {A B} (a a' : list A) (b b' : list B) : length a = length b -> combine (a ++ a') (b ++ b') = combine a b ++ combine a' b'.
Proof.
  revert b. induction a as [|x a IH]; intros [|y b] E; simpl in E; try discriminate; [reflexivity|]. simpl. rewrite IH by lia. reflexivity.
Qed.

Lemma order_if_perm added n order : Permutation order (seq 0 n) -> Permutation (order_if added n order) (seq 0 n).
Proof. intros P. unfold order_if. destruct added; [reflexivity|exact P]. Qed.

(** ** The whole of join *)
Section Join.
Variables (a b o : freqobj) (str_le : Z * Z -> Z * Z -> bool) (flexpol : option (list (Z * Z))).
Let u := fo_uvd a.
Let v := fo_uvd b.
Variables (rows chans pols : list nat * list nat).
Hypothesis Sa : blt_shaped u.
Hypothesis Sb : blt_shaped v.
Hypothesis Oa : obj_ok a.
Hypothesis Ob : obj_ok b.
Hypothesis NaB : NoDup (blt_labels u).
Hypothesis NbB : NoDup (blt_labels v).
Hypothesis NaF : NoDup (chan_labels u).
Hypothesis NbF : NoDup (chan_labels v).
Hypothesis NaP : NoDup (polarization_array u).
Hypothesis NbP : NoDup (polarization_array v).
Hypothesis PB : paired (0, 0) (blt_labels u) (blt_labels v) (fst rows) (snd rows).
Hypothesis PF : paired (0, 0) (chan_labels u) (chan_labels v) (fst chans) (snd chans).
Hypothesis PP : paired 0 (polarization_array u) (polarization_array v) (fst pols) (snd pols).
Let sb := order_of (Nblts u) (fst rows) (snd rows).
Let sf := order_of (Nfreqs u) (fst chans) (snd chans).
Let sp := order_of (Npols u) (fst pols) (snd pols).
Let nb := new_in pair_eqb (blt_labels u) (blt_labels v).
Let nf := new_channels u v.
Let np := new_in Z.eqb (polarization_array u) (polarization_array v).
Hypothesis M : moved sb sf sp a o.

Let u' := fo_uvd o.

Lemma Lb_u : length (blt_labels u) = Nblts u. Proof. apply blt_labels_len, Sa. Qed.
Lemma Lf_u : length (chan_labels u) = Nfreqs u. Proof. apply chan_labels_len, Oa. Qed.
Lemma nf_eq : nf = new_in pair_eqb (chan_labels u) (chan_labels v).
Proof. apply new_channels_eq; [apply Oa|apply Ob]. Qed.

Lemma sb_perm : Permutation sb (seq 0 (Nblts u)).
Proof. unfold sb. rewrite <- Lb_u. apply (sigma_perm (0, 0) pair_eqb pair_eqb_spec _ _ NaB _ _ PB). Qed.
Lemma sf_perm : Permutation sf (seq 0 (Nfreqs u)).
Proof. unfold sf. rewrite <- Lf_u. apply (sigma_perm (0, 0) pair_eqb pair_eqb_spec _ _ NaF _ _ PF). Qed.
Lemma sp_perm : Permutation sp (seq 0 (Npols u)).
Proof. unfold sp. apply (sigma_perm 0 Z.eqb Z.eqb_eq _ _ NaP _ _ PP). Qed.

Lemma chan_labels_moved : chan_labels u' = take (0, 0) (chan_labels u) sf.
Proof.
  pose proof (perm_seq_facts _ _ sf_perm) as (Ls & _ & Bs & _).
  assert (Fu' : freq_shaped u') by apply (mv_ok _ _ _ _ _ M).
  apply (nth_ext _ _ (0, 0) (0, 0)).
  - rewrite take_length, chan_labels_len by exact Fu'. rewrite Ls. apply (mv_nf _ _ _ _ _ M).
  - intros j Hj. rewrite chan_labels_len in Hj by exact Fu'. unfold u' in Hj. rewrite (mv_nf _ _ _ _ _ M) in Hj. fold u in Hj.
    rewrite nth_take by lia. rewrite !chan_labels_nth by (try exact Fu'; apply Oa). apply (mv_chan _ _ _ _ _ M j Hj).
Qed.
Lemma pols_moved : polarization_array u' = take 0 (polarization_array u) sp.
Proof.
  pose proof (perm_seq_facts _ _ sp_perm) as (Ls & _ & Bs & _).
  apply (nth_ext _ _ 0 0).
  - rewrite take_length, Ls. apply (mv_np _ _ _ _ _ M).
  - intros j Hj. change (length (polarization_array u')) with (Npols u') in Hj. unfold u' in Hj. rewrite (mv_np _ _ _ _ _ M) in Hj. fold u in Hj.
    rewrite nth_take by lia. apply (mv_pol _ _ _ _ _ M j Hj).
Qed.

Definition cells_from (to_b to_f to_p tb tf tp : list nat) (i j k : nat) : cplx * bool * Z :=
  match index_of Nat.eqb (nth i tb 0%nat) to_b, index_of Nat.eqb (nth j tf 0%nat) to_f, index_of Nat.eqb (nth k tp 0%nat) to_p with
  | Some i', Some j', Some k' => cell v i' j' k'
  | _, _, _ =>
      if (nth i tb 0 <? Nblts u)%nat && (nth j tf 0 <? Nfreqs u)%nat && (nth k tp 0 <? Npols u)%nat
      then cell u (nth (nth i tb 0%nat) sb 0%nat) (nth (nth j tf 0%nat) sf 0%nat) (nth (nth k tp 0%nat) sp 0%nat)
      else no_data
  end.

Record summed (r : freqobj) : Prop := {
  sm_axes : exists lrb lrf lrp tb tf tp to_b to_f to_p,
    (first_shared (0, 0) (blt_labels u) (blt_labels v) -> axis (0, 0) (blt_labels u) (blt_labels v) lrb sb nb to_b tb) /\
    (first_shared (0, 0) (chan_labels u) (chan_labels v) -> axis (0, 0) (chan_labels u) (chan_labels v) lrf sf nf to_f tf) /\
    (first_shared 0 (polarization_array u) (polarization_array v) ->
       axis 0 (polarization_array u) (polarization_array v) lrp sp np to_p tp) /\
    (length lrb = Nblts (fo_uvd r) /\ forall i, (i < Nblts (fo_uvd r))%nat -> row_label (fo_uvd r) i = nth i lrb (0, 0)) /\
    (length lrf = Nfreqs (fo_uvd r) /\ forall j, (j < Nfreqs (fo_uvd r))%nat -> chan_label (fo_uvd r) j = nth j lrf (0, 0)) /\
    (length lrp = Npols (fo_uvd r) /\ forall k, (k < Npols (fo_uvd r))%nat -> pol_label (fo_uvd r) k = nth k lrp 0) /\
    (forall i, (i < Nblts (fo_uvd r))%nat ->
       if (nth i tb 0 <? Nblts u)%nat
       then row_meta u (nth (nth i tb 0%nat) sb 0%nat) (fo_uvd r) i /\
            nth i (phase_center_id_array (fo_uvd r)) 0 = nth (nth (nth i tb 0%nat) sb 0%nat) (phase_center_id_array u) 0
       else row_meta v (nth (nth i tb 0 - Nblts u) nb 0)%nat (fo_uvd r) i /\
            nth i (phase_center_id_array (fo_uvd r)) 0 = nth (nth (nth i tb 0 - Nblts u) nb 0)%nat (phase_center_id_array v) 0) /\
    (forall j, (j < Nfreqs (fo_uvd r))%nat -> nth j (channel_width (fo_uvd r)) 0 =
       if (nth j tf 0 <? Nfreqs u)%nat then nth (nth (nth j tf 0%nat) sf 0%nat) (channel_width u) 0
       else nth (nth (nth j tf 0 - Nfreqs u) nf 0)%nat (channel_width v) 0) /\
    (forall i j k, (i < Nblts (fo_uvd r))%nat -> (j < Nfreqs (fo_uvd r))%nat -> (k < Npols (fo_uvd r))%nat ->
       cell (fo_uvd r) i j k = cells_from to_b to_f to_p tb tf tp i j k);
  sm_shape : blt_shaped (fo_uvd r);
  sm_ok : obj_ok r;
  sm_win : (forall d w p, flexpol = Some d -> dget Z.eqb w d = Ok p -> window_pol a w p \/ window_pol b w p) ->
           forall w p, window_pol r w p -> window_pol a w p \/ window_pol b w p;
  sm_rect : (0 < Nblts v)%nat -> rect_truthful (fo_uvd r) }.

Lemma join_effect r : join str_le (blt_labels u) nb nf np flexpol o b = Ok r -> summed r.
Proof.
  intros H. unfold join in H. fold u' v in H. cbv zeta in H.
  set (labels := blt_labels u ++ take (0, 0) (blt_labels v) nb) in H.
  set (tb := order_if nb (length labels)
    (argsort_by (fun i j => str_le (nth i labels (0, 0)) (nth j labels (0, 0))) (length labels))) in H.
  set (freqs := freq_array u' ++ take 0 (freq_array v) nf) in H.
  set (widths := channel_width u' ++ take 0 (channel_width v) nf) in H.
  set (flex := flex_spw_id_array u' ++ take 0 (flex_spw_id_array v) nf) in H.
  set (spws := match nf with [] => spw_array u' | _ => take 0 flex (first_positions flex) end) in H.
  apply bind_Ok in H as (fp & Hfp & H).
  set (tf := order_if nf (length freqs) (freq_order freqs flex spws)) in H.
  set (pls := polarization_array u' ++ take 0 (polarization_array v) np) in H.
  set (tp := order_if np (length pls) (argsortZ (map Z.abs pls))) in H.
  set (to_p := nonzero (fun p => isinZ p (polarization_array v)) pls) in H.
  set (to_f := nonzero (fun x => isinZ (fst x) spws && isinZ (fst x) (spw_array v) && memb pair_eqb x (chan_labels v))
                    (combine flex freqs)) in H.
  set (to_b := nonzero (fun x => memb pair_eqb x (blt_labels v)) labels) in H.
  destruct (negb _) eqn:Hlen; [discriminate|].
  apply bind_Ok in H as (w & H & E). injection E as <-.
  pose proof (set_rect_fields _ _ H) as (F1 & F2 & F3 & F4 & F5 & F6 & F7 & F8 & F9 & _).
  destruct F1 as (A1 & A2 & A3 & A4 & A5 & A6 & A7 & A8 & A9 & A10 & A11).
  destruct F2 as (B1 & B2 & B3 & B4).
  cbn [time_array lst_array ant_1_array ant_2_array baseline_array integration_time uvw_array phase_center_id_array
       phase_center_app_ra phase_center_app_dec phase_center_frame_pa freq_array channel_width flex_spw_id_array spw_array
       polarization_array data_array flag_array nsample_array] in *.
  (* the shapes *)
  assert (Su' : blt_shaped u') by apply (mv_shape _ _ _ _ _ M).
  assert (Nu' : Nblts u' = Nblts u) by apply (mv_nb _ _ _ _ _ M).
  assert (Nf' : Nfreqs u' = Nfreqs u) by apply (mv_nf _ _ _ _ _ M).
  assert (Np' : Npols u' = Npols u) by apply (mv_np _ _ _ _ _ M).
  destruct (mv_ok _ _ _ _ _ M) as ((Fu' & Nsp & Wsp) & Ofp). fold u' in Fu', Nsp, Wsp, Ofp.
  destruct Ob as ((Fv & NspV & WspV) & OfpV). fold v in Fv, NspV, WspV, OfpV.
  pose proof Fu' as (FL1 & FL2). pose proof Fv as (GL1 & GL2).
  assert (Llab : length labels = (Nblts u + length nb)%nat) by (unfold labels; rewrite app_length, take_length, Lb_u; reflexivity).
  assert (Lfr : length freqs = (Nfreqs u + length nf)%nat)
    by (unfold freqs; rewrite app_length, take_length; unfold Nfreqs in Nf' |- *; lia).
  assert (Lfx : length flex = length freqs) by (unfold flex, freqs; rewrite !app_length, !take_length; lia).
  assert (Lwd : length widths = length freqs) by (unfold widths, freqs; rewrite !app_length, !take_length; lia).
  assert (Lpl : length pls = (Npols u + length np)%nat)
    by (unfold pls; rewrite app_length, take_length; unfold Npols in Np' |- *; lia).
  (* the windows *)
  assert (Hsp : NoDup spws /\ forall x, In x flex <-> In x spws).
  { unfold spws. destruct nf as [|n0 nf0] eqn:En.
    - split; [exact Nsp|]. intros x. unfold flex. change (take 0 (flex_spw_id_array v) []) with (@nil Z). rewrite app_nil_r. apply Wsp.
    - pose proof (first_positions_spec flex) as Hap. split; [apply (appearance_NoDup flex), Hap|].
      intros x. symmetry. apply Hap. }
  destruct Hsp as (NDsp & Isp).
  assert (Pb : Permutation tb (seq 0 (Nblts u + length nb))).
  { rewrite <- Llab. apply order_if_perm, argsort_by_perm. }
  assert (Pf : Permutation tf (seq 0 (Nfreqs u + length nf))).
  { rewrite <- Lfr. apply order_if_perm. rewrite <- Lfx. apply freq_order_perm; [exact NDsp|]. intros x. apply Isp. }
  assert (Pp : Permutation tp (seq 0 (Npols u + length np))).
  { rewrite <- Lpl. apply order_if_perm. rewrite <- (map_length Z.abs pls). apply argsortZ_perm. }
  destruct (perm_seq_facts _ _ Pb) as (Ltb & _ & Btb & _).
  destruct (perm_seq_facts _ _ Pf) as (Ltf & _ & Btf & _).
  destruct (perm_seq_facts _ _ Pp) as (Ltp & _ & Btp & _).
  rewrite (data_order_perm _ _ Pb), (data_order_perm _ _ Pf), (data_order_perm _ _ Pp) in *.
  assert (NBw : Nblts w = (Nblts u + length nb)%nat).
  { unfold Nblts at 1. rewrite A1. unfold joined. rewrite take_length. exact Ltb. }
  assert (NFw : Nfreqs w = (Nfreqs u + length nf)%nat).
  { unfold Nfreqs at 1. rewrite B1, take_length. exact Ltf. }
  assert (NPw : Npols w = (Npols u + length np)%nat).
  { unfold Npols at 1. rewrite F3, take_length. exact Ltp. }
  (* the labels *)
  assert (Ech : combine flex freqs = take (0, 0) (chan_labels u) sf ++ take (0, 0) (chan_labels v) nf).
  { unfold flex, freqs. rewrite combine_app by exact FL2. rewrite <- chan_labels_moved. f_equal.
    apply combine_take, GL2. }
  assert (Epl : pls = take 0 (polarization_array u) sp ++ take 0 (polarization_array v) np).
  { unfold pls. rewrite <- pols_moved. reflexivity. }
  assert (Etof : to_f = nonzero (fun x => memb pair_eqb x (chan_labels v))
                          (chan_labels u ++ take (0, 0) (chan_labels v) nf)).
  { rewrite nf_eq. change (nonzero (fun x => memb pair_eqb x (chan_labels v)) (chan_labels u ++ take (0, 0) (chan_labels v) (new_in pair_eqb (chan_labels u) (chan_labels v))))
      with (t2o (0, 0) pair_eqb (chan_labels u) (chan_labels v)).
    rewrite <- (t2o_padded (0, 0) pair_eqb pair_eqb_spec _ _ NaF _ _ PF). unfold padded, new. rewrite <- nf_eq, Lf_u.
    fold sf. rewrite <- Ech. unfold to_f. apply nonzero_ext_in. intros (x & f) Hx. cbn [fst].
    destruct (memb pair_eqb (x, f) (chan_labels v)) eqn:E; [|apply andb_false_r].
    apply (memb_In pair_eqb pair_eqb_spec) in E. rewrite andb_true_r. apply andb_true_iff. split; apply isinZ_spec.
    - apply Isp. apply (in_combine_l _ _ _ _ Hx).
    - apply WspV. apply (in_combine_l _ _ _ _ E). }
  assert (Etop : to_p = nonzero (fun x => memb Z.eqb x (polarization_array v))
                          (polarization_array u ++ take 0 (polarization_array v) np)).
  { change (to_p = t2o 0 Z.eqb (polarization_array u) (polarization_array v)).
    rewrite <- (t2o_padded 0 Z.eqb Z.eqb_eq _ _ NaP _ _ PP). unfold padded, new. 
    change (order_of (length (polarization_array u)) (fst pols) (snd pols)) with sp. fold np. rewrite <- Epl. reflexivity. }
  set (lrb := take (0, 0) (take (0, 0) (blt_labels u) sb ++ take (0, 0) (blt_labels v) nb) tb).
  set (lrf := take (0, 0) (take (0, 0) (chan_labels u) sf ++ take (0, 0) (chan_labels v) nf) tf).
  set (lrp := take 0 (take 0 (polarization_array u) sp ++ take 0 (polarization_array v) np) tp).
  assert (Lsb : length sb = Nblts u) by apply (perm_seq_facts _ _ sb_perm).
  assert (Lsf : length sf = Nfreqs u) by apply (perm_seq_facts _ _ sf_perm).
  (* rows *)
  assert (HR : forall i, (i < Nblts w)%nat ->
       if (nth i tb 0 <? Nblts u)%nat
       then row_meta u (nth (nth i tb 0%nat) sb 0%nat) w i /\
            nth i (phase_center_id_array w) 0 = nth (nth (nth i tb 0%nat) sb 0%nat) (phase_center_id_array u) 0
       else row_meta v (nth (nth i tb 0 - Nblts u) nb 0)%nat w i /\
            nth i (phase_center_id_array w) 0 = nth (nth (nth i tb 0 - Nblts u) nb 0)%nat (phase_center_id_array v) 0).
  { intros i Hi. rewrite NBw in Hi. pose proof (Btb i Hi) as Hb. rewrite <- Ltb in Hi.
    destruct Su' as (C2 & C3 & C4 & C5 & C6 & C7 & C8 & C9 & C10 & C11). change (length (time_array u')) with (Nblts u') in *.
    rewrite Nu' in *. unfold row_meta. rewrite A1, A2, A3, A4, A5, A6, A7, A8, A9, A10, A11.
    rewrite !(nth_joined _ _ _ _ _ i (Nblts u)) by (assumption || exact Nu').
    apply Nat.ltb_lt in Hb. rewrite Hb. destruct (Nat.ltb_spec (nth i tb 0%nat) (Nblts u)) as [Hl|Hg].
    - apply (mv_row _ _ _ _ _ M _ Hl).
    - repeat split. }
  constructor; cbn [fo_uvd].
  - exists lrb, lrf, lrp, tb, tf, tp, to_b, to_f, to_p.
    split; [|split; [|split; [|split; [|split; [|split; [|split; [|split]]]]]]].
    + intros Hs. unfold lrb, sb. rewrite <- Lb_u. apply axis_intro; try assumption; [apply pair_eqb_spec|]. rewrite Lb_u. exact Pb.
    + intros Hs. rewrite Etof. unfold lrf, sf. rewrite <- Lf_u. rewrite nf_eq. apply axis_intro; try assumption; [apply pair_eqb_spec|].
      rewrite Lf_u, <- nf_eq. exact Pf.
    + intros Hs. rewrite Etop. unfold lrp, sp. apply axis_intro; try assumption. apply Z.eqb_eq.
    + split; [unfold lrb; rewrite take_length, Ltb; symmetry; exact NBw|]. intros i Hi. specialize (HR i Hi).
      rewrite NBw in Hi. pose proof (Btb i Hi) as Hb. unfold lrb. rewrite nth_take by lia.
      destruct (Nat.ltb_spec (nth i tb 0%nat) (Nblts u)) as [Hl|Hg]; destruct HR as ((R1 & _ & _ & _ & R5 & _) & _).
      * rewrite app_nth1 by (rewrite take_length; lia). rewrite nth_take by lia. rewrite blt_labels_nth by exact Sa.
        unfold row_label. rewrite R1, R5. reflexivity.
      * rewrite app_nth2 by (rewrite take_length; lia). rewrite take_length, Lsb, nth_take by lia. rewrite blt_labels_nth by exact Sb.
        unfold row_label. rewrite R1, R5. reflexivity.
    + split; [unfold lrf; rewrite take_length, Ltf; symmetry; exact NFw|]. intros j Hj. rewrite NFw, <- Ltf in Hj.
      unfold chan_label, lrf. rewrite B1, B3, !nth_take by exact Hj. rewrite <- Ech, combine_nth by exact Lfx. reflexivity.
    + split; [unfold lrp; rewrite take_length, Ltp; symmetry; exact NPw|]. intros k Hk. rewrite NPw, <- Ltp in Hk.
      unfold pol_label, lrp. rewrite F3, !nth_take by exact Hk. rewrite <- Epl. reflexivity.
    + exact HR.
    + assert (LW : length (channel_width u') = Nfreqs u) by (rewrite FL1; exact Nf').
      intros j Hj. rewrite NFw in Hj. pose proof (Btf j Hj) as Hb. rewrite B2. rewrite nth_take by lia. unfold widths.
      destruct (Nat.ltb_spec (nth j tf 0%nat) (Nfreqs u)) as [Hl|Hg].
      * rewrite app_nth1 by lia. apply (mv_chan _ _ _ _ _ M _ Hl).
      * rewrite app_nth2 by lia. rewrite LW, nth_take by lia. reflexivity.
    + intros i j k Hi Hj Hk. unfold cell at 1. rewrite F4, F5, F6. unfold take2, take1, take0, place, pad, cells_from.
      destruct (index_of Nat.eqb (nth i tb 0%nat) to_b), (index_of Nat.eqb (nth j tf 0%nat) to_f), (index_of Nat.eqb (nth k tp 0%nat) to_p);
        try reflexivity; rewrite Nu', Nf', Np';
        (destruct (Nat.ltb_spec (nth i tb 0%nat) (Nblts u)) as [Hl1|Hg1]; [|reflexivity]);
        (destruct (Nat.ltb_spec (nth j tf 0%nat) (Nfreqs u)) as [Hl2|Hg2]; [|reflexivity]);
        (destruct (Nat.ltb_spec (nth k tp 0%nat) (Npols u)) as [Hl3|Hg3]; [|reflexivity]); cbn [andb];
        apply (mv_cell _ _ _ _ _ M _ _ _ Hl1 Hl2 Hl3).
  - unfold blt_shaped. rewrite A1, A2, A3, A4, A5, A6, A7, A8, A9, A10, A11. unfold joined. rewrite !take_length. repeat split.
  - split; cbn [fo_uvd flex_spw_polarization_array].
    + split; [|split].
      * unfold freq_shaped. rewrite B1, B2, B3, !take_length. split; reflexivity.
      * rewrite B4. exact NDsp.
      * intros x. rewrite B3, B4, <- Isp.
        assert (P : Permutation (take 0 flex tf) flex) by (apply take_perm; rewrite Lfx, Lfr; exact Pf).
        split; apply Permutation_in; [|symmetry]; exact P.
    + intros fp' ->. rewrite B4. unfold spws. unfold spws in Hfp. destruct nf as [|n0 nf0].
      * injection Hfp as Hfp. apply Ofp. exact Hfp.
      * destruct flexpol as [d|]; [|discriminate]. apply bind_Ok in Hfp as (l & Hl & E). injection E as <-.
        apply mapM_Ok_length in Hl. exact Hl.
  - intros Hd x p (fp' & k & E & Hk & Ex & Ep). cbn [fo_uvd flex_spw_polarization_array] in *. rewrite B4 in Hk, Ex.
    unfold spws in Hfp, Hk, Ex. subst fp. destruct nf as [|n0 nf0].
    + injection Hfp as Hfp. left. apply (mv_win _ _ _ _ _ M). exists fp', k. auto.
    + destruct flexpol as [d|]; [|discriminate]. apply bind_Ok in Hfp as (l & Hl & E). injection E as ->.
      apply (Hd d x p eq_refl). rewrite <- Ex.
      pose proof (mapM_Ok_nth _ _ _ 0 0 Hl k Hk) as G. cbv beta in G. rewrite G. f_equal. apply (nth_error_nth _ _ 0 Ep).
  - intros Hv. apply set_rect_truthful in H; [exact H| | |].
    + cbn [time_array baseline_array]. unfold joined. rewrite !take_length. reflexivity.
    + split; apply distinct_count_unique; reflexivity.
    + cbn. destruct to_b eqn:E; [|split; discriminate].
      exfalso. apply negb_false_iff in Hlen. rewrite !andb_true_iff in Hlen.
      destruct Hlen as ((Hlen & _) & _). apply Nat.eqb_eq in Hlen. rewrite <- Hlen in Hv. inversion Hv.
Qed.
End Join.
