(** fast_concat *)
From Coq Require Import List ZArith Bool Arith QArith Lia String.
From Verif Require Import Lib.Py Lib.Np Lib.Cube Lib.Dict Model.UVData Model.Reorder Model.Freq Model.Tools Model.Times Model.PhaseCenter Model.Param Model.Add Model.Concat
  Spec.UVDataSpec Spec.BltSpec Spec.FreqSpec Spec.PhaseSpec Spec.AddSpec Spec.ConcatSpec
  Proofs.PhaseProofs Proofs.PhaseOps Proofs.PhaseConsolidate Proofs.ReorderProofs Proofs.FreqReorder Proofs.ParamProofs Proofs.ConcatCatalog.
Import ListNotations.
Notation length := List.length.
Open Scope Z_scope.

(** ** Blocks *)
Lemma list_sum_firstn sizes b i : (b < length sizes)%nat -> (i < nth b sizes 0)%nat -> locate sizes (list_sum (firstn b sizes) + i) = (b, i).
Proof.
  revert b i. induction sizes as [|n sizes IH]; intros [|b] i Hb Hi; cbn [length] in Hb; try lia; cbn [firstn list_sum fold_right nth locate] in *.
  - rewrite Nat.add_0_l. apply Nat.ltb_lt in Hi. rewrite Hi. reflexivity.
  - change (fold_right Init.Nat.add 0%nat (firstn b sizes)) with (list_sum (firstn b sizes)).
    destruct (n + list_sum (firstn b sizes) + i <? n)%nat eqn:E; [apply Nat.ltb_lt in E; lia|].
    replace (n + list_sum (firstn b sizes) + i - n)%nat with (list_sum (firstn b sizes) + i)%nat by lia.
    rewrite IH by (lia || assumption). reflexivity.
Qed.
Lemma locate_start (size : uvd -> nat) l b v i : nth_error l b = Some v -> (i < size v)%nat ->
  locate (map size l) (start size l b + i) = (b, i).
Proof.
  intros Hb Hi. unfold start. rewrite <- firstn_map. apply list_sum_firstn.
  - rewrite map_length. apply nth_error_Some. congruence.
  - rewrite (nth_error_nth (map size l) b 0%nat (x := size v)); [exact Hi|]. apply map_nth_error. exact Hb.
Qed.
Lemma nth_block {A} (get : uvd -> list A) (size : uvd -> nat) l b v i d : (forall u, In u l -> length (get u) = size u) ->
  nth_error l b = Some v -> (i < size v)%nat -> nth (start size l b + i) (cat get l) d = nth i (get v) d.
Proof.
  unfold start, cat. intros Hs. revert b. induction l as [|u l IH]; intros [|b] Hb Hi; cbn [nth_error] in Hb; try discriminate.
  - injection Hb as ->. cbn [firstn map list_sum fold_right List.concat]. rewrite Nat.add_0_l, app_nth1; [reflexivity|]. rewrite Hs by (left; reflexivity). exact Hi.
  - cbn [firstn map list_sum fold_right List.concat].
    change (fold_right Init.Nat.add 0%nat (map size (firstn b l))) with (list_sum (map size (firstn b l))).
    rewrite app_nth2; rewrite (Hs u (or_introl eq_refl)); [|lia].
    replace (size u + list_sum (map size (firstn b l)) + i - size u)%nat with (list_sum (map size (firstn b l)) + i)%nat by lia.
    apply IH; [intros w Hw; apply Hs; right; exact Hw|exact Hb|exact Hi].
Qed.
Lemma cat_length {A} (get : uvd -> list A) (size : uvd -> nat) l : (forall u, In u l -> length (get u) = size u) -> length (cat get l) = total size l.
Proof.
  unfold cat, total. induction l as [|u l IH]; intros Hs; [reflexivity|]. cbn [map List.concat list_sum fold_right]. rewrite app_length, Hs by (left; reflexivity).
  f_equal. apply IH. intros w Hw. apply Hs. right. exact Hw.
Qed.

(** ** The objects after merging the catalogs *)
Definition renumbered (a : addobj) (s : pcobj) : Prop := length (pc_ids s) = length (phase_center_id_array (ad_uvd a)).
Lemma merge_keeps pop ign fuel objs cats : merge_all fuel pop ign (map pc_of objs) = Ok cats -> Forall2 renumbered objs cats.
Proof.
  apply (merge_all_rel addobj renumbered).
  - intros x y a b a' H1 H2 E. unfold renumbered in *. rewrite (consolidate_length _ _ _ _ _ E). exact H1.
  - induction objs; cbn [map]; constructor; [reflexivity|assumption].
Qed.
Lemma Forall2_len {A B} (R : A -> B -> Prop) l m : Forall2 R l m -> length l = length m.
Proof. induction 1; cbn; congruence. Qed.

Definition join (axis : concat_axis) (u : uvd) (l : list uvd) : uvd :=
  match axis with AxBlt => join_blt u l | AxFreq => join_freq u l | AxPol => join_pol u l end.
Definition moved (p : addobj * pcobj) : addobj := with_pc (fst p) (snd p).

Lemma concat_inv pop t ign axis a others r : fast_concat pop t ign axis a others = Ok r ->
  exists s ss w, merge_all (S (length others)) pop ign (map pc_of (a :: others)) = Ok (s :: ss) /\
    renumbered a s /\ Forall2 renumbered others ss /\
    (forall b, In b (map moved (combine others ss)) -> concat_compatible t axis (with_pc a s) b = true) /\
    set_rectangularity true (join axis (ad_uvd (with_pc a s)) (map ad_uvd (with_pc a s :: map moved (combine others ss)))) = Ok w /\
    ad_uvd r = w /\ centers r = mkpc (pc_cat s) (pc_n s) (phase_center_id_array w) /\
    flex_spw_polarization_array (ad_freq r) = flex_spw_polarization_array (ad_freq a).
Proof.
  unfold fast_concat. intros H. apply bind_Ok in H as (cats & E & H).
  pose proof (merge_keeps _ _ _ _ _ E) as K. inversion K as [|? s ? ss K1 K2]; subst. cbn [combine map fst snd] in H.
  change (map (fun p : addobj * pcobj => with_pc (fst p) (snd p)) (combine others ss)) with (map moved (combine others ss)) in H.
  destruct (forallb _ _) eqn:F; [|discriminate]. cbn [negb] in H. apply bind_Ok in H as (w & W & H). injection H as <-.
  exists s, ss, w. split; [exact E|]. split; [exact K1|]. split; [exact K2|].
  rewrite forallb_forall in F. split; [exact F|]. split; [exact W|]. split; [reflexivity|]. split; [reflexivity|]. reflexivity.
Qed.

(** everything but the ids is as it was *)
Lemma moved_nth others ss b v : Forall2 renumbered others ss -> nth_error (map ad_uvd others) b = Some v ->
  exists ids, length ids = length (phase_center_id_array v) /\
    nth_error (map ad_uvd (map moved (combine others ss))) b = Some (set_phase_center_id_array ids v).
Proof.
  intros H. revert b. induction H as [|o s os ss H1 H2 IH]; intros [|b] Hb; try discriminate; cbn [map combine nth_error] in *.
  - injection Hb as <-. exists (pc_ids s). split; [exact H1|reflexivity].
  - apply IH. exact Hb.
Qed.
Lemma moved_sizes {A} (f : uvd -> A) others ss : (forall ids u, f (set_phase_center_id_array ids u) = f u) -> Forall2 renumbered others ss ->
  map f (map ad_uvd (map moved (combine others ss))) = map f (map ad_uvd others).
Proof.
  intros Hf H. induction H as [|o s os ss H1 H2 IH]; [reflexivity|]. cbn [map combine]. rewrite IH. f_equal. apply Hf.
Qed.
Lemma start_map size (l m : list uvd) b : map size l = map size m -> start size l b = start size m b.
Proof. unfold start. intros H. rewrite <- !firstn_map, H. reflexivity. Qed.
Lemma moved_In others ss u : Forall2 renumbered others ss -> In u (map ad_uvd (map moved (combine others ss))) ->
  exists ids v, In v (map ad_uvd others) /\ u = set_phase_center_id_array ids v /\ length ids = length (phase_center_id_array v).
Proof.
  intros H. induction H as [|o s os ss H1 H2 IH]; intros []; cbn [map combine] in *.
  - subst u. exists (pc_ids s), (ad_uvd o). split; [left; reflexivity|]. split; [reflexivity|exact H1].
  - destruct (IH H) as (ids & v & H3 & H4). exists ids, v. split; [right; exact H3|exact H4].
Qed.

Lemma row_meta_same u u' i w i' : same_blt_axis u u' -> row_meta w i' u i -> row_meta w i' u' i.
Proof.
  intros (A1 & A2 & A3 & A4 & A5 & A6 & A7 & A8 & A9 & A10 & A11). unfold row_meta. rewrite A1, A2, A3, A4, A5, A6, A7, A9, A10, A11. auto.
Qed.
Lemma blt_shaped_ids ids u : length ids = length (phase_center_id_array u) -> blt_shaped u -> blt_shaped (set_phase_center_id_array ids u).
Proof. unfold blt_shaped. cbn. intros -> H. exact H. Qed.
Lemma blt_shaped_same u u' : same_blt_axis u u' -> blt_shaped u -> blt_shaped u'.
Proof.
  intros (A1 & A2 & A3 & A4 & A5 & A6 & A7 & A8 & A9 & A10 & A11). unfold blt_shaped. rewrite A1, A2, A3, A4, A5, A6, A7, A8, A9, A10, A11. auto.
Qed.

Section Result.
Variables (pop : list Z -> Z) (t : concat_tols) (ign : bool) (a : addobj) (others : list addobj) (r : addobj).
Let L := map ad_uvd (a :: others).
Let u := ad_uvd a.
Let w := ad_uvd r.

(** the arrays of the objects that are put together *)
Lemma joined axis : fast_concat pop t ign axis a others = Ok r ->
  exists ids0 M, length ids0 = length (phase_center_id_array u) /\
  nth_error M 0 = Some (set_phase_center_id_array ids0 u) /\
  (forall b v, nth_error L b = Some v -> exists ids, length ids = length (phase_center_id_array v) /\ nth_error M b = Some (set_phase_center_id_array ids v)) /\
  (forall v', In v' M -> exists ids v, In v L /\ v' = set_phase_center_id_array ids v /\ length ids = length (phase_center_id_array v)) /\
  (forall f : uvd -> nat, (forall ids v, f (set_phase_center_id_array ids v) = f v) -> map f M = map f L) /\
  set_rectangularity true (join axis (set_phase_center_id_array ids0 u) M) = Ok w.
Proof.
  intros H. destruct (concat_inv _ _ _ _ _ _ _ H) as (s & ss & w' & _ & K1 & K2 & _ & W & E & _).
  exists (pc_ids s), (map ad_uvd (with_pc a s :: map moved (combine others ss))).
  split; [exact K1|]. split; [reflexivity|]. split; [|split; [|split]].
  - intros [|b] v Hb.
    + injection Hb as <-. exists (pc_ids s). split; [exact K1|reflexivity].
    + apply (moved_nth _ _ _ _ K2 Hb).
  - intros v' [<-|Hv].
    + exists (pc_ids s), u. split; [left; reflexivity|]. split; [reflexivity|exact K1].
    + destruct (moved_In _ _ _ K2 Hv) as (ids & v & H1 & H2). exists ids, v. split; [right; exact H1|exact H2].
  - intros f Hf. cbn [map]. apply (f_equal2 cons); [apply (Hf (pc_ids s) u)|apply moved_sizes; assumption].
  - unfold w. rewrite E. exact W.
Qed.

Lemma start_joined (f : uvd -> nat) M b : map f M = map f L -> start f M b = start f L b.
Proof. apply start_map. Qed.

Hypothesis Hsh : forall o, In o (a :: others) -> blt_shaped (ad_uvd o).
Lemma L_shaped v : In v L -> blt_shaped v.
Proof. intros H. apply in_map_iff in H as (o & <- & Ho). apply Hsh, Ho. Qed.

Lemma concat_blts : fast_concat pop t ign AxBlt a others = Ok r ->
  Nblts w = total Nblts L /\ blt_shaped w /\ counts_ok w /\
  (forall b v i, nth_error L b = Some v -> (i < Nblts v)%nat ->
     row_meta v i w (start Nblts L b + i) /\ forall j k, cell w (start Nblts L b + i) j k = cell v i j k) /\
  same_freq_axis u w /\ polarization_array w = polarization_array u.
Proof.
  intros H. destruct (joined AxBlt H) as (ids0 & M & HL0 & M0 & MN & MI & MS & W).
  pose proof (L_shaped) as LS.
  destruct (set_rect_fields _ _ W) as (F1 & F2 & F3 & F4 & F5 & F6 & F7 & F8 & F9 & _).
  set (x := join AxBlt (set_phase_center_id_array ids0 u) M) in *.
  assert (MSh : forall v, In v M -> blt_shaped v).
  { intros v Hv. destruct (MI v Hv) as (ids & v0 & H1 & -> & H2). apply blt_shaped_ids; auto. }
  assert (SN : map Nblts M = map Nblts L) by (apply MS; reflexivity).
  assert (T : total Nblts M = total Nblts L) by (unfold total; rewrite SN; reflexivity).
  assert (XN : Nblts x = total Nblts L).
  { rewrite <- T. unfold x, join, join_blt, Nblts at 1. cbn. apply cat_length. reflexivity. }
  assert (XS : blt_shaped x).
  { unfold blt_shaped. change (length (time_array x)) with (Nblts x). rewrite XN, <- T.
    unfold x, join, join_blt. cbn.
    repeat (apply conj); apply cat_length; intros v Hv; destruct (MSh v Hv) as (? & ? & ? & ? & ? & ? & ? & ? & ? & ?); assumption. }
  assert (WN : Nblts w = total Nblts L).
  { rewrite <- XN. unfold Nblts. destruct F1 as (A1 & _). rewrite A1. reflexivity. }
  split; [exact WN|]. split; [apply (blt_shaped_same x); [exact F1|exact XS]|]. split.
  { unfold counts_ok. destruct F1 as (A1 & _ & _ & _ & A5 & _). rewrite A1, A5, F8, F9. unfold x, join, join_blt. cbn.
    split; (eexists; split; [|split; [|reflexivity]]); [apply uniqueZ_NoDup|intros y; apply uniqueZ_In|apply uniqueZ_NoDup|intros y; apply uniqueZ_In]. }
  split; [|split].
  - intros b v i Hb Hi. destruct (MN b v Hb) as (ids & Hl & Hm). split.
    + apply (row_meta_same x w); [exact F1|]. rewrite <- (start_joined Nblts M b SN).
      assert (G : forall A (get : uvd -> list A) d, (forall y, get (set_phase_center_id_array y v) = get v) -> (forall q, In q M -> length (get q) = Nblts q) ->
        nth (start Nblts M b + i) (cat get M) d = nth i (get v) d).
      { intros A get d Hg Hq. rewrite (nth_block get Nblts M b _ i d Hq Hm Hi). rewrite Hg. reflexivity. }
      unfold row_meta, x, join, join_blt. cbn.
      repeat (apply conj); (apply G; [reflexivity|]); intros q Hq; destruct (MSh q Hq) as (? & ? & ? & ? & ? & ? & ? & ? & ? & ?); try assumption; reflexivity.
    + intros j k. unfold cell. rewrite F4, F5, F6. unfold x, join, join_blt. cbn [data_array flag_array nsample_array]. unfold cat0.
      rewrite <- (start_joined Nblts M b SN), (locate_start Nblts M b _ i Hm Hi). rewrite !(nth_error_nth _ _ _ Hm). reflexivity.
  - exact F2.
  - exact F3.
Qed.

Hypothesis Hfs : forall o, In o (a :: others) -> freq_shaped (ad_uvd o).
Lemma concat_freqs : fast_concat pop t ign AxFreq a others = Ok r ->
  Nfreqs w = total Nfreqs L /\ freq_shaped w /\
  (forall b v j, nth_error L b = Some v -> (j < Nfreqs v)%nat -> chan_copied v j w (start Nfreqs L b + j)) /\
  appearance_order (flex_spw_id_array w) (spw_array w) /\
  rows_kept u w /\ blt_shaped w /\ polarization_array w = polarization_array u.
Proof.
  intros H. destruct (joined AxFreq H) as (ids0 & M & HL0 & M0 & MN & MI & MS & W).
  destruct (set_rect_fields _ _ W) as (F1 & F2 & F3 & F4 & F5 & F6 & F7 & F8 & F9 & _).
  set (x := join AxFreq (set_phase_center_id_array ids0 u) M) in *.
  assert (MSh : forall v, In v M -> freq_shaped v).
  { intros v Hv. destruct (MI v Hv) as (ids & v0 & H1 & -> & H2). apply in_map_iff in H1 as (o & <- & Ho). apply (Hfs o Ho). }
  assert (SN : map Nfreqs M = map Nfreqs L) by (apply MS; reflexivity).
  assert (T : total Nfreqs M = total Nfreqs L) by (unfold total; rewrite SN; reflexivity).
  assert (XN : Nfreqs x = total Nfreqs L).
  { rewrite <- T. unfold x, join, join_freq, Nfreqs at 1. cbn. apply cat_length. reflexivity. }
  destruct F2 as (B1 & B2 & B3 & B4).
  split; [unfold Nfreqs at 1; rewrite B1; exact XN|]. split.
  { unfold freq_shaped. rewrite B1, B2, B3. change (length (freq_array x)) with (Nfreqs x). rewrite XN, <- T. unfold x, join, join_freq. cbn.
    split; apply cat_length; intros v Hv; destruct (MSh v Hv) as [? ?]; assumption. }
  split; [|split; [|split; [|split]]].
  - intros b v j Hb Hj. destruct (MN b v Hb) as (ids & Hl & Hm). unfold chan_copied. rewrite B1, B2, B3, F4, F5, F6, <- (start_joined Nfreqs M b SN).
    assert (G : forall A (get : uvd -> list A) d, (forall y, get (set_phase_center_id_array y v) = get v) -> (forall q, In q M -> length (get q) = Nfreqs q) ->
        nth (start Nfreqs M b + j) (cat get M) d = nth j (get v) d).
    { intros A get d Hg Hq. rewrite (nth_block get Nfreqs M b _ j d Hq Hm Hj). rewrite Hg. reflexivity. }
    unfold x, join, join_freq. cbn.
    do 3 (apply conj; [apply G; [reflexivity|]; intros q Hq; destruct (MSh q Hq) as [? ?]; try assumption; reflexivity|]).
    intros i k. unfold cat1. rewrite (locate_start Nfreqs M b _ j Hm Hj), !(nth_error_nth _ _ _ Hm). split; [|split]; reflexivity.
  - rewrite B3, B4. unfold x, join, join_freq. cbn. apply first_positions_spec.
  - split; [unfold Nblts; destruct F1 as (A1 & _); rewrite A1; reflexivity|]. intros i. apply (row_meta_same x w); [exact F1|]. repeat split.
  - apply (blt_shaped_same x); [exact F1|]. change (blt_shaped (set_phase_center_id_array ids0 u)).
    apply blt_shaped_ids; [exact HL0|]. apply Hsh. left. reflexivity.
  - exact F3.
Qed.

Lemma concat_pols : fast_concat pop t ign AxPol a others = Ok r ->
  Npols w = total Npols L /\
  (forall b v k, nth_error L b = Some v -> (k < Npols v)%nat -> pol_copied v k w (start Npols L b + k)) /\
  rows_kept u w /\ blt_shaped w /\ same_freq_axis u w.
Proof.
  intros H. destruct (joined AxPol H) as (ids0 & M & HL0 & M0 & MN & MI & MS & W).
  destruct (set_rect_fields _ _ W) as (F1 & F2 & F3 & F4 & F5 & F6 & F7 & F8 & F9 & _).
  set (x := join AxPol (set_phase_center_id_array ids0 u) M) in *.
  assert (SN : map Npols M = map Npols L) by (apply MS; reflexivity).
  assert (T : total Npols M = total Npols L) by (unfold total; rewrite SN; reflexivity).
  split; [unfold Npols at 1; rewrite F3, <- T; unfold x, join, join_pol; cbn; apply cat_length; reflexivity|].
  split; [|split; [|split]].
  - intros b v k Hb Hk. destruct (MN b v Hb) as (ids & Hl & Hm). unfold pol_copied. rewrite F3, F4, F5, F6, <- (start_joined Npols M b SN).
    unfold x, join, join_pol. cbn. split.
    + rewrite (nth_block polarization_array Npols M b _ k 0 (fun _ _ => eq_refl) Hm Hk). reflexivity.
    + intros i j. unfold cat2. rewrite (locate_start Npols M b _ k Hm Hk), !(nth_error_nth _ _ _ Hm). split; [|split]; reflexivity.
  - split; [unfold Nblts; destruct F1 as (A1 & _); rewrite A1; reflexivity|]. intros i. apply (row_meta_same x w); [exact F1|]. repeat split.
  - apply (blt_shaped_same x); [exact F1|]. change (blt_shaped (set_phase_center_id_array ids0 u)).
    apply blt_shaped_ids; [exact HL0|]. apply Hsh. left. reflexivity.
  - exact F2.
Qed.
End Result.

(** ** Compatibility *)
Lemma closeZ_near t x y : closeZ t x y = true <-> nearZ t x y.
Proof. unfold closeZ, nearZ. apply isclose_near. Qed.
Lemma same_arr_near t x y : same_arr t x y = true <-> arrays_near t x y.
Proof. unfold same_arr, arrays_near. apply list_eqb_Forall2. apply closeZ_near. Qed.
Lemma close3_near t x y : close3 t x y = true <-> near3 t x y.
Proof.
  destruct x as [[x1 x2] x3], y as [[y1 y2] y3]. unfold close3, near3. cbn [fst snd]. rewrite !andb_true_iff, !closeZ_near. tauto.
Qed.

Lemma compatible_fits t axis a b : concat_compatible t axis a b = true <->
  fits t axis a b /\ (axis = AxBlt \/ arrays_near (ct_default t) (phase_center_id_array (ad_uvd a)) (phase_center_id_array (ad_uvd b))).
Proof.
  unfold concat_compatible, fits, same_rows, rows_near. cbv zeta.
  destruct axis; rewrite !andb_true_iff, !same_arr_near, !Z.eqb_eq, ?(list_eqb_Forall2 _ _ (close3_near (ct_uvw t))); try (intuition congruence).
Qed.
