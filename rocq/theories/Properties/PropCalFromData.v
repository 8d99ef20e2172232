(** C100: calibration objects made for data objects. *)
From Coq Require Import List ZArith Bool Arith Lia Sorted.
From Verif Require Import Lib.Py Lib.Np Lib.Sorting Model.NewData Model.CalFromData Spec.CalFromDataSpec Proofs.CalFromDataProofs.
Import ListNotations.
Notation length := List.length.
Open Scope list_scope.
Open Scope Z_scope.

(** Antennas chosen by number or by name: exactly those chosen, each with its own name and
    position, in increasing order of numbers. *)
Theorem C100_antennas : forall t (by_num : bool) l t',
  length (t_names t) = length (t_nums t) -> length (t_pos t) = length (t_nums t) -> NoDup (t_nums t) ->
  new_tel t (if by_num then Some l else None) (if by_num then None else Some l) = Ok t' ->
  let chosen i := (i < length (t_nums t))%nat /\ In (nth i (if by_num then t_nums t else t_names t) 0) l in
  (forall k, (k < length (t_nums t'))%nat -> exists i, chosen i /\ same_row (t_nums t) (t_names t) (t_pos t) (t_nums t') (t_names t') (t_pos t') i k) /\
  (forall i, chosen i -> exists k, (k < length (t_nums t'))%nat /\ same_row (t_nums t) (t_names t) (t_pos t) (t_nums t') (t_names t') (t_pos t') i k) /\
  StronglySorted Z.lt (t_nums t') /\ length (t_names t') = length (t_nums t') /\ length (t_pos t') = length (t_nums t').
Proof.
  intros t by_num l t' L1 L2 ND H. destruct (new_tel_ok _ _ _ _ H) as (E1 & E2 & E3 & _ & SO). clear H.
  set (key := if by_num then t_nums t else t_names t) in *. set (idx := sel_idx t key l) in *. cbn zeta.
  assert (LK : length key = length (t_nums t)) by (unfold key; destruct by_num; congruence).
  assert (CI : forall i, In i idx <-> (i < length (t_nums t))%nat /\ In (nth i key 0) l) by (intros i; rewrite <- LK; apply sel_In).
  assert (LN : length (t_nums t') = length idx) by (rewrite E1; apply take_length).
  assert (RW : forall k, (k < length idx)%nat -> same_row (t_nums t) (t_names t) (t_pos t) (t_nums t') (t_names t') (t_pos t') (nth k idx 0%nat) k).
  { intros k K. assert (B : (nth k idx 0 < length (t_nums t))%nat) by (apply CI, nth_In, K).
    rewrite E1, E2, E3. split; [|split]; apply nth_error_take; lia. }
  split; [|split; [|split; [|split]]].
  - intros k K. rewrite LN in K. exists (nth k idx 0%nat). split; [apply CI, nth_In, K|apply RW, K].
  - intros i C. apply CI in C. destruct (In_nth _ _ 0%nat C) as (k & K & <-). exists k. split; [lia|apply RW, K].
  - apply (proj2 (StronglySorted_nth Z.lt 0 _)). intros i j Hij Hj.
    assert (LE : nth i (t_nums t') 0 <= nth j (t_nums t') 0) by (apply (proj1 (StronglySorted_nth Z.le 0 _) SO); lia).
    destruct (Z.eq_dec (nth i (t_nums t') 0) (nth j (t_nums t') 0)) as [E|E]; [|lia]. exfalso.
    rewrite E1 in E. rewrite !(nth_take 0 0) in E by lia.
    apply (proj1 (NoDup_nth (t_nums t) 0) ND) in E; [|apply CI, nth_In; lia|apply CI, nth_In; lia].
    apply (proj1 (NoDup_nth idx 0%nat) (sel_NoDup t key l)) in E; lia.
  - rewrite E2, LN. apply take_length.
  - rewrite E3, LN. apply take_length.
Qed.
Print Assumptions C100_antennas.

(** So are diameters, if the telescope lists its antennas in increasing order. *)
Theorem C100_diameters : forall t (by_num : bool) l t' d,
  length (t_names t) = length (t_nums t) -> length (t_pos t) = length (t_nums t) -> StronglySorted Z.lt (t_nums t) ->
  t_diams t = Some d -> length d = length (t_nums t) ->
  new_tel t (if by_num then Some l else None) (if by_num then None else Some l) = Ok t' ->
  exists d', t_diams t' = Some d' /\ length d' = length (t_nums t') /\
  forall i k, (k < length (t_nums t'))%nat -> nth_error (t_nums t') k = nth_error (t_nums t) i -> nth_error d' k = nth_error d i.
Proof.
  intros t by_num l t' d L1 L2 SO D LD H. destruct (new_tel_ok _ _ _ _ H) as (E1 & _ & _ & E4 & _). clear H.
  set (key := if by_num then t_nums t else t_names t) in *.
  assert (LK : length key = length (t_nums t)) by (unfold key; destruct by_num; congruence).
  rewrite (sel_sorted t key l SO LK) in E1. set (idx := nonzero (fun v => isinZ v l) key) in *. rewrite D in E4. cbn [option_map] in E4.
  exists (take 0 d idx). split; [exact E4|]. split; [rewrite E1, !take_length; reflexivity|].
  intros i k K E. rewrite E1, take_length in K.
  assert (B : (nth k idx 0 < length key)%nat) by (apply (nonzero_lt (fun v => isinZ v l)); apply nth_In; exact K).
  rewrite E1 in E. rewrite nth_error_take in E by lia. rewrite nth_error_take by lia.
  assert (I : nth_error (t_nums t) (nth k idx 0%nat) <> None) by (apply nth_error_Some; lia).
  apply (proj1 (NoDup_nth_error (t_nums t)) (StronglySorted_Zlt_NoDup _ SO)) in E; [congruence|lia].
Qed.
Print Assumptions C100_diameters.

(** Numbers and names together are refused. *)
Theorem C100_both_refused : forall t l l', new_tel t (Some l) (Some l') = Err ValueError.
Proof. reflexivity. Qed.
Print Assumptions C100_both_refused.

(** Antennas with solutions: those with data, or asked for, that the telescope has, each once, in order. *)
Theorem C100_solutions : forall u t ants,
  StronglySorted Z.lt (new_ants u t ants) /\
  forall a, In a (new_ants u t ants) <-> In a (t_nums t) /\ match ants with Some l => In a l | None => In a (s_ant1 u) \/ In a (s_ant2 u) end.
Proof.
  intros u t ants. unfold new_ants. split; [apply StronglySorted_filter, uniqueZ_sorted|].
  intros a. rewrite filter_In, uniqueZ_In, isinZ_spec. destruct ants; [tauto|]. rewrite in_app_iff. tauto.
Qed.
Print Assumptions C100_solutions.

(** Times: those of the data, each once, increasing, with the integration time of the first record of the time. *)
Theorem C100_times : forall u, length (s_ints u) = length (s_times u) ->
  StronglySorted Z.lt (fst (time_params u)) /\ length (snd (time_params u)) = length (fst (time_params u)) /\
  (forall t, In t (fst (time_params u)) <-> In t (s_times u)) /\
  forall k t, nth_error (fst (time_params u)) k = Some t -> exists r, first_at (s_times u) t r /\ nth_error (snd (time_params u)) k = nth_error (s_ints u) r.
Proof.
  intros u L. unfold time_params. cbn [fst snd]. set (pos := fun t => match index_of Z.eqb t (s_times u) with Some i => i | None => 0%nat end).
  assert (P : forall t, In t (s_times u) -> (pos t < length (s_times u))%nat /\ nth (pos t) (s_times u) 0 = t /\ forall j, (j < pos t)%nat -> nth j (s_times u) 0 <> t).
  { intros t I. unfold pos. destruct (index_of Z.eqb t (s_times u)) as [i|] eqn:E.
    - apply (index_of_Some _ Z.eqb_eq 0) in E. exact E.
    - apply (index_of_None _ Z.eqb_eq) in E. contradiction. }
  assert (E : take 0 (s_times u) (map pos (uniqueZ (s_times u))) = uniqueZ (s_times u)).
  { unfold take. rewrite map_map. rewrite <- (map_id (uniqueZ (s_times u))) at 2. apply map_ext_in. intros t I. apply (proj1 (uniqueZ_In _ _)) in I. apply P, I. }
  rewrite E. split; [apply uniqueZ_sorted|]. split; [rewrite take_length, map_length; reflexivity|]. split; [intros t; apply uniqueZ_In|].
  intros k t K. assert (I : In t (s_times u)) by (apply uniqueZ_In; apply nth_error_In in K; exact K). destruct (P t I) as (B & N & F).
  exists (pos t). split.
  - split; [rewrite <- N at 2; apply nth_error_nth'; exact B|]. intros j J X. apply (F j J). apply (nth_error_nth _ _ 0) in X. exact X.
  - assert (KL : (k < length (uniqueZ (s_times u)))%nat) by (apply nth_error_Some; congruence).
    assert (NK : nth k (map pos (uniqueZ (s_times u))) 0%nat = pos t).
    { rewrite (nth_map pos _ _ 0 0%nat) by exact KL. f_equal. apply (nth_error_nth _ _ 0) in K. exact K. }
    rewrite nth_error_take; [rewrite NK; reflexivity|rewrite map_length; exact KL|rewrite NK; lia].
Qed.
Print Assumptions C100_times.

(** One solution per channel: channels, widths and windows are those of the data. *)
Theorem C100_channels : forall u spws, 
  (spws = None -> exists ids ws, narrow_params u spws = Ok (s_freqs u, s_widths u, (ids, ws)) /\ ids = s_ids u /\ StronglySorted Z.lt ws /\ forall w, In w ws <-> In w (s_ids u)) /\
  (forall s, spws = Some s -> (forall ws, NoDup ws -> (forall w, In w ws <-> In w (s_ids u)) -> length ws <> length s) -> narrow_params u spws = Err ValueError).
Proof.
  intros u spws. split.
  - intros ->. exists (s_ids u), (uniqueZ (s_ids u)). split; [reflexivity|]. split; [reflexivity|]. split; [apply uniqueZ_sorted|]. intros w. apply uniqueZ_In.
  - intros s -> H. unfold narrow_params. specialize (H (uniqueZ (s_ids u)) (uniqueZ_NoDup _) (fun w => uniqueZ_In w _)).
    rewrite (proj2 (Nat.eqb_neq _ _)) by congruence. reflexivity.
Qed.
Print Assumptions C100_channels.

(** One solution per window: the windows of the data, or those listed, each with the lowest and
    highest frequency of its channels; a listed window without channels is refused. *)
Theorem C100_windows : forall u spws, length (s_ids u) = length (s_freqs u) ->
  (forall ws rs, wide_params u spws None = Ok (ws, rs) ->
    length rs = length ws /\ (forall k w, nth_error ws k = Some w -> exists lo hi, nth_error rs k = Some (lo, hi) /\ window_range (s_ids u) (s_freqs u) w lo hi) /\
    match spws with Some s => ws = s | None => StronglySorted Z.lt ws /\ forall w, In w ws <-> In w (s_ids u) end) /\
  ((forall s w, spws = Some s -> In w s -> In w (s_ids u)) -> exists r, wide_params u spws None = Ok r) /\
  (forall s w, spws = Some s -> In w s -> ~ In w (s_ids u) -> wide_params u spws None = Err ValueError).
Proof.
  intros u spws L. unfold wide_params. set (ws0 := match spws with Some s => s | None => uniqueZ (s_ids u) end).
  set (f := fun w => range_of (mask_select (map (Z.eqb w) (s_ids u)) (s_freqs u))).
  assert (FE : forall w e, f w = Err e -> e = ValueError) by (intros w e; unfold f, range_of; destruct (mask_select _ _); [congruence|discriminate]).
  assert (FO : forall w, In w (s_ids u) -> exists r, f w = Ok r).
  { intros w I. unfold f, range_of. destruct (mask_select _ _) eqn:E; [|eexists; reflexivity]. exfalso. destruct (In_nth _ _ 0 I) as (c & C & N).
    assert (X : In (nth c (s_freqs u) 0) (mask_select (map (Z.eqb w) (s_ids u)) (s_freqs u))).
    { apply window_In; [exact L|]. exists c. split; [rewrite <- N; apply nth_error_nth'; exact C|apply nth_error_nth'; lia]. }
    rewrite E in X. exact X. }
  split; [|split].
  - intros ws rs H. apply bind_Ok in H as (r & H & E). injection E as <- <-. split; [exact (mapM_Ok_length _ _ _ H)|]. split.
    + intros k w K. apply mapM_Ok_Forall2 in H. clear FO FE. revert k K. induction H as [|x y l l' Hf _ IH]; intros [|k] K; try discriminate; cbn in *.
      * injection K as ->. destruct y as [lo hi]. exists lo, hi. split; [reflexivity|]. destruct (range_of_spec _ _ _ Hf) as (I1 & I2 & B).
        apply window_In in I1; [|exact L]. apply window_In in I2; [|exact L]. split; [exact I1|]. split; [exact I2|].
        intros c g C G. apply B, window_In; [exact L|]. exists c. auto.
      * apply (IH k K).
    + unfold ws0. destruct spws; [reflexivity|]. split; [apply uniqueZ_sorted|]. intros w. apply uniqueZ_In.
  - intros H. assert (A : forall w, In w ws0 -> In w (s_ids u)).
    { unfold ws0. destruct spws as [s|]; [intros w; apply H; reflexivity|]. intros w. apply uniqueZ_In. }
    clearbody ws0. assert (M : forall l, (forall w, In w l -> In w (s_ids u)) -> exists r, mapM f l = Ok r).
    { induction l as [|w l IH]; intros B; [eexists; reflexivity|]. cbn [mapM]. destruct (FO w (B w (or_introl eq_refl))) as (r & ->). cbn [bind].
      destruct IH as (rs & ->); [intros; apply B; right; assumption|]. eexists. reflexivity. }
    destruct (M ws0 A) as (r & ->). eexists. reflexivity.
  - intros s w -> I N. unfold ws0. assert (M : mapM f s = Err ValueError).
    { clear ws0. induction s as [|x s IH]; [contradiction|]. cbn [mapM]. destruct (f x) as [r|e] eqn:E; [|cbn; rewrite (FE _ _ E); reflexivity].
      cbn [bind]. destruct I as [->|I]; [|rewrite (IH I); reflexivity]. exfalso. apply N. unfold f in E. destruct r as [lo hi].
      destruct (range_of_spec _ _ _ E) as (I1 & _). apply window_In in I1; [|exact L]. destruct I1 as (c & C & _). apply nth_error_In in C. exact C. }
    rewrite M. reflexivity.
Qed.
Print Assumptions C100_windows.

(** Polarizations: the two of the feeds of the data, or the one of data with a single one of them. *)
Theorem C100_jones : forall u,
  (forall p, s_pols u = [p] -> p = -5 \/ p = -6 \/ p = -1 \/ p = -2 -> new_jones u None = Ok [p]) /\
  (s_pols u <> [] -> (forall p, In p (s_pols u) -> -8 <= p <= -5) -> (forall p, s_pols u = [p] -> p = -7 \/ p = -8) -> new_jones u None = Ok [-5; -6]) /\
  (s_pols u <> [] -> (forall p, In p (s_pols u) -> -4 <= p <= -1) -> (forall p, s_pols u = [p] -> p = -3 \/ p = -4) -> new_jones u None = Ok [-1; -2]) /\
  ((exists p, In p (s_pols u) /\ 0 < p) -> new_jones u None = Err ValueError) /\ forall j, new_jones u (Some j) = Ok j.
Proof.
  intros u. unfold new_jones. split; [|split; [|split; [|split; [|reflexivity]]]].
  - intros p ->. intros [->|[->|[->| ->]]]; reflexivity.
  - intros NE A B. replace (forallb (fun p => p <? -4) (s_pols u)) with true by (symmetry; apply forallb_forall; intros p I; apply Z.ltb_lt; specialize (A p I); lia).
    destruct (s_pols u) as [|p [|q l]]; [contradiction| |reflexivity]. destruct (B p eq_refl) as [->| ->]; reflexivity.
  - intros NE A B. destruct (forallb (fun p => p <? -4) (s_pols u)) eqn:E.
    + exfalso. destruct (s_pols u) as [|p l]; [contradiction|]. cbn in E. apply andb_true_iff in E as [E _]. apply Z.ltb_lt in E. specialize (A p (or_introl eq_refl)). lia.
    + replace (forallb (fun p => p <? 0) (s_pols u)) with true by (symmetry; apply forallb_forall; intros p I; apply Z.ltb_lt; specialize (A p I); lia).
      destruct (s_pols u) as [|p [|q l]]; [contradiction| |reflexivity]. destruct (B p eq_refl) as [->| ->]; reflexivity.
  - intros (p & I & P). destruct (forallb (fun p => p <? -4) (s_pols u)) eqn:E; [exfalso; rewrite forallb_forall in E; specialize (E p I); apply Z.ltb_lt in E; lia|].
    destruct (forallb (fun p => p <? 0) (s_pols u)) eqn:E2; [exfalso; rewrite forallb_forall in E2; specialize (E2 p I); apply Z.ltb_lt in E2; lia|reflexivity].
Qed.
Print Assumptions C100_jones.

Definition tel1 : tel := {| t_nums := [7; 3; 5]; t_names := [107; 103; 105]; t_pos := [70; 30; 50]; t_diams := Some [14; 6; 10] |}.
Definition src1 : src :=
  {| s_times := [20; 20; 10; 10]; s_ints := [2; 9; 1; 9]; s_ant1 := [3; 5; 3; 5]; s_ant2 := [5; 9; 5; 9]; s_pols := [-5; -6];
     s_freqs := [100; 110; 90; 95]; s_widths := [10; 10; 5; 5]; s_ids := [1; 1; 0; 0]; s_tel := tel1 |}.
Example C100_example :
  NoDup (t_nums tel1) /\
  new_tel tel1 (Some [7; 5]) None = Ok {| t_nums := [5; 7]; t_names := [105; 107]; t_pos := [50; 70]; t_diams := Some [14; 10] |} /\
  new_tel tel1 None (Some [103]) = Ok {| t_nums := [3]; t_names := [103]; t_pos := [30]; t_diams := Some [6] |} /\
  new_ants src1 tel1 None = [3; 5] /\ time_params src1 = ([10; 20], [1; 2]) /\
  narrow_params src1 None = Ok ([100; 110; 90; 95], [10; 10; 5; 5], ([1; 1; 0; 0], [0; 1])) /\
  wide_params src1 None None = Ok ([0; 1], [(90, 95); (100, 110)]) /\ wide_params src1 (Some [2]) None = Err ValueError /\ new_jones src1 None = Ok [-5; -6].
Proof. split; [repeat constructor; cbn; intuition lia|]. repeat split. Qed.
Example C100_diameters_example : exists t', new_tel {| t_nums := [3; 5; 7]; t_names := [103; 105; 107]; t_pos := [30; 50; 70]; t_diams := Some [6; 10; 14] |} (Some [7; 5]) None = Ok t' /\
  t_diams t' = Some [10; 14] /\ StronglySorted Z.lt [3; 5; 7].
Proof. eexists. split; [reflexivity|]. split; [reflexivity|]. repeat constructor. Qed.

(** Diameters are not sorted with the antennas: if the telescope lists its antennas in another
    order, antennas get the diameters of others. *)
Theorem C100_diameters_refuted : exists t l t' d d' i k, new_tel t (Some l) None = Ok t' /\ NoDup (t_nums t) /\ t_diams t = Some d /\ t_diams t' = Some d' /\
  length d = length (t_nums t) /\ (k < length (t_nums t'))%nat /\ nth_error (t_nums t') k = nth_error (t_nums t) i /\ nth_error d' k <> nth_error d i.
Proof.
  exists tel1, [7; 5]. eexists _, _, _, 0%nat, 1%nat. split; [reflexivity|]. split; [exact (proj1 C100_example)|]. repeat split; [|discriminate]. cbn. lia.
Qed.
Print Assumptions C100_diameters_refuted.

(** With one solution per channel, windows that are listed must be as many as those of the data and
    are otherwise ignored (as documented). *)
Theorem C100_listed : forall u s ws, NoDup ws -> (forall w, In w ws <-> In w (s_ids u)) -> length s = length ws ->
  narrow_params u (Some s) = narrow_params u None.
Proof.
  intros u s ws N H L. unfold narrow_params. replace (length s) with (length (uniqueZ (s_ids u))); [rewrite Nat.eqb_refl; reflexivity|].
  rewrite L. apply Nat.le_antisymm; apply NoDup_incl_length; [apply uniqueZ_NoDup| |exact N|]; intros w I.
  - apply H. apply (proj1 (uniqueZ_In _ _)) in I. exact I.
  - apply uniqueZ_In, H, I.
Qed.
Print Assumptions C100_listed.
Example C100_listed_example : narrow_params src1 (Some [7; 8]) = narrow_params src1 None /\ narrow_params src1 (Some [7]) = Err ValueError.
Proof. split; reflexivity. Qed.
