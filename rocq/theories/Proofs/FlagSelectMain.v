(** UVFlag.select: what is kept, and when it succeeds. *)
From Coq Require Import List ZArith Bool Arith QArith String Lia Sorted.
From Verif Require Import Lib.Py Lib.Np Lib.Cube Lib.Sorting Model.Pol Model.Select Model.UVCal Model.FlagSelect
  Spec.SelectSpec Spec.FlagSelectSpec Proofs.SelectRows Proofs.SelectProofs Proofs.SelectTotal Proofs.FlagSelectProofs Proofs.FlagSelectTop.
Import ListNotations.
Notation length := List.length.
Open Scope list_scope.
Open Scope Z_scope.

(** ** Indexing *)
Definition after (rows ants chans pols : option (list nat)) (u : uflag) : uflag :=
  let u := match rows with Some idx => keep_rows idx u | None => u end in
  let u := match ants with Some idx => keep_ants idx u | None => u end in
  let u := match chans with Some idx => keep_chans idx u | None => u end in
  match pols with Some idx => keep_pols idx u | None => u end.

Lemma nth_all i n x : (i < length (or_all n x))%nat -> x = None -> nth i (or_all n x) O = i.
Proof. intros L ->. cbn [or_all] in *. rewrite seq_length in L. rewrite seq_nth by exact L. reflexivity. Qed.

Lemma after_picked rows ants chans pols u : flag_ok u -> (is_antenna u \/ ants = None) ->
  (forall l f, chans = Some l -> In f l -> (f < nchans u)%nat) ->
  flag_picked (or_all (nants u) ants) (or_all (nchans u) chans) (or_all (nrows u) rows) (or_all (npols u) pols) u (after rows ants chans pols u).
Proof.
  intros OK HA HC. constructor.
  - destruct rows, ants, chans, pols; reflexivity.
  - intros A. unfold nants. rewrite A. destruct ants as [l|]; cbn [or_all].
    + destruct rows, chans, pols; reflexivity.
    + replace (g_ants (after rows None chans pols u)) with (g_ants u) by (destruct rows, chans, pols; reflexivity). apply picked_all. reflexivity.
  - destruct rows as [l|]; cbn [or_all].
    + destruct ants, chans, pols; split; reflexivity.
    + replace (g_time (after None ants chans pols u)) with (g_time u) by (destruct ants, chans, pols; reflexivity).
      replace (g_lst (after None ants chans pols u)) with (g_lst u) by (destruct ants, chans, pols; reflexivity).
      split; apply picked_all; [reflexivity | apply (fo_rows u OK)].
  - intros B. destruct (fo_baseline u OK B) as (L1 & L2 & L3 & _). unfold is_baseline in B. destruct rows as [l|]; cbn [or_all].
    + assert (E : g_ant1 (after (Some l) ants chans pols u) = g_ant1 (keep_rows l u) /\ g_ant2 (after (Some l) ants chans pols u) = g_ant2 (keep_rows l u) /\
                  g_bl (after (Some l) ants chans pols u) = g_bl (keep_rows l u)) by (destruct ants, chans, pols; repeat split; reflexivity).
      destruct E as (-> & -> & ->). unfold keep_rows. cbn [g_ant1 g_ant2 g_bl]. rewrite B. repeat split; reflexivity.
    + assert (E : g_ant1 (after None ants chans pols u) = g_ant1 u /\ g_ant2 (after None ants chans pols u) = g_ant2 u /\
                  g_bl (after None ants chans pols u) = g_bl u) by (destruct ants, chans, pols; repeat split; reflexivity).
      destruct E as (-> & -> & ->). split; [|split]; apply picked_all; assumption.
  - destruct (fo_chans u OK) as (L1 & L2). destruct chans as [l|]; cbn [or_all].
    + destruct rows, ants, pols; repeat split; reflexivity.
    + assert (E : g_freq (after rows ants None pols u) = g_freq u /\ g_widths (after rows ants None pols u) = g_widths u /\
                  g_flex (after rows ants None pols u) = g_flex u) by (destruct rows, ants, pols; repeat split; reflexivity).
      destruct E as (-> & -> & ->). split; [|split]; apply picked_all; auto; reflexivity.
  - destruct pols as [l|]; cbn [or_all].
    + destruct rows, ants, chans; reflexivity.
    + replace (g_pols (after rows ants chans None u)) with (g_pols u) by (destruct rows, ants, chans; reflexivity). apply picked_all. reflexivity.
  - intros NE. destruct (fo_windows u OK) as (ND & M). destruct (fo_chans u OK) as (_ & L2). destruct chans as [l|]; cbn [or_all] in NE.
    + assert (E : g_flex (after rows ants (Some l) pols u) = take 0 (g_flex u) l /\
                  g_spws (after rows ants (Some l) pols u) =
                    (if (1 <? length (g_spws u))%nat then take 0 (g_spws u) (nonzero (fun w => isinZ w (take 0 (g_flex u) l)) (g_spws u)) else g_spws u))
        by (destruct rows, ants, pols; split; reflexivity).
      destruct E as (-> & ->). destruct (Nat.ltb_spec 1 (length (g_spws u))) as [L|L].
      * exists (nonzero (fun w => isinZ w (take 0 (g_flex u) l)) (g_spws u)). split; [|reflexivity]. split; [apply nonzero_sorted|].
        intros k. rewrite (nonzero_spec 0), isinZ_spec. reflexivity.
      * exists (seq 0 (length (g_spws u))). split; [|apply picked_all; reflexivity]. apply positions_all. intros k Lk.
        destruct l as [|f l]; [congruence|]. assert (Lf : (f < nchans u)%nat) by (apply (HC _ _ eq_refl); left; reflexivity).
        assert (I : In (nth f (g_flex u) 0) (g_spws u)) by (apply M, nth_In; lia).
        assert (K : nth k (g_spws u) 0 = nth f (g_flex u) 0).
        { apply (In_nth _ _ 0) in I as (k' & Lk' & <-). f_equal. lia. }
        rewrite K. left. reflexivity.
    + assert (E : g_flex (after rows ants None pols u) = g_flex u /\ g_spws (after rows ants None pols u) = g_spws u)
        by (destruct rows, ants, pols; split; reflexivity).
      destruct E as (-> & ->). exists (seq 0 (length (g_spws u))). split; [|apply picked_all; reflexivity]. apply positions_all. intros k Lk. apply M, nth_In, Lk.
  - intros a f t p La Lf Lt Lp.
    replace (nth a (or_all (nants u) ants) O) with (match ants with Some l => nth a l O | None => a end) by (destruct ants as [l|]; [reflexivity | symmetry; apply nth_all; auto]).
    replace (nth f (or_all (nchans u) chans) O) with (match chans with Some l => nth f l O | None => f end) by (destruct chans as [l|]; [reflexivity | symmetry; apply nth_all; auto]).
    replace (nth t (or_all (nrows u) rows) O) with (match rows with Some l => nth t l O | None => t end) by (destruct rows as [l|]; [reflexivity | symmetry; apply nth_all; auto]).
    replace (nth p (or_all (npols u) pols) O) with (match pols with Some l => nth p l O | None => p end) by (destruct pols as [l|]; [reflexivity | symmetry; apply nth_all; auto]).
    unfold values. destruct rows, ants, chans, pols; cbn [after keep_rows keep_ants keep_chans keep_pols g_vals]; rewrite ?map_map; reflexivity.
Qed.

(** ** The whole *)
Section Main.
Variables (xo : option string) (cr : flag_criteria) (u : uflag).
Hypothesis OK : flag_ok u.

Definition refused_type : bool :=
  match g_type u with TypeWaterfall => given (fc_antenna_nums cr) || given (fc_bls cr) | _ => false end.

Lemma select_open r : flag_select xo cr u = Ok r <->
  refused_type = false /\ exists ants rows bls asked inds ri rj rk ra,
    ants_part cr u = Ok ants /\ ant_part cr u = Ok rows /\ flag_bls cr u = Ok (bls, asked) /\
    time_part cr u (ant_inds rows bls (fc_blt_inds cr)) = Ok inds /\ final_rows (nrows u) inds = Ok ri /\
    flag_chans cr u = Ok rj /\ flag_pols xo asked u = Ok rk /\ ants_index u ants = Ok ra /\ r = after ri ra rj rk u.
Proof.
  unfold flag_select, flag_rows. fold refused_type. destruct refused_type.
  { split; [discriminate | intros (? & _); discriminate]. }
  fold (ants_part cr u). fold (ant_part cr u). split.
  - intros H. split; [reflexivity|].
    apply bind_Ok in H as ([[ants ri] asked] & H & H'). apply bind_Ok in H as (ants' & H1 & H). apply bind_Ok in H as (rows & H2 & H).
    apply bind_Ok in H as ([bls pols] & H3 & H). apply bind_Ok in H as (inds & H4 & H). apply bind_Ok in H as (ri' & H5 & H).
    pose proof (f_equal (fun x => match x with Ok y => y | Err _ => (ants, ri, asked) end) H) as E. cbv beta iota in E.
    apply pair_equal_spec in E as (E & E3). apply pair_equal_spec in E as (E1 & E2). subst ants' ri' pols. clear H.
    apply bind_Ok in H' as (rj & H6 & H'). apply bind_Ok in H' as (rk & H7 & H'). apply bind_Ok in H' as (ra & H8 & H').
    injection H' as <-. rewrite (compare_rows u OK) in H5. exists ants, rows, bls, asked, inds, ri, rj, rk, ra. repeat split; assumption.
  - intros (_ & ants & rows & bls & asked & inds & ri & rj & rk & ra & H1 & H2 & H3 & H4 & H5 & H6 & H7 & H8 & ->).
    rewrite H1, H2. cbn [bind]. rewrite H3. cbn [bind]. cbv zeta. fold (time_part cr u (ant_inds rows bls (fc_blt_inds cr))). rewrite H4. cbn [bind].
    rewrite (compare_rows u OK), H5. cbn [bind]. rewrite H6. cbn [bind]. rewrite H7. cbn [bind]. fold (ants_index u ants). rewrite H8. reflexivity.
Qed.

Lemma refused_goes : refused_type = false <-> (fc_antenna_nums cr <> None -> is_baseline u \/ is_antenna u) /\ (fc_bls cr <> None -> g_type u <> TypeWaterfall).
Proof.
  unfold refused_type, is_baseline, is_antenna. destruct (g_type u); destruct (fc_antenna_nums cr), (fc_bls cr); cbn;
  (split; [intros H; try discriminate H; split; intros N; try congruence; auto; try discriminate | intros (H1 & H2); try reflexivity; exfalso]).
  all: try (destruct (H1 ltac:(discriminate)); discriminate); try (apply H2; [discriminate | reflexivity]).
Qed.

Lemma pairs_dec : pairs_have_pols cr \/ ~ pairs_have_pols cr.
Proof.
  clear. unfold pairs_have_pols. destruct (fc_bls cr) as [l|]; [|right; intros (l & a & b & s & E & _); discriminate].
  destruct (existsb (fun t => given (snd t)) l) eqn:E.
  - left. apply existsb_exists in E as ([[a b] [s|]] & I & G); [|discriminate]. exists l, a, b, s. auto.
  - right. intros (l' & a & b & s & E' & I). injection E' as <-.
    assert (existsb (fun t => given (snd t)) l = true) by (apply existsb_exists; exists (a, b, Some s); auto). congruence.
Qed.
Lemma restricts_dec : restricts_otherwise cr u \/ ~ restricts_otherwise cr u.
Proof.
  clear. unfold restricts_otherwise, is_baseline. destruct (fc_times cr); [left; left; discriminate|].
  destruct (type_eq (g_type u) TypeBaseline) as [B|B]; [|right; intros [N|(K & _)]; congruence].
  destruct (fc_antenna_nums cr); [left; right; split; [exact B | left; discriminate]|].
  destruct (fc_bls cr); [left; right; split; [exact B | right; discriminate]|].
  right. intros [N|(_ & [N|N])]; congruence.
Qed.

Theorem select_picks r : flag_select xo cr u = Ok r ->
  flag_all_there xo cr u /\ flag_goes cr u /\ some_row cr u /\
  exists sa sf st sp, antennas_chosen cr u sa /\ positions_of (nchans u) (flag_chan_wanted cr u) sf /\
    positions_of (nrows u) (flag_row_wanted cr u) st /\ positions_of (npols u) (flag_pol_wanted xo cr u) sp /\ flag_picked sa sf st sp u r /\
    exists ri ra rj rk, r = after ri ra rj rk u /\ sa = or_all (nants u) ra /\ sf = or_all (nchans u) rj /\ st = or_all (nrows u) ri /\ sp = or_all (npols u) rk /\ (is_antenna u \/ ra = None).
Proof.
  intros H. apply select_open in H as (RF & ants & rows & bls & asked & inds & ri & rj & rk & ra & H1 & H2 & H3 & H4 & H5 & H6 & H7 & H8 & ->).
  apply refused_goes in RF as (G1 & _).
  destruct (ants_spec cr u OK ants ra H1 H8) as (A1 & A2 & A3 & A4).
  destruct (proj1 (ant_part_spec cr u OK) rows H2) as (B1 & _).
  destruct (bls_spec cr u OK bls asked H3) as (C1 & C2 & C3 & _ & _ & C4 & C5).
  destruct (inds_spec cr u OK rows bls asked inds H2 H3 H4) as (D1 & D2 & D3 & D4 & D5).
  destruct (final_rows_spec (nrows u) inds ri H5) as (E1 & E2).
  destruct (chans_spec cr u rj H6) as (F1 & F2 & F3 & F4).
  destruct (pols_spec xo u asked rk H7) as (P1 & P2).
  split.
  { split; [exact F1|]. split; [exact F2|]. split; [exact D1|]. split; [intros l n E I; split; intros T; [apply (B1 l n T E I) | apply (A1 l n T E I)]|].
    split; [exact A2|]. split; [intros l a b p E I; apply (C3 l (a, b, p) E I)|].
    intros q N. apply C5 in N as (l & E & I). apply (P1 l q E I). }
  split; [split; [exact G1|]; split; [exact C1|]; split; [exact C2 | exact F3]|].
  assert (RNG := proj1 (final_rows_ok (nrows u) inds) (ex_intro _ ri H5)).
  split.
  { split.
    - intros K. destruct inds as [l|].
      + destruct (RNG l eq_refl) as (NE & B). destruct l as [|z l]; [congruence|]. pose proof (B z (or_introl eq_refl)) as Bz.
        exists (Z.to_nat z). assert (L : (Z.to_nat z < nrows u)%nat) by lia. split; [exact L|]. apply D3; [exact L|]. rewrite Z2Nat.id by lia.
        intros l' E. injection E as <-. left. reflexivity.
      + destruct (proj1 D2 eq_refl) as (N1 & N2). exfalso. destruct K; auto.
    - intros l z E N I. apply D5 in N. rewrite E in N. apply (proj2 (RNG l N) z I). }
  exists (or_all (nants u) ra), (or_all (nchans u) rj), (or_all (nrows u) ri), (or_all (npols u) rk).
  split; [exact A3|]. split; [exact F4|]. split.
  { destruct ri as [l|]; cbn [or_all].
    - destruct (E2 l eq_refl) as (S & M). split; [exact S|]. intros t. rewrite M. split; intros (L & X); (split; [exact L|]); apply (D3 t L); exact X.
    - pose proof (proj1 E1 eq_refl) as EI. apply positions_all. intros t L. apply (D3 t L). rewrite EI. apply holds_None. }
  split.
  { apply (positions_ext _ _ _ _ P2). intros k L. unfold flag_pol_wanted. destruct asked as [l|].
    - split.
      + intros X _. destruct (X l eq_refl) as (q & I & M). exists q. split; [apply C5; eauto | exact M].
      + intros X l' E. injection E as <-. destruct X as (q & N & M).
        * destruct (fc_polarizations cr) eqn:EP; [right; discriminate|]. left. destruct pairs_dec as [K|K]; [exact K|].
          assert (X : Some l = None) by (apply C4; intros [Y|Y]; [contradiction | apply Y; reflexivity]). discriminate X.
        * apply C5 in N as (l' & E & I). injection E as <-. eauto.
    - split; [|discriminate]. intros _ K. exfalso. apply (proj1 C4 eq_refl). exact K. }
  split.
  { apply (after_picked ri ra rj rk u OK A4). intros l f -> I. apply F4 in I. apply I. }
  exists ri, ra, rj, rk. repeat split; try reflexivity. exact A4.
Qed.

Theorem select_succeeds : flag_all_there xo cr u -> flag_goes cr u -> some_row cr u -> exists r, flag_select xo cr u = Ok r.
Proof.
  intros (T1 & T2 & T3 & T4 & T5 & T6 & T7) (G1 & G2 & G3 & G4) (R1 & R2).
  destruct (ants_total cr u OK) as (ants & ra & H1 & H8).
  { intros l n A E I. apply (proj2 (T4 l n E I)), A. }
  { exact T5. }
  destruct (proj2 (ant_part_spec cr u OK)) as (rows & H2).
  { intros l n B E I. apply (proj1 (T4 l n E I)), B. }
  destruct (bls_total cr u OK G2 G3) as ([bls asked] & H3).
  { intros l [[a b] p] E I. apply (T6 l a b p E I). }
  assert (X : exists inds, time_part cr u (ant_inds rows bls (fc_blt_inds cr)) = Ok inds).
  { unfold time_part. destruct (fc_times cr) as [times|]; [|eauto]. destruct (proj2 (time_rows_spec u times)) as (l & ->); [intros x; apply (T3 times x eq_refl)|]. cbn [bind]. eauto. }
  destruct X as (inds & H4).
  destruct (inds_spec cr u OK rows bls asked inds H2 H3 H4) as (_ & D2 & D3 & D4 & D5).
  destruct (proj2 (final_rows_ok (nrows u) inds)) as (ri & H5).
  { intros l E.
    assert (K : fc_blt_inds cr <> None \/ restricts_otherwise cr u).
    { destruct restricts_dec as [K|K]; [right; exact K|]. left. rewrite <- (D5 K), E. discriminate. }
    destruct (R1 K) as (t & L & W). apply (D3 t L) in W. specialize (W l E). split; [intros ->; exact W|].
    intros z I. destruct restricts_dec as [Y|Y].
    - destruct (D4 Y l z E I) as (t' & -> & L'). lia.
    - apply (R2 l z); [rewrite <- (D5 Y); exact E | exact Y | exact I]. }
  destruct (chans_total cr u T1 T2 G4) as (rj & H6).
  destruct (bls_spec cr u OK bls asked H3) as (_ & _ & _ & _ & _ & _ & C5).
  destruct (pols_total xo u asked) as (rk & H7).
  { intros l q E I. apply T7, C5. eauto. }
  exists (after ri ra rj rk u). apply select_open. split.
  - apply refused_goes. split; [exact G1|]. intros N. rewrite (G2 N). discriminate.
  - exists ants, rows, bls, asked, inds, ri, rj, rk, ra. repeat split; try assumption.
Qed.
End Main.
