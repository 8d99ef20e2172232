(** C83: selecting flags and metrics. *)
From Coq Require Import List ZArith Bool Arith QArith Lia Sorted String.
From Verif Require Import Lib.Py Lib.Np Lib.Cube Lib.Sorting Model.Pol Model.Select Model.UVCal Model.FlagSelect
  Spec.SelectSpec Spec.FlagSelectSpec Proofs.SelectRows Proofs.SelectProofs Proofs.FlagSelectProofs Proofs.FlagSelectTop Proofs.FlagSelectMain.
Import ListNotations.
Notation length := List.length.
Open Scope list_scope.
Open Scope Z_scope.

(** What is kept is exactly what is asked for: rows, channels and polarizations in
    the old order, antennas of an object of type antenna in the order asked for. *)
Theorem C83_kept :
  forall xo cr u r, flag_ok u -> flag_select xo cr u = Ok r ->
  exists sa sf st sp,
    antennas_chosen cr u sa /\ positions_of (nchans u) (flag_chan_wanted cr u) sf /\
    positions_of (nrows u) (flag_row_wanted cr u) st /\ positions_of (npols u) (flag_pol_wanted xo cr u) sp /\
    flag_picked sa sf st sp u r.
Proof.
  intros xo cr u r OK H. destruct (select_picks xo cr u OK r H) as (_ & _ & _ & sa & sf & st & sp & A & F & T & P & K & _).
  exists sa, sf, st, sp. auto.
Qed.
Print Assumptions C83_kept.

(** It succeeds exactly if everything named is there, the criteria go together and
    some row is left. *)
Theorem C83_when :
  forall xo cr u, flag_ok u ->
  ((exists r, flag_select xo cr u = Ok r) <-> flag_all_there xo cr u /\ flag_goes cr u /\ some_row cr u).
Proof.
  intros xo cr u OK. split.
  - intros (r & H). destruct (select_picks xo cr u OK r H) as (A & B & C & _). auto.
  - intros (A & B & C). apply select_succeeds; assumption.
Qed.
Print Assumptions C83_when.

Lemma picked_NoDup idx l l' : NoDup l -> NoDup idx -> (forall i, In i idx -> (i < length l)%nat) -> picked 0 idx l l' -> NoDup l'.
Proof.
  intros ND NI B ->. induction NI as [|i idx N _ IH]; [constructor|]. cbn [map]. constructor.
  - intros I. apply in_map_iff in I as (j & E & I). apply N.
    assert (j = i) as <-; [|exact I]. apply (proj1 (NoDup_nth _ 0) ND); [apply B; right; exact I | apply B; left; reflexivity | exact E].
  - apply IH. intros j I. apply B. right. exact I.
Qed.
Lemma picked_length {A} (d : A) idx l l' : picked d idx l l' -> length l' = length idx.
Proof. intros ->. apply map_length. Qed.

(** The result is self-consistent, if it has a channel and no antenna was asked for twice. *)
Theorem C83_valid :
  forall xo cr u r, flag_ok u -> flag_select xo cr u = Ok r -> g_freq r <> [] -> (is_antenna u -> NoDup (g_ants r)) -> flag_ok r.
Proof.
  intros xo cr u r OK H NF NA. destruct (select_picks xo cr u OK r H) as (_ & _ & _ & sa & sf & st & sp & A & F & T & P & K & ri & ra & rj & rk & ER & Ea & Ef & Et & Ep & AT).
  destruct K as [K1 K2 (K3 & K4) K5 (K6 & K7 & K8) K9 K10 _].
  assert (TY : is_baseline r <-> is_baseline u) by (unfold is_baseline; rewrite K1; reflexivity).
  assert (TA : is_antenna r <-> is_antenna u) by (unfold is_antenna; rewrite K1; reflexivity).
  assert (CT : g_Ntimes r = match ri with Some _ => length (uniqueZ (g_time r)) | None => g_Ntimes u end).
  { subst r. destruct ri, ra, rj, rk; reflexivity. }
  assert (ET : ri = None -> g_time r = g_time u /\ g_ant1 r = g_ant1 u /\ g_ant2 r = g_ant2 u /\ g_bl r = g_bl u).
  { intros ->. subst r. destruct ra, rj, rk; repeat split; reflexivity. }
  constructor.
  - unfold nrows. rewrite (picked_length _ _ _ _ K3), (picked_length _ _ _ _ K4). reflexivity.
  - unfold nchans. rewrite (picked_length _ _ _ _ K6), (picked_length _ _ _ _ K7), (picked_length _ _ _ _ K8). split; reflexivity.
  - destruct (fo_windows u OK) as (ND & M). destruct (fo_chans u OK) as (_ & LF).
    destruct K10 as (rw & (S & W) & E); [intros ->; apply NF; rewrite K6; reflexivity|]. split.
    + apply (picked_NoDup rw (g_spws u)); [exact ND | apply StronglySorted_lt_NoDup, S | intros i I; apply W, I | exact E].
    + intros x. rewrite E, in_map_iff. split.
      * intros (k & <- & I). apply W, I.
      * intros I. assert (J : In x (g_spws u)).
        { apply M. rewrite K8 in I. apply in_map_iff in I as (f & <- & I). apply nth_In. apply F in I as (L & _). unfold nchans in *. lia. }
        apply (In_nth _ _ 0) in J as (k & L & <-). exists k. split; [reflexivity|]. apply W. auto.
  - rewrite CT. destruct ri; [apply uniqueZ_how_many|]. rewrite (proj1 (ET eq_refl)). apply (fo_times u OK).
  - intros B. apply TY in B. destruct (K5 B) as (P1 & P2 & P3). unfold nrows.
    rewrite (picked_length _ _ _ _ K3), (picked_length _ _ _ _ P1), (picked_length _ _ _ _ P2), (picked_length _ _ _ _ P3).
    split; [reflexivity|]. split; [reflexivity|]. split; [reflexivity|].
    assert (NA0 : ra = None) by (destruct AT as [X|X]; [unfold is_antenna, is_baseline in *; congruence | exact X]).
    destruct ri as [l|].
    + assert (C : g_Nants r = length (uniqueZ (g_ant1 r ++ g_ant2 r)) /\ g_Nbls r = length (uniqueZ (g_bl r))).
      { rewrite ER, NA0. unfold is_baseline in B. destruct rj, rk; cbn [after keep_rows keep_chans keep_pols g_Nants g_Nbls g_ant1 g_ant2 g_bl]; rewrite B; split; reflexivity. }
      destruct C as (-> & ->). split; apply uniqueZ_how_many.
    + destruct (ET eq_refl) as (_ & -> & -> & ->).
      assert (C : g_Nants r = g_Nants u /\ g_Nbls r = g_Nbls u) by (rewrite ER, NA0; destruct rj, rk; split; reflexivity).
      destruct C as (-> & ->). apply (fo_baseline u OK B).
  - intros B. apply (picked_NoDup st (g_time u)); [apply (fo_other u OK); tauto | apply StronglySorted_lt_NoDup, T | intros i I; apply T, I | exact K3].
  - intros X. apply TA in X. split; [apply NA, X|]. destruct ra as [l|].
    + rewrite ER. destruct ri, rj, rk; reflexivity.
    + assert (E : g_Nants r = g_Nants u /\ g_ants r = g_ants u).
      { rewrite ER. unfold is_antenna in X. destruct ri, rj, rk; cbn [after keep_rows keep_chans keep_pols g_Nants g_ants]; rewrite ?X; split; reflexivity. }
      destruct E as (-> & ->). apply (fo_antenna u OK X).
Qed.
Print Assumptions C83_valid.

(** Antenna numbers of an object of type antenna: the result has the antennas listed. *)
Theorem C83_antennas :
  forall xo cr u r l, flag_ok u -> is_antenna u -> fc_antenna_nums cr = Some l -> flag_select xo cr u = Ok r -> g_ants r = l.
Proof.
  intros xo cr u r l OK A E H. destruct (C83_kept xo cr u r OK H) as (sa & sf & st & sp & C & _ & _ & _ & K).
  rewrite (fp_ants _ _ _ _ _ _ K A). unfold antennas_chosen in C. unfold is_antenna in A. rewrite A, E in C. apply C.
Qed.
Print Assumptions C83_antennas.

(** Channel numbers pick just these channels, if no frequency occurs twice. *)
Theorem C83_channels :
  forall xo cr u r l, flag_ok u -> NoDup (g_freq u) -> fc_frequencies cr = None -> fc_freq_chans cr = Some l -> flag_select xo cr u = Ok r ->
  exists sa sf st sp, positions_of (nchans u) (fun f => exists c, In c l /\ denotes (nchans u) c f) sf /\ flag_picked sa sf st sp u r.
Proof.
  intros xo cr u r l OK ND E1 E2 H. destruct (C83_kept xo cr u r OK H) as (sa & sf & st & sp & _ & F & _ & _ & K).
  exists sa, sf, st, sp. split; [|exact K]. apply (positions_ext _ _ _ _ F). intros f L. unfold flag_chan_wanted. rewrite E1, E2. split.
  - intros [(_ & E) | [(l' & E & _) | (l' & c & f' & E & I & D & X)]]; [discriminate | discriminate |]. injection E as <-.
    exists c. split; [exact I|]. assert (f' = f) as <-; [|exact D]. apply (proj1 (NoDup_nth (g_freq u) 0) ND); [apply D | exact L | exact X].
  - intros (c & I & D). right; right. exists l, c, f. auto.
Qed.
Print Assumptions C83_channels.

(** A pair may be written either way round, if the object stores it one way only. *)
Theorem C83_either_way :
  forall xo cr u l l', flag_ok u -> pairs_one_way u -> Forall2 same_baseline l l' ->
  flag_select xo (with_pairs cr l) u = flag_select xo (with_pairs cr l') u.
Proof.
  intros xo cr u l l' OK OW H.
  assert (E : flag_bls (with_pairs cr l) u = flag_bls (with_pairs cr l') u).
  { unfold flag_bls. cbn [with_pairs fc_bls fc_polarizations]. destruct (g_type u) eqn:B; try reflexivity.
    assert (ONE : forall a b, a <> b -> pair_rows u a b = [] \/ pair_rows u b a = []).
    { intros a b N. destruct (pair_rows u a b) as [|x q] eqn:E; [auto|]. right. apply (pair_rows_nil u OK); [exact B|]. apply OW; [exact N|].
      exists x. apply (pair_rows_spec u OK); [exact B|]. rewrite E. left. reflexivity. }
    assert (R : flag_bls_rows u l = flag_bls_rows u l').
    { clear -H ONE. induction H as [|t t' l l' T _ IH]; [reflexivity|].
      destruct T as [[[a b] p] | a b | a b s c N C1 C2]; cbn [flag_bls_rows]; rewrite IH; [reflexivity| |].
      - destruct (Z.eq_dec a b) as [<- | N]; [reflexivity|]. destruct (known_ant u a), (known_ant u b); cbn [negb]; try reflexivity.
        destruct (ONE a b N) as [E | E]; rewrite E; [destruct (pair_rows u b a) | destruct (pair_rows u a b)]; reflexivity.
      - destruct (known_ant u a), (known_ant u b); cbn [negb]; try reflexivity. destruct (ONE a b N) as [E | E]; rewrite E.
        + destruct (pair_rows u b a); [reflexivity|]. rewrite C1. reflexivity.
        + destruct (pair_rows u a b); [reflexivity|]. rewrite C2. reflexivity. }
    rewrite R. replace (forallb (fun t : Z * Z * option string => given (snd t)) l) with (forallb (fun t : Z * Z * option string => given (snd t)) l'); [reflexivity|].
    clear -H. induction H as [|t t' l l' T _ IH]; [reflexivity|]. cbn [forallb]. rewrite IH. destruct T; reflexivity. }
  unfold flag_select, flag_rows. rewrite E. cbn [with_pairs fc_bls fc_antenna_nums fc_blt_inds fc_times fc_ant_inds given].
  change (flag_chans (with_pairs cr l) u) with (flag_chans (with_pairs cr l') u). reflexivity.
Qed.
Print Assumptions C83_either_way.

(** ** Cases *)
Definition tag (k : Z) : arr4 Z := fun a f t p => k + Z.of_nat (1000 * a + 100 * f + 10 * t + p).
Definition base_flags (ant1 ant2 times freqs flex spws : list Z) : uflag :=
  let n := length (uniqueZ (ant1 ++ ant2)) in
  mkUflag TypeBaseline [] ant1 ant2 (map (fun p => 2048 * fst p + snd p) (combine ant1 ant2)) times (map (fun t => t + 1) times)
    freqs (map (fun _ => 5) freqs) flex spws [-5; -6] [tag 0; tag 5000] (length (uniqueZ times)) n
    (length (uniqueZ (map (fun p => 2048 * fst p + snd p) (combine ant1 ant2)))).
Definition ant_flags (ants times freqs flex spws : list Z) : uflag :=
  mkUflag TypeAntenna ants [] [] [] times (map (fun t => t + 1) times)
    freqs (map (fun _ => 5) freqs) flex spws [-5; -6] [tag 0] (length times) (length ants) 0.

Definition some_flags : uflag := base_flags [1; 1; 2; 1; 1; 2] [2; 3; 3; 2; 3; 3] [10; 10; 10; 20; 20; 20] [100; 200; 300; 400] [0; 0; 2; 2] [2; 0].
Definition ant_metric : uflag := ant_flags [4; 2; 7] [10; 20] [100; 200; 300; 400] [0; 0; 2; 2] [2; 0].
Definition no_criterion : flag_criteria := mkFlagCriteria None None None None None None None None.

Ltac nodup := cbn; repeat constructor; cbn; intuition discriminate.
Ltac fok :=
  constructor; cbv [is_baseline is_antenna g_type some_flags ant_metric base_flags ant_flags];
  [ reflexivity | split; reflexivity | split; [nodup | intros x; cbn; tauto] | first [exact (uniqueZ_how_many _) | apply how_many_NoDup; nodup]
  | first [discriminate | intros _; split; [reflexivity|]; split; [reflexivity|]; split; [reflexivity|]; split; apply uniqueZ_how_many]
  | first [intros N; exfalso; apply N; reflexivity | intros _; nodup]
  | first [discriminate | intros _; split; [nodup | reflexivity]] ].

Lemma some_flags_ok : flag_ok some_flags.
Proof. fok. Qed.
Lemma ant_metric_ok : flag_ok ant_metric.
Proof. fok. Qed.

Definition flag_table (r : uflag) : list (Z * Z * Z * Z * Z * list Z) :=
  flat_map (fun a => flat_map (fun f => flat_map (fun t => map (fun p =>
    (nth t (g_ant1 r) 0, nth t (g_ant2 r) 0, nth t (g_time r) 0, nth f (g_freq r) 0, nth p (g_pols r) 0, values r a f t p))
    (seq 0 (npols r))) (seq 0 (nrows r))) (seq 0 (nchans r))) (seq 0 (nants r)).

Example C83_case :
  flag_ok some_flags /\
  match flag_select None (mkFlagCriteria None None (Some [(2, 1, Some "yy"%string); (3, 2, None)]) (Some [100]) (Some [-1]) (Some [20]) None None) some_flags with
  | Ok r => g_spws r = [2; 0] /\ (g_Ntimes r, g_Nants r, g_Nbls r) = (1, 3, 2)%nat /\
            flag_table r = [(1, 2, 20, 100, -6, [31; 5031]); (2, 3, 20, 100, -6, [51; 5051]);
                            (1, 2, 20, 400, -6, [331; 5331]); (2, 3, 20, 400, -6, [351; 5351])]
  | Err _ => False
  end.
Proof. split; [exact some_flags_ok|]. vm_compute. repeat split; reflexivity. Qed.

Example C83_antennas_case :
  flag_ok ant_metric /\ is_antenna ant_metric /\
  match flag_select None (mkFlagCriteria (Some [7; 4]) None None (Some [300]) None None (Some [PolNum (-5)]) (Some [1])) ant_metric with
  | Ok r => g_ants r = [7; 4] /\ g_spws r = [2] /\ flag_table r = [(0, 0, 20, 300, -5, [2210]); (0, 0, 20, 300, -5, [210])]
  | Err _ => False
  end /\
  match flag_select None (mkFlagCriteria None (Some [-1; 0]) None (Some [300]) None None (Some [PolNum (-5)]) (Some [1])) ant_metric with
  | Ok r => g_ants r = [7; 4]
  | Err _ => False
  end.
Proof. split; [exact ant_metric_ok|]. split; [reflexivity|]. split; [vm_compute; repeat split; reflexivity | vm_compute; reflexivity]. Qed.

Example C83_channels_case : flag_ok some_flags /\ NoDup (g_freq some_flags) /\
  match flag_select None (mkFlagCriteria None None None None (Some [2; 0; -2]) None None None) some_flags with
  | Ok r => g_freq r = [100; 300]
  | Err _ => False
  end.
Proof. split; [exact some_flags_ok|]. split; [nodup | vm_compute; reflexivity]. Qed.

Example C83_either_way_case : flag_ok some_flags /\ pairs_one_way some_flags /\ Forall2 same_baseline [(1, 2, None)] [(2, 1, None)] /\
  match flag_select None (with_pairs no_criterion [(2, 1, None)]) some_flags with
  | Ok r => g_time r = [10; 20] /\ g_ant1 r = [1; 1]
  | Err _ => False
  end.
Proof.
  split; [exact some_flags_ok|]. split; [|split; [constructor; [apply sb_turned | constructor] | vm_compute; split; reflexivity]].
  intros a b N (t & L & E) (t' & L' & E'). change (t < 6)%nat in L. change (t' < 6)%nat in L'. unfold row_pair in E, E'. injection E as E1 E2. injection E' as E3 E4.
  do 6 (destruct t as [|t]; [cbn in E1, E2; do 6 (destruct t' as [|t']; [cbn in E3, E4; lia|]); lia|]). lia.
Qed.

(** ** Findings *)

(** The order of the two antennas does matter if the object has rows stored both ways round. *)
Theorem C83_order_refuted :
  exists u r r', flag_ok u /\
    flag_select None (with_pairs no_criterion [(1, 2, None)]) u = Ok r /\ flag_select None (with_pairs no_criterion [(2, 1, None)]) u = Ok r' /\
    g_time r = [10] /\ g_time r' = [20].
Proof.
  set (u := base_flags [1; 2] [2; 1] [10; 20] [100; 200] [0; 0] [0]).
  assert (H : match flag_select None (with_pairs no_criterion [(1, 2, None)]) u with Ok r => g_time r = [10] | Err _ => False end) by (vm_compute; reflexivity).
  assert (H' : match flag_select None (with_pairs no_criterion [(2, 1, None)]) u with Ok r => g_time r = [20] | Err _ => False end) by (vm_compute; reflexivity).
  destruct (flag_select None (with_pairs no_criterion [(1, 2, None)]) u) as [r|] eqn:E; [|contradiction].
  destruct (flag_select None (with_pairs no_criterion [(2, 1, None)]) u) as [r'|] eqn:E'; [|contradiction].
  exists u, r, r'. split; [unfold u; fok|]. auto.
Qed.
Print Assumptions C83_order_refuted.

(** Asking for a channel by number also keeps a channel of another window with the same frequency. *)
Theorem C83_shared_frequency_refuted :
  exists u r, flag_ok u /\ flag_select None (mkFlagCriteria None None None None (Some [0]) None None None) u = Ok r /\
    g_freq r = [100; 100] /\ g_flex r = [0; 2].
Proof.
  set (u := base_flags [1; 2] [2; 1] [10; 20] [100; 200; 100; 300] [0; 0; 2; 2] [0; 2]).
  assert (H : match flag_select None (mkFlagCriteria None None None None (Some [0]) None None None) u with Ok r => g_freq r = [100; 100] /\ g_flex r = [0; 2] | Err _ => False end) by (vm_compute; split; reflexivity).
  destruct (flag_select None (mkFlagCriteria None None None None (Some [0]) None None None) u) as [r|] eqn:E; [|contradiction].
  exists u, r. split; [unfold u; fok|]. split; [exact E | exact H].
Qed.
Print Assumptions C83_shared_frequency_refuted.

(** The one channel of an object that has one cannot be asked for by number. *)
Theorem C83_one_channel_refuted :
  exists u, flag_ok u /\ nchans u = 1%nat /\ flag_select None (mkFlagCriteria None None None None (Some [0]) None None None) u = Err IndexError.
Proof.
  exists (base_flags [1; 2] [2; 1] [10; 20] [100] [0] [0]). split; [fok|]. split; [reflexivity | vm_compute; reflexivity].
Qed.
Print Assumptions C83_one_channel_refuted.

(** An antenna listed twice is kept twice. *)
Theorem C83_repeated_refuted :
  exists u r, flag_ok u /\ flag_select None (mkFlagCriteria (Some [2; 2]) None None None None None None None) u = Ok r /\ g_ants r = [2; 2] /\ g_Nants r = 2%nat.
Proof.
  assert (H : match flag_select None (mkFlagCriteria (Some [2; 2]) None None None None None None None) ant_metric with Ok r => g_ants r = [2; 2] /\ g_Nants r = 2%nat | Err _ => False end) by (vm_compute; split; reflexivity).
  destruct (flag_select None (mkFlagCriteria (Some [2; 2]) None None None None None None None) ant_metric) as [r|] eqn:E; [|contradiction].
  exists ant_metric, r. split; [exact ant_metric_ok|]. split; [exact E | exact H].
Qed.
Print Assumptions C83_repeated_refuted.
