(** What a request for calibration solutions picks. *)
From Coq Require Import List ZArith Bool Arith QArith Lia Permutation Sorted String.
From Verif Require Import Lib.Py Lib.Np Lib.Cube Lib.Sorting Spec.TimesSpec Spec.FreqSpec Spec.AddSpec Spec.SelectSpec Spec.CalSpec Spec.CalSelectSpec
  Model.UVData Model.Reorder Model.Tools Model.Pol Model.Times Model.Select Model.UVCal Model.CalSelect
  Proofs.TimesProofs Proofs.PhaseSplit Proofs.AddAxis Proofs.AddJoin Proofs.SelectProofs Proofs.SelectTotal Proofs.CalArrange Proofs.CalMove Proofs.CalSum
  Proofs.CalSelectProofs.
Import ListNotations.
Notation length := List.length.
Open Scope list_scope.
Open Scope Z_scope.
Notation Ntimes := UVCal.Ntimes.

Lemma uniqueN_sorted l : StronglySorted lt (uniqueN l).
Proof.
  unfold uniqueN. induction l as [|x l IH]; [constructor|]. cbn [fold_right]. revert IH. generalize (fold_right insert_uniqN [] l). clear.
  induction 1 as [|y t S IH F]; [repeat constructor|]. cbn [insert_uniqN].
  destruct (x <? y)%nat eqn:A; [|destruct (x =? y)%nat eqn:B].
  - apply Nat.ltb_lt in A. constructor; [constructor; assumption|]. constructor; [exact A|].
    rewrite Forall_forall in *. intros z I. specialize (F z I). lia.
  - constructor; assumption.
  - apply Nat.ltb_ge in A. apply Nat.eqb_neq in B. constructor; [exact IH|].
    apply Forall_forall. intros z I. apply insert_uniqN_In in I as [-> | I]; [lia|]. rewrite Forall_forall in F. apply F, I.
Qed.

Lemma of_nat_sorted l : StronglySorted lt l -> StronglySorted Z.lt (map Z.of_nat l).
Proof.
  induction 1 as [|x l S IH F]; cbn; constructor; [exact IH|]. apply Forall_forall. intros z I. apply in_map_iff in I as (i & <- & I).
  rewrite Forall_forall in F. specialize (F i I). lia.
Qed.
Lemma to_nat_sorted l : StronglySorted Z.lt l -> (forall c, In c l -> 0 <= c) -> StronglySorted lt (map Z.to_nat l).
Proof.
  induction 1 as [|x l S IH F]; cbn; intros H; constructor.
  - apply IH. intros c I. apply H. right; exact I.
  - apply Forall_forall. intros z I. apply in_map_iff in I as (i & <- & I).
    rewrite Forall_forall in F. specialize (F i I). pose proof (H x (or_introl eq_refl)). pose proof (H i (or_intror I)). lia.
Qed.
Lemma in_to_nat l f : (forall c, In c l -> 0 <= c) -> (In f (map Z.to_nat l) <-> In (Z.of_nat f) l).
Proof.
  intros H. rewrite in_map_iff. split.
  - intros (c & <- & I). rewrite Z2Nat.id by (apply H, I). exact I.
  - intros I. exists (Z.of_nat f). split; [apply Nat2Z.id | exact I].
Qed.
Lemma at_index_nonneg n c i : at_index n c = Ok i -> 0 <= c -> i = Z.to_nat c /\ (i < n)%nat.
Proof.
  unfold at_index. destruct (norm_index n c) as [k|] eqn:E; [|discriminate]. intros X H. injection X as ->. apply norm_index_iff in E. lia.
Qed.
Lemma at_index_all n l idx : mapM (at_index n) l = Ok idx -> (forall c, In c l -> 0 <= c) ->
  idx = map Z.to_nat l /\ forall c, In c l -> c < Z.of_nat n.
Proof.
  intros H. apply mapM_Ok_Forall2 in H. induction H as [|c i l idx Hc _ IH]; intros P; [split; [reflexivity | intros c []]|].
  destruct (at_index_nonneg _ _ _ Hc (P c (or_introl eq_refl))) as (-> & L).
  destruct IH as (-> & B); [intros d I; apply P; right; exact I|]. split; [reflexivity|]. intros d [<- | I]; [|apply B, I].
  pose proof (P c (or_introl eq_refl)). lia.
Qed.

Section Request.
Variables (two_pi : Z) (tols lst_tols : Q * Q) (tel : cal_telescope) (cr : cal_criteria) (u : ucal).
Hypothesis OK : cal_ok u.
Hypothesis TEL : tel_ok tel.

(** ** Antennas *)
Lemma ant_of_name_spec s n : ant_of_name tel s = Ok n <-> called tel s n.
Proof.
  unfold ant_of_name, called. split.
  - destruct (index_of String.eqb s (ct_names tel)) as [i|] eqn:E; [|discriminate].
    apply (index_of_Some String.eqb String.eqb_eq EmptyString) in E as (L & E & _).
    destruct (nth_error (ct_numbers tel) i) as [m|] eqn:X; [|discriminate]. intros Y. injection Y as ->. exists i. auto.
  - intros (k & L & E & X). destruct (index_of String.eqb s (ct_names tel)) as [i|] eqn:I.
    + apply (index_of_Some String.eqb String.eqb_eq EmptyString) in I as (L' & E' & _).
      assert (i = k) as ->. { apply (proj1 (NoDup_nth (ct_names tel) EmptyString) TEL); congruence. }
      rewrite X. reflexivity.
    + exfalso. apply (index_of_None String.eqb String.eqb_eq) in I. apply I. rewrite <- E. apply nth_In, L.
Qed.

Lemma ant_positions_spec nums l : ant_positions (c_ants u) nums = Ok l ->
  positions_of (Nants u) (fun a => In (ant_at u a) nums) l /\ forall n, In n nums -> has_ant u n.
Proof.
  unfold ant_positions. intros H. apply bind_Ok in H as (ll & H & E). injection E as <-. apply mapM_Ok_Forall2 in H.
  assert (S : forall i, In i (List.concat ll) <-> (i < Nants u)%nat /\ In (ant_at u i) nums).
  { clear - H. induction H as [|n x nums ll Hn _ IH]; intros i; [cbn; tauto|]. cbn [List.concat]. rewrite in_app_iff, IH.
    destruct (isinZ n (c_ants u)); [|discriminate]. injection Hn as <-. rewrite (nonzero_spec 0), Z.eqb_eq. unfold Nants, ant_at. cbn. tauto. }
  split.
  - split; [apply uniqueN_sorted|]. intros i. rewrite uniqueN_In. apply S.
  - intros n I. clear - H I. induction H as [|m x nums ll Hn _ IH]; [destruct I|]. destruct I as [-> | I]; [|apply IH, I].
    destruct (isinZ n (c_ants u)) eqn:E; [|discriminate]. apply isinZ_spec in E. apply (In_nth _ _ 0) in E. exact E.
Qed.

Definition ants_found : result (option (list nat)) :=
  do nums <- asked_ants tel cr;
  match nums with None => Ok None | Some nums => do l <- ant_positions (c_ants u) nums; Ok (Some l) end.

Lemma names_nums names nums : mapM (ant_of_name tel) names = Ok nums -> forall n, In n nums <-> exists s, In s names /\ called tel s n.
Proof.
  intros H. apply mapM_Ok_Forall2 in H. intros n. induction H as [|s m names nums Hs _ IH]; [cbn; split; [intros [] | intros (s & [] & _)]|].
  cbn [In]. rewrite IH. apply ant_of_name_spec in Hs. split.
  - intros [<- | (s' & I & C)]; [exists s | exists s']; auto.
  - intros (s' & [<- | I] & C); [left | right; eauto]. apply ant_of_name_spec in Hs. apply ant_of_name_spec in C. congruence.
Qed.

Lemma ants_found_spec ants : ants_found = Ok ants ->
  positions_of (Nants u) (ant_wanted tel cr u) (or_all (Nants u) ants) /\
  (forall l n, cc_antenna_nums cr = Some l -> In n l -> has_ant u n) /\
  (forall l s, cc_antenna_names cr = Some l -> In s l -> exists n, called tel s n /\ has_ant u n).
Proof.
  unfold ants_found, asked_ants, ant_wanted. intros H. apply bind_Ok in H as (nums & Hn & H).
  destruct (cc_antenna_names cr) as [names|].
  - destruct (cc_antenna_nums cr); [discriminate|]. apply bind_Ok in Hn as (nn & Hm & E). injection E as <-.
    apply bind_Ok in H as (l & H & E). injection E as <-. destruct (ant_positions_spec _ _ H) as (PO & HA). split; [|split].
    + cbn [or_all]. eapply positions_ext; [exact PO|]. intros a La. cbv beta. rewrite (names_nums _ _ Hm). split.
      * intros X. split; [discriminate|]. intros l0 E0. injection E0 as <-. exact X.
      * intros (_ & X). apply X. reflexivity.
    + intros; discriminate.
    + intros l0 s E I. injection E as <-. pose proof (mapM_Ok_Forall2 _ _ _ Hm) as F. clear - F I HA TEL.
      assert (X : exists n, In n nn /\ ant_of_name tel s = Ok n).
      { induction F as [|s' n' names nn E F IH]; [destruct I|]. destruct I as [-> | I]; [exists n'; cbn; auto|].
        destruct IH as (n & In_ & En); [intros n X; apply HA; right; exact X | exact I |]. exists n. cbn. auto. }
      destruct X as (n & I' & En). exists n. split; [apply ant_of_name_spec, En | apply HA, I'].
  - destruct (cc_antenna_nums cr) as [l0|]; injection Hn as <-.
    + apply bind_Ok in H as (l & H & E). injection E as <-. destruct (ant_positions_spec _ _ H) as (PO & HA). split; [|split].
      * cbn [or_all]. eapply positions_ext; [exact PO|]. intros a La. cbv beta. split.
        -- intros X. split; [|discriminate]. intros l1 E. injection E as <-. exact X.
        -- intros (X & _). apply X. reflexivity.
      * intros l1 n E I. injection E as <-. apply HA, I.
      * intros; discriminate.
    + injection H as <-. cbn [or_all]. split; [apply positions_all; split; discriminate | split; discriminate].
Qed.

(** ** Times *)
Lemma times_found times : times_plain (cc_time cr) u -> time_positions two_pi tols lst_tols cr u = Ok times ->
  positions_of (Ntimes u) (cal_time_wanted two_pi tols lst_tols cr u) (or_all (Ntimes u) times).
Proof.
  unfold time_positions. intros PL H. apply bind_Ok in H as (t & H & E). injection E as <-. pose proof OK as ((L1 & L2 & L3 & L4 & L5) & _).
  assert (NW : no_time_criterion (cc_time cr) -> forall i, cal_time_wanted two_pi tols lst_tols cr u i).
  { intros (N1 & N2 & N3 & N4) i. unfold cal_time_wanted, wanted_time, wanted_range. rewrite N1, N2, N3, N4.
    split; intros; repeat split; intros; discriminate. }
  unfold cal_time_wanted in *.
  destruct t as [inds|]; cbn [option_map or_all].
  - split; [apply uniqueN_sorted|]. intros i. rewrite uniqueN_In. unfold cal_time_axis, cal_lst_axis in H.
    destruct PL as [(ta & la & R1 & R2 & A1 & A2) | (tr & lr & R1 & R2 & P1 & P2 & P3)].
    + rewrite R1, R2, A1, A2 in *. rewrite (times_exact _ _ _ _ _ _ _ (eq_trans (L3 la eq_refl) (eq_sym (L2 ta eq_refl))) H), (L2 ta eq_refl).
      split; intros (Li & X); (split; [exact Li|]).
      * split; [|discriminate]. intros ta' la' _ E1 E2. injection E1 as <-. injection E2 as <-. exact X.
      * destruct X as (X & _). apply X; reflexivity.
    + rewrite R1, R2 in *. assert (LR : length tr = Ntimes u) by (apply range_len, R1).
      rewrite (ranges_exact two_pi _ _ _ _ _ _ (eq_trans (L4 lr eq_refl) (eq_sym LR)) P1 P2 P3 H), LR.
      split; intros (Li & X); (split; [exact Li|]).
      * split; [discriminate|]. intros tr' lr' E1 E2. injection E1 as <-. injection E2 as <-. exact X.
      * destruct X as (_ & X). apply X; reflexivity.
  - apply times_none in H. apply positions_all. intros i _. apply NW, H.
Qed.

(** ** Windows and channels *)
Lemma wide_found wins c1 c2 c3 : c_wide u = true -> wanted_windows cr u = Ok (wins, c1) -> wanted_chans cr c1 u = Ok c2 -> chan_positions c2 u = Ok c3 ->
  c3 = None /\ cc_frequencies cr = None /\ cc_freq_chans cr = None /\ (wins = None <-> spws_asked cr u = None) /\
  (forall w, wins = Some w -> exists idx, w = map Z.of_nat idx /\ positions_of (Nchans u) (window_listed cr u) idx) /\
  (forall l w, spws_asked cr u = Some l -> In w l -> In w (c_spws u)).
Proof.
  intros WD H1 H2 H3. unfold wanted_windows, wanted_chans, spws_asked, window_listed, spws_asked, Nchans in *. rewrite WD in *. cbn [andb] in H2.
  destruct c1 as [c1|]; [discriminate|]. destruct (cc_frequencies cr); [discriminate|]. cbn in H2. injection H2 as <-. cbn in H3. injection H3 as <-.
  split; [reflexivity|]. split; [reflexivity|].
  destruct (cc_spws cr) as [spws|].
  - destruct (length (c_spws u) =? 1)%nat.
    + injection H1 as <- E1. split; [exact E1|]. split; [tauto|]. split; [intros ? X | intros ? ? X ?]; discriminate X.
    + destruct (forallb (fun w => isinZ w (c_spws u)) spws) eqn:F; [|discriminate]. injection H1 as <- E1. split; [exact E1|].
      split; [split; discriminate|]. split.
      * intros w E. injection E as <-. eexists. split; [reflexivity|]. split; [apply nonzero_sorted|]. intros i.
        rewrite (nonzero_spec 0), isinZ_spec. split; intros (L & X); (split; [exact L|]).
        -- intros l E. injection E as <-. exact X.
        -- apply X. reflexivity.
      * intros l w E I. injection E as <-. rewrite forallb_forall in F. apply isinZ_spec, F, I.
  - injection H1 as <- E1. split; [exact E1|]. destruct (length (c_spws u) =? 1)%nat; (split; [tauto|]); split; intros; discriminate.
Qed.

Lemma union_In l o c : In c (sorted_unique_union l o) <-> In c l \/ exists l', o = Some l' /\ In c l'.
Proof.
  unfold sorted_unique_union. destruct o as [l'|]; rewrite uniqueZ_In.
  - rewrite in_app_iff. split; [intros [I | I]; eauto | intros [I | (l0 & E & I)]; [auto | injection E as <-; auto]].
  - split; [auto | intros [I | (l0 & E & _)]; [exact I | discriminate]].
Qed.
Lemma nonzero_Z p (l : list Z) c : In c (map Z.of_nat (nonzero p l)) -> 0 <= c.
Proof. intros I. apply in_map_iff in I as (i & <- & _). lia. Qed.
Lemma nonzero_nat p (l : list Z) f : In (Z.of_nat f) (map Z.of_nat (nonzero p l)) <-> (f < length l)%nat /\ p (nth f l 0) = true.
Proof.
  rewrite in_map_iff. split.
  - intros (i & E & I). apply Nat2Z.inj in E as ->. apply (nonzero_spec 0) in I. exact I.
  - intros H. exists f. split; [reflexivity|]. apply (nonzero_spec 0). exact H.
Qed.

(** the channels listed, before the check of their separations *)
Lemma listed_found wins c1 c2 : c_wide u = false -> wanted_windows cr u = Ok (wins, c1) -> wanted_chans cr c1 u = Ok c2 ->
  wins = None /\ (c2 = None <-> cc_frequencies cr = None /\ cc_freq_chans cr = None /\ spws_asked cr u = None) /\
  (forall l, c2 = Some l -> (no_negative cr -> forall c, In c l -> 0 <= c) /\
     forall f, (f < Nchans u)%nat -> (In (Z.of_nat f) l <-> chan_listed cr u f)) /\
  (forall l x, cc_frequencies cr = Some l -> In x l -> In x (c_freqs u)) /\
  (forall l c, cc_freq_chans cr = Some l -> In c l -> exists l', c2 = Some l' /\ In c l').
Proof.
  intros WD H1 H2. pose proof OK as (_ & LC & _). rewrite WD in LC. destruct LC as (LW & LX & _).
  assert (NC : Nchans u = length (c_freqs u)) by (unfold Nchans; rewrite WD; reflexivity).
  assert (S1 : wins = None /\ (c1 = None <-> cc_freq_chans cr = None /\ spws_asked cr u = None) /\
     (forall l, c1 = Some l -> (no_negative cr -> forall c, In c l -> 0 <= c) /\
       forall f, (f < Nchans u)%nat -> (In (Z.of_nat f) l <-> (exists l, cc_freq_chans cr = Some l /\ In (Z.of_nat f) l) \/
         (exists l, spws_asked cr u = Some l /\ In (nth f (c_flex u) 0) l))) /\
     (forall l c, cc_freq_chans cr = Some l -> In c l -> exists l', c1 = Some l' /\ In c l')).
  { unfold wanted_windows, spws_asked, no_negative in *. rewrite WD in H1. rewrite NC.
    assert (BASE : (Ok (None, cc_freq_chans cr) : result (option (list Z) * option (list Z))) = Ok (wins, c1) -> forall o : option (list Z), o = None ->
       wins = None /\ (c1 = None <-> cc_freq_chans cr = None /\ o = None) /\
       (forall l, c1 = Some l -> ((forall l c, cc_freq_chans cr = Some l -> In c l -> 0 <= c) -> forall c, In c l -> 0 <= c) /\
       forall f, (f < length (c_freqs u))%nat -> (In (Z.of_nat f) l <-> (exists l, cc_freq_chans cr = Some l /\ In (Z.of_nat f) l) \/
         (exists l, o = Some l /\ In (nth f (c_flex u) 0) l))) /\
       (forall l c, cc_freq_chans cr = Some l -> In c l -> exists l', c1 = Some l' /\ In c l')).
    { intros E o ->. injection E as <- <-. split; [reflexivity|]. split; [tauto|]. split; [|eauto].
      intros l E. split; [intros N c I; apply (N l c E I)|]. intros f _. rewrite E. split; [eauto|].
      intros [(l' & E' & I) | (l' & E' & _)]; [injection E' as <-; exact I | discriminate]. }
    destruct (cc_spws cr) as [spws|].
    - destruct (length (c_spws u) =? 1)%nat; [apply BASE; [exact H1 | reflexivity]|]. injection H1 as <- <-. split; [reflexivity|].
      split; [split; [discriminate | intros (_ & X); discriminate]|]. split.
      + intros l E. injection E as <-. split.
        * intros N c I. apply union_In in I as [I | (l' & E' & I)]; [apply (nonzero_Z _ _ _ I) | apply (N _ _ E' I)].
        * intros f Lf. rewrite union_In, nonzero_nat, isinZ_spec, LX. split.
          -- intros [(_ & I) | X]; [right; exists spws; auto | left; exact X].
          -- intros [X | (l' & E' & I)]; [right; exact X | left; injection E' as <-; auto].
      + intros l c E I. eexists. split; [reflexivity|]. apply union_In. right. eauto.
    - apply BASE; [exact H1|]. destruct (length (c_spws u) =? 1)%nat; reflexivity. }
  destruct S1 as (-> & N1 & S1 & K1). split; [reflexivity|]. unfold wanted_chans, chan_listed in *. rewrite WD in H2. cbn [andb] in H2.
  destruct (cc_frequencies cr) as [freqs|].
  - destruct (forallb _ freqs) eqn:F; [|discriminate]. injection H2 as <-. split; [split; [discriminate | intros (X & _); discriminate]|]. split; [|split].
    + intros l E. injection E as <-. split.
      * intros N c I. apply union_In in I as [I | (l' & E' & I)]; [apply (nonzero_Z _ _ _ I) | apply (proj1 (S1 _ E') N c I)].
      * intros f Lf. rewrite union_In, nonzero_nat, isinZ_spec, <- NC. split.
        -- intros [(_ & I) | (l' & E' & I)]; [right; left; exists freqs; auto|]. right. right. apply (proj2 (S1 _ E') f Lf), I.
        -- intros [(X & _) | [(l' & E' & I) | X]]; [discriminate | injection E' as <-; auto|]. right.
           destruct c1 as [l1|]; [|exfalso; destruct (proj1 N1 eq_refl) as (X1 & X2); rewrite X1, X2 in X; destruct X as [(a & E & _) | (a & E & _)]; discriminate].
           exists l1. split; [reflexivity|]. apply (proj2 (S1 _ eq_refl) f Lf), X.
    + intros l x E I. injection E as <-. rewrite forallb_forall in F. apply isinZ_spec, F, I.
    + intros l c E I. eexists. split; [reflexivity|]. apply union_In. right. eapply K1; eauto.
  - injection H2 as <-. split; [|split; [|split; [intros; discriminate|exact K1]]].
    + rewrite N1. tauto.
    + intros l E. destruct (S1 l E) as (SN & SF). split; [exact SN|]. intros f Lf. rewrite (SF f Lf). split; [auto|].
      intros [(_ & X) | [(l' & X & _) | X]]; [apply N1 in X; congruence | discriminate | exact X].
Qed.

Lemma chans_found wins c1 c2 c3 : c_wide u = false -> wanted_windows cr u = Ok (wins, c1) -> wanted_chans cr c1 u = Ok c2 -> chan_positions c2 u = Ok c3 ->
  (c3 = None <-> c2 = None) /\ forall l, c3 = Some l -> StronglySorted Z.lt l /\ exists l2, c2 = Some l2 /\ forall c, In c l <-> In c l2.
Proof.
  intros _ _ _ H. unfold chan_positions in H. destruct c2 as [l2|].
  - apply bind_Ok in H as (b & _ & H). injection H as <-. split; [split; discriminate|]. intros l E. injection E as <-.
    split; [apply uniqueZ_sorted|]. exists l2. split; [reflexivity|]. intros c. apply uniqueZ_In.
  - injection H as <-. split; [tauto | discriminate].
Qed.

(** ** Jones terms *)
Let asks (asked : list pol_name) (n : Z) := exists a, In a asked /\ jones_number (ct_x_orientation tel) a = Ok n.
Lemma jones_places_spec pols fp asked ks ws : jones_places (ct_x_orientation tel) pols fp asked = Ok (ks, ws) ->
  (forall k, In k ks <-> (k < length pols)%nat /\ asks asked (nth k pols 0)) /\
  (forall w, In w ws <-> exists f, fp = Some f /\ (w < length f)%nat /\ ~ In (nth w f 0) pols /\ asks asked (nth w f 0)) /\
  (forall n, asks asked n -> In n pols \/ exists f, fp = Some f /\ In n f) /\
  (forall a, In a asked -> exists n, jones_number (ct_x_orientation tel) a = Ok n).
Proof.
  clear OK TEL. revert ks ws. induction asked as [|a asked IH]; cbn [jones_places]; intros ks ws H.
  - injection H as <- <-. unfold asks. split; [|split; [|split]].
    + intros k. split; [intros [] | intros (_ & a & [] & _)].
    + intros k. split; [intros [] | intros (f & _ & _ & _ & a & [] & _)].
    + intros n (a & [] & _).
    + intros a [].
  - apply bind_Ok in H as (n & Hn & H). apply bind_Ok in H as ([k1 w1] & H1 & H). apply bind_Ok in H as ([k2 w2] & H2 & H). injection H as <- <-.
    destruct (IH _ _ H2) as (IK & IW & IN & IA).
    assert (AS : forall m, asks (a :: asked) m <-> m = n \/ asks asked m).
    { intros m. unfold asks. split.
      - intros (b & [<- | I] & E); [left; congruence | right; eauto].
      - intros [-> | (b & I & E)]; [exists a | exists b]; simpl; auto. }
    assert (S : (forall k, In k k1 <-> (k < length pols)%nat /\ nth k pols 0 = n) /\
                (forall w, In w w1 <-> exists f, fp = Some f /\ (w < length f)%nat /\ ~ In n pols /\ nth w f 0 = n) /\
                (In n pols \/ exists f, fp = Some f /\ In n f)).
    { destruct (isinZ n pols) eqn:E.
      - injection H1 as <- <-. apply isinZ_spec in E. split; [|split; [|auto]].
        + intros k. rewrite (nonzero_spec 0), Z.eqb_eq. intuition congruence.
        + intros w. split; [intros [] | intros (f & _ & _ & N & _); contradiction].
      - assert (NI : ~ In n pols) by (intros I; apply isinZ_spec in I; congruence).
        destruct fp as [f|]; [|discriminate]. destruct (isinZ n f) eqn:Ef; [|discriminate]. injection H1 as <- <-. apply isinZ_spec in Ef.
        split; [|split; [|eauto]].
        + intros k. split; [intros []|]. intros (L & <-). exfalso. apply NI, nth_In, L.
        + intros w. rewrite (nonzero_spec 0), Z.eqb_eq. split.
          * intros (L & ->). exists f. auto.
          * intros (f' & E' & L & _ & <-). injection E' as <-. auto. }
    destruct S as (SK & SW & SN). split; [|split; [|split]].
    + intros k. rewrite in_app_iff, SK, IK, AS. tauto.
    + intros w. rewrite in_app_iff, SW, IW. split.
      * intros [(f & A & B & C & D) | (f & A & B & C & D)]; exists f; (split; [exact A|]); (split; [exact B|]); rewrite AS; [rewrite D|]; auto.
      * intros (f & A & B & C & D). apply AS in D as [D | D]; [left | right]; exists f; rewrite <- ?D; auto.
    + intros m Am. apply AS in Am as [-> | Am]; [exact SN | apply IN, Am].
    + intros b [<- | I]; [eauto | apply IA, I].
Qed.

Lemma asks_jones l n : cc_jones cr = Some l -> (asks l n <-> jones_asked tel cr n).
Proof.
  clear OK TEL. intros E. unfold asks, jones_asked. rewrite E. split.
  - intros ([m|s] & I & H); cbn in H; exists l; (split; [reflexivity|]); [injection H as ->; left; exact I | right; eauto].
  - intros (l' & E' & H). injection E' as <-. destruct H as [H | (s & I & H)]; [exists (PolNum n) | exists (PolStr s)]; auto.
Qed.
Lemma has_jones_In n : In n (c_jones u) <-> has_jones u n.
Proof. clear. unfold has_jones, on_axis, jones_at, Njones. split; [intros I; apply (In_nth _ _ 0) in I; exact I | intros (i & L & <-); apply nth_In, L]. Qed.

Definition at_windows (f : nat) : Prop := exists p, window_jones u (fst (chan_at u f)) p /\ jones_asked tel cr p /\ ~ has_jones u p.

Lemma window_places asked ks ws : cc_jones cr = Some asked -> jones_places (ct_x_orientation tel) (c_jones u) (c_flex_jones u) asked = Ok (ks, ws) ->
  (forall k, In k ks <-> (k < Njones u)%nat /\ jones_asked tel cr (jones_at u k)) /\
  (forall w, In w ws -> (w < length (c_spws u))%nat) /\
  (forall x, (exists k, In k ws /\ nth k (c_spws u) 0 = x) <-> exists p, window_jones u x p /\ jones_asked tel cr p /\ ~ has_jones u p) /\
  (ws = [] <-> ~ asked_of_windows tel cr u) /\
  (forall p, jones_asked tel cr p -> has_jones u p \/ exists w, window_jones u w p) /\
  (forall s, In (PolStr s) asked -> exists p, jstr2num (ct_x_orientation tel) s = Ok p).
Proof.
  clear TEL. intros E H. destruct (jones_places_spec _ _ _ _ _ H) as (SK & SW & SN & SA). pose proof OK as (_ & _ & ND & LF & _).
  assert (LW : forall w, In w ws -> (w < length (c_spws u))%nat).
  { intros w I. apply SW in I as (f & Ef & L & _). rewrite <- (LF f Ef). exact L. }
  assert (SX : forall x, (exists k, In k ws /\ nth k (c_spws u) 0 = x) <-> exists p, window_jones u x p /\ jones_asked tel cr p /\ ~ has_jones u p).
  { intros x. split.
    - intros (k & I & Ex). pose proof (LW k I) as Lk. apply SW in I as (f & Ef & L & N & A). exists (nth k f 0). split; [|split].
      + exists f, k. split; [exact Ef|]. split; [exact Lk|]. split; [exact Ex|]. apply nth_error_nth'. exact L.
      + apply (asks_jones asked _ E), A.
      + intros X. apply N, has_jones_In, X.
    - intros (p & (f & k & Ef & Lk & Ex & En) & A & N). exists k. split; [|exact Ex]. apply SW. exists f. split; [exact Ef|].
      assert (Lk' : (k < length f)%nat) by (apply nth_error_Some; congruence). split; [exact Lk'|].
      rewrite (nth_error_nth f k 0 En). split; [intros X; apply N, has_jones_In, X | apply (asks_jones asked _ E), A]. }
  assert (SP : forall p, jones_asked tel cr p -> has_jones u p \/ exists w, window_jones u w p).
  { intros p A. apply (asks_jones asked _ E) in A. destruct (SN p A) as [I | (f & Ef & I)]; [left; apply has_jones_In, I | right].
    apply (In_nth _ _ 0) in I as (k & Lk & Ek). exists (nth k (c_spws u) 0), f, k. split; [exact Ef|]. rewrite (LF f Ef) in Lk. split; [exact Lk|].
    split; [reflexivity|]. rewrite <- Ek. apply nth_error_nth'. rewrite (LF f Ef). exact Lk. }
  split; [|split; [exact LW|split; [exact SX|split; [|split; [exact SP|]]]]].
  - intros k. rewrite SK. rewrite (asks_jones asked _ E). reflexivity.
  - split.
    + intros -> (p & A & N). destruct (SP p A) as [I | (w & W)]; [contradiction|]. destruct (proj2 (SX w)) as (k & [] & _). exists p. auto.
    + intros N. destruct ws as [|k ws]; [reflexivity|]. exfalso. apply N.
      destruct (proj1 (SX (nth k (c_spws u) 0))) as (p & _ & A & X); [exists k; split; [left; reflexivity | reflexivity]|]. exists p. auto.
  - intros s I. destruct (SA _ I) as (p & Ep). exists p. exact Ep.
Qed.

Lemma inter_In l o c : In c (sorted_unique_intersection l o) <-> In c l /\ forall l', o = Some l' -> In c l'.
Proof.
  clear. unfold sorted_unique_intersection. destruct o as [l'|]; rewrite uniqueZ_In.
  - rewrite filter_In, isinZ_spec. split; intros (A & B); (split; [exact A|]); [intros l0 E; injection E as <-; exact B | apply B; reflexivity].
  - split; [intros A; split; [exact A | discriminate] | tauto].
Qed.
Lemma inter_sorted l o : StronglySorted Z.lt (sorted_unique_intersection l o).
Proof. clear. unfold sorted_unique_intersection. destruct o; apply uniqueZ_sorted. Qed.

Section Selected.
Variable r : ucal.
Hypothesis SEL : cal_select two_pi tols lst_tols tel cr u = Ok r.

Lemma select_open : exists ants times wins c1 c2 c3 wins' chans' jones,
  ants_found = Ok ants /\ time_positions two_pi tols lst_tols cr u = Ok times /\ wanted_windows cr u = Ok (wins, c1) /\
  wanted_chans cr c1 u = Ok c2 /\ chan_positions c2 u = Ok c3 /\ jones_positions tel cr wins c3 u = Ok (wins', chans', jones) /\
  by_index ants times wins' chans' jones u = Ok r.
Proof.
  clear OK TEL. unfold cal_select in SEL. apply bind_Ok in SEL as (nums & H1 & H). apply bind_Ok in H as (ants & H2 & H).
  apply bind_Ok in H as (times & H3 & H). apply bind_Ok in H as ([wins c1] & H4 & H). apply bind_Ok in H as (c2 & H5 & H).
  apply bind_Ok in H as (c3 & H6 & H). apply bind_Ok in H as ([[wins' chans'] jones] & H7 & H).
  exists ants, times, wins, c1, c2, c3, wins', chans', jones. unfold ants_found. rewrite H1. cbn [bind]. auto 10.
Qed.

(** The positions kept on the Jones axis *)
Lemma jones_found wins chans wins' chans' jones : jones_positions tel cr wins chans u = Ok (wins', chans', jones) ->
  positions_of (Njones u) (jones_wanted tel cr u) (or_all (Njones u) jones) /\
  (forall p, jones_asked tel cr p -> has_jones u p \/ exists w, window_jones u w p) /\
  (forall l s, cc_jones cr = Some l -> In (PolStr s) l -> exists p, jstr2num (ct_x_orientation tel) s = Ok p).
Proof.
  clear TEL SEL. unfold jones_positions, jones_wanted. destruct (cc_jones cr) as [asked|] eqn:EJ.
  - intros H. apply bind_Ok in H as ([ks ws] & HP & H). destruct (window_places _ _ _ EJ HP) as (SK & LW & SX & SE & SP & SS).
    split; [|split; [exact SP | intros l s E; injection E as <-; apply SS]].
    destruct ws as [|w ws0] eqn:EW.
    + injection H as <- <- <-. cbn [or_all]. split; [apply uniqueN_sorted|]. intros j. rewrite uniqueN_In, SK. split; intros (L & X); (split; [exact L|]).
      * auto.
      * destruct X as [X | [X | X]]; [discriminate | exfalso; apply (proj1 SE eq_refl), X | exact X].
    + destruct (empty _ || _); [discriminate|]. injection H as <- <- <-. cbn [or_all]. apply positions_all. intros j _. right. left.
      destruct (proj1 (SX (nth w (c_spws u) 0))) as (p & _ & A & N); [exists w; split; [left; reflexivity | reflexivity]|]. exists p. auto.
  - intros H. injection H as <- <- <-. cbn [or_all]. split; [apply positions_all; auto|]. split; [|discriminate].
    intros p (l & E & _). congruence.
Qed.

(** and on the channel axis *)
Lemma axis_found wins c1 c2 c3 wins' chans' jones : no_negative cr -> wanted_windows cr u = Ok (wins, c1) ->
  wanted_chans cr c1 u = Ok c2 -> chan_positions c2 u = Ok c3 -> jones_positions tel cr wins c3 u = Ok (wins', chans', jones) ->
  if c_wide u
  then chans' = None /\ positions_of (Nchans u) (cal_chan_wanted tel cr u) (or_all (Nchans u) (option_map (map Z.to_nat) wins'))
  else (wins' <> None -> chans' <> None) /\
       (forall l, chans' = Some l -> StronglySorted Z.lt l /\ (forall c, In c l -> 0 <= c)) /\
       (forall f, (f < Nchans u)%nat -> (forall l, chans' = Some l -> In (Z.of_nat f) l) <-> cal_chan_wanted tel cr u f) /\
       (forall w, wins' = Some w -> StronglySorted lt (map Z.to_nat w) /\ (forall k, In k (map Z.to_nat w) -> (k < length (c_spws u))%nat) /\
          forall l f, chans' = Some l -> In (Z.of_nat f) l -> exists k, In k (map Z.to_nat w) /\ nth k (c_spws u) 0 = nth f (c_flex u) 0).
Proof.
  clear TEL SEL. intros NN H1 H2 H3 H4. pose proof OK as (_ & LC & ND & LF & _).
  assert (NW : cc_jones cr = None -> ~ asked_of_windows tel cr u) by (intros E (p & (l & E' & _) & _); congruence).
  change (cal_chan_wanted tel cr u) with (fun f => (if c_wide u then window_listed cr u f else chan_listed cr u f) /\ (asked_of_windows tel cr u -> at_windows f)).
  cbv beta.
  destruct (c_wide u) eqn:WD.
  - destruct (wide_found _ _ _ _ WD H1 H2 H3) as (-> & _ & _ & NS & SW & _).
    assert (NC : Nchans u = length (c_spws u)) by (unfold Nchans; rewrite WD; reflexivity).
    assert (AT : forall f, at_windows f <-> exists p, window_jones u (nth f (c_spws u) 0) p /\ jones_asked tel cr p /\ ~ has_jones u p).
    { intros f. unfold at_windows, chan_at. rewrite WD. reflexivity. }
    assert (SAME : ~ asked_of_windows tel cr u -> positions_of (Nchans u) (fun f => window_listed cr u f /\ (asked_of_windows tel cr u -> at_windows f))
              (or_all (Nchans u) (option_map (map Z.to_nat) wins))).
    { intros N. destruct wins as [w|]; cbn [option_map or_all].
      - destruct (SW w eq_refl) as (idx & -> & PO). rewrite map_map, (map_ext _ (fun i => i) Nat2Z.id), map_id.
        eapply positions_ext; [exact PO|]. intros f _. tauto.
      - apply positions_all. intros f _. split; [|tauto]. unfold window_listed. rewrite (proj1 NS eq_refl). discriminate. }
    unfold jones_positions in H4. destruct (cc_jones cr) as [asked|] eqn:EJ.
    + apply bind_Ok in H4 as ([ks ws] & HP & H4). destruct (window_places _ _ _ EJ HP) as (_ & LW & SX & SE & _).
      destruct ws as [|w0 ws0] eqn:EW; [injection H4 as <- <- <-; split; [reflexivity|]; apply SAME, SE; reflexivity|].
      rewrite <- EW in *. rewrite WD in H4. cbn [negb andb] in H4. rewrite orb_false_r in H4.
      destruct (empty (sorted_unique_intersection (map Z.of_nat ws) wins)) eqn:EE; [discriminate|]. injection H4 as <- <- <-. split; [reflexivity|].
      cbn [option_map or_all].
      assert (PI : forall c, In c (sorted_unique_intersection (map Z.of_nat ws) wins) -> 0 <= c).
      { intros c I. apply inter_In in I as (I & _). apply in_map_iff in I as (k & <- & _). lia. }
      split; [apply to_nat_sorted; [apply inter_sorted | exact PI]|]. intros f. rewrite (in_to_nat _ _ PI), inter_In, AT.
      assert (AW : asked_of_windows tel cr u).
      { destruct (proj1 (SX (nth w0 (c_spws u) 0))) as (p & _ & A & N); [exists w0; split; [rewrite EW; left; reflexivity | reflexivity]|]. exists p. auto. }
      split.
      * intros (I & X). apply in_map_iff in I as (k & Ek & I). apply Nat2Z.inj in Ek as ->. pose proof (LW f I) as Lf. rewrite NC. split; [exact Lf|]. split.
        -- destruct wins as [w|]; [|unfold window_listed; rewrite (proj1 NS eq_refl); discriminate].
           destruct (SW w eq_refl) as (idx & -> & PO). specialize (X _ eq_refl). apply in_map_iff in X as (k & Ek & X). apply Nat2Z.inj in Ek as ->.
           apply PO in X. apply X.
        -- intros _. apply SX. exists f. auto.
      * intros (Lf & WL & X). rewrite NC in Lf. specialize (X AW). apply SX in X as (k & I & Ek).
        assert (k = f) as ->. { apply (proj1 (NoDup_nth (c_spws u) 0) ND); [apply LW, I | exact Lf | exact Ek]. }
        split; [apply in_map, I|]. intros w E. destruct (SW w E) as (idx & -> & PO). apply in_map. apply PO. rewrite NC. auto.
    + injection H4 as <- <- <-. split; [reflexivity|]. apply SAME, NW. reflexivity.
  - destruct LC as (LWD & LX & EQ).
    assert (NC : Nchans u = length (c_freqs u)) by (unfold Nchans; rewrite WD; reflexivity).
    destruct (listed_found _ _ _ WD H1 H2) as (-> & N2 & S2 & _ & _). destruct (chans_found _ _ _ _ WD H1 H2 H3) as (N3 & S3).
    assert (AT : forall f, at_windows f <-> exists p, window_jones u (nth f (c_flex u) 0) p /\ jones_asked tel cr p /\ ~ has_jones u p).
    { intros f. unfold at_windows, chan_at. rewrite WD. reflexivity. }
    assert (P3 : forall l, c3 = Some l -> StronglySorted Z.lt l /\ (forall c, In c l -> 0 <= c)).
    { intros l E. destruct (S3 l E) as (S & l2 & E2 & M). split; [exact S|]. intros c I. apply (proj1 (S2 l2 E2) NN). apply M, I. }
    assert (L3 : forall f, (f < Nchans u)%nat -> (forall l, c3 = Some l -> In (Z.of_nat f) l) <-> chan_listed cr u f).
    { intros f Lf. split.
      - intros H. destruct c3 as [l|].
        + destruct (S3 l eq_refl) as (_ & l2 & E2 & M). apply (proj2 (S2 l2 E2) f Lf). apply M, H. reflexivity.
        + left. apply N2, N3. reflexivity.
      - intros H l E. destruct (S3 l E) as (_ & l2 & E2 & M). apply M. apply (proj2 (S2 l2 E2) f Lf), H. }
    assert (SAME : ~ asked_of_windows tel cr u ->
       ((@None (list Z)) <> None -> c3 <> None) /\ (forall l, c3 = Some l -> StronglySorted Z.lt l /\ (forall c, In c l -> 0 <= c)) /\
       (forall f, (f < Nchans u)%nat -> (forall l, c3 = Some l -> In (Z.of_nat f) l) <-> chan_listed cr u f /\ (asked_of_windows tel cr u -> at_windows f)) /\
       (forall w, (@None (list Z)) = Some w -> StronglySorted lt (map Z.to_nat w) /\ (forall k, In k (map Z.to_nat w) -> (k < length (c_spws u))%nat) /\
          forall l f, c3 = Some l -> In (Z.of_nat f) l -> exists k, In k (map Z.to_nat w) /\ nth k (c_spws u) 0 = nth f (c_flex u) 0)).
    { intros N. split; [congruence|]. split; [exact P3|]. split; [|discriminate]. intros f Lf. rewrite (L3 f Lf). tauto. }
    unfold jones_positions in H4. destruct (cc_jones cr) as [asked|] eqn:EJ.
    + apply bind_Ok in H4 as ([ks ws] & HP & H4). destruct (window_places _ _ _ EJ HP) as (_ & LW & SX & SE & _).
      destruct ws as [|w0 ws0] eqn:EW; [injection H4 as <- <- <-; apply SAME, SE; reflexivity|].
      rewrite <- EW in *. rewrite WD in H4. cbn [negb andb] in H4.
      set (ch := sorted_unique_intersection (map Z.of_nat (nonzero _ (c_flex u))) c3) in H4.
      destruct (_ || _) in H4; [discriminate|]. injection H4 as <- <- <-.
      assert (AW : asked_of_windows tel cr u).
      { destruct (proj1 (SX (nth w0 (c_spws u) 0))) as (p & _ & A & N); [exists w0; split; [rewrite EW; left; reflexivity | reflexivity]|]. exists p. auto. }
      assert (PC : forall c, In c ch -> 0 <= c).
      { intros c I. apply inter_In in I as (I & _). apply in_map_iff in I as (k & <- & _). lia. }
      assert (IC : forall f, In (Z.of_nat f) ch <-> (f < Nchans u)%nat /\ at_windows f /\ forall l, c3 = Some l -> In (Z.of_nat f) l).
      { intros f. unfold ch. rewrite inter_In, nonzero_nat, isinZ_spec, LX, <- NC, AT, <- SX. unfold take. rewrite in_map_iff.
        split; [intros ((L & k & E & I) & X) | intros (L & (k & I & E) & X)]; eauto 6. }
      split; [discriminate|]. split; [intros l E; injection E as <-; split; [apply inter_sorted | exact PC]|]. split.
      * intros f Lf. split.
        -- intros X. specialize (X ch eq_refl). apply IC in X as (_ & A & X). split; [apply (L3 f Lf), X | auto].
        -- intros (A & B) l E. injection E as <-. apply IC. split; [exact Lf|]. split; [apply B, AW | apply (L3 f Lf), A].
      * intros w E. injection E as <-.
        assert (PI : forall c, In c (uniqueZ (map Z.of_nat ws)) -> 0 <= c).
        { intros c I. apply uniqueZ_In, in_map_iff in I as (k & <- & _). lia. }
        assert (IW : forall k, In k (map Z.to_nat (uniqueZ (map Z.of_nat ws))) <-> In k ws).
        { intros k. rewrite (in_to_nat _ _ PI), uniqueZ_In, in_map_iff. split; [intros (i & E & I); apply Nat2Z.inj in E as ->; exact I | intros I; exists k; auto]. }
        split; [apply to_nat_sorted; [apply uniqueZ_sorted | exact PI]|]. split; [intros k I; apply LW, IW, I|].
        intros l f E I. injection E as <-. apply IC in I as (_ & A & _). apply AT, SX in A as (k & I & Ek). exists k. split; [apply IW, I | exact Ek].
    + injection H4 as <- <- <-. apply SAME, NW. reflexivity.
Qed.

Theorem select_picks : times_plain (cc_time cr) u -> no_negative cr ->
  exists sa sf st sj, positions_of (Nants u) (ant_wanted tel cr u) sa /\ positions_of (Nchans u) (cal_chan_wanted tel cr u) sf /\
    positions_of (Ntimes u) (cal_time_wanted two_pi tols lst_tols cr u) st /\ positions_of (Njones u) (jones_wanted tel cr u) sj /\
    cal_picked sa sf st sj u r.
Proof.
  intros PL NN. destruct select_open as (ants & times & wins & c1 & c2 & c3 & wins' & chans' & jones & H1 & H2 & H3 & H4 & H5 & H6 & H7).
  destruct (ants_found_spec _ H1) as (PA & _). pose proof (times_found _ PL H2) as PT. destruct (jones_found _ _ _ _ _ H6) as (PJ & _).
  pose proof (axis_found _ _ _ _ _ _ _ NN H3 H4 H5 H6) as PF. unfold by_index in H7. cbv zeta in H7.
  set (u1 := match ants with Some idx => take_ants idx u | None => u end) in H7.
  set (u2 := match times with Some idx => take_times idx u1 | None => u1 end) in H7.
  assert (C1 : cal_picked (or_all (Nants u) ants) (seq 0 (Nchans u)) (seq 0 (Ntimes u)) (seq 0 (Njones u)) u u1).
  { unfold u1. destruct ants as [idx|]; [|apply picked_whole, OK]. apply ants_step; [apply picked_whole, OK|]. intros i I. apply PA, I. }
  assert (C2 : cal_picked (or_all (Nants u) ants) (seq 0 (Nchans u)) (or_all (Ntimes u) times) (seq 0 (Njones u)) u u2).
  { unfold u2. destruct times as [idx|]; [|exact C1]. apply times_step; [exact C1|]. intros i I. apply PT, I. }
  assert (AW : all_windows u u2 /\ c_wide u2 = c_wide u /\ length (c_freqs u2) = length (c_freqs u)).
  { unfold u2, u1, all_windows. destruct ants, times; repeat split; reflexivity. }
  destruct AW as (AW & WD2 & LF2). clearbody u2. clear C1. clearbody u1.
  assert (LAST : forall sf u3, positions_of (Nchans u) (cal_chan_wanted tel cr u) sf ->
     cal_picked (or_all (Nants u) ants) sf (or_all (Ntimes u) times) (seq 0 (Njones u)) u u3 ->
     Ok (match jones with Some idx => take_jones idx u3 | None => u3 end) = Ok r ->
     exists sa sf st sj, positions_of (Nants u) (ant_wanted tel cr u) sa /\ positions_of (Nchans u) (cal_chan_wanted tel cr u) sf /\
       positions_of (Ntimes u) (cal_time_wanted two_pi tols lst_tols cr u) st /\ positions_of (Njones u) (jones_wanted tel cr u) sj /\
       cal_picked sa sf st sj u r).
  { intros sf u3 PS C3 E. exists (or_all (Nants u) ants), sf, (or_all (Ntimes u) times), (or_all (Njones u) jones).
    repeat (split; [assumption|]). injection E as <-. destruct jones as [idx|]; [|exact C3]. apply jones_step; [exact C3|]. intros i I. apply PJ, I. }
  apply bind_Ok in H7 as (u3 & H7 & H8).
  destruct (c_wide u) eqn:WD.
  - destruct PF as (-> & PF). injection H7 as <-. destruct wins' as [w|]; cbn [option_map or_all] in PF.
    + apply (LAST _ _ PF) in H8; [exact H8|]. unfold keep_windows. rewrite WD2. apply wide_step; try assumption; [apply PF|]. intros i I. apply PF, I.
    + apply (LAST _ _ PF) in H8; [exact H8 | exact C2].
  - destruct PF as (PN & PS & PF & PW). destruct chans' as [l|].
    + apply bind_Ok in H7 as (idx & HI & H7). injection H7 as <-. destruct (PS l eq_refl) as (SL & PL0).
      assert (NC : Nchans u = length (c_freqs u)) by (unfold Nchans; rewrite WD; reflexivity).
      assert (LEN : length (c_freqs (match wins' with Some idx => keep_windows (map Z.to_nat idx) u2 | None => u2 end)) = Nchans u).
      { rewrite NC, <- LF2. destruct wins'; [|reflexivity]. unfold keep_windows. rewrite WD2. reflexivity. }
      rewrite LEN in HI. destruct (at_index_all _ _ _ HI PL0) as (-> & BL).
      assert (PI : positions_of (Nchans u) (cal_chan_wanted tel cr u) (map Z.to_nat l)).
      { split; [apply to_nat_sorted; assumption|]. intros f. rewrite (in_to_nat _ _ PL0). split.
        - intros I. assert (Lf : (f < Nchans u)%nat) by (apply BL in I; lia). split; [exact Lf|]. apply (PF f Lf). intros l0 E. injection E as <-. exact I.
        - intros (Lf & X). apply (PF f Lf); [exact X | reflexivity]. }
      apply (LAST _ _ PI) in H8; [exact H8|].
      pose proof (chans_step _ _ _ _ _ (map Z.to_nat l) (option_map (map Z.to_nat) wins') OK WD C2 AW) as CS.
      replace (match wins' with Some idx => keep_windows (map Z.to_nat idx) u2 | None => u2 end)
        with (match option_map (map Z.to_nat) wins' with Some w => drop_windows w u2 | None => u2 end)
        by (destruct wins'; [cbn; unfold keep_windows; rewrite WD2|]; reflexivity).
      apply CS; [intros i I; apply PI, I|]. intros w E. destruct wins' as [w'|]; [|discriminate]. injection E as <-.
      destruct (PW w' eq_refl) as (A & B & C). split; [exact A|]. split; [exact B|]. intros f If. apply (C l f eq_refl). apply (in_to_nat _ _ PL0), If.
    + injection H7 as <-. destruct wins' as [w|]; [exfalso; apply PN; [discriminate | reflexivity]|].
      assert (PI : positions_of (Nchans u) (cal_chan_wanted tel cr u) (seq 0 (Nchans u))).
      { apply positions_all. intros f Lf. apply (PF f Lf). discriminate. }
      apply (LAST _ _ PI) in H8; [exact H8 | exact C2].
Qed.

(** Everything named is there. *)
Theorem select_all_there : no_negative cr -> all_there tel cr u.
Proof.
  intros NN. destruct select_open as (ants & times & wins & c1 & c2 & c3 & wins' & chans' & jones & H1 & H2 & H3 & H4 & H5 & H6 & H7).
  destruct (ants_found_spec _ H1) as (_ & A1 & A2). destruct (jones_found _ _ _ _ _ H6) as (_ & J1 & J2).
  split; [exact A1|]. split; [exact A2|].
  destruct (c_wide u) eqn:WD.
  - destruct (wide_found _ _ _ _ WD H3 H4 H5) as (_ & F1 & F2 & _ & _ & SP). rewrite F1, F2. repeat (split; [intros; discriminate|]).
    split; [intros l w _; apply SP|]. auto.
  - destruct (listed_found _ _ _ WD H3 H4) as (-> & N2 & S2 & F1 & F2). destruct (chans_found _ _ _ _ WD H3 H4 H5) as (N3 & S3).
    split; [exact F1|]. split; [|split; [discriminate | auto]]. intros l c E I. destruct (F2 l c E I) as (l2 & E2 & I2).
    (* the check of the separations, or the indexing, fails otherwise *)
    pose proof (NN l c E I) as P0. assert (NC : Nchans u = length (c_freqs u)) by (unfold Nchans; rewrite WD; reflexivity).
    pose proof OK as (_ & LC & _). rewrite WD in LC. destruct LC as (_ & LX & _).
    unfold chan_positions in H5. rewrite E2 in H5. cbv zeta in H5. apply bind_Ok in H5 as (b & H5 & E5). injection E5 as <-.
    assert (P2 : forall c, In c l2 -> 0 <= c) by (apply (S2 l2 E2), NN).
    destruct (1 <? length (isort Z.leb l2))%nat eqn:LL.
    + apply bind_Ok in H5 as (pos & Hp & _). apply at_index_all in Hp as (_ & B).
      * rewrite <- LX. apply B. apply isort_In. exact I2.
      * intros d Id. apply P2. apply isort_In in Id. exact Id.
    + apply Nat.ltb_ge in LL. rewrite isort_length in LL. destruct l2 as [|d [|d' l2]]; cbn in LL; [destruct I2 | | lia].
      destruct I2 as [-> | []]. cbn [uniqueZ fold_right insert_uniqZ] in H6. change (uniqueZ [c]) with [c] in H6.
      assert (IDX : forall u', length (c_freqs u') = length (c_freqs u) -> (exists idx, mapM (at_index (length (c_freqs u'))) [c] = Ok idx) -> c < Z.of_nat (length (c_freqs u))).
      { intros u' L (idx & X). apply at_index_all in X as (_ & X); [|intros e [<- | []]; exact P0]. rewrite <- L. apply X. left; reflexivity. }
      assert (BY : chans' = Some [c] -> c < Z.of_nat (length (c_freqs u))).
      { intros ->. unfold by_index in H7. cbv zeta in H7. apply bind_Ok in H7 as (u3 & H7 & _). apply bind_Ok in H7 as (idx & H7 & _).
        eapply IDX; [|eexists; exact H7]. clear. unfold keep_windows. destruct ants, times, wins'; cbn; try reflexivity; destruct (c_wide u); reflexivity. }
      unfold jones_positions in H6. destruct (cc_jones cr) as [asked|]; [|injection H6 as _ E6 _; apply BY; congruence].
      apply bind_Ok in H6 as ([ks ws] & _ & H6). destruct ws as [|w0 ws0] eqn:EW; [injection H6 as _ E6 _; apply BY; congruence|].
      rewrite <- EW in *. rewrite WD in H6. cbn [negb andb] in H6.
      set (ch := sorted_unique_intersection (map Z.of_nat (nonzero _ (c_flex u))) (Some [c])) in H6.
      assert (CH : forall x, In x ch -> x = c /\ x < Z.of_nat (length (c_freqs u))).
      { intros x Ix. apply inter_In in Ix as (Ix & Iy). specialize (Iy _ eq_refl). destruct Iy as [<- | []]. split; [reflexivity|].
        apply in_map_iff in Ix as (k & <- & Ik). apply (nonzero_spec 0) in Ik as (Lk & _). lia. }
      destruct ch as [|x ch']; [rewrite orb_true_r in H6; discriminate|]. destruct (CH x (or_introl eq_refl)) as (-> & X). exact X.
Qed.
End Selected.

(** ** A request that can be met is met *)
Lemma steps_some l pos : StronglySorted Z.le l -> pos = map Z.to_nat l -> (forall c, In c l -> 0 <= c) -> forall f f', (f < f')%nat ->
  In (Z.of_nat f) l -> In (Z.of_nat f') l -> (forall x, (f < x < f')%nat -> ~ In (Z.of_nat x) l) ->
  nth f (c_flex u) 0 = nth f' (c_flex u) 0 -> steps (c_flex u) (combine l pos) <> [].
Proof.
  clear. intros S. revert pos. induction S as [|c t S IH F]; intros pos -> P f f' LT I I' NB E; [destruct I|]. cbn [map combine].
  destruct t as [|d t']; [cbn in I, I'; lia|]. cbn [map combine steps].
  destruct (nth (Z.to_nat d) (c_flex u) 0 - nth (Z.to_nat c) (c_flex u) 0 =? 0) eqn:X; [discriminate|].
  apply (IH (map Z.to_nat (d :: t')) eq_refl) with (f := f) (f' := f'); try assumption.
  - intros e Ie. apply P. right; exact Ie.
  - destruct I as [-> | I]; [|exact I]. exfalso. rewrite Nat2Z.id in X.
    rewrite Forall_forall in F. pose proof (F d (or_introl eq_refl)) as Fd. pose proof (P d (or_intror (or_introl eq_refl))) as Pd.
    destruct (Z.eq_dec d (Z.of_nat f)) as [-> | Nd]; [rewrite Nat2Z.id in X; lia|].
    destruct I' as [I' | I']; [lia|].
    assert (Ld : d <= Z.of_nat f'). { destruct I' as [<- | I']; [lia|]. inversion S as [|? ? ? FF]; subst. rewrite Forall_forall in FF. apply FF, I'. }
    destruct (Z.eq_dec d (Z.of_nat f')) as [-> | Nd']; [rewrite Nat2Z.id in X; lia|].
    apply (NB (Z.to_nat d)); [lia|]. rewrite Z2Nat.id by lia. right; left; reflexivity.
  - destruct I' as [-> | I']; [|exact I']. exfalso. rewrite Forall_forall in F. destruct I as [I | I]; [lia|]. specialize (F _ I). lia.
  - intros x Lx Ix. apply (NB x Lx). right; exact Ix.
Qed.
Lemma steps_same c d t : In d t -> Forall (fun x => x = c) t -> steps (c_flex u) (combine (c :: t) (map Z.to_nat (c :: t))) <> [].
Proof.
  clear. intros I F. destruct t as [|e t]; [destruct I|]. inversion F; subst. cbn [map combine steps]. rewrite Z.sub_diag. discriminate.
Qed.
Lemma isort_le l : StronglySorted Z.le (isort Z.leb l).
Proof.
  clear. eapply StronglySorted_impl; [|apply (isort_sorted Z.leb)].
  - intros x y _ _ H. apply Z.leb_le. exact H.
  - intros x y. destruct (Z.le_ge_cases x y); [left | right]; apply Z.leb_le; lia.
  - intros x y z A B. apply Z.leb_le in A, B. apply Z.leb_le. lia.
Qed.
Lemma at_index_ok n l : (forall c, In c l -> 0 <= c < Z.of_nat n) -> mapM (at_index n) l = Ok (map Z.to_nat l).
Proof.
  clear. induction l as [|c l IH]; intros H; [reflexivity|]. cbn [mapM map].
  assert (E : at_index n c = Ok (Z.to_nat c)).
  { unfold at_index. replace (norm_index n c) with (Some (Z.to_nat c)); [reflexivity|]. symmetry. apply norm_index_iff.
    pose proof (H c (or_introl eq_refl)). split; [lia|]. left. lia. }
  rewrite E. cbn [bind]. rewrite IH by (intros d I; apply H; right; exact I). reflexivity.
Qed.

Lemma has_ant_In n : has_ant u n -> isinZ n (c_ants u) = true.
Proof. clear. intros (i & L & <-). apply isinZ_spec, nth_In, L. Qed.
Lemma ant_positions_total nums : (forall n, In n nums -> has_ant u n) -> exists l, ant_positions (c_ants u) nums = Ok l.
Proof.
  clear. intros H. unfold ant_positions. edestruct (mapM_total (fun n => if isinZ n (c_ants u) then Ok (nonzero (Z.eqb n) (c_ants u)) else Err ValueError) nums) as (ll & E).
  - intros n I. rewrite (has_ant_In n (H n I)). eauto.
  - rewrite E. eexists. reflexivity.
Qed.
Lemma ants_total : (cc_antenna_nums cr = None \/ cc_antenna_names cr = None) ->
  (forall l n, cc_antenna_nums cr = Some l -> In n l -> has_ant u n) ->
  (forall l s, cc_antenna_names cr = Some l -> In s l -> exists n, called tel s n /\ has_ant u n) -> exists a, ants_found = Ok a.
Proof.
  intros X A1 A2. unfold ants_found, asked_ants. destruct (cc_antenna_names cr) as [names|].
  - destruct (cc_antenna_nums cr) as [|]; [destruct X; discriminate|].
    destruct (mapM_total (ant_of_name tel) names) as (nums & En).
    { intros s I. destruct (A2 names s eq_refl I) as (n & C & _). exists n. apply ant_of_name_spec, C. }
    rewrite En. cbn [bind]. destruct (ant_positions_total nums) as (l & El); [|rewrite El; eexists; reflexivity].
    intros n I. apply (names_nums _ _ En) in I as (s & I & C). destruct (A2 names s eq_refl I) as (n' & C' & H).
    apply ant_of_name_spec in C. apply ant_of_name_spec in C'. congruence.
  - destruct (cc_antenna_nums cr) as [l|]; cbn [bind]; [|eauto]. destruct (ant_positions_total l) as (p & Ep); [intros n I; apply (A1 l n eq_refl I)|].
    rewrite Ep. eexists; reflexivity.
Qed.

Lemma jones_places_total asked : (forall a, In a asked -> exists n, jones_number (ct_x_orientation tel) a = Ok n /\
    (In n (c_jones u) \/ exists f, c_flex_jones u = Some f /\ In n f)) ->
  exists k, jones_places (ct_x_orientation tel) (c_jones u) (c_flex_jones u) asked = Ok k.
Proof.
  clear. induction asked as [|a asked IH]; intros H; [eexists; reflexivity|]. cbn [jones_places].
  destruct IH as ([k w] & E); [intros b I; apply H; right; exact I|]. destruct (H a (or_introl eq_refl)) as (n & En & X). rewrite En. cbn [bind].
  destruct (isinZ n (c_jones u)) eqn:I; [cbn [bind]; rewrite E; eexists; reflexivity|].
  destruct X as [X | (f & Ef & X)]; [apply isinZ_spec in X; congruence|]. rewrite Ef in *. apply isinZ_spec in X. rewrite X. cbn [bind]. rewrite E. eexists; reflexivity.
Qed.

Theorem select_total : cal_request_ok two_pi tols lst_tols tel cr u -> exists r, cal_select two_pi tols lst_tols tel cr u = Ok r.
Proof.
  intros ((A1 & A2 & F1 & F2 & S1 & J1 & J2) & NN & AX & TM & WC & NC & AW). pose proof OK as (_ & LC & _ & LF & _).
  destruct (ants_total AX A1 A2) as (ants & HA). unfold ants_found in HA. apply bind_Ok in HA as (nums & HA1 & HA2).
  assert (HT : exists times, time_positions two_pi tols lst_tols cr u = Ok times).
  { unfold time_positions, cal_time_axis, cal_lst_axis. destruct TM as [N | (ta & la & R1 & R2 & T1 & T2 & O1 & RM)].
    - rewrite (proj2 (times_none two_pi (cc_time cr) _ _ tols lst_tols) N). eexists; reflexivity.
    - rewrite R1, R2, T1, T2. destruct (proj2 (times_total two_pi (cc_time cr) ta la tols lst_tols) (conj O1 RM)) as (inds & E). rewrite E. eexists; reflexivity. }
  destruct HT as (times & HT).
  assert (HW : exists w c1, wanted_windows cr u = Ok (w, c1)).
  { unfold wanted_windows, spws_asked in *. destruct (cc_spws cr) as [spws|]; [|eauto]. destruct (length (c_spws u) =? 1)%nat; [eauto|].
    destruct (c_wide u); [|eauto]. replace (forallb (fun w => isinZ w (c_spws u)) spws) with true; [eauto|].
    symmetry. apply forallb_forall. intros w I. apply isinZ_spec, (S1 spws w eq_refl eq_refl I). }
  destruct HW as (wins & c1 & HW).
  assert (HC : exists c2, wanted_chans cr c1 u = Ok c2).
  { unfold wanted_chans. destruct (c_wide u) eqn:WD.
    - destruct (WC eq_refl) as (E1 & E2). rewrite E1. assert (c1 = None) as ->; [|eexists; reflexivity].
      unfold wanted_windows in HW. rewrite WD, E2 in HW. destruct (cc_spws cr); [|congruence]. destruct (length (c_spws u) =? 1)%nat; [congruence|].
      destruct (forallb _ _); [congruence | discriminate].
    - cbn [andb]. destruct (cc_frequencies cr) as [freqs|]; [|eauto].
      replace (forallb (fun f => isinZ f (c_freqs u)) freqs) with true; [eauto|]. symmetry. apply forallb_forall. intros x I. apply isinZ_spec, (F1 freqs x eq_refl I). }
  destruct HC as (c2 & HC).
  assert (B2 : c_wide u = false -> forall l, c2 = Some l -> forall c, In c l -> 0 <= c < Z.of_nat (Nchans u)).
  { intros WD l E c I. rewrite WD in LC. destruct LC as (_ & LX & _). assert (N : Nchans u = length (c_freqs u)) by (unfold Nchans; rewrite WD; reflexivity).
    destruct (listed_found _ _ _ WD HW HC) as (_ & _ & S2 & _). split; [apply (proj1 (S2 l E) NN c I)|].
    unfold wanted_chans in HC. rewrite WD in HC. cbn [andb] in HC.
    assert (C1 : forall l1, c1 = Some l1 -> In c l1 -> c < Z.of_nat (Nchans u)).
    { intros l1 E1 I1. unfold wanted_windows in HW. rewrite WD in HW. rewrite N.
      assert (BB : cc_freq_chans cr = Some l1 -> c < Z.of_nat (length (c_freqs u))) by (intros X; apply (F2 l1 c X I1)).
      destruct (cc_spws cr) as [spws|]; [|apply BB; congruence]. destruct (length (c_spws u) =? 1)%nat; [apply BB; congruence|].
      injection HW as _ HW. rewrite <- HW in E1. injection E1 as <-. apply union_In in I1 as [I1 | (l' & E' & I1)]; [|apply (F2 l' c E' I1)].
      apply in_map_iff in I1 as (k & <- & Ik). apply (nonzero_spec 0) in Ik as (Lk & _). lia. }
    destruct (cc_frequencies cr) as [freqs|]; [|injection HC as <-; apply (C1 l E I)].
    destruct (forallb _ freqs); [|discriminate]. injection HC as <-. injection E as <-. apply union_In in I as [I | (l' & E' & I)]; [|apply (C1 l' E' I)].
    apply in_map_iff in I as (k & <- & Ik). apply (nonzero_spec 0) in Ik as (Lk & _). lia. }
  assert (HP : exists c3, chan_positions c2 u = Ok c3).
  { unfold chan_positions. destruct c2 as [l2|]; [|eauto]. cbv zeta.
    destruct (c_wide u) eqn:WD.
    - exfalso. unfold wanted_chans in HC. rewrite WD in HC. destruct (WC eq_refl) as (E1 & E2). rewrite E1 in HC. destruct c1; discriminate.
    - destruct LC as (_ & LX & _). assert (N : Nchans u = length (c_freqs u)) by (unfold Nchans; rewrite WD; reflexivity).
      destruct (listed_found _ _ _ WD HW HC) as (_ & N2 & S2 & _). destruct (S2 l2 eq_refl) as (P2 & L2). specialize (P2 NN). specialize (B2 eq_refl l2 eq_refl).
      destruct (1 <? length (isort Z.leb l2))%nat eqn:LL; [|eexists; reflexivity].
      rewrite at_index_ok by (intros c I; apply isort_In in I; rewrite LX, <- N; apply B2, I). cbn [bind].
      assert (NE : steps (c_flex u) (combine (isort Z.leb l2) (map Z.to_nat (isort Z.leb l2))) <> []).
      { destruct (NC eq_refl) as [X | [(f & f' & L & W1 & W2 & NB & E) | X]].
        - apply N2 in X. discriminate.
        - apply (steps_some _ _ (isort_le l2) eq_refl) with (f := f) (f' := f'); try lia.
          + intros c I. apply isort_In in I. apply B2, I.
          + apply isort_In, L2; [lia | exact W1].
          + apply isort_In, L2; [lia | exact W2].
          + intros x Lx I. apply isort_In in I. apply (NB x Lx). apply L2; [lia | exact I].
        - assert (ALL : forall c d, In c l2 -> In d l2 -> c = d).
          { intros c d Ic Id. pose proof (B2 c Ic). pose proof (B2 d Id).
            rewrite <- (Z2Nat.id c), <- (Z2Nat.id d) by lia. f_equal. apply X; try lia; (apply L2; [lia|]; rewrite Z2Nat.id by lia; assumption). }
          assert (LS : forall x, In x (isort Z.leb l2) -> In x l2) by (intros x I; apply isort_In in I; exact I).
          destruct (isort Z.leb l2) as [|c [|d t]]; [discriminate | discriminate|]. apply (steps_same c d); [left; reflexivity|].
          apply Forall_forall. intros x I. apply ALL; apply LS; [right; exact I | left; reflexivity]. }
      destruct (test_constant_nonempty _ 0 0 NE) as (b & Eb). rewrite Eb. eexists; reflexivity. }
  destruct HP as (c3 & HP).
  assert (HJ : exists w c j, jones_positions tel cr wins c3 u = Ok (w, c, j)).
  { unfold jones_positions. destruct (cc_jones cr) as [asked|] eqn:EJ; [|eauto].
    destruct (jones_places_total asked) as ([ks ws] & HPL).
    { intros a I. assert (EX : exists n, jones_number (ct_x_orientation tel) a = Ok n).
      { destruct a as [n|s]; [exists n; reflexivity|]. apply (J2 asked s eq_refl I). }
      destruct EX as (n & En). exists n. split; [exact En|].
      assert (JA : jones_asked tel cr n). { apply (asks_jones asked _ EJ). exists a. auto. }
      destruct (J1 n JA) as [H | (w & fj & k & Ef & _ & _ & Ek)]; [left; apply has_jones_In, H | right; exists fj; split; [exact Ef|]].
      apply nth_error_In in Ek. exact Ek. }
    rewrite HPL. cbn [bind]. destruct ws as [|w0 ws0] eqn:EW; [eauto|]. rewrite <- EW in *.
    match goal with |- context [if ?b then Err _ else _] => destruct b eqn:EE; [|eauto] end. exfalso.
    assert (AK : asked_of_windows tel cr u).
    { destruct (window_places _ _ _ EJ HPL) as (_ & _ & SX & _).
      destruct (proj1 (SX (nth w0 (c_spws u) 0))) as (p & _ & A & N); [exists w0; split; [rewrite EW; left; reflexivity | reflexivity]|]. exists p. auto. }
    destruct (AW AK) as (f & Lf & (WL & WJ)). specialize (WJ AK). destruct (window_places _ _ _ EJ HPL) as (_ & LW & SX & _).
    apply SX in WJ as (k & Ik & Ek). unfold chan_at in Ek.
    destruct (c_wide u) eqn:WD; cbn [fst] in Ek.
    - cbn [negb andb] in EE. rewrite orb_false_r in EE. pose proof OK as (_ & _ & ND & _).
      assert (NCH : Nchans u = length (c_spws u)) by (unfold Nchans; rewrite WD; reflexivity).
      assert (k = f) as ->. { apply (proj1 (NoDup_nth (c_spws u) 0) ND); [apply LW, Ik | lia | exact Ek]. }
      destruct (wide_found _ _ _ _ WD HW HC HP) as (_ & _ & _ & _ & SW & _).
      assert (I : In (Z.of_nat f) (sorted_unique_intersection (map Z.of_nat ws) wins)).
      { apply inter_In. split; [apply in_map, Ik|]. intros w E. destruct (SW w E) as (idx & -> & PO). apply in_map, PO. auto. }
      destruct (sorted_unique_intersection (map Z.of_nat ws) wins); [destruct I | discriminate].
    - destruct LC as (_ & LX & _). assert (NCH : Nchans u = length (c_freqs u)) by (unfold Nchans; rewrite WD; reflexivity).
      destruct (listed_found _ _ _ WD HW HC) as (-> & _ & S2 & _). destruct (chans_found _ _ _ _ WD HW HC HP) as (_ & S3).
      cbn [negb andb] in EE. apply orb_true_iff in EE as [EE | EE].
      + assert (I : In (Z.of_nat k) (sorted_unique_intersection (map Z.of_nat ws) None)).
        { apply inter_In. split; [apply in_map, Ik | discriminate]. }
        destruct (sorted_unique_intersection (map Z.of_nat ws) None); [destruct I | discriminate].
      + match type of EE with match ?l with [] => _ | _ => _ end = true => assert (I : In (Z.of_nat f) l); [|destruct l; [destruct I | discriminate]] end.
        apply inter_In. split.
        * apply nonzero_nat. split; [lia|]. apply isinZ_spec. unfold take. apply in_map_iff. exists k. auto.
        * intros l E. destruct (S3 l E) as (_ & l2 & E2 & M). apply M. apply (proj2 (S2 l2 E2) f Lf), WL. }
  destruct HJ as (wins' & chans' & jones & HJ).
  unfold cal_select. rewrite HA1. cbn [bind]. rewrite HA2. cbn [bind]. rewrite HT. cbn [bind]. rewrite HW. cbn [bind]. rewrite HC. cbn [bind].
  rewrite HP. cbn [bind]. rewrite HJ. cbn [bind]. unfold by_index. cbv zeta.
  destruct chans' as [l|]; [|eexists; reflexivity].
  assert (BL : c_wide u = false /\ forall c, In c l -> 0 <= c < Z.of_nat (Nchans u)).
  { destruct (c_wide u) eqn:WD.
    - pose proof (axis_found _ _ _ _ _ _ _ NN HW HC HP HJ) as PF. rewrite WD in PF. destruct PF as (X & _). discriminate.
    - split; [reflexivity|]. specialize (B2 eq_refl). destruct (chans_found _ _ _ _ WD HW HC HP) as (_ & S3).
      assert (B3 : forall l0, c3 = Some l0 -> forall c, In c l0 -> 0 <= c < Z.of_nat (Nchans u)).
      { intros l0 E c I. destruct (S3 l0 E) as (_ & l2 & E2 & M). apply (B2 l2 E2). apply M, I. }
      unfold jones_positions in HJ. destruct (cc_jones cr) as [asked|]; [|injection HJ as _ E _; apply (B3 l E)].
      apply bind_Ok in HJ as ([ks ws] & _ & HJ). destruct ws as [|w0 ws0]; [injection HJ as _ E _; apply (B3 l E)|].
      rewrite WD in HJ. match type of HJ with (if ?b then _ else _) = _ => destruct b; [discriminate|] end. injection HJ as _ HJ _.
      intros c I. rewrite <- HJ in I. apply inter_In in I as (I & _). apply in_map_iff in I as (k & <- & Ik). apply (nonzero_spec 0) in Ik as (Lk & _).
      assert (NCH : Nchans u = length (c_freqs u)) by (unfold Nchans; rewrite WD; reflexivity). destruct LC as (_ & LX & _). lia. }
  destruct BL as (WD & BL).
  match goal with |- context [mapM (at_index ?n) l] => replace n with (Nchans u); [rewrite (at_index_ok _ _ BL); eexists; reflexivity|] end.
  unfold Nchans. rewrite WD. unfold keep_windows. clear - WD. destruct ants, times, wins'; cbn; rewrite ?WD; reflexivity.
Qed.
End Request.
