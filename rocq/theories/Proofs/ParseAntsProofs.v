(** Proofs about the strings that choose antennas. *)
From Coq Require Import List ZArith Bool Arith Ascii String Lia Sorting.Sorted.
From Verif Require Import Lib.Py Lib.Np Lib.Sorting Lib.Dict Spec.PolSpec Model.Pol Proofs.PolProofs Model.ParseAnts Spec.ParseAntsSpec Proofs.ParseAntsText.
Import ListNotations.
Notation length := List.length.
Open Scope list_scope.
Open Scope Z_scope.

(** * What is wanted *)
Lemma wanted_nil {A} (x : A) : ~ wanted [] x.
Proof. intros (l & l' & E & _). destruct l; discriminate. Qed.
Lemma wanted_snoc {A} (l : list (bool * A)) b y x : wanted (l ++ [(b, y)]) x <-> (b = true /\ y = x) \/ (wanted l x /\ ~ (b = false /\ y = x)).
Proof.
  split.
  - intros (p & q & E & N). destruct q as [|z q'].
    + apply app_inj_tail in E as (_ & E). injection E as -> ->. auto.
    + right. destruct (exists_last (l := z :: q') ltac:(discriminate)) as (q & w & E'). rewrite E' in E, N. change (l ++ [(b, y)] = p ++ ((true, x) :: q) ++ [w]) in E.
      rewrite app_assoc in E. apply app_inj_tail in E as (-> & <-). split.
      * exists p, q. split; [reflexivity|]. intros I. apply N, in_app_iff. auto.
      * intros (-> & ->). apply N, in_app_iff. right. left. reflexivity.
  - intros [(-> & ->) | ((p & q & -> & N) & M)].
    + exists l, []. split; [reflexivity | intros []].
    + exists p, (q ++ [(b, y)]). split; [rewrite <- app_assoc; reflexivity|]. intros I. apply in_app_iff in I as [I | [I | []]]; [apply N, I|]. injection I as -> ->. apply M. auto.
Qed.
Lemma wanted_many {A} (s : bool) (m : list A) : forall (l : list (bool * A)) x,
  wanted (l ++ map (fun p => (s, p)) m) x <-> if s then wanted l x \/ In x m else wanted l x /\ ~ In x m.
Proof.
  induction m as [|y m IH]; intros l x; cbn [map].
  - rewrite app_nil_r. destruct s; cbn; tauto.
  - change ((s, y) :: map (fun p => (s, p)) m) with ([(s, y)] ++ map (fun p => (s, p)) m). rewrite app_assoc, IH. destruct s; rewrite wanted_snoc; cbn [In].
    + split; [intros [[(_ & ->) | (W & _)] | I]; auto | intros [W | [-> | I]]; auto]. left. right. split; [exact W | intros (X & _); discriminate].
    + split.
      * intros ([(X & _) | (W & M)] & N); [discriminate|]. split; [exact W|]. intros [-> | I]; [apply M; auto | apply N, I].
      * intros (W & N). split; [|tauto]. right. split; [exact W|]. intros (_ & ->). apply N. auto.
Qed.

(** * Lists *)
Lemma pair_eqb_spec p q : reflect (p = q) (pair_eqb p q).
Proof.
  unfold pair_eqb. destruct p as [a b], q as [c d]. cbn [fst snd]. destruct (Z.eqb_spec a c) as [-> | N]; cbn [andb]; [|constructor; congruence].
  destruct (Z.eqb_spec b d) as [-> | N]; constructor; congruence.
Qed.
Lemma in_pairs_spec p l : in_pairs p l = true <-> In p l.
Proof.
  unfold in_pairs. rewrite existsb_exists. split.
  - intros (q & I & E). destruct (pair_eqb_spec p q) as [-> | _]; [exact I | discriminate].
  - intros I. exists p. split; [exact I|]. destruct (pair_eqb_spec p p); congruence.
Qed.
Lemma in_pairs_false p l : in_pairs p l = false <-> ~ In p l.
Proof. rewrite <- in_pairs_spec. destruct (in_pairs p l); intuition discriminate. Qed.
Lemma remove_pairs p l : NoDup l -> NoDup (remove_one pair_eqb p l) /\ forall q, In q (remove_one pair_eqb p l) <-> In q l /\ q <> p.
Proof.
  intros N. induction N as [|a l NI N (IH1 & IH2)]; cbn [remove_one]; [split; [constructor | cbn; tauto]|].
  destruct (pair_eqb_spec p a) as [-> | NE].
  - split; [exact N|]. intros q. cbn [In]. split; [intros I; split; [auto | intros ->; contradiction] | intros ([-> | I] & X); [contradiction | exact I]].
  - split; [constructor; [intros I; apply IH2 in I; tauto | exact IH1]|]. intros q. cbn [In]. rewrite IH2. split; [intros [-> | (I & X)]; [split; [auto | congruence] | tauto] | tauto].
Qed.
Lemma add_pairs_spec l : forall acc, NoDup acc -> NoDup (add_all l acc) /\ forall q, In q (add_all l acc) <-> In q acc \/ In q l.
Proof.
  unfold add_all. induction l as [|a l IH]; intros acc N; cbn [fold_left]; [split; [exact N | cbn; tauto]|].
  destruct (in_pairs a acc) eqn:E.
  - destruct (IH acc N) as (H1 & H2). split; [exact H1|]. intros q. rewrite H2. cbn [In]. apply in_pairs_spec in E. split; [tauto | intros [I | [<- | I]]; auto].
  - apply in_pairs_false in E. destruct (IH (acc ++ [a])) as (H1 & H2).
    { apply NoDup_rev in N. rewrite <- (rev_involutive (acc ++ [a])). apply NoDup_rev. rewrite rev_app_distr. cbn. constructor; [rewrite <- in_rev; exact E | exact N]. }
    split; [exact H1|]. intros q. rewrite H2, in_app_iff. cbn [In]. tauto.
Qed.
Lemma remove_count n l m : count_occ Z.eq_dec (remove_one Z.eqb n l) m = if n =? m then (count_occ Z.eq_dec l m - 1)%nat else count_occ Z.eq_dec l m.
Proof.
  induction l as [|a l IH]; cbn [remove_one count_occ]; [destruct (n =? m); reflexivity|]. destruct (Z.eqb_spec n a) as [-> | NE].
  - destruct (Z.eqb_spec a m) as [-> | NM]; [destruct (Z.eq_dec m m); [lia | contradiction]|]. destruct (Z.eq_dec a m); [contradiction | reflexivity].
  - cbn [count_occ]. rewrite IH. destruct (Z.eq_dec a m) as [-> | N]; [|reflexivity]. destruct (Z.eqb_spec n m); [congruence | reflexivity].
Qed.
Lemma in_count n l : In n l <-> (1 <= count_occ Z.eq_dec l n)%nat.
Proof. rewrite (count_occ_In Z.eq_dec). lia. Qed.

(** * Names of polarizations *)
Lemma legal_of xo n s : polnum2str xo n = Ok s -> legal_pol n.
Proof.
  intros H. destruct (Z_le_dec 1 n), (Z_le_dec n 4), (Z_le_dec (-8) n), (Z_le_dec n (-1)); try (unfold legal_pol; lia); rewrite pol_illegal in H by (unfold legal_pol; lia); discriminate.
Qed.
Lemma name_number xo n s : polnum2str xo n = Ok s -> polstr2num xo s = Ok n.
Proof. intros H. destruct (pol_round_trip xo n (legal_of _ _ _ H)) as (s' & E & R). congruence. Qed.
Lemma letters_lower c d : letter_char c -> letter_char d -> lower (two c d) = two c d.
Proof.
  unfold letter_char. cbn. intros C D.
  repeat (destruct C as [<- | C]; [repeat (destruct D as [<- | D]; [reflexivity|]); contradiction|]). contradiction.
Qed.
Lemma letters_negative xo c d n : letter_char c -> letter_char d -> polnum2str xo n = Ok (two c d) -> n < 0.
Proof.
  intros C D H. pose proof (legal_of _ _ _ H) as L. unfold legal_pol in L. destruct (Z_lt_dec n 0) as [G | G]; [exact G|]. exfalso.
  assert (P : c = "p"%char).
  { assert (n = 1 \/ n = 2 \/ n = 3 \/ n = 4) as [-> | [-> | [-> | ->]]] by lia; rewrite polnum2str_repr in H; destruct (omap_of xo); vm_compute in H; injection H as X _; symmetry; exact X. }
  subst c. unfold letter_char in C. cbn in C. intuition discriminate.
Qed.

Section Meaning.
Variables (u : source) (names : list string).
Hypotheses (GP : get_pols u = Ok names) (NP : NoDup (s_pairs u)).

Lemma names_spec p : In p names <-> exists n, In n (s_pols u) /\ polnum2str (s_xo u) n = Ok p.
Proof.
  clear NP. unfold get_pols in GP. revert names GP. induction (s_pols u) as [|n l IH]; intros nm G.
  - injection G as <-. cbn. split; [contradiction | intros (n & [] & _)].
  - cbn [mapM] in G. destruct (polnum2str (s_xo u) n) as [s|] eqn:E; [|discriminate G]. cbn [bind] in G. destruct (mapM (polnum2str (s_xo u)) l) as [ss|]; [|discriminate G]. cbn [bind] in G. injection G as <-.
    cbn [In]. rewrite (IH ss eq_refl). split.
    + intros [<- | (m & I & H)]; [exists n; auto | exists m; auto].
    + intros (m & [<- | I] & H); [left; congruence | right; exists m; auto].
Qed.
Lemma has_name_spec l n : has_name u l n = true <-> exists s, polnum2str (s_xo u) n = Ok s /\ In s l.
Proof.
  unfold has_name. destruct (polnum2str (s_xo u) n) as [s|].
  - rewrite existsb_exists. split.
    + intros (t & I & E). apply String.eqb_eq in E as ->. exists t. auto.
    + intros (t & E & I). injection E as <-. exists s. split; [exact I | apply String.eqb_refl].
  - split; [discriminate | intros (s & E & _); discriminate].
Qed.
(** A name made of two letters *)
Definition lettered (p : string) : Prop := exists c d, p = two c d /\ letter_char c /\ letter_char d.
Lemma lettered_lower p : lettered p -> lower p = p.
Proof. intros (c & d & -> & C & D). apply letters_lower; assumption. Qed.
Lemma in_names p : lettered p -> existsb (String.eqb (lower p)) names = true <-> In p names.
Proof.
  intros L. rewrite (lettered_lower p L), existsb_exists. split; [intros (q & I & E); apply String.eqb_eq in E as ->; exact I | intros I; exists p; split; [exact I | apply String.eqb_refl]].
Qed.

Definition pols_inv (P : list (bool * Z)) (l : list Z) : Prop :=
  (forall n, In n l <-> wanted P n) /\ forall n, n < 0 -> (count_occ Z.eq_dec l n <= 1)%nat.
Definition pairs_inv (A : list (bool * (Z * Z))) (l : list (Z * Z)) : Prop :=
  NoDup l /\ (forall p, In p l <-> wanted A p) /\ forall p, In p l -> In p (s_pairs u).

Lemma add_pols_spec ps : Forall lettered ps -> forall l, (forall n, n < 0 -> (count_occ Z.eq_dec l n <= 1)%nat) ->
  exists l', add_pols u names ps l = Ok l' /\ (forall n, n < 0 -> (count_occ Z.eq_dec l' n <= 1)%nat) /\
    forall n, In n l' <-> In n l \/ In n (filter (has_name u ps) (s_pols u)).
Proof.
  induction ps as [|p ps IH]; intros F l C; cbn [add_pols].
  - exists l. split; [reflexivity|]. split; [exact C|]. intros n. rewrite filter_In. split; [auto | intros [I | (_ & H)]; [exact I|]]. apply has_name_spec in H as (s & _ & []).
  - inversion F as [|? ? L F']; subst. destruct (existsb (String.eqb (lower p)) names) eqn:E.
    + apply (in_names p L) in E. apply names_spec in E as (m & M & E). rewrite (name_number _ _ _ E). cbn [bind].
      set (l1 := if isinZ m l then l else l ++ [m]).
      assert (I1 : forall n, In n l1 <-> In n l \/ n = m).
      { intros n. unfold l1. destruct (isinZ m l) eqn:Z; [apply isinZ_spec in Z; split; [auto | intros [H | ->]; auto]|]. rewrite in_app_iff. cbn. intuition. }
      destruct (IH F' l1) as (l' & E' & C' & I').
      { intros n Hn. unfold l1. destruct (isinZ m l) eqn:Z; [apply C, Hn|]. rewrite count_occ_app. cbn [count_occ]. destruct (Z.eq_dec m n) as [-> | NE]; [|specialize (C n Hn); lia].
        assert (K : count_occ Z.eq_dec l n = 0%nat). { apply (proj1 (count_occ_not_In Z.eq_dec l n)). intros J. apply isinZ_spec in J. congruence. } lia. }
      exists l'. split; [exact E'|]. split; [exact C'|]. intros n. rewrite I', I1, !filter_In. rewrite !has_name_spec. split.
      * intros [[I | ->] | (I & s & S1 & S2)]; [auto | right; split; [exact M|]; exists p; cbn; auto | right; split; [exact I|]; exists s; cbn; auto].
      * intros [I | (I & s & S1 & [<- | S2])]; [auto | left; right; eapply pol_names_distinct; eassumption | right; split; [exact I|]; exists s; auto].
    + destruct (IH F' l C) as (l' & E' & C' & I'). exists l'. split; [exact E'|]. split; [exact C'|]. intros n. rewrite I', !filter_In, !has_name_spec. split.
      * intros [I | (I & s & S1 & S2)]; [auto | right; split; [exact I|]; exists s; cbn; auto].
      * intros [I | (I & s & S1 & [<- | S2])]; [auto | | right; split; [exact I|]; exists s; auto].
        exfalso. apply not_true_iff_false in E. apply E, (in_names p L), names_spec. exists n. auto.
Qed.
Lemma drop_pols_spec pr ps : length (s_pols u) <> 1%nat -> Forall lettered ps -> forall st, (forall n, n < 0 -> (count_occ Z.eq_dec (snd st) n <= 1)%nat) ->
  exists l', drop_pols u names pr ps st = Ok (fst st, l') /\ (forall n, n < 0 -> (count_occ Z.eq_dec l' n <= 1)%nat) /\
    forall n, In n l' <-> In n (snd st) /\ ~ In n (filter (has_name u ps) (s_pols u)).
Proof.
  intros NO. apply Nat.eqb_neq in NO. induction ps as [|p ps IH]; intros F st C; cbn [drop_pols].
  - exists (snd st). split; [destruct st; reflexivity|]. split; [exact C|]. intros n. rewrite filter_In. split; [|tauto]. intros I. split; [exact I|]. intros (_ & H). apply has_name_spec in H as (s & _ & []).
  - inversion F as [|? ? L F']; subst. destruct (existsb (String.eqb (lower p)) names) eqn:E.
    + apply (in_names p L) in E. apply names_spec in E as (m & M & E). rewrite NO. cbn [andb]. cbv zeta iota. rewrite (name_number _ _ _ E). cbn [bind].
      assert (MN : m < 0) by (destruct L as (c & d & -> & LC & LD); exact (letters_negative _ c d m LC LD E)).
      set (l1 := if isinZ m (snd st) then remove_one Z.eqb m (snd st) else snd st).
      assert (I1 : forall n, In n l1 <-> In n (snd st) /\ n <> m).
      { intros n. unfold l1. destruct (isinZ m (snd st)) eqn:Z.
        - rewrite !in_count, remove_count. destruct (Z.eqb_spec m n) as [-> | NE]; [|split; [intros H; split; [exact H | congruence] | tauto]]. specialize (C n MN). split; [lia | intros (_ & X); contradiction].
        - split; [|tauto]. intros I. split; [exact I|]. intros ->. apply isinZ_spec in I. congruence. }
      destruct (IH F' (fst st, l1)) as (l' & E' & C' & I').
      { intros n Hn. cbn [snd]. unfold l1. specialize (C n Hn). destruct (isinZ m (snd st)); [|exact C]. rewrite remove_count. destruct (m =? n); lia. }
      exists l'. split; [exact E'|]. split; [exact C'|]. intros n. rewrite I'. cbn [snd]. rewrite I1, !filter_In, !has_name_spec. split.
      * intros ((I & NM) & N). split; [exact I|]. intros (J & s & S1 & [<- | S2]); [apply NM; eapply pol_names_distinct; eassumption | apply N; split; [exact J|]; exists s; auto].
      * intros (I & N). split; [split; [exact I|]|].
        -- intros ->. apply N. split; [exact M|]. exists p. cbn; auto.
        -- intros (J & s & S1 & S2). apply N. split; [exact J|]. exists s. cbn; auto.
    + destruct (IH F' st C) as (l' & E' & C' & I'). exists l'. split; [exact E'|]. split; [exact C'|]. intros n. rewrite I', !filter_In, !has_name_spec. split.
      * intros (I & N). split; [exact I|]. intros (J & s & S1 & [<- | S2]); [|apply N; split; [exact J|]; exists s; auto].
        apply not_true_iff_false in E. apply E, (in_names p L), names_spec. exists n. auto.
      * intros (I & N). split; [exact I|]. intros (J & s & S1 & S2). apply N. split; [exact J|]. exists s. cbn; auto.
Qed.

Definition antenna_ok (a : antenna) : Prop := match a_feed a with None => True | Some c => letter_char c end.
Definition feed (a : antenna) := match a_feed a with None => None | Some c => Some (c, xy c) end.
Lemma meant_names a b : pol_names (feed a) (feed b) = match a_feed a, a_feed b with None, None => None | _, _ => Some (meant a b) end.
Proof. unfold meant, feed, others, xy. destruct (a_feed a) as [c|], (a_feed b) as [d|]; cbn [pol_names]; try reflexivity; [destruct (Ascii.eqb c "x" || Ascii.eqb c "y") | destruct (Ascii.eqb d "x" || Ascii.eqb d "y")]; reflexivity. Qed.
Lemma meant_lettered a b : antenna_ok a -> antenna_ok b -> Forall lettered (meant a b).
Proof.
  assert (O : forall c d, In d (others c) -> letter_char d). { intros c d. unfold others, letter_char. destruct (Ascii.eqb c "x" || Ascii.eqb c "y"); cbn; tauto. }
  unfold antenna_ok, meant. intros A B. apply Forall_forall. intros p I. destruct (a_feed a) as [c|], (a_feed b) as [d|].
  - destruct I as [<- | []]. exists c, d. auto.
  - apply in_map_iff in I as (d & <- & I). exists c, d. eauto.
  - apply in_map_iff in I as (c & <- & I). exists c, d. eauto.
  - contradiction.
Qed.

Lemma step_spec a b A P st : antenna_ok a -> antenna_ok b -> length (s_pols u) <> 1%nat \/ (a_feed a = None /\ a_feed b = None) ->
  pairs_inv A (fst st) -> pols_inv P (snd st) ->
  exists st', step_ants u names (a, b) st = Ok st' /\ pairs_inv (A ++ pairs_of u (a, b)) (fst st') /\ pols_inv (P ++ pols_of u (a, b)) (snd st').
Proof.
  intros OA OB NO (N1 & N2 & N3) (Q1 & Q2). unfold step_ants. cbv zeta. fold (feed a) (feed b). rewrite meant_names. unfold pairs_of, pols_of, about_pair. cbv zeta. cbn [fst snd].
  fold (kept_in a b). unfold swap at 1 2. cbn [fst snd].
  set (m := a_number a). set (n := a_number b).
  assert (PR : forall pr, In pr (s_pairs u) ->
    exists st', (if kept_in a b then
        let pairs := if in_pairs pr (fst st) then fst st else fst st ++ [pr] in
        match (match a_feed a, a_feed b with None, None => None | _, _ => Some (meant a b) end) with
        | None => Ok (pairs, snd st)
        | Some ps => do l <- add_pols u names ps (snd st); Ok (pairs, l)
        end
      else
        match (match a_feed a, a_feed b with None, None => None | _, _ => Some (meant a b) end) with
        | Some ps => drop_pols u names pr ps st
        | None => Ok (if in_pairs pr (fst st) then remove_one pair_eqb pr (fst st) else fst st, snd st)
        end) = Ok st' /\
      pairs_inv (A ++ match (if kept_in a b then Some true else match a_feed a, a_feed b with None, None => Some false | _, _ => None end) with None => [] | Some s => map (fun p => (s, p)) [pr] end) (fst st') /\
      pols_inv (P ++ map (fun p => (kept_in a b, p)) (filter (has_name u (meant a b)) (s_pols u))) (snd st')).
  { intros pr I. destruct (add_pols_spec (meant a b) (meant_lettered a b OA OB) (snd st) Q2) as (l1 & E1 & C1 & I1).
    assert (NL : a_feed a = None -> a_feed b = None -> filter (has_name u (meant a b)) (s_pols u) = []).
    { intros X Y. unfold meant. rewrite X, Y. clear. induction (s_pols u) as [|z l IH]; [reflexivity|]. cbn [filter]. unfold has_name at 1. destruct (polnum2str (s_xo u) z); exact IH. }
    destruct (kept_in a b) eqn:K.
    - set (pairs := if in_pairs pr (fst st) then fst st else fst st ++ [pr]).
      assert (PI : pairs_inv (A ++ map (fun p => (true, p)) [pr]) pairs).
      { unfold pairs. destruct (in_pairs pr (fst st)) eqn:Z.
        - apply in_pairs_spec in Z. split; [exact N1|]. split; [|exact N3]. intros p. rewrite wanted_many, N2. cbn [In]. split; [auto | intros [H | [<- | []]]; [exact H | apply N2, Z]].
        - apply in_pairs_false in Z. split; [|split].
          + apply NoDup_rev in N1. rewrite <- (rev_involutive (fst st ++ [pr])). apply NoDup_rev. rewrite rev_app_distr. cbn. constructor; [rewrite <- in_rev; exact Z | exact N1].
          + intros p. rewrite wanted_many, in_app_iff, N2. reflexivity.
          + intros p J. apply in_app_iff in J as [J | [<- | []]]; [apply N3, J | exact I]. }
      destruct (a_feed a) as [c|] eqn:FA; [|destruct (a_feed b) as [d|] eqn:FB].
      + cbv zeta. rewrite E1. cbn [bind]. eexists. split; [reflexivity|]. split; [exact PI|]. split; [|exact C1]. intros x. cbn [snd]. rewrite I1, wanted_many, Q1. reflexivity.
      + cbv zeta. rewrite E1. cbn [bind]. eexists. split; [reflexivity|]. split; [exact PI|]. split; [|exact C1]. intros x. cbn [snd]. rewrite I1, wanted_many, Q1. reflexivity.
      + eexists. split; [reflexivity|]. split; [exact PI|]. rewrite NL by reflexivity. cbn [map snd]. rewrite app_nil_r. split; assumption.
    - destruct (a_feed a) as [c|] eqn:FA; [|destruct (a_feed b) as [d|] eqn:FB].
      + destruct NO as [NO | (NO & _)]; [|discriminate NO]. destruct (drop_pols_spec pr (meant a b) NO (meant_lettered a b OA OB) st Q2) as (l2 & E2 & C2 & I2).
        eexists. split; [exact E2|]. cbn [fst snd]. rewrite app_nil_r. split; [split; [exact N1 | split; assumption]|]. split; [|exact C2]. intros x. rewrite I2, wanted_many, Q1. reflexivity.
      + destruct NO as [NO | (_ & NO)]; [|discriminate NO]. destruct (drop_pols_spec pr (meant a b) NO (meant_lettered a b OA OB) st Q2) as (l2 & E2 & C2 & I2).
        eexists. split; [exact E2|]. cbn [fst snd]. rewrite app_nil_r. split; [split; [exact N1 | split; assumption]|]. split; [|exact C2]. intros x. rewrite I2, wanted_many, Q1. reflexivity.
      + eexists. split; [reflexivity|]. cbn [fst snd]. rewrite NL by reflexivity. cbn [map]. rewrite app_nil_r. split; [|split; assumption].
        destruct (in_pairs pr (fst st)) eqn:Z.
        * destruct (remove_pairs pr (fst st) N1) as (R1 & R2). split; [exact R1|]. split; [|intros p J; apply R2 in J; apply N3, J].
          intros p. rewrite R2, (wanted_many false [pr]), N2. cbn [In]. intuition congruence.
        * apply in_pairs_false in Z. split; [exact N1|]. split; [|exact N3]. intros p. rewrite (wanted_many false [pr]), <- N2. cbn [In]. split; [|tauto]. intros J. split; [exact J|]. intros [<- | []]. contradiction. }
  destruct (in_pairs (m, n) (s_pairs u)) eqn:Z1; cbn [orb].
  - apply in_pairs_spec in Z1. apply (PR _ Z1).
  - destruct (in_pairs (n, m) (s_pairs u)) eqn:Z2.
    + apply in_pairs_spec in Z2. apply (PR _ Z2).
    + exists st. split; [reflexivity|]. assert (X : (match (if kept_in a b then Some true else match a_feed a, a_feed b with None, None => Some false | _, _ => None end) with None => [] | Some s => map (fun p : Z * Z => (s, p)) [] end) = []).
      { destruct (if kept_in a b then Some true else _); reflexivity. }
      rewrite X, !app_nil_r. split; split; auto.
Qed.
Lemma steps_spec l : forall A P st, Forall (fun ab => antenna_ok (fst ab) /\ antenna_ok (snd ab)) l ->
  length (s_pols u) <> 1%nat \/ Forall (fun ab => a_feed (fst ab) = None /\ a_feed (snd ab) = None) l ->
  pairs_inv A (fst st) -> pols_inv P (snd st) ->
  exists st', foldM (step_ants u names) l st = Ok st' /\ pairs_inv (A ++ flat_map (pairs_of u) l) (fst st') /\ pols_inv (P ++ flat_map (pols_of u) l) (snd st').
Proof.
  induction l as [|(a & b) l IH]; intros A P st F NO IA IP.
  - exists st. cbn [foldM flat_map]. rewrite !app_nil_r. auto.
  - inversion F as [|? ? (F1 & F2) F']; subst. cbn [fst snd] in F1, F2. destruct (step_spec a b A P st F1 F2) as (st1 & E1 & IA1 & IP1); [|exact IA|exact IP|].
    { destruct NO as [NO | NO]; [left; exact NO | right; inversion NO; assumption]. }
    destruct (IH (A ++ pairs_of u (a, b)) (P ++ pols_of u (a, b)) st1 F') as (st2 & E2 & IA2 & IP2); [|exact IA1|exact IP1|].
    { destruct NO as [NO | NO]; [left; exact NO | right; inversion NO; assumption]. }
    exists st2. cbn [foldM]. rewrite E1. cbn [bind flat_map]. rewrite !app_assoc. auto.
Qed.

Lemma item_antenna i : item_ok i -> antenna_ok (of_item i).
Proof. intros (_ & _ & L). exact L. Qed.
Lemma members_ok g : group_ok g -> Forall antenna_ok (members g).
Proof. destruct g as [i|l]; cbn [group_ok members]; [intros I; repeat constructor; apply item_antenna, I|]. intros (_ & F). induction F; constructor; [apply item_antenna; assumption | assumption]. Qed.
Lemma members_plain g : Forall (fun i => i_letter i = None) (group_items g) -> Forall (fun a => a_feed a = None) (members g).
Proof. destruct g as [i|l]; cbn [group_items members]; intros F; [inversion F; repeat constructor; assumption|]. induction F; constructor; assumption. Qed.
Lemma combos_ok t : term_ok t -> Forall (fun ab => antenna_ok (fst ab) /\ antenna_ok (snd ab)) (combinations u t).
Proof.
  destruct t as [k s | i | g h]; cbn [term_ok combinations]; intros T; apply Forall_forall; intros ab I.
  - contradiction.
  - apply in_map_iff in I as (n & <- & _). split; [apply item_antenna, T | exact Logic.I].
  - destruct T as (G & H). apply members_ok in G, H. rewrite Forall_forall in G, H. apply in_flat_map in I as (a & I & J). apply in_map_iff in J as (b & <- & J). split; [apply G, I | apply H, J].
Qed.
Lemma combos_plain t : Forall (fun i => i_letter i = None) (items t) -> Forall (fun ab => a_feed (fst ab) = None /\ a_feed (snd ab) = None) (combinations u t).
Proof.
  destruct t as [k s | i | g h]; cbn [items combinations]; intros T; apply Forall_forall; intros ab I.
  - contradiction.
  - apply in_map_iff in I as (n & <- & _). inversion T. split; [assumption | reflexivity].
  - apply Forall_app in T as (G & H). apply members_plain in G, H. rewrite Forall_forall in G, H. apply in_flat_map in I as (a & I & J). apply in_map_iff in J as (b & <- & J). split; [apply G, I | apply H, J].
Qed.

Lemma term_spec last t A P st : term_ok t -> length (s_pols u) <> 1%nat \/ Forall (fun i => i_letter i = None) (items t) ->
  pairs_inv A (fst st) -> pols_inv P (snd st) ->
  exists st', do_term u names last t st = Ok st' /\ pairs_inv (A ++ said_of_pairs u last t) (fst st') /\ pols_inv (P ++ said_of_pols u t) (snd st').
Proof.
  intros T NO IA IP.
  assert (G : exists st', foldM (step_ants u names) (combinations u t) st = Ok st' /\ pairs_inv (A ++ flat_map (pairs_of u) (combinations u t)) (fst st') /\ pols_inv (P ++ flat_map (pols_of u) (combinations u t)) (snd st')).
  { apply steps_spec; [apply combos_ok, T | | exact IA | exact IP]. destruct NO as [NO | NO]; [left; exact NO | right; apply combos_plain, NO]. }
  destruct t as [k s | i | g h]; [|exact G|exact G]. clear G. eexists. split; [reflexivity|]. destruct IA as (N1 & N2 & N3). destruct IP as (Q1 & Q2).
  destruct k as [| | | n]; cbn [do_word said_of_pairs said_of_pols combinations flat_map fst snd]; rewrite ?app_nil_r.
  - split; [|split; assumption]. destruct last; [rewrite app_nil_r; split; [exact N1 | split; assumption]|]. split; [exact NP|]. split; [|auto].
    intros p. rewrite wanted_many, <- N2. split; [auto | intros [I | I]; [apply N3, I | exact I]].
  - split; [|split; assumption]. destruct (add_pairs_spec (filter (fun p => fst p =? snd p) (s_pairs u)) (fst st) N1) as (H1 & H2). split; [exact H1|]. split.
    + intros p. rewrite wanted_many, H2, N2. reflexivity.
    + intros p I. apply H2 in I as [I | I]; [apply N3, I | apply filter_In in I; apply I].
  - split; [|split; assumption]. destruct (add_pairs_spec (filter (fun p => negb (fst p =? snd p)) (s_pairs u)) (fst st) N1) as (H1 & H2). split; [exact H1|]. split.
    + intros p. rewrite wanted_many, H2, N2. reflexivity.
    + intros p I. apply H2 in I as [I | I]; [apply N3, I | apply filter_In in I; apply I].
  - split; [split; [exact N1 | split; assumption]|]. split.
    + intros x. rewrite in_app_iff, Q1. rewrite (wanted_many true [n]). reflexivity.
    + intros x Hx. destruct T as (_ & T). rewrite count_occ_app. cbn [count_occ]. destruct (Z.eq_dec n x) as [-> | _]; [lia|]. specialize (Q2 x Hx). lia.
Qed.
Lemma terms_spec ts : forall A P st, Forall term_ok ts -> length (s_pols u) <> 1%nat \/ no_letters ts ->
  pairs_inv A (fst st) -> pols_inv P (snd st) ->
  exists st', do_terms u names ts st = Ok st' /\ pairs_inv (A ++ pair_sayings u ts) (fst st') /\ pols_inv (P ++ pol_sayings u ts) (snd st').
Proof.
  induction ts as [|t ts IH]; intros A P st F NO IA IP.
  - exists st. cbn. rewrite !app_nil_r. auto.
  - inversion F as [|? ? T F']; subst. destruct (term_spec (match ts with [] => true | _ => false end) t A P st T) as (st1 & E1 & IA1 & IP1); [|exact IA|exact IP|].
    { destruct NO as [NO | NO]; [left; exact NO | right; inversion NO; assumption]. }
    edestruct (fun NO' => IH _ _ st1 F' NO' IA1 IP1) as (st2 & E2 & IA2 & IP2).
    { destruct NO as [NO | NO]; [left; exact NO | right; inversion NO; assumption]. }
    exists st2. cbn [do_terms pair_sayings]. rewrite E1. cbn [bind]. unfold pol_sayings in *. cbn [flat_map]. rewrite !app_assoc. auto.
Qed.
End Meaning.

Theorem parse_answers u ts : NoDup (s_pairs u) -> Forall legal_pol (s_pols u) -> ts <> [] -> Forall term_ok ts ->
  length (s_pols u) <> 1%nat \/ no_letters ts ->
  exists pairs pols, parse_ants u (written ts) = Ok (pairs, pols) /\ answer u (completed ts) pairs pols.
Proof.
  intros NP LP N F NO. destruct (pol_list_round_trip (s_xo u) (s_pols u) LP) as (names & GP & _). unfold parse_ants. fold (get_pols u) in GP. rewrite GP. cbn [bind].
  rewrite (starts_minus ts N F). set (cs := completed ts).
  assert (ES : (if begins_with_minus ts then txt "all," ++ written ts else written ts) = written cs).
  { unfold cs, completed. destruct (begins_with_minus ts); [|reflexivity]. rewrite written_cons. destruct ts; [contradiction|]. reflexivity. }
  assert (FC : Forall term_ok cs) by (unfold cs, completed; destruct (begins_with_minus ts); [constructor; [split; [reflexivity | exact I] | exact F] | exact F]).
  assert (NC : cs <> []) by (unfold cs, completed; destruct (begins_with_minus ts); [discriminate | exact N]).
  assert (NOC : length (s_pols u) <> 1%nat \/ no_letters cs).
  { destruct NO as [NO | NO]; [left; exact NO|]. right. unfold cs, completed. destruct (begins_with_minus ts); [constructor; [constructor | exact NO] | exact NO]. }
  cbv zeta. rewrite ES. clearbody cs. clear ts N F NO ES.
  rewrite (loop_reads u names cs _ _ FC (le_n _)).
  destruct (terms_spec u names GP NP cs [] [] ([], []) FC NOC) as ((pairs & pols) & E & (N1 & N2 & N3) & (Q1 & Q2)).
  { split; [constructor|]. split; [|intros p []]. intros p. split; [intros [] | intros W; exfalso; apply (wanted_nil p W)]. }
  { split; [|intros n _; apply Nat.le_0_l]. intros n. split; [intros [] | intros W; exfalso; apply (wanted_nil n W)]. }
  cbn [app] in N2, Q1. cbn [fst snd] in *. rewrite E. cbn [bind fst snd]. eexists _, _. split; [reflexivity|].
  assert (WA : text_eqb (upper (written cs)) (txt "ALL") = true <-> exists s, cs = [Word KAll s]) by (rewrite text_eqb_eq; apply (only_word cs KAll NC FC); discriminate).
  constructor.
  - destruct (text_eqb (upper (written cs)) (txt "ALL")) eqn:A1; [left; apply WA; reflexivity|].
    destruct pairs as [|p l].
    + destruct (text_eqb (upper (written cs)) (txt "AUTO") || text_eqb (upper (written cs)) (txt "CROSS")); [split; [constructor | exact N2]|]. right. intros p W. apply N2 in W. exact W.
    + split; [exact N1 | exact N2].
  - intros p W. destruct (text_eqb (upper (written cs)) (txt "ALL")) eqn:A1.
    + destruct (proj1 WA eq_refl) as (s & ->). cbn in W. exfalso. apply (wanted_nil p W).
    + apply N2 in W. destruct pairs as [|q l]; [contradiction | discriminate].
  - destruct pols as [|n l]; [intros n W; apply Q1 in W; exact W|]. set (L := n :: l) in *. split; [|split].
    + intros X. assert (I : In n (isort (fun x y => y <=? x) L)) by (apply isort_In; left; reflexivity). rewrite X in I. exact I.
    + assert (G := isort_sorted (fun x y => y <=? x)). eapply StronglySorted_impl; [|apply G].
      * intros x y _ _ H. apply Z.leb_le in H. lia.
      * intros x y. rewrite !Z.leb_le. lia.
      * intros x y z. rewrite !Z.leb_le. lia.
    + intros m. rewrite isort_In. apply Q1.
Qed.
