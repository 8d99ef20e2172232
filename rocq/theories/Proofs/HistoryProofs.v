(** Proofs for C52. *)
From Coq Require Import List Bool Arith Ascii String Lia.
From Verif Require Import Model.History Spec.HistorySpec.
Import ListNotations.
Notation length := List.length.
Open Scope string_scope.

Lemma app_assoc_s a b c : (a ++ b) ++ c = a ++ b ++ c.
Proof. induction a as [|x a IH]; cbn; [reflexivity|]. rewrite IH. reflexivity. Qed.
Lemma app_nil_s a : a ++ "" = a.
Proof. induction a as [|x a IH]; cbn; [reflexivity|]. rewrite IH. reflexivity. Qed.

Lemma prefix_spec a s : prefix a s = true <-> exists b, s = a ++ b.
Proof.
  revert s. induction a as [|c a IH]; intros s; [split; [exists s; reflexivity|intros _; destruct s; reflexivity]|].
  destruct s as [|d s]; cbn [prefix]; [split; [discriminate|intros (b & E); discriminate E]|].
  destruct (ascii_dec c d) as [->|N].
  - rewrite IH. split; intros (b & E); exists b; cbn; [rewrite E; reflexivity|injection E as ->; reflexivity].
  - split; [discriminate|]. intros (b & E). injection E as E _. congruence.
Qed.

Lemma contains_spec sub s : contains sub s = true <-> occurs sub s.
Proof.
  unfold occurs. induction s as [|c s IH].
  - cbn [contains]. rewrite orb_false_r, prefix_spec. split.
    + intros (b & E). exists "", b. exact E.
    + intros (a & b & E). destruct a as [|]; [|discriminate E]. exists b. exact E.
  - cbn [contains]. rewrite orb_true_iff, prefix_spec, IH. split.
    + intros [(b & E)|(a & b & E)]; [exists "", b; exact E|]. exists (String c a), b. rewrite E. reflexivity.
    + intros (a & b & E). destruct a as [|d a]; [left; exists b; exact E|].
      right. injection E as -> E. exists a, b. exact E.
Qed.

Lemma occurs_refl s : occurs s s.
Proof. exists "", "". cbn. symmetry. apply app_nil_s. Qed.
Lemma occurs_left sub s t : occurs sub s -> occurs sub (s ++ t).
Proof. intros (a & b & ->). exists a, (b ++ t). rewrite !app_assoc_s. reflexivity. Qed.
Lemma occurs_right sub s t : occurs sub t -> occurs sub (s ++ t).
Proof. intros (a & b & ->). exists (s ++ a), b. rewrite !app_assoc_s. reflexivity. Qed.

(** ** Words *)

Lemma split_nonempty s : split_sp s <> [].
Proof. destruct s as [|c s]; cbn; [discriminate|]. destruct (Ascii.eqb c sp); [discriminate|]. destruct (split_sp s); discriminate. Qed.

Lemma split_spaceless s : Forall spaceless (split_sp s).
Proof.
  induction s as [|c s IH]; cbn [split_sp]; [repeat constructor|].
  destruct (Ascii.eqb_spec c sp) as [->|N]; [constructor; [exact I|exact IH]|].
  destruct (split_sp s) as [|w ws]; [constructor; [split; [exact N|exact I]|constructor]|].
  inversion IH; subst. constructor; [split|]; assumption.
Qed.

(** [join] undoes [split_sp] *)
Fixpoint joined (ws : list string) : string := match ws with [] => " " | w :: ws => " " ++ w ++ joined ws end.
Lemma joined_split s : joined (split_sp s) = " " ++ s ++ " ".
Proof.
  induction s as [|c s IH]; [reflexivity|]. cbn [split_sp].
  destruct (Ascii.eqb_spec c sp) as [->|N].
  - cbn [joined]. rewrite IH. reflexivity.
  - destruct (split_sp s) as [|w ws] eqn:E; [destruct (split_nonempty _ E)|].
    cbn [joined append] in *. injection IH as IH. rewrite IH. reflexivity.
Qed.

Lemma spaceless_no_space w a b x : spaceless w -> w ++ x = a ++ String sp b -> exists c, a = w ++ c.
Proof.
  revert a. induction w as [|c w IH]; intros a S E; [exists a; reflexivity|].
  destruct S as [N S]. destruct a as [|d a]; cbn in E; injection E as E1 E2; [(unfold sp in *; congruence)|]. subst d.
  destruct (IH a S E2) as (e & ->). exists e. reflexivity.
Qed.

Lemma same_word w v x y : spaceless w -> spaceless v -> w ++ String sp x = v ++ String sp y -> w = v /\ x = y.
Proof.
  revert v. induction w as [|c w IH]; intros v Sw Sv E.
  - destruct v as [|d v]; cbn in E; [injection E; auto|]. destruct Sv as [N _]. injection E as E _. (unfold sp in *; congruence).
  - destruct Sw as [N Sw]. destruct v as [|d v]; cbn in E; injection E as E1 E2; [(unfold sp in *; congruence)|].
    destruct Sv as [_ Sv]. destruct (IH v Sw Sv E2) as [-> ->]. subst. auto.
Qed.

Lemma joined_head ws : exists t, joined ws = String sp t.
Proof. destruct ws; eexists; reflexivity. Qed.

Lemma joined_words w ws : spaceless w -> Forall spaceless ws -> occurs (" " ++ w ++ " ") (joined ws) -> In w ws.
Proof.
  intros Sw. induction ws as [|v ws IH]; intros F (a & b & E).
  - cbn [joined] in E. exfalso. destruct a as [|c a]; cbn in E.
    + injection E as E. destruct w; discriminate E.
    + injection E as _ E. destruct a; discriminate E.
  - inversion F as [|? ? Sv Fw]; subst. cbn [joined append] in E.
    destruct a as [|c a].
    + cbn [append] in E. injection E as E. destruct (joined_head ws) as (t & Et). rewrite Et in E.
      rewrite app_assoc_s in E. cbn [append] in E. apply same_word in E as [E _]; [left; exact E|assumption|assumption].
    + cbn [append] in E. injection E as _ E. right. apply IH; [exact Fw|].
      destruct (spaceless_no_space v a (w ++ " " ++ b) (joined ws) Sv) as (a' & ->).
      { rewrite E. cbn [append]. rewrite app_assoc_s. reflexivity. }
      exists a', b. rewrite !app_assoc_s in E. cbn [append] in E |- *. clear -E.
      induction v as [|x v IHv]; cbn [append] in E; [rewrite app_assoc_s; exact E|]. injection E as E. apply IHv, E.
Qed.

Lemma words_occur w ws : In w ws -> occurs (" " ++ w ++ " ") (joined ws).
Proof.
  induction ws as [|v ws IH]; intros H; [destruct H|]. cbn [joined]. destruct H as [->|H].
  - destruct (joined_head ws) as (t & ->). exists "", t. cbn [append]. rewrite app_assoc_s. reflexivity.
  - apply occurs_right, occurs_right, IH, H.
Qed.

Lemma is_word_split w h : is_word w h <-> In w (split_sp h).
Proof.
  unfold is_word. rewrite <- (joined_split h). split.
  - intros [S O]. apply joined_words; [exact S|apply split_spaceless|exact O].
  - intros H. split; [|apply words_occur, H].
    pose proof (split_spaceless h) as F. rewrite Forall_forall in F. apply F, H.
Qed.

(** ** The loop *)

Fixpoint spelled (ws : list string) : string := match ws with [] => "" | w :: ws => " " ++ w ++ spelled ws end.

Lemma spelled_app a b : spelled (a ++ b)%list = spelled a ++ spelled b.
Proof. induction a as [|w a IH]; [reflexivity|]. cbn [spelled List.app]. rewrite IH, !app_assoc_s. reflexivity. Qed.

Lemma skip_one (pre post : list string) w x : length pre = x -> 
  (firstn x (pre ++ w :: post) ++ skipn (x + 1) (pre ++ w :: post))%list = (pre ++ post)%list.
Proof.
  intros <-. rewrite firstn_app, firstn_all, Nat.sub_diag. cbn [firstn]. rewrite app_nil_r. f_equal.
  rewrite skipn_app, skipn_all2 by lia. replace (length pre + 1 - length pre) with 1 by lia. reflexivity.
Qed.

Lemma absorb_spec test : forall fuel pre post i add, length pre = i + 1 -> length post <= fuel ->
  Forall spaceless post ->
  exists p q, post = (p ++ q)%list /\ Forall (fun w => missing test w = true) p /\
    absorb fuel test (pre ++ post)%list i add = ((pre ++ q)%list, add ++ spelled p).
Proof.
  induction fuel as [|fuel IH]; intros pre post i add L F S.
  - destruct post; [|cbn in F; lia]. exists [], []. cbn [absorb spelled]. rewrite app_nil_s.
    split; [reflexivity|split; [constructor|reflexivity]].
  - cbn [absorb]. destruct post as [|w post].
    + rewrite app_nil_r. rewrite (proj2 (nth_error_None pre (i + 1))) by lia.
      exists [], []. cbn [spelled]. rewrite app_nil_s. split; [reflexivity|split; [constructor|rewrite app_nil_r; reflexivity]].
    + rewrite nth_error_app2 by lia. replace (i + 1 - length pre) with 0 by lia. cbn [nth_error].
      inversion S as [|? ? Sw Sp]; subst.
      replace (String.eqb w " ") with false.
      2:{ symmetry. apply String.eqb_neq. intros ->. destruct Sw as [N _]. congruence. }
      cbn [orb]. destruct (missing test w) eqn:M.
      * replace (i + 2) with (i + 1 + 1) by lia. rewrite skip_one by exact L.
        destruct (IH pre post i (add ++ " " ++ w) L ltac:(cbn in F; lia) Sp) as (p & q & -> & Mp & E).
        exists (w :: p), q. split; [reflexivity|]. split; [constructor; assumption|].
        rewrite E. f_equal. cbn [spelled]. rewrite !app_assoc_s. reflexivity.
      * exists [], (w :: post). cbn [spelled]. rewrite app_nil_s. split; [reflexivity|split; [constructor|reflexivity]].
Qed.

Lemma enumerate_spec test : forall fuel pre post i add, length pre = i -> length post <= fuel -> Forall spaceless post ->
  enumerate_words fuel test (pre ++ post)%list i add = add ++ spelled (filter (missing test) post).
Proof.
  induction fuel as [|fuel IH]; intros pre post i add L F S.
  - destruct post; [|cbn in F; lia]. cbn. symmetry. apply app_nil_s.
  - cbn [enumerate_words]. destruct post as [|w post].
    + rewrite app_nil_r. rewrite (proj2 (nth_error_None pre i)) by lia. cbn. symmetry. apply app_nil_s.
    + rewrite nth_error_app2 by lia. replace (i - length pre) with 0 by lia. cbn [nth_error filter].
      inversion S as [|? ? Sw Sp]; subst. cbn [length] in F.
      destruct (missing test w) eqn:M.
      * replace (pre ++ w :: post)%list with ((pre ++ [w]) ++ post)%list by (rewrite <- app_assoc; reflexivity).
        assert (L1 : length (pre ++ [w]) = length pre + 1) by (rewrite app_length; reflexivity).
        destruct (absorb_spec test (length ((pre ++ [w]) ++ post)%list) (pre ++ [w])%list post (length pre) (add ++ " " ++ w) L1) as (p & q & -> & Mp & E).
        { rewrite app_length. lia. } { exact Sp. }
        rewrite E. apply Forall_app in Sp as [_ Sq]. rewrite app_length in F.
        rewrite IH; [|exact L1|lia|exact Sq].
        rewrite filter_app. replace (filter (missing test) p) with p.
        2:{ clear -Mp. induction Mp as [|x p Hx _ IHp]; [reflexivity|]. cbn [filter]. rewrite Hx. f_equal. exact IHp. }
        cbn [spelled]. rewrite spelled_app, !app_assoc_s. reflexivity.
      * replace (pre ++ w :: post)%list with ((pre ++ [w]) ++ post)%list by (rewrite <- app_assoc; reflexivity).
        apply IH; [rewrite app_length; reflexivity|lia|exact Sp].
Qed.

Lemma combine_addition h1 h2 :
  combine_history_addition h1 h2 =
  if check_histories h1 h2 then None
  else match filter (missing (" " ++ h1 ++ " ")) (split_sp h2) with [] => None | ws => Some (spelled ws) end.
Proof.
  unfold combine_history_addition. destruct (check_histories h1 h2); [reflexivity|]. cbv zeta.
  rewrite (enumerate_spec _ _ [] (split_sp h2) 0 "" eq_refl (le_n _) (split_spaceless h2)).
  destruct (filter _ _) as [|w ws]; reflexivity.
Qed.

Lemma missing_spec h w : spaceless w -> (missing (" " ++ h ++ " ") w = false <-> is_word w h).
Proof.
  intros S. unfold missing, is_word. rewrite negb_false_iff, contains_spec. tauto.
Qed.

(** ** Comparing *)

Lemma squeeze_same a b : same_text a b -> squeeze a = squeeze b.
Proof.
  induction 1 as [|c a b _ IH|c a b H _ IH|c a b H _ IH]; cbn [squeeze].
  - reflexivity.
  - destruct (_ || _)%bool; [exact IH|f_equal; exact IH].
  - replace (_ || _)%bool with true; [exact IH|]. destruct H as [->| ->]; reflexivity.
  - replace (_ || _)%bool with true; [exact IH|]. destruct H as [->| ->]; reflexivity.
Qed.

Lemma same_squeezed a : same_text a (squeeze a).
Proof.
  induction a as [|c a IH]; cbn [squeeze]; [constructor|].
  destruct (Ascii.eqb_spec c nl) as [->|N]; [apply SLeft; [right; reflexivity|exact IH]|].
  destruct (Ascii.eqb_spec c sp) as [->|N']; [apply SLeft; [left; reflexivity|exact IH]|]. cbn [orb].
  apply SChar, IH.
Qed.

Lemma squeeze_nil a : squeeze a = "" -> same_text a "".
Proof. intros E. rewrite <- E. apply same_squeezed. Qed.

Lemma squeezed_same : forall n a b, String.length a + String.length b <= n -> squeeze a = squeeze b -> same_text a b.
Proof.
  induction n as [|n IH]; intros a b L E.
  - destruct a, b; cbn in L; try lia. constructor.
  - destruct a as [|c a].
    + destruct b as [|d b]; [constructor|]. cbn [squeeze] in E.
      destruct (Ascii.eqb_spec d nl) as [->|N]; [apply SRight; [right; reflexivity|]; apply IH; [cbn in L |- *; lia|exact E]|].
      destruct (Ascii.eqb_spec d sp) as [->|N']; [apply SRight; [left; reflexivity|]; apply IH; [cbn in L |- *; lia|exact E]|].
      discriminate E.
    + cbn [squeeze] in E.
      destruct (Ascii.eqb_spec c nl) as [->|N]; [apply SLeft; [right; reflexivity|]; apply IH; [cbn in L |- *; lia|exact E]|].
      destruct (Ascii.eqb_spec c sp) as [->|N']; [apply SLeft; [left; reflexivity|]; apply IH; [cbn in L |- *; lia|exact E]|].
      cbn [orb] in E. destruct b as [|d b]; [discriminate E|]. cbn [squeeze] in E.
      destruct (Ascii.eqb_spec d nl) as [->|M].
      { apply SRight; [right; reflexivity|]. apply IH; [cbn in L |- *; lia|]. cbn [squeeze].
        destruct (Ascii.eqb_spec c nl); [contradiction|]. destruct (Ascii.eqb_spec c sp); [contradiction|]. exact E. }
      destruct (Ascii.eqb_spec d sp) as [->|M'].
      { apply SRight; [left; reflexivity|]. apply IH; [cbn in L |- *; lia|]. cbn [squeeze].
        destruct (Ascii.eqb_spec c nl); [contradiction|]. destruct (Ascii.eqb_spec c sp); [contradiction|]. exact E. }
      cbn [orb] in E. injection E as -> E. apply SChar, IH; [cbn in L; lia|exact E].
Qed.

Lemma check_histories_spec a b : check_histories a b = true <-> same_text a b.
Proof.
  unfold check_histories. rewrite String.eqb_eq. split; [apply (squeezed_same _ a b (le_n _))|apply squeeze_same].
Qed.

(** ** Combining *)

Definition spaced (s : string) : Prop := exists t, s = " " ++ t.

Lemma word_in_appended h t w : spaced t -> is_word w h -> is_word w (h ++ t).
Proof.
  intros (t' & ->) [S O]. split; [exact S|].
  replace (" " ++ (h ++ " " ++ t') ++ " ") with ((" " ++ h ++ " ") ++ (t' ++ " ")) by (rewrite !app_assoc_s; reflexivity).
  apply occurs_left, O.
Qed.

Lemma spelled_words ws w : In w ws -> occurs (" " ++ w ++ " ") (spelled ws ++ " ").
Proof.
  intros H. replace (spelled ws ++ " ") with (joined ws); [apply words_occur, H|].
  clear. induction ws as [|w ws IH]; [reflexivity|]. cbn [joined spelled]. rewrite IH, !app_assoc_s. reflexivity.
Qed.

Lemma append_history_words verbose nxt unique this other :
  spaced nxt -> (exists t, nxt = t ++ " ") -> spaced unique ->
  let r := append_history verbose nxt unique this other false in
  starts_with this r /\ (forall w, is_word w this -> is_word w r) /\
  (verbose = false -> ~ same_text this other -> forall w, is_word w other -> is_word w r) /\
  (verbose = true -> occurs other r /\ forall w, is_word w other -> is_word w r).
Proof.
  intros Sn (n' & En) Su. unfold append_history. destruct verbose; cbv zeta.
  - split; [exists (nxt ++ other); reflexivity|].
    split; [intros w H; apply word_in_appended; [|exact H]; destruct Sn as (t & ->); exists (t ++ other); apply app_assoc_s|].
    split; [discriminate|]. intros _. split; [apply occurs_right, occurs_right, occurs_refl|].
    intros w [S O]. split; [exact S|]. rewrite En.
    replace (" " ++ (this ++ (n' ++ " ") ++ other) ++ " ") with ((" " ++ this ++ n') ++ (" " ++ other ++ " "))
      by (rewrite !app_assoc_s; reflexivity).
    apply occurs_right, O.
  - rewrite combine_addition. destruct (check_histories this other) eqn:C.
    { apply check_histories_spec in C. split; [exists ""; symmetry; apply app_nil_s|]. split; [auto|].
      split; [intros _ N; contradiction|discriminate]. }
    set (ws := filter (missing (" " ++ this ++ " ")) (split_sp other)).
    assert (K : forall w, is_word w other -> is_word w this \/ In w ws).
    { intros w H. destruct (missing (" " ++ this ++ " ") w) eqn:M.
      - right. apply filter_In. split; [apply is_word_split, H|exact M].
      - left. apply missing_spec; [apply H|exact M]. }
    destruct ws as [|v ws'] eqn:E.
    + split; [exists ""; symmetry; apply app_nil_s|]. split; [auto|]. split; [|discriminate].
      intros _ _ w H. destruct (K w H) as [?|[]]. assumption.
    + assert (A : spaced (unique ++ spelled (v :: ws'))) by (destruct Su as (t & ->); eexists; apply app_assoc_s).
      split; [eexists; reflexivity|]. split; [intros w; apply word_in_appended, A|]. split; [|discriminate].
      intros _ _ w H. destruct (K w H) as [H'|H']; [apply word_in_appended; assumption|].
      split; [apply H|].
      replace (" " ++ (this ++ unique ++ spelled (v :: ws')) ++ " ") with ((" " ++ this ++ unique) ++ (spelled (v :: ws') ++ " "))
        by (rewrite !app_assoc_s; reflexivity).
      apply occurs_right, spelled_words, H'.
Qed.

Definition extends (r r' : string) : Prop := r' = r \/ exists t, spaced t /\ r' = r ++ t.

Lemma extends_refl r : extends r r.
Proof. left. reflexivity. Qed.
Lemma extends_trans a b c : extends a b -> extends b c -> extends a c.
Proof.
  intros [->|(t & S & ->)] H; [exact H|]. destruct H as [->|(u & S' & ->)]; right.
  - exists t. split; [exact S|reflexivity].
  - exists (t ++ u). split; [destruct S as (x & ->); exists (x ++ u); apply app_assoc_s|]. apply app_assoc_s.
Qed.
Lemma extends_starts a b : extends a b -> starts_with a b.
Proof. intros [->|(t & _ & ->)]; [exists ""; symmetry; apply app_nil_s|exists t; reflexivity]. Qed.
Lemma starts_trans a b c : starts_with a b -> starts_with b c -> starts_with a c.
Proof. intros (x & ->) (y & ->). exists (x ++ y). apply app_assoc_s. Qed.
Lemma extends_word a b w : extends a b -> is_word w a -> is_word w b.
Proof. intros [->|(t & S & ->)] H; [exact H|]. apply word_in_appended; assumption. Qed.
Lemma extends_recorded h a b : extends a b -> recorded h a -> recorded h b.
Proof.
  intros E [H|(p & S & H)]; [left; intros w Hw; exact (extends_word _ _ _ E (H w Hw))|].
  right. exists p. split; [exact (starts_trans _ _ _ S (extends_starts _ _ E))|exact H].
Qed.
Lemma starts_refl a : starts_with a a.
Proof. exists "". symmetry. apply app_nil_s. Qed.

Lemma append_history_extends verbose nxt unique this other m : spaced nxt -> spaced unique ->
  extends this (append_history verbose nxt unique this other m).
Proof.
  intros (n & ->) (u & ->). unfold append_history. destruct m; [apply extends_refl|]. destruct verbose.
  - right. exists ((" " ++ n) ++ other). split; [exists (n ++ other); apply app_assoc_s|reflexivity].
  - destruct (combine_history_addition this other); [|apply extends_refl].
    right. exists ((" " ++ u) ++ s). split; [exists (u ++ s); apply app_assoc_s|reflexivity].
Qed.

Lemma append_history_recorded verbose nxt unique this other : 
  spaced nxt -> (exists t, nxt = t ++ " ") -> spaced unique ->
  recorded other (append_history verbose nxt unique this other false).
Proof.
  intros A B C. destruct (append_history_words verbose nxt unique this other A B C) as (S & _ & X & Y). cbv zeta in *.
  destruct verbose.
  - left. apply Y. reflexivity.
  - destruct (check_histories this other) eqn:E.
    + right. exists this. split; [exact S|]. apply check_histories_spec, E.
    + left. apply X; [reflexivity|]. intros H. apply check_histories_spec in H. congruence.
Qed.

Lemma append_history_whole nxt unique this other : occurs other (append_history true nxt unique this other false).
Proof. unfold append_history. apply occurs_right, occurs_right, occurs_refl. Qed.

Lemma spaced_next : spaced next_follows. Proof. eexists. reflexivity. Qed.
Lemma spaced_unique : spaced next_unique. Proof. eexists. reflexivity. Qed.
Lemma next_ends : exists t, next_follows = t ++ " ". Proof. exists " Next object history follows.". reflexivity. Qed.

Lemma add_history_spec verbose overwrote axes h1 h2 : axes <> [] ->
  let r := add_history verbose overwrote axes h1 h2 in
  starts_with h1 r /\ recorded h1 r /\ recorded h2 r /\
  (verbose = true -> overwrote = false -> ~ same_text h1 h2 -> occurs h2 r).
Proof.
  intros NE. unfold add_history. destruct axes as [|x axes]; [contradiction|]. clear NE. cbv zeta.
  set (this := if overwrote then h1 ++ " Overwrote invalid data using pyuvdata." else h1).
  set (upd := (if overwrote then " Overwrote invalid data using pyuvdata." else " Combined data along ") ++ join_axes (x :: axes)).
  assert (E1 : extends h1 this).
  { unfold this. destruct overwrote; [|apply extends_refl]. right. eexists. split; [|reflexivity]. eexists. reflexivity. }
  assert (E2 : extends this (this ++ upd ++ " axis using pyuvdata.")).
  { right. eexists. split; [|reflexivity]. unfold upd. destruct overwrote; eexists; reflexivity. }
  set (t2 := this ++ upd ++ " axis using pyuvdata.") in *.
  assert (E3 := append_history_extends verbose next_follows next_unique t2 h2 (check_histories this h2) spaced_next spaced_unique).
  set (r := append_history _ _ _ _ _ _) in *.
  assert (E := extends_trans _ _ _ (extends_trans _ _ _ E1 E2) E3).
  split; [apply extends_starts, E|]. split; [left; intros w; apply extends_word, E|]. split.
  - unfold r. destruct (check_histories this h2) eqn:C.
    + right. exists this. split; [|apply check_histories_spec, C].
      apply extends_starts. exact (extends_trans _ _ _ E2 E3).
    + apply append_history_recorded; [apply spaced_next|apply next_ends|apply spaced_unique].
  - intros -> -> N. unfold r. destruct (check_histories this h2) eqn:C.
    + apply check_histories_spec in C. contradiction.
    + apply append_history_whole.
Qed.

Lemma concat_history_spec verbose axis_name h others :
  let r := concat_history verbose axis_name h others in
  starts_with h r /\ recorded h r /\ (forall o, In o others -> recorded o r) /\
  (verbose = true -> forall o, In o others -> ~ same_text h o -> occurs o r).
Proof.
  unfold concat_history. cbv zeta.
  assert (E0 : extends h (h ++ " Combined data along " ++ axis_name ++ " axis using pyuvdata.")).
  { right. eexists. split; [|reflexivity]. eexists. reflexivity. }
  set (t0 := h ++ _) in *.
  assert (G : forall others t, extends h t ->
    let r := fold_left (fun this o => append_history verbose next_follows next_unique this (fst o) (snd o))
               (map (fun o => (o, check_histories h o)) others) t in
    extends t r /\ (forall o, In o others -> recorded o r) /\
    (verbose = true -> forall o, In o others -> ~ same_text h o -> occurs o r)).
  { clear. induction others as [|o others IH]; intros t Et; cbv zeta; cbn [map fold_left fst snd].
    - split; [apply extends_refl|]. split; [intros o []|intros _ o []].
    - assert (Es := append_history_extends verbose next_follows next_unique t o (check_histories h o) spaced_next spaced_unique).
      set (t' := append_history verbose next_follows next_unique t o (check_histories h o)) in *.
      destruct (IH t' (extends_trans _ _ _ Et Es)) as (A & B & C). cbv zeta in *.
      split; [exact (extends_trans _ _ _ Es A)|]. split.
      + intros p [<-|Hp]; [|apply B, Hp]. apply (extends_recorded _ _ _ A). unfold t'.
        destruct (check_histories h o) eqn:Q.
        * right. exists h. split; [|apply check_histories_spec, Q]. apply extends_starts, (extends_trans _ _ _ Et Es).
        * apply append_history_recorded; [apply spaced_next|apply next_ends|apply spaced_unique].
      + intros V p [<-|Hp] N; [|apply C; assumption].
        destruct (extends_starts _ _ A) as (x & ->). apply occurs_left. unfold t'.
        destruct (check_histories h o) eqn:Q; [apply check_histories_spec in Q; contradiction|].
        rewrite V. apply append_history_whole. }
  destruct (G others t0 E0) as (A & B & C). cbv zeta in *.
  assert (E := extends_trans _ _ _ E0 A).
  split; [apply extends_starts, E|]. split; [left; intros w; apply extends_word, E|]. split; [exact B|exact C].
Qed.

Lemma sum_history_spec verbose difference h1 h2 :
  let r := sum_history verbose difference h1 h2 in
  starts_with h1 r /\ recorded h1 r /\ recorded h2 r /\ (verbose = true -> ~ same_text h1 h2 -> occurs h2 r).
Proof.
  unfold sum_history. cbv zeta.
  set (t := h1 ++ _). set (nxt := " Second object history follows. "). set (unq := " Unique part of second object history follows. ").
  assert (Sn : spaced nxt) by (eexists; reflexivity). assert (Su : spaced unq) by (eexists; reflexivity).
  assert (Nn : exists x, nxt = x ++ " ") by (exists " Second object history follows."; reflexivity).
  assert (E1 : extends h1 t).
  { right. eexists. split; [|reflexivity]. destruct difference; eexists; reflexivity. }
  assert (E2 := append_history_extends verbose nxt unq t h2 (check_histories h1 h2) Sn Su).
  assert (E := extends_trans _ _ _ E1 E2).
  split; [apply extends_starts, E|]. split; [left; intros w; apply extends_word, E|]. split.
  - destruct (check_histories h1 h2) eqn:C.
    + right. exists h1. split; [apply extends_starts, E|apply check_histories_spec, C].
    + apply append_history_recorded; assumption.
  - intros -> N. destruct (check_histories h1 h2) eqn:C; [apply check_histories_spec in C; contradiction|]. apply append_history_whole.
Qed.

Lemma same_histories_add verbose axes h1 h2 : axes <> [] -> same_text h1 h2 ->
  add_history verbose false axes h1 h2 = h1 ++ " Combined data along " ++ join_axes axes ++ " axis using pyuvdata.".
Proof.
  intros NE S. apply check_histories_spec in S. unfold add_history. destruct axes as [|x axes]; [contradiction|].
  cbv zeta. rewrite S. unfold append_history. rewrite app_assoc_s. reflexivity.
Qed.
Lemma same_histories_sum verbose difference h1 h2 : same_text h1 h2 ->
  sum_history verbose difference h1 h2 =
  h1 ++ (if difference then " Visibilities differenced using pyuvdata." else " Visibilities summed using pyuvdata.").
Proof. intros S. apply check_histories_spec in S. unfold sum_history. rewrite S. reflexivity. Qed.
Lemma same_histories_concat verbose axis_name h others : (forall o, In o others -> same_text h o) ->
  concat_history verbose axis_name h others = h ++ " Combined data along " ++ axis_name ++ " axis using pyuvdata.".
Proof.
  intros S. unfold concat_history. generalize (h ++ " Combined data along " ++ axis_name ++ " axis using pyuvdata.") as t.
  induction others as [|o others IH]; intros t; [reflexivity|]. cbn [map fold_left fst snd].
  rewrite (proj2 (check_histories_spec h o) (S o (or_introl eq_refl))). cbn [append_history].
  apply IH. intros p Hp. apply S. right. exact Hp.
Qed.

Lemma spelled_spell ws : spelled ws = spell ws.
Proof. induction ws as [|w ws IH]; [reflexivity|]. cbn. rewrite IH. reflexivity. Qed.

Lemma addition_spec h1 h2 :
  match combine_history_addition h1 h2 with
  | None => same_text h1 h2 \/ forall w, is_word w h2 -> is_word w h1
  | Some extra => ~ same_text h1 h2 /\ exists ws, ws <> [] /\ extra = spell ws /\
      (forall w, In w ws <-> is_word w h2 /\ ~ is_word w h1)
  end.
Proof.
  rewrite combine_addition. destruct (check_histories h1 h2) eqn:C; [left; apply check_histories_spec, C|].
  assert (K : forall w, In w (filter (missing (" " ++ h1 ++ " ")) (split_sp h2)) <-> is_word w h2 /\ ~ is_word w h1).
  { intros w. rewrite filter_In, <- is_word_split. split.
    - intros [A B]. split; [exact A|]. intros H. apply missing_spec in H; [congruence|apply A].
    - intros [A B]. split; [exact A|]. destruct (missing _ w) eqn:M; [reflexivity|]. exfalso. apply B.
      apply missing_spec; [apply A|exact M]. }
  destruct (filter _ _) as [|v ws] eqn:E.
  - right. intros w H. destruct (missing (" " ++ h1 ++ " ") w) eqn:M.
    + exfalso. apply (K w). split; [exact H|]. intros H'. apply missing_spec in H'; [congruence|apply H].
    + apply missing_spec; [apply H|exact M].
  - split; [intros H; apply check_histories_spec in H; congruence|]. exists (v :: ws). split; [discriminate|].
    split; [apply spelled_spell|exact K].
Qed.

Lemma addition_again h1 h2 extra sep : spaced sep ->
  combine_history_addition h1 h2 = Some extra -> combine_history_addition (h1 ++ sep ++ extra) h2 = None.
Proof.
  intros Sp H. rewrite combine_addition.
  destruct (check_histories (h1 ++ sep ++ extra) h2) eqn:C; [reflexivity|].
  pose proof (append_history_words false " x " sep h1 h2 ltac:(eexists; reflexivity) ltac:(exists " x"; reflexivity) Sp) as (_ & _ & W & _).
  cbv zeta in W. unfold append_history in W. rewrite H in W.
  assert (N : ~ same_text h1 h2) by (pose proof (addition_spec h1 h2) as A; rewrite H in A; apply A).
  specialize (W eq_refl N).
  replace (filter _ _) with (@nil string); [reflexivity|]. symmetry.
  assert (F : forall w, In w (split_sp h2) -> missing (" " ++ (h1 ++ sep ++ extra) ++ " ") w = false).
  { intros w Hw. apply is_word_split in Hw. apply missing_spec; [apply Hw|]. apply W, Hw. }
  induction (split_sp h2) as [|w ws IH]; [reflexivity|]. cbn [filter].
  rewrite F by (left; reflexivity). apply IH. intros v Hv. apply F. right. exact Hv.
Qed.

(** ** Version strings *)

Lemma squeeze_app a b : squeeze (a ++ b) = squeeze a ++ squeeze b.
Proof.
  induction a as [|c a IH]; [reflexivity|]. cbn [append squeeze]. destruct (_ || _)%bool; [exact IH|].
  cbn [append]. f_equal. exact IH.
Qed.
Lemma unspace_squeeze v : one_line v -> unspace v = squeeze v.
Proof.
  induction v as [|c v IH]; intros H; [reflexivity|]. destruct H as [N H]. cbn [unspace squeeze].
  destruct (Ascii.eqb_spec c nl) as [->|_]; [contradiction N; reflexivity|]. cbn [orb].
  destruct (Ascii.eqb c sp); [|f_equal]; apply IH, H.
Qed.
Lemma version_found h1 v h2 : one_line v -> check_history_version (h1 ++ v ++ h2) v = true.
Proof.
  intros H. unfold check_history_version. apply contains_spec. rewrite unspace_squeeze by exact H.
  rewrite !squeeze_app. apply occurs_right, occurs_left, occurs_refl.
Qed.
