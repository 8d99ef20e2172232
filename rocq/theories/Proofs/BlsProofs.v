From Coq Require Import List ZArith Bool Lia ZifyBool ZifyNat.
From Verif Require Import Lib.Py Lib.Np Model.Bls Spec.BlsSpec.
Import ListNotations.
Open Scope Z_scope.
Ltac Zify.zify_post_hook ::= Z.div_mod_to_equations.

Lemma w64_small z : 0 <= z < 2 ^ 64 -> w64 z = z.
Proof. intros. unfold w64. apply Z.mod_small. assumption. Qed.

(** Remove wraparounds from the inside out. *)
Ltac w64s :=
  change (2 ^ 16) with 65536 in *; change (2 ^ 22) with 4194304 in *;
  repeat match goal with
  | |- context [w64 ?z] =>
      lazymatch z with context [w64 _] => fail | _ => rewrite (w64_small z) by lia end
  end.

Lemma fold_min_le l x : fold_left (fun m a => if a <? m then a else m) l x <= x
  /\ Forall (fun y => fold_left (fun m a => if a <? m then a else m) l x <= y) l
  /\ (forall P : Z -> Prop, P x -> Forall P l -> P (fold_left (fun m a => if a <? m then a else m) l x)).
Proof.
  revert x; induction l as [|a l IH]; intros x; simpl.
  - split; [lia|]. split; [constructor|auto].
  - destruct (IH (if a <? x then a else x)) as (H1 & H2 & H3).
    split; [destruct (a <? x) eqn:E; lia|].
    split; [constructor; [destruct (a <? x) eqn:E; lia|exact H2]|].
    intros P Px HP. inversion HP; subst. apply H3; [destruct (a <? x); assumption|assumption].
Qed.

Lemma fold_max_ge l x : x <= fold_left (fun m a => if a >? m then a else m) l x
  /\ Forall (fun y => y <= fold_left (fun m a => if a >? m then a else m) l x) l
  /\ (forall P : Z -> Prop, P x -> Forall P l -> P (fold_left (fun m a => if a >? m then a else m) l x)).
Proof.
  revert x; induction l as [|a l IH]; intros x; simpl.
  - split; [lia|]. split; [constructor|auto].
  - destruct (IH (if a >? x then a else x)) as (H1 & H2 & H3).
    split; [destruct (a >? x) eqn:E; lia|].
    split; [constructor; [destruct (a >? x) eqn:E; lia|exact H2]|].
    intros P Px HP. inversion HP; subst. apply H3; [destruct (a >? x); assumption|assumption].
Qed.

Lemma arraymin_Ok l m : arraymin l = Ok m ->
  In m l /\ Forall (fun y => m <= y) l.
Proof.
  destruct l as [|x l]; simpl; [discriminate|]. intros H. injection H as <-.
  rewrite Z.ltb_irrefl. destruct (fold_min_le l x) as (H1 & H2 & H3).
  split.
  - apply (H3 (fun z => x = z \/ In z l)); [left; reflexivity|].
    apply Forall_forall. intros; right; assumption.
  - constructor; assumption.
Qed.

Lemma arraymax_Ok l m : arraymax l = Ok m ->
  In m l /\ Forall (fun y => y <= m) l.
Proof.
  destruct l as [|x l]; simpl; [discriminate|]. intros H. injection H as <-.
  replace (x >? x) with false by lia. destruct (fold_max_ge l x) as (H1 & H2 & H3).
  split.
  - apply (H3 (fun z => x = z \/ In z l)); [left; reflexivity|].
    apply Forall_forall. intros; right; assumption.
  - constructor; assumption.
Qed.

Lemma arraymin_nonempty l : l <> [] -> exists m, arraymin l = Ok m.
Proof. destruct l; [congruence|]. simpl. eauto. Qed.
Lemma arraymax_nonempty l : l <> [] -> exists m, arraymax l = Ok m.
Proof. destruct l; [congruence|]. simpl. eauto. Qed.

(** *** encoders as plain arithmetic *)
Lemma enc256_eq a1 a2 : 0 <= a1 < 2147483648 -> 0 <= a2 < 2147483648 ->
  antnum_to_bl_256 a1 a2 = 256 * a1 + a2 + 0.
Proof. intros. unfold antnum_to_bl_256. w64s. lia. Qed.
Lemma enc2048_eq a1 a2 : 0 <= a1 < 2147483648 -> 0 <= a2 < 2147483648 ->
  antnum_to_bl_2048 a1 a2 = 2048 * a1 + a2 + 65536.
Proof. intros. unfold antnum_to_bl_2048. w64s. lia. Qed.
Lemma enclarge_eq a1 a2 : 0 <= a1 < 2147483648 -> 0 <= a2 < 2147483648 ->
  antnum_to_bl_2147483648 a1 a2 = 2147483648 * a1 + a2 + (65536 + 4194304).
Proof. intros. unfold antnum_to_bl_2147483648, large_mod, bl_large. w64s. lia. Qed.

Lemma dec256_eq b : 0 <= b < 2 ^ 64 ->
  bl_to_ant_256 b = ((b - 0) / 256, (b - 0) mod 256).
Proof.
  intros. unfold bl_to_ant_256. w64s. f_equal; lia.
Qed.
Lemma dec2048_eq b : 65536 <= b < 2 ^ 64 ->
  bl_to_ant_2048 b = ((b - 65536) / 2048, (b - 65536) mod 2048).
Proof.
  intros. unfold bl_to_ant_2048. change (2 ^ 16) with 65536.
  rewrite (w64_small (b - 65536)) by lia. rewrite w64_small by lia.
  f_equal; lia.
Qed.
Lemma declarge_eq b : 65536 + 4194304 <= b < 2 ^ 64 ->
  bl_to_ant_2147483648 b =
  ((b - (65536 + 4194304)) / 2147483648, (b - (65536 + 4194304)) mod 2147483648).
Proof.
  intros. unfold bl_to_ant_2147483648, bl_large, large_mod.
  change (2 ^ 16 + 2 ^ 22) with (65536 + 4194304).
  rewrite (w64_small (b - (65536 + 4194304))) by lia. rewrite w64_small by lia.
  f_equal; lia.
Qed.

(** What an accepted encoding call produced. *)
Lemma encode_char ant1 ant2 nants att bl :
  antnums_to_baseline ant1 ant2 nants att false = Ok bl ->
  valid_ants ant1 /\ valid_ants ant2 /\ ant1 <> [] /\ ant2 <> [] /\
  (length ant1 <= length ant2)%nat /\
  exists m off, encoding m off /\
    bl = map (fun p => m * fst p + snd p + off) (combine ant1 ant2) /\
    Forall (fun a => a < m) ant1 /\ Forall (fun a => a < m) ant2.
Proof.
  unfold antnums_to_baseline. intros H.
  destruct (match nants with Some n => n >? 2147483648 | None => false end); [discriminate|].
  destruct (existsb (fun a => a >=? 2147483648) (ant1 ++ ant2)) eqn:E1; [discriminate|].
  destruct (existsb (fun a => a <? 0) (ant1 ++ ant2)) eqn:E2; [discriminate|].
  assert (Hv : Forall (fun a => 0 <= a < 2147483648) (ant1 ++ ant2)).
  { apply Forall_forall. intros a Ha.
    split.
    - destruct (Z_lt_le_dec a 0); [|lia]. exfalso.
      assert (existsb (fun a => a <? 0) (ant1 ++ ant2) = true); [|congruence].
      apply existsb_exists. exists a. split; [assumption|lia].
    - destruct (Z_lt_le_dec a 2147483648); [lia|]. exfalso.
      assert (existsb (fun a => a >=? 2147483648) (ant1 ++ ant2) = true); [|congruence].
      apply existsb_exists. exists a. split; [assumption|lia]. }
  apply Forall_app in Hv as [Hv1 Hv2].
  unfold pyx_antnums_to_baseline in H.
  apply bind_Ok in H as (m1 & Hm1 & H). apply bind_Ok in H as (m2 & Hm2 & H).
  destruct (length ant2 <? length ant1)%nat eqn:Elen; [discriminate|].
  apply Nat.ltb_ge in Elen.
  assert (Hne1 : ant1 <> []) by (destruct ant1; [discriminate|congruence]).
  assert (Hne2 : ant2 <> []) by (destruct ant2; [discriminate|congruence]).
  apply arraymax_Ok in Hm1 as [_ Hm1]. apply arraymax_Ok in Hm2 as [_ Hm2].
  split; [exact Hv1|]. split; [exact Hv2|]. split; [exact Hne1|]. split; [exact Hne2|].
  split; [exact Elen|].
  remember (if m1 >? m2 then m1 else m2) as mx eqn:Emx.
  assert (Hx1 : Forall (fun a => a <= mx) ant1).
  { eapply Forall_impl; [|exact Hm1]. simpl. intros. subst mx. destruct (m1 >? m2) eqn:E; lia. }
  assert (Hx2 : Forall (fun a => a <= mx) ant2).
  { eapply Forall_impl; [|exact Hm2]. simpl. intros. subst mx. destruct (m1 >? m2) eqn:E; lia. }
  assert (Hmap : forall f m off,
    (forall a1 a2, 0 <= a1 < 2147483648 -> 0 <= a2 < 2147483648 -> f a1 a2 = m * a1 + a2 + off) ->
    map (fun p => f (fst p) (snd p)) (combine ant1 ant2) =
    map (fun p => m * fst p + snd p + off) (combine ant1 ant2)).
  { intros f m off Hf. apply map_ext_in. intros [a1 a2] Hin. simpl.
    unfold valid_ants in *. rewrite Forall_forall in Hv1, Hv2.
    apply Hf; [apply Hv1; eapply in_combine_l; eauto|apply Hv2; eapply in_combine_r; eauto]. }
  injection H as <-.
  assert (Hlt : forall m, mx < m -> Forall (fun a => a < m) ant1 /\ Forall (fun a => a < m) ant2).
  { intros m Hm. split; eapply Forall_impl; try exact Hx1; try exact Hx2; simpl; intros; lia. }
  assert (Hbig : Forall (fun a => a < 2147483648) ant1 /\ Forall (fun a => a < 2147483648) ant2).
  { split; eapply Forall_impl; try exact Hv1; try exact Hv2; simpl; intros; lia. }
  assert (C256 : mx <? 256 = true -> exists m off, encoding m off /\
     map (fun p => antnum_to_bl_256 (fst p) (snd p)) (combine ant1 ant2) = map (fun p => m * fst p + snd p + off) (combine ant1 ant2)
     /\ Forall (fun a => a < m) ant1 /\ Forall (fun a => a < m) ant2).
  { intros. exists 256, 0. split; [constructor|]. split; [apply Hmap; exact enc256_eq|]. apply Hlt. lia. }
  assert (C2048 : mx <? 2048 = true -> exists m off, encoding m off /\
     map (fun p => antnum_to_bl_2048 (fst p) (snd p)) (combine ant1 ant2) = map (fun p => m * fst p + snd p + off) (combine ant1 ant2)
     /\ Forall (fun a => a < m) ant1 /\ Forall (fun a => a < m) ant2).
  { intros. exists 2048, 65536. split; [constructor|]. split; [apply Hmap; exact enc2048_eq|]. apply Hlt. lia. }
  assert (CL : exists m off, encoding m off /\
     map (fun p => antnum_to_bl_2147483648 (fst p) (snd p)) (combine ant1 ant2) = map (fun p => m * fst p + snd p + off) (combine ant1 ant2)
     /\ Forall (fun a => a < m) ant1 /\ Forall (fun a => a < m) ant2).
  { exists 2147483648, (65536 + 4194304). split; [constructor|]. split; [apply Hmap; exact enclarge_eq|]. exact Hbig. }
  destruct att; [destruct (mx <? 256) eqn:E256; [exact (C256 eq_refl)|]|];
  (destruct (mx <? 2048) eqn:E2048; simpl;
    [destruct (match nants with Some n => negb (n >? 2048) | None => true end);
      [exact (C2048 eq_refl)|exact CL]|exact CL]).
Qed.

(** Decoding an array whose numbers all lie in one regime. *)
Lemma decode_regime m off bl nants :
  encoding m off -> bl <> [] -> nants <= 2147483648 ->
  Forall (in_regime m off) bl ->
  baseline_to_antnums bl nants = Ok (map (fun b => (b - off) / m) bl, map (fun b => (b - off) mod m) bl).
Proof.
  intros Henc Hne Hn Hreg.
  assert (Hb : Forall (fun b => 0 <= b < 4611686018498691072) bl).
  { eapply Forall_impl; [|exact Hreg]. unfold in_regime. intros b Hb. inversion Henc; subst; lia. }
  unfold baseline_to_antnums.
  replace (nants >? 2147483648) with false by lia.
  replace (existsb (fun b => b <? 0) bl) with false.
  2:{ symmetry. apply not_true_iff_false. rewrite existsb_exists. intros (b & Hin & Hb').
      rewrite Forall_forall in Hb. apply Hb in Hin. lia. }
  replace (existsb (fun b => b >? 4611686018498691072) bl) with false.
  2:{ symmetry. apply not_true_iff_false. rewrite existsb_exists. intros (b & Hin & Hb').
      rewrite Forall_forall in Hb. apply Hb in Hin. lia. }
  unfold pyx_baseline_to_antnums.
  destruct (arraymin_nonempty bl Hne) as (mn & Hmn). rewrite Hmn. cbn [bind].
  apply arraymin_Ok in Hmn as [Hin _].
  assert (Hmnr : in_regime m off mn) by (rewrite Forall_forall in Hreg; auto).
  rewrite !map_map. unfold in_regime in Hmnr. rewrite Forall_forall in Hreg.
  inversion Henc; subst m off.
  - replace (mn >=? 2 ^ 16 + 2 ^ 22) with false by lia.
    replace (mn >=? 2 ^ 16) with false by lia.
    f_equal. f_equal; apply map_ext_in; intros b Hbin; apply Hreg in Hbin; unfold in_regime in Hbin;
      cbv beta iota; rewrite dec256_eq by lia; reflexivity.
  - replace (mn >=? 2 ^ 16 + 2 ^ 22) with false by lia.
    replace (mn >=? 2 ^ 16) with true by lia.
    f_equal. f_equal; apply map_ext_in; intros b Hbin; apply Hreg in Hbin; unfold in_regime in Hbin;
      cbv beta iota; rewrite dec2048_eq by lia; reflexivity.
  - replace (mn >=? 2 ^ 16 + 2 ^ 22) with true by lia.
    f_equal. f_equal; apply map_ext_in; intros b Hbin; apply Hreg in Hbin; unfold in_regime in Hbin;
      cbv beta iota; rewrite declarge_eq by lia; reflexivity.
Qed.

Lemma encode_in_regime ant1 ant2 nants att bl :
  antnums_to_baseline ant1 ant2 nants att false = Ok bl ->
  exists m off, encoding m off /\ bl <> [] /\ Forall (in_regime m off) bl /\
    bl = map (fun p => m * fst p + snd p + off) (combine ant1 ant2) /\
    (forall p, In p (combine ant1 ant2) -> 0 <= fst p < m /\ 0 <= snd p < m).
Proof.
  intros H. destruct (encode_char _ _ _ _ _ H) as (Hv1 & Hv2 & Hne1 & Hne2 & Hlen & m & off & Henc & Hbl & Hlt1 & Hlt2).
  exists m, off. split; [exact Henc|].
  assert (Hp : forall p, In p (combine ant1 ant2) -> 0 <= fst p < m /\ 0 <= snd p < m).
  { intros [a1 a2] Hin. simpl. unfold valid_ants in *. rewrite Forall_forall in *.
    pose proof (in_combine_l _ _ _ _ Hin) as H1. pose proof (in_combine_r _ _ _ _ Hin) as H2.
    specialize (Hv1 _ H1); specialize (Hv2 _ H2); specialize (Hlt1 _ H1); specialize (Hlt2 _ H2).
    simpl in *. lia. }
  split. { subst bl. destruct ant1, ant2; simpl; congruence. }
  split; [|split; assumption].
  subst bl. apply Forall_forall. intros b Hb. apply in_map_iff in Hb as (p & <- & Hin).
  apply Hp in Hin. unfold in_regime. inversion Henc; subst; nia.
Qed.

Lemma map_fst_combine {A B} (l : list A) (l' : list B) :
  length l = length l' -> map fst (combine l l') = l.
Proof. revert l'; induction l; destruct l'; simpl; intros; try discriminate; f_equal; auto. Qed.
Lemma map_snd_combine {A B} (l : list A) (l' : list B) :
  length l = length l' -> map snd (combine l l') = l'.
Proof. revert l'; induction l; destruct l'; simpl; intros; try discriminate; f_equal; auto. Qed.

Lemma div_enc m a1 a2 off : 0 <= a2 < m -> (m * a1 + a2 + off - off) / m = a1.
Proof.
  intros. replace (m * a1 + a2 + off - off) with (a1 * m + a2) by lia.
  rewrite Z.div_add_l by lia. rewrite Z.div_small by lia. lia.
Qed.
Lemma mod_enc m a1 a2 off : 0 <= a2 < m -> (m * a1 + a2 + off - off) mod m = a2.
Proof.
  intros. replace (m * a1 + a2 + off - off) with (a2 + a1 * m) by lia.
  rewrite Z.mod_add by lia. apply Z.mod_small; lia.
Qed.

Lemma round_trip ant1 ant2 nants att bl nants' :
  length ant1 = length ant2 -> nants' <= 2147483648 ->
  antnums_to_baseline ant1 ant2 nants att false = Ok bl ->
  baseline_to_antnums bl nants' = Ok (ant1, ant2).
Proof.
  intros Hlen Hn H. destruct (encode_in_regime _ _ _ _ _ H) as (m & off & Henc & Hne & Hreg & Hbl & Hp).
  rewrite (decode_regime m off); auto. subst bl. rewrite !map_map. f_equal. f_equal.
  - rewrite <- (map_fst_combine ant1 ant2 Hlen) at 2. apply map_ext_in. intros p Hin.
    apply Hp in Hin. apply div_enc; tauto.
  - rewrite <- (map_snd_combine ant1 ant2 Hlen) at 2. apply map_ext_in. intros p Hin.
    apply Hp in Hin. apply mod_enc; tauto.
Qed.

Lemma encode_accepts ant1 ant2 nants att :
  length ant1 = length ant2 ->
  (exists bl, antnums_to_baseline ant1 ant2 nants att false = Ok bl) <->
  (ant1 <> [] /\ valid_ants ant1 /\ valid_ants ant2 /\
   match nants with Some n => n <= 2147483648 | None => True end).
Proof.
  intros Hlen. split.
  - intros (bl & H). destruct (encode_char _ _ _ _ _ H) as (Hv1 & Hv2 & Hne1 & _).
    repeat (split; [assumption|]).
    unfold antnums_to_baseline in H. destruct nants as [n|]; [|exact I].
    destruct (n >? 2147483648) eqn:E; [discriminate|]. lia.
  - intros (Hne & Hv1 & Hv2 & Hn). unfold antnums_to_baseline.
    replace (match nants with Some n => n >? 2147483648 | None => false end) with false
      by (destruct nants; lia).
    assert (Hv : Forall (fun a => 0 <= a < 2147483648) (ant1 ++ ant2)) by (apply Forall_app; auto).
    rewrite Forall_forall in Hv.
    replace (existsb (fun a => a >=? 2147483648) (ant1 ++ ant2)) with false.
    2:{ symmetry. apply not_true_iff_false. rewrite existsb_exists. intros (b & Hin & Hb').
        apply Hv in Hin. lia. }
    replace (existsb (fun a => a <? 0) (ant1 ++ ant2)) with false.
    2:{ symmetry. apply not_true_iff_false. rewrite existsb_exists. intros (b & Hin & Hb').
        apply Hv in Hin. lia. }
    unfold pyx_antnums_to_baseline.
    destruct (arraymax_nonempty ant1 Hne) as (m1 & ->).
    destruct (arraymax_nonempty ant2) as (m2 & ->).
    { destruct ant1, ant2; simpl in *; congruence. }
    cbn [bind]. replace (length ant2 <? length ant1)%nat with false by lia. eauto.
Qed.

Lemma encode_length ant1 ant2 nants att bl :
  length ant1 = length ant2 ->
  antnums_to_baseline ant1 ant2 nants att false = Ok bl -> length bl = length ant1.
Proof.
  intros Hlen H. destruct (encode_in_regime _ _ _ _ _ H) as (m & off & _ & _ & _ & -> & _).
  rewrite map_length, combine_length. lia.
Qed.

Lemma encode_values ant1 ant2 nants att bl :
  length ant1 = length ant2 ->
  antnums_to_baseline ant1 ant2 nants att false = Ok bl ->
  exists m off, encoding m off /\
    (forall i, (i < length ant1)%nat ->
       nth i bl 0 = m * nth i ant1 0 + nth i ant2 0 + off
       /\ 0 <= nth i ant1 0 < m /\ 0 <= nth i ant2 0 < m).
Proof.
  intros Hlen H. destruct (encode_in_regime _ _ _ _ _ H) as (m & off & Henc & _ & _ & Hbl & Hp).
  exists m, off. split; [exact Henc|]. intros i Hi.
  assert (Hc : (i < length (combine ant1 ant2))%nat) by (rewrite combine_length; lia).
  assert (Hn : nth i (combine ant1 ant2) (0, 0) = (nth i ant1 0, nth i ant2 0)) by (apply combine_nth; assumption).
  split.
  - subst bl. rewrite (nth_indep _ 0 ((fun p => m * fst p + snd p + off) (0, 0))) by (rewrite map_length; exact Hc).
    rewrite (map_nth (fun p => m * fst p + snd p + off)). rewrite Hn. reflexivity.
  - specialize (Hp (nth i (combine ant1 ant2) (0,0)) (nth_In _ _ Hc)). rewrite Hn in Hp. exact Hp.
Qed.

Lemma encode_injective ant1 ant2 nants att bl :
  length ant1 = length ant2 ->
  antnums_to_baseline ant1 ant2 nants att false = Ok bl ->
  (forall i j, (i < length ant1)%nat -> (j < length ant1)%nat ->
     nth i bl 0 = nth j bl 0 -> nth i ant1 0 = nth j ant1 0 /\ nth i ant2 0 = nth j ant2 0)
  /\ Forall (fun b => 0 <= b < 2 ^ 64) bl
  /\ (exists m off, encoding m off /\ bl = map (fun p => m * fst p + snd p + off) (combine ant1 ant2))
  /\ (forall n, n <= 2147483648 -> exists r, baseline_to_antnums bl n = Ok r).
Proof.
  intros Hlen H. split.
  - intros i j Hi Hj Heq. destruct (encode_values _ _ _ _ _ Hlen H) as (m & off & _ & Hv).
    destruct (Hv i Hi) as (Ei & Hi1 & Hi2). destruct (Hv j Hj) as (Ej & Hj1 & Hj2).
    rewrite Ei, Ej in Heq.
    assert (E1 : nth i ant1 0 = nth j ant1 0).
    { rewrite <- (div_enc m (nth i ant1 0) (nth i ant2 0) off) by lia. rewrite Heq. apply div_enc; lia. }
    split; [exact E1|]. rewrite E1 in Heq. lia.
  - destruct (encode_in_regime _ _ _ _ _ H) as (m & off & Henc & _ & Hreg & Hbl & Hp).
    split.
    + eapply Forall_impl; [|exact Hreg]. unfold in_regime. intros b Hb. inversion Henc; subst; lia.
    + split; [eauto|]. intros n Hn. exists (ant1, ant2). eapply round_trip; eauto.
Qed.

Lemma flip_swaps ant1 ant2 nants att bl n :
  length ant1 = length ant2 -> n <= 2147483648 ->
  antnums_to_baseline ant1 ant2 nants att false = Ok bl ->
  exists fl, baseline_index_flip bl n = Ok fl /\
    (forall n', n' <= 2147483648 -> baseline_to_antnums fl n' = Ok (ant2, ant1)) /\
    exists fl2, baseline_index_flip fl n = Ok fl2 /\
      (forall n', n' <= 2147483648 -> baseline_to_antnums fl2 n' = Ok (ant1, ant2)) /\
      antnums_to_baseline ant1 ant2 (Some n) false false = Ok fl2.
Proof.
  intros Hlen Hn H.
  pose proof (round_trip _ _ _ _ _ n Hlen Hn H) as Hd.
  assert (Hacc : ant1 <> [] /\ valid_ants ant1 /\ valid_ants ant2).
  { destruct (proj1 (encode_accepts ant1 ant2 nants att Hlen)) as (A & B & C & _); [eauto|auto]. }
  destruct Hacc as (Hne & Hv1 & Hv2).
  assert (Hne2 : ant2 <> []) by (destruct ant1, ant2; simpl in *; congruence).
  destruct (proj2 (encode_accepts ant2 ant1 (Some n) false (eq_sym Hlen))) as (fl & Hfl); [auto|].
  exists fl. split.
  { unfold baseline_index_flip. rewrite Hd. exact Hfl. }
  assert (Hfd : forall n', n' <= 2147483648 -> baseline_to_antnums fl n' = Ok (ant2, ant1)).
  { intros n' Hn'. eapply round_trip; eauto. }
  split; [exact Hfd|].
  destruct (proj2 (encode_accepts ant1 ant2 (Some n) false Hlen)) as (fl2 & Hfl2); [auto|].
  exists fl2. split; [|split].
  - unfold baseline_index_flip. rewrite Hfd by assumption. exact Hfl2.
  - intros n' Hn'. eapply round_trip; eauto.
  - exact Hfl2.
Qed.

Lemma decode_elementwise m off bl n :
  encoding m off -> bl <> [] -> n <= 2147483648 -> Forall (in_regime m off) bl ->
  exists a1 a2, baseline_to_antnums bl n = Ok (a1, a2) /\
    length a1 = length bl /\ length a2 = length bl /\
    forall i, (i < length bl)%nat ->
      baseline_to_antnums [nth i bl 0] n = Ok ([nth i a1 0], [nth i a2 0]).
Proof.
  intros Henc Hne Hn Hreg. rewrite (decode_regime m off) by assumption.
  eexists _, _. split; [reflexivity|]. split; [apply map_length|]. split; [apply map_length|].
  intros i Hi.
  rewrite (decode_regime m off); auto.
  - rewrite (nth_map (fun b => (b - off) / m) bl i 0), (nth_map (fun b => (b - off) mod m) bl i 0) by exact Hi.
    reflexivity.
  - congruence.
  - constructor; [|constructor]. rewrite Forall_forall in Hreg. apply Hreg, nth_In, Hi.
Qed.

Lemma decode_mixed_wrong :
  exists bl a1 a2 i, baseline_to_antnums bl 10 = Ok (a1, a2) /\ (i < length bl)%nat /\
    baseline_to_antnums [nth i bl 0] 10 <> Ok ([nth i a1 0], [nth i a2 0]).
Proof.
  exists [257; 67585], [1; 264], [1; 1], 1%nat.
  split; [vm_compute; reflexivity|]. split; [simpl; lia|]. vm_compute. congruence.
Qed.

(** The decoder accepts numbers the encoder can never produce; their flip raises. *)
Lemma decode_gap :
  exists b, baseline_to_antnums [b] 10 = Ok ([2147483648], [0]) /\
    baseline_index_flip [b] 10 = Err ValueError.
Proof. exists (2 ^ 62 + 65536 + 4194304). vm_compute. split; reflexivity. Qed.

Lemma decode_exact_domain b n : n <= 2147483648 ->
  0 <= b < 65536 + 4194304 + 2147483648 * 2147483648 ->
  exists a1 a2, baseline_to_antnums [b] n = Ok ([a1], [a2]) /\
    exists b', antnums_to_baseline [a1] [a2] (Some n) false false = Ok [b'] /\
    baseline_to_antnums [b'] n = Ok ([a1], [a2]).
Proof.
  intros Hn Hb.
  assert (Hex : exists m off, encoding m off /\ in_regime m off b).
  { destruct (Z_lt_le_dec b 65536).
    - exists 256, 0. split; [constructor|unfold in_regime; lia].
    - destruct (Z_lt_le_dec b (65536 + 4194304)).
      + exists 2048, 65536. split; [constructor|unfold in_regime; lia].
      + exists 2147483648, (65536 + 4194304). split; [constructor|unfold in_regime; lia]. }
  destruct Hex as (m & off & Henc & Hr).
  rewrite (decode_regime m off); auto; [|congruence].
  eexists _, _. split; [reflexivity|]. cbn [map].
  assert (Ha : 0 <= (b - off) / m < m /\ 0 <= (b - off) mod m < m).
  { unfold in_regime in Hr. split; [|apply Z.mod_pos_bound; inversion Henc; lia].
    split; [apply Z.div_pos; inversion Henc; lia|apply Z.div_lt_upper_bound; inversion Henc; lia]. }
  destruct (proj2 (encode_accepts [(b - off) / m] [(b - off) mod m] (Some n) false eq_refl)) as (bl & Hbl).
  { split; [congruence|]. split; [|split; [|exact Hn]]; repeat constructor; inversion Henc; subst; lia. }
  assert (Hl : length bl = 1%nat) by (eapply encode_length in Hbl; [exact Hbl|reflexivity]).
  destruct bl as [|b' [|? ?]]; try discriminate.
  exists b'. split; [exact Hbl|]. eapply round_trip; eauto.
Qed.

(** *** MIRIAD convention *)
Lemma miriad_encode a1 a2 n bl :
  antnums_to_baseline [a1] [a2] n false true = Ok [bl] ->
  1 <= a1 -> 1 <= a2 ->
  (a1 <= 255 -> a2 <= 255 -> bl = 256 * a1 + a2 /\ bl2ij bl = (a1 - 1, a2 - 1)) /\
  (256 <= a2 -> a2 < 2048 -> bl = 2048 * a1 + a2 + 65536 /\ bl2ij bl = (a1 - 1, a2 - 1)).
Proof.
  intros H H1 H2.
  assert (Hv : a1 < 2147483648 /\ a2 < 2147483648 /\ bl = antnum_to_bl_2048_miriad a1 a2).
  { unfold antnums_to_baseline in H.
    destruct (match n with Some n => n >? 2147483648 | None => false end); [discriminate|].
    cbn [app existsb] in H.
    destruct ((a1 >=? 2147483648) || ((a2 >=? 2147483648) || false)) eqn:E1; [discriminate|].
    destruct ((a1 <? 0) || ((a2 <? 0) || false)) eqn:E2; [discriminate|].
    unfold pyx_antnums_to_baseline in H. cbn in H. injection H as <-. split; [lia|]. split; [lia|reflexivity]. }
  destruct Hv as (Hv1 & Hv2 & ->). unfold antnum_to_bl_2048_miriad, bl2ij. split; intros Ha Hb.
  - replace (a2 >? 255) with false by lia. w64s.
    split; [reflexivity|]. replace (256 * a1 + a2 >? 65536) with false by lia.
    f_equal; f_equal; lia.
  - replace (a2 >? 255) with true by lia. w64s.
    split; [reflexivity|]. replace (2048 * a1 + a2 + 65536 >? 65536) with true by lia.
    f_equal; f_equal; lia.
Qed.

Lemma miriad_not_injective :
  exists a1 a2 b1 b2 bl, (a1, a2) <> (b1, b2) /\
    antnums_to_baseline [a1] [a2] None false true = Ok [bl] /\
    antnums_to_baseline [b1] [b2] None false true = Ok [bl].
Proof. exists 1, 257, 265, 1, 67841. split; [congruence|]. vm_compute. split; reflexivity. Qed.

Lemma bl2ij_ij2bl i j : 0 <= i -> 0 <= j -> i < 2047 -> j < 2047 ->
  bl2ij (ij2bl i j) = (Z.min i j, Z.max i j).
Proof.
  intros Hi Hj Hi' Hj'. unfold ij2bl.
  destruct (i >? j) eqn:E.
  - rewrite Z.min_r, Z.max_l by lia. unfold bl2ij.
    destruct (i + 1 <? 256) eqn:E2.
    + replace (256 * (j + 1) + (i + 1) >? 65536) with false by lia. f_equal; lia.
    + replace (2048 * (j + 1) + (i + 1) + 65536 >? 65536) with true by lia. f_equal; lia.
  - rewrite Z.min_l, Z.max_r by lia. unfold bl2ij.
    destruct (j + 1 <? 256) eqn:E2.
    + replace (256 * (i + 1) + (j + 1) >? 65536) with false by lia. f_equal; lia.
    + replace (2048 * (i + 1) + (j + 1) + 65536 >? 65536) with true by lia. f_equal; lia.
Qed.

Lemma ij2bl_injective i j i' j' : 0 <= i <= j -> j < 2047 -> 0 <= i' <= j' -> j' < 2047 ->
  ij2bl i j = ij2bl i' j' -> i = i' /\ j = j'.
Proof.
  intros H1 H2 H3 H4 H.
  pose proof (bl2ij_ij2bl i j ltac:(lia) ltac:(lia) ltac:(lia) ltac:(lia)) as E1.
  pose proof (bl2ij_ij2bl i' j' ltac:(lia) ltac:(lia) ltac:(lia) ltac:(lia)) as E2.
  rewrite H in E1. rewrite E1 in E2. injection E2. lia.
Qed.
