From Coq Require Import List ZArith Bool Lia ZifyBool ZifyNat Sorted Permutation String Ascii.
From Verif Require Import Lib.Py Lib.Np Lib.Sorting Lib.Dict Model.Pol Spec.PolSpec.
Import ListNotations.
Open Scope Z_scope.
Notation length := List.length.

(** Legal numbers enumerated. *)
Lemma legal_pol_In n : legal_pol n <-> In n [1; 2; 3; 4; -1; -2; -3; -4; -5; -6; -7; -8].
Proof. unfold legal_pol. simpl. lia. Qed.
Lemma legal_jones_In n : legal_jones n <-> In n [-1; -2; -3; -4; -5; -6; -7; -8].
Proof. unfold legal_jones. simpl. lia. Qed.

(** The dictionaries only depend on what the orientation maps to. *)
Inductive omap := ONone | OEast | ONorth.
Definition omap_of (xo : option string) : omap :=
  match xo with
  | None => ONone
  | Some x => match x_orientation_pol_map x with
              | Ok (c, _) => if Ascii.eqb c "e"%char then OEast else ONorth
              | Err _ => ONone
              end
  end.
Definition repr (o : omap) : option string :=
  match o with ONone => None | OEast => Some "east"%string | ONorth => Some "north"%string end.

Lemma xmap_cases x : x_orientation_pol_map x = Ok ("e"%char, "n"%char) \/
  x_orientation_pol_map x = Ok ("n"%char, "e"%char) \/ exists e, x_orientation_pol_map x = Err e.
Proof.
  unfold x_orientation_pol_map. destruct (dget String.eqb (lower x) XORIENTMAP) as [v|]; [|eauto].
  destruct (v =? "east")%string; [auto|]. destruct (v =? "north")%string; eauto.
Qed.

Lemma str2num_repr base xo : str2num_dict base xo = str2num_dict base (repr (omap_of xo)).
Proof.
  destruct xo as [x|]; [|reflexivity]. unfold str2num_dict, omap_of.
  destruct (xmap_cases x) as [E|[E|[e E]]]; rewrite E; reflexivity.
Qed.
Lemma num2str_repr base xo : num2str_dict base xo = num2str_dict base (repr (omap_of xo)).
Proof.
  destruct xo as [x|]; [|reflexivity]. unfold num2str_dict, omap_of.
  destruct (xmap_cases x) as [E|[E|[e E]]]; rewrite E; reflexivity.
Qed.

Lemma polstr2num_repr xo s : polstr2num xo s = polstr2num (repr (omap_of xo)) s.
Proof. unfold polstr2num. rewrite str2num_repr. reflexivity. Qed.
Lemma polnum2str_repr xo s : polnum2str xo s = polnum2str (repr (omap_of xo)) s.
Proof. unfold polnum2str. rewrite num2str_repr. reflexivity. Qed.
Lemma jstr2num_repr xo s : jstr2num xo s = jstr2num (repr (omap_of xo)) s.
Proof. unfold jstr2num. rewrite str2num_repr. reflexivity. Qed.
Lemma jnum2str_repr xo s : jnum2str xo s = jnum2str (repr (omap_of xo)) s.
Proof. unfold jnum2str. rewrite num2str_repr. reflexivity. Qed.

Ltac enum H := simpl in H;
  repeat (destruct H as [<-|H]; [|]); [..|contradiction].

Lemma pol_round_trip xo n : legal_pol n ->
  exists s, polnum2str xo n = Ok s /\ polstr2num xo s = Ok n.
Proof.
  intros H. apply legal_pol_In in H.
  rewrite polnum2str_repr. setoid_rewrite polstr2num_repr.
  destruct (omap_of xo); enum H; eexists; (split; [vm_compute; reflexivity|vm_compute; reflexivity]).
Qed.

Lemma dget_not_in {V} n (d : list (Z * V)) : ~ In n (map fst d) -> dget Z.eqb n d = Err KeyError.
Proof.
  induction d as [|[k v] d IH]; simpl; [reflexivity|]. intros H.
  replace (n =? k) with false by lia. apply IH. tauto.
Qed.

Lemma pol_illegal xo n : ~ legal_pol n -> polnum2str xo n = Err KeyError.
Proof.
  intros H. rewrite polnum2str_repr. unfold polnum2str. apply dget_not_in.
  intros Hin. apply H, legal_pol_In. destruct (omap_of xo); vm_compute in Hin |- *; tauto.
Qed.

Lemma jones_round_trip xo n : legal_jones n ->
  exists s, jnum2str xo n = Ok s /\ jstr2num xo s = Ok n.
Proof.
  intros H. apply legal_jones_In in H.
  rewrite jnum2str_repr. setoid_rewrite jstr2num_repr.
  destruct (omap_of xo); enum H; eexists; (split; [vm_compute; reflexivity|vm_compute; reflexivity]).
Qed.

Lemma jones_illegal xo n : ~ legal_jones n -> jnum2str xo n = Err KeyError.
Proof.
  intros H. rewrite jnum2str_repr. unfold jnum2str. apply dget_not_in.
  intros Hin. apply H, legal_jones_In. destruct (omap_of xo); vm_compute in Hin |- *; tauto.
Qed.

Lemma mapM_round_trip {A B} (f : A -> result B) (g : B -> result A) l :
  (forall x, In x l -> exists y, f x = Ok y /\ g y = Ok x) ->
  exists ys, mapM f l = Ok ys /\ mapM g ys = Ok l.
Proof.
  induction l as [|x l IH]; intros H; simpl; [exists []; auto|].
  destruct (H x (or_introl eq_refl)) as (y & Hf & Hg).
  destruct IH as (ys & H1 & H2); [intros; apply H; right; assumption|].
  exists (y :: ys). rewrite Hf. simpl. rewrite H1. split; [reflexivity|]. simpl. rewrite Hg. simpl. rewrite H2. reflexivity.
Qed.

Lemma pol_list_round_trip xo l : Forall legal_pol l ->
  exists ss, mapM (polnum2str xo) l = Ok ss /\ mapM (polstr2num xo) ss = Ok l.
Proof.
  intros H. apply mapM_round_trip. intros x Hx. rewrite Forall_forall in H. apply pol_round_trip; auto.
Qed.
Lemma jones_list_round_trip xo l : Forall legal_jones l ->
  exists ss, mapM (jnum2str xo) l = Ok ss /\ mapM (jstr2num xo) ss = Ok l.
Proof.
  intros H. apply mapM_round_trip. intros x Hx. rewrite Forall_forall in H. apply jones_round_trip; auto.
Qed.

Lemma pol_names_distinct xo n m s : polnum2str xo n = Ok s -> polnum2str xo m = Ok s -> n = m.
Proof.
  intros H1 H2.
  assert (L1 : legal_pol n). { destruct (Z_le_dec 1 n), (Z_le_dec n 4), (Z_le_dec (-8) n), (Z_le_dec n (-1));
    try (unfold legal_pol; lia); rewrite pol_illegal in H1 by (unfold legal_pol; lia); discriminate. }
  assert (L2 : legal_pol m). { destruct (Z_le_dec 1 m), (Z_le_dec m 4), (Z_le_dec (-8) m), (Z_le_dec m (-1));
    try (unfold legal_pol; lia); rewrite pol_illegal in H2 by (unfold legal_pol; lia); discriminate. }
  destruct (pol_round_trip xo n L1) as (s1 & E1 & E1'). destruct (pol_round_trip xo m L2) as (s2 & E2 & E2').
  rewrite H1 in E1. injection E1 as <-. rewrite H2 in E2. injection E2 as <-. congruence.
Qed.

(** parse_polstr is idempotent: it returns a standard name of the same number. *)
Lemma str2num_range base xo s n : dget String.eqb (lower s) (str2num_dict base (repr (omap_of xo))) = Ok n ->
  In n (map snd (str2num_dict base (repr (omap_of xo)))).
Proof.
  intros H. apply dget_In in H; [|apply String.eqb_eq]. apply (in_map snd) in H. exact H.
Qed.
Lemma polstr2num_legal xo s n : polstr2num xo s = Ok n -> legal_pol n.
Proof.
  rewrite polstr2num_repr. unfold polstr2num. intros H. apply str2num_range in H. apply legal_pol_In.
  destruct (omap_of xo); vm_compute in H |- *; tauto.
Qed.
Lemma parse_idempotent xo s t : parse_polstr xo s = Ok t ->
  parse_polstr xo t = Ok t /\ polstr2num xo t = polstr2num xo s.
Proof.
  unfold parse_polstr. intros H. apply bind_Ok in H as (n & Hn & Ht).
  destruct (pol_round_trip xo n (polstr2num_legal _ _ _ Hn)) as (t' & E & E').
  rewrite Ht in E. injection E as <-. rewrite E'. simpl. auto.
Qed.

(** ** conj_pol *)
Lemma conj_pol_legal n : legal_pol n -> conj_pol n = Ok (swapped n).
Proof. intros H. apply legal_pol_In in H. enum H; vm_compute; reflexivity. Qed.

Lemma conj_pol_illegal n : ~ legal_pol n -> conj_pol n = Err KeyError.
Proof. intros H. unfold conj_pol. rewrite pol_illegal by assumption. reflexivity. Qed.

Lemma swapped_legal n : legal_pol n -> legal_pol (swapped n).
Proof.
  unfold legal_pol, swapped. destruct (n =? -3) eqn:?, (n =? -4) eqn:?, (n =? -7) eqn:?, (n =? -8) eqn:?; lia.
Qed.
Lemma swapped_invol n : swapped (swapped n) = n.
Proof.
  unfold swapped. destruct (n =? -3) eqn:?; [simpl; lia|]. destruct (n =? -4) eqn:?; [simpl; lia|].
  destruct (n =? -7) eqn:?; [simpl; lia|]. destruct (n =? -8) eqn:?; [simpl; lia|].
  replace (n =? -3) with false by lia. replace (n =? -4) with false by lia.
  replace (n =? -7) with false by lia. replace (n =? -8) with false by lia. reflexivity.
Qed.

Lemma conj_pol_involution n m : conj_pol n = Ok m -> conj_pol m = Ok n.
Proof.
  intros H. assert (L : legal_pol n).
  { destruct (Z_le_dec 1 n), (Z_le_dec n 4), (Z_le_dec (-8) n), (Z_le_dec n (-1));
    try (unfold legal_pol; lia); rewrite conj_pol_illegal in H by (unfold legal_pol; lia); discriminate. }
  rewrite conj_pol_legal in H by assumption. injection H as <-.
  rewrite conj_pol_legal by (apply swapped_legal; assumption). rewrite swapped_invol. reflexivity.
Qed.

Lemma conj_pol_strings_agree xo n : legal_pol n ->
  exists s c, polnum2str xo n = Ok s /\ polnum2str xo (swapped n) = Ok c /\
    conj_pol n = Ok (swapped n) /\ conj_pol_str s = Ok c /\ conj_pol_str c = Ok s.
Proof.
  intros H. setoid_rewrite polnum2str_repr. apply legal_pol_In in H.
  destruct (omap_of xo); enum H; do 2 eexists; repeat split; vm_compute; reflexivity.
Qed.

Lemma conj_pol_feeds xo n s f g : legal_pol n -> polnum2str xo n = Ok s ->
  dget String.eqb s POL_TO_FEED_DICT = Ok (f, g) ->
  exists c, conj_pol_str s = Ok c /\ dget String.eqb c POL_TO_FEED_DICT = Ok (g, f).
Proof.
  intros H. rewrite polnum2str_repr. apply legal_pol_In in H. intros H1 H2.
  destruct (omap_of xo); enum H; vm_compute in H1; injection H1 as <-; vm_compute in H2; injection H2 as <- <-;
   eexists; (split; [vm_compute; reflexivity|vm_compute; reflexivity]).
Qed.

Lemma conj_pol_fixed_iff n : legal_pol n ->
  (conj_pol n = Ok n <-> 0 < n \/ exists s f, polnum2str None n = Ok s /\ dget String.eqb s POL_TO_FEED_DICT = Ok (f, f)).
Proof.
  intros H. apply legal_pol_In in H. enum H; (split; [intros H0|intros [H0|H0]]);
   try (left; reflexivity); try (right; do 2 eexists; (split; [vm_compute; reflexivity|vm_compute; reflexivity])); try (vm_compute; reflexivity);
   try (vm_compute in H0; discriminate);
   destruct H0 as (s & f & E & E2); vm_compute in E; injection E as <-; vm_compute in E2; congruence.
Qed.

Lemma conj_pol_str_twice s c : conj_pol_str s = Ok c ->
  exists t, conj_pol_str c = Ok t /\ lower t = lower s.
Proof.
  unfold conj_pol_str. intros H. apply dget_In in H; [|apply String.eqb_eq].
  assert (Hc : In (lower s, c) cpol_dict -> exists t, dget String.eqb (lower c) cpol_dict = Ok t /\ lower t = lower s).
  { generalize (lower s). intros k Hk. change cpol_dict with (ltac:(let v := eval vm_compute in cpol_dict in exact v)) in Hk.
    simpl in Hk. repeat (destruct Hk as [Hk|Hk]; [injection Hk as <- <-; eexists; (split; [vm_compute; reflexivity|vm_compute; reflexivity])|]). contradiction. }
  auto.
Qed.

(** ** reorder_conj_pols *)
Lemma mapM_conj pols : Forall legal_pol pols -> mapM conj_pol pols = Ok (map swapped pols).
Proof.
  intros H. apply mapM_Forall2_Ok. induction H; constructor; [apply conj_pol_legal; assumption|assumption].
Qed.

Lemma index_of_swapped p pols : index_of Z.eqb p (map swapped pols) = index_of Z.eqb (swapped p) pols.
Proof.
  induction pols as [|q l IH]; simpl; [reflexivity|]. rewrite IH.
  replace (p =? swapped q) with (swapped p =? q); [reflexivity|].
  destruct (swapped p =? q) eqn:E1, (p =? swapped q) eqn:E2; try reflexivity.
  - apply Z.eqb_eq in E1. subst q. rewrite swapped_invol, Z.eqb_refl in E2. discriminate.
  - apply Z.eqb_eq in E2. subst p. rewrite swapped_invol, Z.eqb_refl in E1. discriminate.
Qed.

Lemma reorder_conj_err pols : Forall legal_pol pols ->
  (reorder_conj_pols pols = Err ValueError <-> exists p, In p pols /\ ~ In (swapped p) pols).
Proof.
  intros H. unfold reorder_conj_pols. rewrite mapM_conj by assumption. simpl bind.
  match goal with |- context [existsb ?f ?l] => destruct (existsb f l) eqn:E end.
  - split; [intros _|reflexivity]. apply existsb_exists in E as (o & Hin & Ho).
    apply in_map_iff in Hin as (p & <- & Hp). rewrite index_of_swapped in Ho.
    destruct (index_of Z.eqb (swapped p) pols) eqn:E2; [discriminate|].
    apply (index_of_None _ Z.eqb_eq) in E2. eauto.
  - split; [discriminate|]. intros (p & Hp & Hn). exfalso. apply not_true_iff_false in E. apply E.
    apply existsb_exists. exists None. split; [|reflexivity]. apply in_map_iff. exists p. split; [|assumption].
    rewrite index_of_swapped. apply (index_of_None _ Z.eqb_eq). exact Hn.
Qed.

Lemma index_of_In x l : In x l -> exists i, index_of Z.eqb x l = Some i.
Proof.
  intros H. destruct (index_of Z.eqb x l) eqn:E; [eauto|].
  apply (index_of_None _ Z.eqb_eq) in E. contradiction.
Qed.

Lemma reorder_conj_ok pols : Forall legal_pol pols -> (forall p, In p pols -> In (swapped p) pols) ->
  exists order, reorder_conj_pols pols = Ok order /\ length order = length pols /\
   forall i, (i < length pols)%nat ->
     (nth i order 0 < length pols)%nat /\ nth (nth i order 0%nat) pols 0 = swapped (nth i pols 0).
Proof.
  intros H Hc. unfold reorder_conj_pols. rewrite mapM_conj by assumption. simpl bind.
  match goal with |- context [existsb ?f ?l] => destruct (existsb f l) eqn:E end.
  { exfalso. apply existsb_exists in E as (o & Hin & Ho). apply in_map_iff in Hin as (p & <- & Hp).
    rewrite index_of_swapped in Ho. destruct (index_of_In (swapped p) pols) as (i & Hi); [auto|].
    rewrite Hi in Ho. discriminate. }
  eexists. split; [reflexivity|]. split; [rewrite !map_length; reflexivity|].
  intros i Hi. rewrite map_map. rewrite (nth_map _ pols i 0) by assumption. rewrite index_of_swapped.
  destruct (index_of_In (swapped (nth i pols 0)) pols) as (k & Hk).
  { apply Hc, nth_In, Hi. }
  rewrite Hk. apply (index_of_Some _ Z.eqb_eq 0) in Hk. tauto.
Qed.

Lemma reorder_conj_involution pols : Forall legal_pol pols -> NoDup pols ->
  (forall p, In p pols -> In (swapped p) pols) ->
  exists order, reorder_conj_pols pols = Ok order /\ length order = length pols /\
   (forall i, (i < length pols)%nat ->
     (nth i order 0 < length pols)%nat /\ conj_pol (nth i pols 0) = Ok (nth (nth i order 0%nat) pols 0)
     /\ nth (nth i order 0%nat) order 0%nat = i) /\
   Permutation order (seq 0 (length pols)).
Proof.
  intros H Hnd Hc. destruct (reorder_conj_ok pols H Hc) as (order & Ho & Hl & Hs).
  exists order. split; [exact Ho|]. split; [exact Hl|].
  assert (Hinv : forall i, (i < length pols)%nat -> nth (nth i order 0%nat) order 0%nat = i).
  { intros i Hi. destruct (Hs i Hi) as [H1 H2]. destruct (Hs _ H1) as [H3 H4].
    apply (proj1 (NoDup_nth pols 0) Hnd); auto. rewrite H4, H2. apply swapped_invol. }
  split.
  - intros i Hi. destruct (Hs i Hi) as [H1 H2]. split; [exact H1|]. split; [|auto].
    rewrite H2. apply conj_pol_legal. rewrite Forall_forall in H. apply H, nth_In, Hi.
  - apply NoDup_Permutation_bis.
    + apply (NoDup_nth order 0%nat). intros i j Hi Hj E. rewrite Hl in *.
      rewrite <- (Hinv i Hi), <- (Hinv j Hj), E. reflexivity.
    + rewrite seq_length. lia.
    + intros x Hx. apply (In_nth _ _ 0%nat) in Hx as (i & Hi & <-). apply in_seq.
      rewrite Hl in Hi. destruct (Hs i Hi). lia.
Qed.

(** ** determine_pol_order *)
Lemma aips_order pols : exists idx, determine_pol_order pols AIPS = Ok idx /\
  Permutation idx (seq 0 (length pols)) /\
  StronglySorted (fun a b => Z.abs a <= Z.abs b) (take 0 pols idx).
Proof.
  eexists. split; [reflexivity|]. split.
  - rewrite <- (map_length Z.abs pols). apply argsortZ_perm.
  - pose proof (argsortZ_sorted (map Z.abs pols)) as Hs.
    unfold take in *. apply (proj2 (StronglySorted_map _ _ _)) in Hs.
    apply (proj1 (StronglySorted_map _ _ _)).
    eapply StronglySorted_impl; [|exact Hs]. intros i j Hi Hj Hle. cbv beta in *.
    change 0 with (Z.abs 0) in Hle. rewrite !map_nth in Hle. exact Hle.
Qed.

Lemma casa_index p i : index_of Z.eqb p casa_order = Some i -> Z.of_nat i = casa_rank p.
Proof.
  unfold casa_order, casa_rank. cbn [index_of].
  repeat (match goal with |- context [if ?c then _ else _] => destruct c eqn:?; [cbn [option_map]; intros E; injection E as <-; reflexivity|] end).
  cbn [option_map]. discriminate.
Qed.

Lemma casa_in p : legal_pol p \/ p = 0 -> exists i, index_of Z.eqb p casa_order = Some i.
Proof. intros H. apply index_of_In. unfold legal_pol in H. simpl. lia. Qed.

Lemma casa_order_sorted pols : Forall legal_pol pols ->
  exists idx, determine_pol_order pols CASA = Ok idx /\
  Permutation idx (seq 0 (length pols)) /\
  StronglySorted (fun a b => casa_rank a <= casa_rank b) (take 0 pols idx).
Proof.
  intros H. unfold determine_pol_order.
  assert (E : mapM (fun p => match index_of Z.eqb p casa_order with Some i => Ok (Z.of_nat i) | None => Err IndexError end) pols
              = Ok (map casa_rank pols)).
  { apply mapM_Forall2_Ok. induction H as [|p l Hp Hl IH]; constructor; [|exact IH].
    destruct (casa_in p (or_introl Hp)) as (i & Hi). rewrite Hi. f_equal. apply casa_index, Hi. }
  rewrite E. simpl bind. eexists. split; [reflexivity|]. split.
  - rewrite <- (map_length casa_rank pols). apply argsortZ_perm.
  - pose proof (argsortZ_sorted (map casa_rank pols)) as Hs.
    unfold take in *. apply (proj2 (StronglySorted_map _ _ _)) in Hs.
    apply (proj1 (StronglySorted_map _ _ _)).
    eapply StronglySorted_impl; [|exact Hs]. intros i j Hi Hj Hle. cbv beta in *.
    assert (Hlt : forall k, In k (argsortZ (map casa_rank pols)) -> (k < length pols)%nat).
    { intros k Hk. apply argsort_by_In in Hk. rewrite map_length in Hk. exact Hk. }
    rewrite !(nth_map casa_rank pols _ 0) in Hle by auto. exact Hle.
Qed.

Lemma casa_illegal pols : (exists p, In p pols /\ ~ legal_pol p /\ p <> 0) ->
  determine_pol_order pols CASA = Err IndexError.
Proof.
  intros (p & Hin & Hl & H0). unfold determine_pol_order.
  assert (E : mapM (fun p => match index_of Z.eqb p casa_order with Some i => Ok (Z.of_nat i) | None => Err IndexError end) pols = Err IndexError).
  { induction pols as [|q l IH]; [contradiction|]. cbn [mapM].
    destruct (index_of Z.eqb q casa_order) as [i|] eqn:E; [|reflexivity]. cbn [bind].
    destruct Hin as [->|Hin]; [|rewrite IH by assumption; reflexivity].
    exfalso. apply (index_of_Some _ Z.eqb_eq 0) in E as (E1 & E2 & _).
    assert (In p casa_order) by (rewrite <- E2; apply nth_In; exact E1).
    unfold legal_pol in Hl. simpl in H. lia. }
  rewrite E. reflexivity.
Qed.
