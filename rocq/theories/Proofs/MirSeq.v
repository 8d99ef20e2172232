(** Layout of a Mir file, and reading it without a memory map. *)
From Coq Require Import List ZArith Bool Arith Lia Permutation Sorted.
From Verif Require Import Lib.Py Lib.Np Lib.Dict Lib.Sorting Model.Hdf5 Model.Mir Spec.MirSpec Proofs.Hdf5Proofs Proofs.SelectTotal Proofs.MirBase Proofs.MirWrite Proofs.MirRead Proofs.MirTop.
Import ListNotations.
Open Scope Z_scope.
Open Scope list_scope.

Lemma layout_packed f R hs : StronglySorted Z.lt hs -> forall s0,
  (forall e, nth_error (layout f R hs s0) 0 = Some e -> i_start (snd e) = s0) /\
  (forall n e e', nth_error (layout f R hs s0) n = Some e -> nth_error (layout f R hs s0) (S n) = Some e' ->
     fst e < fst e' /\ i_start (snd e') = (i_start (snd e) + 8 + i_size (snd e))%nat).
Proof.
  induction hs as [|h hs IH]; intros SS s0; [split; [discriminate|intros [|n]; discriminate]|]. inversion SS as [|? ? SS' F]; subst.
  cbn [layout]. split; [intros e E; injection E as <-; reflexivity|]. intros [|n] e e' E E'.
  - cbn [nth_error] in E. injection E as <-. cbn [nth_error] in E'. specialize (IH SS' (s0 + (isize f R h + header_size))%nat). destruct IH as [IH _].
    split.
    + destruct hs as [|k hs]; [discriminate|]. cbn [layout nth_error] in E'. injection E' as <-. cbn [fst]. rewrite Forall_forall in F. apply F. left; reflexivity.
    + rewrite (IH e' E'). cbn [snd i_start i_size]. unfold header_size. lia.
  - apply (proj2 (IH SS' _) n e e' E E').
Qed.

Lemma rpos_packed f g : forall a,
  (forall e, nth_error (combine (map s_hid g) (combine (starts a (map (rec_size f) g)) (cumsum a (map (rec_size f) g)))) 0 = Some e -> fst (snd e) = a) /\
  (forall n e e', nth_error (combine (map s_hid g) (combine (starts a (map (rec_size f) g)) (cumsum a (map (rec_size f) g)))) n = Some e ->
     nth_error (combine (map s_hid g) (combine (starts a (map (rec_size f) g)) (cumsum a (map (rec_size f) g)))) (S n) = Some e' -> fst (snd e') = snd (snd e)) /\
  Forall2 (fun s e => fst e = s_hid s /\ snd (snd e) = (fst (snd e) + rec_size f s)%nat /\ (snd (snd e) <= a + list_sum (map (rec_size f) g))%nat) g
    (combine (map s_hid g) (combine (starts a (map (rec_size f) g)) (cumsum a (map (rec_size f) g)))).
Proof.
  induction g as [|s g IH]; intros a; [split; [discriminate|]; split; [intros [|n]; discriminate|constructor]|].
  specialize (IH (a + rec_size f s)%nat). destruct IH as (I0 & I1 & I2). cbn [map starts cumsum combine]. split; [intros e E; injection E as <-; reflexivity|]. split.
  - intros [|n] e e' E E'; [|apply (I1 n e e' E E')]. cbn [nth_error] in E. injection E as <-. cbn [nth_error] in E'. rewrite (I0 e' E'). reflexivity.
  - change (list_sum (rec_size f s :: map (rec_size f) g)) with (rec_size f s + list_sum (map (rec_size f) g))%nat. constructor.
    + cbn [fst snd]. split; [reflexivity|]. split; [reflexivity|lia].
    + clear I0 I1. revert I2. generalize (combine (map s_hid g) (combine (starts (a + rec_size f s) (map (rec_size f) g)) (cumsum (a + rec_size f s) (map (rec_size f) g)))).
      generalize (list_sum (map (rec_size f) g)). intros t l I2. induction I2 as [|x y l1 l2 (A & B & C) I2 IH2]; constructor; [|exact IH2]. split; [exact A|]. split; [exact B|lia].
Qed.

Lemma layout_total f R hs : forall s0, map fst (layout f R hs s0) = hs.
Proof. induction hs as [|h hs IH]; intros s0; [reflexivity|]. cbn [layout map fst]. rewrite IH. reflexivity. Qed.
Lemma layout_at f R hs : forall s0 h i, In (h, i) (layout f R hs s0) -> i_size i = isize f R h /\ In h hs.
Proof.
  induction hs as [|k hs IH]; intros s0 h i H; [contradiction|]. cbn [layout] in H. destruct H as [E|H]; [injection E as <- <-; split; [reflexivity|left; reflexivity]|].
  destruct (IH _ _ _ H) as [A B]. split; [exact A|right; exact B].
Qed.

Lemma Forall2_mono {A B} (P Q : A -> B -> Prop) l l' : (forall a b, P a b -> Q a b) -> Forall2 P l l' -> Forall2 Q l l'.
Proof. intros H F. induction F; constructor; auto. Qed.

Lemma layout_ok f recs ints pos : (0 < val_size f)%nat -> (forall s, In s recs -> (0 < integration_size f recs (s_inhid s))%nat) ->
  generate_recpos f recs None = Ok (ints, pos) ->
  packed_ints ints /\ map fst ints = map fst pos /\ (forall h, In h (map fst ints) <-> exists s, In s recs /\ s_inhid s = h) /\
  (forall h i rp, In (h, i) ints -> In (h, rp) pos ->
     packed_recs rp /\
     i_size i = (val_size f * integration_size f recs h)%nat /\
     Forall2 (fun s e => fst e = s_hid s /\ snd (snd e) = (fst (snd e) + rec_size f s)%nat /\ (val_size f * snd (snd e) <= i_size i)%nat) (of_integration h recs) rp).
Proof.
  intros Hv Hp E. rewrite generate_ok in E; [|exact Hv|left; reflexivity|exact Hp]. injection E as <- <-. split; [apply (layout_packed f recs (hids recs) (hids_sorted recs) 0%nat)|].
  split; [rewrite layout_total; unfold positions; rewrite map_map; cbn [fst]; symmetry; apply map_id|].
  split; [intros h; rewrite layout_total; apply hids_In|]. intros h i rp Hi Hr. apply layout_at in Hi. destruct Hi as [Ei _].
  unfold positions in Hr. apply in_map_iff in Hr. destruct Hr as (h' & Eh & _). injection Eh as -> <-.
  destruct (rpos_packed f (of_integration h recs) 0%nat) as (A & B & C). split; [split; [exact A|exact B]|].
  split; [rewrite Ei; unfold isize; lia|]. eapply Forall2_mono; [|exact C]. cbv beta. intros s e (P1 & P2 & P3). split; [exact P1|]. split; [exact P2|].
  rewrite Ei. unfold isize. change (integration_size f recs h) with (list_sum (map (rec_size f) (of_integration h recs))). nia.
Qed.

(** ** One run *)
Lemma run_batches ints keys n : (0 < n)%nat -> keys <> [] -> forall s0,
  (forall j k, nth_error keys j = Some k -> exists i, dget Z.eqb k ints = Ok i /\ i_size i = n /\ i_start i = (s0 + (header_size + n) * j)%nat) ->
  batches ints keys = [mkB keys n (Z.of_nat s0) s0].
Proof.
  intros Hn Nk s0 H. unfold batches. rewrite fold_left_app.
  destruct keys as [|k0 keys]; [contradiction|]. cbn [map fold_left].
  assert (E0 : batch_step ints (mkBS [] 0 0 0 []) (Some k0) = mkBS [k0] s0 n (Z.of_nat s0) []).
  { destruct (H 0%nat k0 eq_refl) as (i & A & B & C). rewrite Nat.mul_0_r, Nat.add_0_r in C. unfold batch_step. rewrite A, B, C. cbn [last_size last_off keys_in length done del_off].
    rewrite (proj2 (Nat.eqb_neq n 0)) by lia. cbn [negb orb Nat.eqb andb Nat.add Nat.mul]. f_equal. change (Z.of_nat 0) with 0%Z. lia. }
  rewrite E0.
  assert (G : forall rest pre, (forall j k, nth_error rest j = Some k -> exists i, dget Z.eqb k ints = Ok i /\ i_size i = n /\ i_start i = (s0 + (header_size + n) * (length pre + j))%nat) ->
            fold_left (batch_step ints) (map Some rest) (mkBS pre s0 n (Z.of_nat s0) []) = mkBS (pre ++ rest) s0 n (Z.of_nat s0) []).
  { induction rest as [|k rest IH]; intros pre Hr; [rewrite app_nil_r; reflexivity|]. cbn [map fold_left].
    assert (E1 : batch_step ints (mkBS pre s0 n (Z.of_nat s0) []) (Some k) = mkBS (pre ++ [k]) s0 n (Z.of_nat s0) []).
    { destruct (Hr 0%nat k eq_refl) as (i & A & B & C). rewrite Nat.add_0_r in C. unfold batch_step. rewrite A, B, C. cbn [last_size last_off keys_in done del_off].
      rewrite !Nat.eqb_refl. reflexivity. }
    rewrite E1, IH; [rewrite <- app_assoc; reflexivity|]. intros j k' Hj. destruct (Hr (S j) k' Hj) as (i & A & B & C). exists i. split; [exact A|]. split; [exact B|].
    rewrite C, app_length. cbn [length]. f_equal. f_equal. lia. }
  rewrite G; [|intros j k Hj; destruct (H (S j) k Hj) as (i & A & B & C); exists i; split; [exact A|]; split; [exact B|]; rewrite C; reflexivity].
  cbn [fold_left app]. unfold batch_step. cbn [last_size last_off keys_in done del_off].
  rewrite (proj2 (Nat.eqb_neq 0 n)) by lia. rewrite (proj2 (Nat.eqb_neq n 0)) by lia. cbn [negb orb length Nat.eqb andb done app]. reflexivity.
Qed.

Lemma read_file_one file b : b_del b = Z.of_nat (b_start b) -> (b_start b + (header_size + b_size b) * length (b_keys b) <= length file)%nat ->
  read_file file 0 [b] = rmap (@List.concat _) (mapM (read_mmap file) [b]).
Proof.
  intros D L. cbn [read_file mapM]. rewrite D. rewrite (proj2 (Z.ltb_ge _ _)) by lia. cbn [Z.add]. rewrite Nat2Z.id.
  rewrite Nat.min_l.
  - unfold read_mmap. rewrite (proj2 (Nat.leb_le _ _) L). cbn [bind rmap List.concat]. reflexivity.
  - apply Nat.div_le_lower_bound; [unfold header_size; lia|]. lia.
Qed.

Lemma convex_run (S' K : list Z) : StronglySorted Z.lt S' -> StronglySorted Z.lt K -> incl K S' ->
  (forall a b c, In a K -> In b S' -> In c K -> a < b < c -> In b K) -> exists l1 l2, S' = l1 ++ K ++ l2.
Proof.
  revert K. induction S' as [|x S' IH]; intros K SS SK HI HC.
  - destruct K as [|k K]; [exists [], []; reflexivity|]. exfalso. apply (HI k). left; reflexivity.
  - destruct K as [|k K]; [exists [], (x :: S'); reflexivity|]. inversion SS as [|? ? SS' FS]; subst. inversion SK as [|? ? SK' FK]; subst.
    rewrite Forall_forall in FS, FK. destruct (HI k (or_introl eq_refl)) as [<-|Hk].
    + assert (IK : incl K S'). { intros y Hy. destruct (HI y (or_intror Hy)) as [<-|H]; [specialize (FK _ Hy); lia|exact H]. }
      destruct (IH K SS' SK' IK) as (l1 & l2 & E).
      { intros a b c Ha Hb Hc L. destruct (HC a b c (or_intror Ha) (or_intror Hb) (or_intror Hc) L) as [<-|H]; [specialize (FS _ Hb); lia|exact H]. }
      destruct K as [|k' K]; [exists [], S'; reflexivity|]. destruct l1 as [|y l1]; [exists [], l2; cbn [app] in *; rewrite E; reflexivity|]. exfalso.
      assert (Hy : In y S') by (rewrite E; left; reflexivity).
      assert (Ly : forall z, In z (k' :: K) -> y < z).
      { rewrite E in SS'. cbn [app] in SS'. inversion SS' as [|? ? _ FY]; subst. rewrite Forall_forall in FY. intros z Hz. apply FY, in_app_iff. right. change (In z ((k' :: K) ++ l2)). apply in_app_iff. left; exact Hz. }
      destruct (HC x y k') as [<-|H]; [left; reflexivity|right; exact Hy|right; left; reflexivity| | |].
      * split; [apply FS, Hy|apply Ly; left; reflexivity].
      * specialize (FS _ Hy). lia.
      * specialize (Ly _ H). lia.
    + assert (Nx : ~ In x (k :: K)). { intros [<-|H]; [specialize (FS _ Hk); lia|]. specialize (FK _ H). specialize (FS _ Hk). lia. }
      destruct (IH (k :: K) SS' SK) as (l1 & l2 & E).
      * intros y Hy. destruct (HI y Hy) as [<-|H]; [contradiction|exact H].
      * intros a b c Ha Hb Hc L. apply (HC a b c Ha (or_intror Hb) Hc L).
      * exists (x :: l1), l2. rewrite E. reflexivity.
Qed.

Lemma sequential f parts data file sel : (0 < val_size f)%nat -> storable f (List.concat parts) data -> ordered parts -> uniform f (List.concat parts) ->
  written f parts data file -> incl sel (List.concat parts) -> contiguous sel (List.concat parts) ->
  read_data f false file (List.concat parts) (offsets f parts) sel = read_data f true file (List.concat parts) (offsets f parts) sel.
Proof.
  intros Hv St O U W Hsel HC. pose proof (ordered_separate parts O) as SP. apply written_ok in W; [|assumption..]. rewrite (ordered_hids parts O) in W. set (R := List.concat parts) in *.
  destruct (storable_parts f R data St) as (_ & HI & Hp & Hz). unfold read_data.
  rewrite generate_ok; [|exact Hv|right; exists (offsets f parts); split; [reflexivity|apply offsets_ok, SP]|exact Hp]. cbn [bind fst snd].
  set (keys := map fst (group_by sel)).
  assert (Ek : keys = hids sel) by (unfold keys, group_by, hids; rewrite map_map; cbn [fst]; apply map_id).
  assert (Hk : incl keys (hids R)).
  { intros k Hk. rewrite Ek in Hk. apply hids_In in Hk. destruct Hk as (s & Hs & <-). apply hids_In. exists s. split; [apply Hsel, Hs|reflexivity]. }
  assert (Eq : read_packdata false file (layout f R (hids R) 0) keys = read_packdata true file (layout f R (hids R) 0) keys /\
               exists r, read_packdata true file (layout f R (hids R) 0) keys = Ok r /\ snd r = true).
  { assert (OB : forall k, In k keys -> inside file (layout f R (hids R) 0) k).
    { intros k Hi. rewrite W. apply on_block_inside; [apply good_bodies; [exact Hv|exact St|apply incl_refl]|].
      apply on_block_all; [exact Hv|exact St|apply uniqueZ_NoDup|intros; reflexivity|left; reflexivity|apply Hk, Hi]. }
    split.
    2: { rewrite (read_packdata_ok file _ keys OB). eexists. split; [reflexivity|]. cbn [snd]. unfold headers_good. apply forallb_forall. intros e He.
         apply in_map_iff in He. destruct He as (k & <- & Hi). cbn [fst snd].
         destruct (layout_get f Hv data R St (hids R) k (uniqueZ_NoDup _) (Hk k Hi) 0%nat) as (h1 & h2 & E & D). rewrite D. cbn [i_inhid i_size].
         assert (Fe : fetch file (layout f R (hids R) 0) k = blk (k, body f data R k)).
         { unfold fetch. rewrite D. cbn [i_start i_size Nat.add]. rewrite W, E, (bodies_app f data R). cbn [bodies map].
           replace (isize f R k) with (length (snd (k, body f data R k))) by (cbn [snd]; apply body_length, HI). apply at_block. }
         rewrite Fe. replace (isize f R k) with (length (snd (k, body f data R k))) by (cbn [snd]; apply body_length, HI).
         assert (Gk : good_block (k, body f data R k)).
         { pose proof (good_bodies f Hv data R St [k]) as G. cbn [bodies map] in G. apply Forall_inv with (l := []). apply G. intros z [<-|[]]. apply Hk, Hi. }
         rewrite <- (app_nil_r (blk _)), blk_id, blk_size by exact Gk. cbn [fst]. rewrite !Z.eqb_refl. reflexivity. }
    unfold read_packdata. destruct keys as [|k0 keys0] eqn:E0; [reflexivity|]. rewrite <- E0 in *.
    destruct (convex_run (hids R) keys) as (l1 & l2 & E).
    { apply hids_sorted. } { rewrite Ek. apply hids_sorted. } { exact Hk. }
    { intros a b c Ha Hb Hc L. rewrite Ek in *. apply hids_In in Ha, Hb, Hc. destruct Ha as (x & Hx & <-), Hb as (y & Hy & <-), Hc as (z & Hz' & <-).
      destruct (HC x y z Hx Hy Hz' L) as (s & Hs & Es). apply hids_In. eauto. }
    set (n := isize f R k0).
    assert (US : forall x, In x (hids R) -> isize f R x = n).
    { assert (I0 : In k0 (hids R)) by (apply Hk; rewrite E0; left; reflexivity). intros x Hx. apply hids_In in Hx, I0. destruct Hx as (a & Ha & <-), I0 as (b & Hb & Eb). unfold n. rewrite <- Eb. unfold isize. f_equal. apply U; assumption. }
    assert (Hn : (0 < n)%nat).
    { assert (I0 : In k0 (hids R)) by (apply Hk; rewrite E0; left; reflexivity). apply hids_In in I0. destruct I0 as (b & Hb & Eb). unfold n, isize. rewrite <- Eb. apply Nat.mul_pos_pos; [apply Hp, Hb|exact Hv]. }
    assert (RUN : forall j k, nth_error keys j = Some k -> exists i, dget Z.eqb k (layout f R (hids R) 0) = Ok i /\ i_size i = n /\ i_start i = (length l1 * (header_size + n) + (header_size + n) * j)%nat).
    { intros j k Hj. assert (Hi : In k (hids R)) by (apply Hk; eapply nth_error_In; exact Hj).
      destruct (layout_get f Hv data R St (hids R) k (uniqueZ_NoDup _) Hi 0%nat) as (h1 & h2 & Eh & D). eexists. split; [exact D|]. cbn [i_size i_start]. split; [apply US, Hi|].
      rewrite (uniform_size f data R St n); [|intros h Hh; apply US; rewrite Eh; apply in_app_iff; left; exact Hh].
      assert (length h1 = (length l1 + j)%nat); [|nia].
      pose proof (proj1 (NoDup_nth_error (hids R)) (uniqueZ_NoDup _)) as ND. apply ND; [rewrite Eh, app_length; cbn [length]; lia|].
      rewrite Eh at 1. rewrite nth_error_app2, Nat.sub_diag by lia. cbn [nth_error]. rewrite E. rewrite nth_error_app2 by lia.
      replace (length l1 + j - length l1)%nat with j by lia. rewrite nth_error_app1; [symmetry; exact Hj|]. apply nth_error_Some. congruence. }
    assert (Nk : keys <> []) by (rewrite E0; discriminate).
    rewrite (run_batches _ _ n Hn Nk _ RUN). rewrite read_file_one; [reflexivity|reflexivity|]. cbn [b_start b_size b_keys].
    assert (Lk : (length keys - 1 < length keys)%nat) by (rewrite E0; cbn [length]; lia).
    destruct (nth_error keys (length keys - 1)) as [k|] eqn:El; [|apply nth_error_None in El; lia].
    destruct (RUN _ _ El) as (i & A & B & C). destruct (OB k (nth_error_In _ _ El)) as (i' & A' & _ & B'). rewrite A in A'. injection A' as <-. rewrite B, C in B'.
    assert (length keys = S (length keys - 1)) by lia. nia. }
  destruct Eq as (-> & r & -> & Er). cbn [bind]. rewrite Er. reflexivity.
Qed.
