(** Reading the records of a Mir file. *)
From Coq Require Import List ZArith Bool Arith Lia Permutation Sorted.
From Verif Require Import Lib.Py Lib.Np Lib.Dict Model.Hdf5 Model.Mir Spec.MirSpec Proofs.Hdf5Proofs Proofs.SelectTotal Proofs.MirBase Proofs.MirWrite.
Import ListNotations.
Open Scope Z_scope.
Open Scope list_scope.

(** ** Reading together *)
Section Batches.
Context (ints : idict).
Definition run_ok (keys : list Z) (size start : nat) : Prop :=
  forall j k, nth_error keys j = Some k -> exists i, dget Z.eqb k ints = Ok i /\ i_size i = size /\ i_start i = (start + (header_size + size) * j)%nat.
Definition inv (s : bstate) (ks : list Z) : Prop :=
  flat_map b_keys (done s) ++ keys_in s = ks /\
  Forall (fun b => b_keys b <> [] /\ run_ok (b_keys b) (b_size b) (b_start b)) (done s) /\
  run_ok (keys_in s) (last_size s) (last_off s) /\ (keys_in s <> [] -> last_size s <> 0%nat).

Lemma step_inv s ks k i : inv s ks -> dget Z.eqb k ints = Ok i -> (0 < i_size i)%nat -> inv (batch_step ints s (Some k)) (ks ++ [k]).
Proof.
  intros (E & D & R & N) Hk Hi. unfold batch_step. rewrite Hk. cbv zeta. destruct (negb _ || negb _) eqn:C.
  - assert (Rk : run_ok [k] (i_size i) (i_start i)).
    { intros [|j] k' H; [injection H as <-|destruct j; discriminate]. exists i. split; [exact Hk|]. split; [reflexivity|lia]. }
    destruct (keys_in s) as [|k0 ks0] eqn:Ek.
    + cbn [length Nat.eqb negb andb]. split; [cbn [done keys_in]; rewrite <- E, app_nil_r; reflexivity|]. split; [exact D|]. cbn [keys_in last_size last_off]. split; [exact Rk|]. intros _. lia.
    + rewrite <- Ek in *. assert (Nk : keys_in s <> []) by (rewrite Ek; discriminate). specialize (N Nk).
      rewrite (proj2 (Nat.eqb_neq (length (keys_in s)) 0)) by (rewrite Ek; discriminate). rewrite (proj2 (Nat.eqb_neq _ _) N). cbn [negb andb].
      split; [cbn [done keys_in]; rewrite flat_map_app; cbn [flat_map b_keys]; rewrite app_nil_r, E; reflexivity|].
      split; [cbn [done]; apply Forall_app; split; [exact D|]; constructor; [|constructor]; cbn [b_keys b_size b_start]; split; [exact Nk|exact R]|].
      cbn [keys_in last_size last_off]. split; [exact Rk|]. intros _. lia.
  - apply orb_false_iff in C. destruct C as [C1 C2]. apply negb_false_iff in C1, C2. apply Nat.eqb_eq in C1, C2.
    split; [cbn [done keys_in]; rewrite app_assoc, E; reflexivity|]. split; [exact D|]. cbn [keys_in last_size last_off]. split; [|intros _; lia].
    intros j k' H. destruct (Nat.lt_ge_cases j (length (keys_in s))) as [L|L].
    + rewrite nth_error_app1 in H by exact L. apply R, H.
    + rewrite nth_error_app2 in H by exact L. destruct (j - length (keys_in s))%nat eqn:Ej; [|destruct n; discriminate]. injection H as <-.
      exists i. split; [exact Hk|]. split; [exact C1|]. replace j with (length (keys_in s)) by lia. lia.
Qed.

Lemma batches_ok keys : (forall k, In k keys -> exists i, dget Z.eqb k ints = Ok i /\ (0 < i_size i)%nat) ->
  flat_map b_keys (batches ints keys) = keys /\ Forall (fun b => b_keys b <> [] /\ run_ok (b_keys b) (b_size b) (b_start b)) (batches ints keys).
Proof.
  intros H. unfold batches. rewrite fold_left_app.
  assert (G : forall keys s ks, (forall k, In k keys -> exists i, dget Z.eqb k ints = Ok i /\ (0 < i_size i)%nat) -> inv s ks ->
              inv (fold_left (batch_step ints) (map Some keys) s) (ks ++ keys)).
  { induction keys0 as [|k ks' IH]; intros s ks Hk Hs; [rewrite app_nil_r; exact Hs|]. cbn [map fold_left].
    destruct (Hk k (or_introl eq_refl)) as (i & A & B). replace (ks ++ k :: ks') with ((ks ++ [k]) ++ ks') by (rewrite <- app_assoc; reflexivity).
    apply IH; [intros k' Hk'; apply Hk; right; exact Hk'|]. eapply step_inv; eauto. }
  specialize (G keys (mkBS [] 0 0 0 []) [] H).
  assert (I0 : inv (mkBS [] 0 0 0 []) []).
  { split; [reflexivity|]. split; [constructor|]. split; [intros j k K; destruct j; discriminate|]. cbn. congruence. }
  specialize (G I0). set (s := fold_left (batch_step ints) (map Some keys) (mkBS [] 0 0 0 [])) in *. destruct G as (E & D & R & N). cbn [app] in E.
  cbn [fold_left]. unfold batch_step. cbv zeta. destruct (negb _ || negb _) eqn:C; cbn [done].
  - destruct (keys_in s) as [|k0 ks0] eqn:Ek.
    + cbn [length Nat.eqb negb andb]. rewrite app_nil_r in E. split; [exact E|exact D].
    + rewrite <- Ek in *. assert (Nk : keys_in s <> []) by (rewrite Ek; discriminate). specialize (N Nk).
      rewrite (proj2 (Nat.eqb_neq (length (keys_in s)) 0)) by (rewrite Ek; discriminate). rewrite (proj2 (Nat.eqb_neq _ _) N). cbn [negb andb].
      split; [rewrite flat_map_app; cbn [flat_map b_keys]; rewrite app_nil_r; exact E|].
      apply Forall_app. split; [exact D|]. constructor; [|constructor]. split; [exact Nk|exact R].
  - apply orb_false_iff in C. destruct C as [C1 C2]. apply negb_false_iff in C1. apply Nat.eqb_eq in C1.
    destruct (keys_in s) as [|k0 ks0] eqn:Ek; [rewrite app_nil_r in E; split; [exact E|exact D]|].
    exfalso. apply N; [discriminate|]. symmetry. exact C1.
Qed.
End Batches.

Definition fetch (file : list Z) (ints : idict) (k : Z) : list Z :=
  match dget Z.eqb k ints with Ok i => at_ file (i_start i) (header_size + i_size i) | Err _ => [] end.
Definition inside (file : list Z) (ints : idict) (k : Z) : Prop :=
  exists i, dget Z.eqb k ints = Ok i /\ (0 < i_size i)%nat /\ (i_start i + (header_size + i_size i) <= length file)%nat.

Lemma combine_map_eq {A B} (g : A -> B) (f : nat -> B) (keys : list A) :
  (forall j k, nth_error keys j = Some k -> f j = g k) -> forall a, (forall j k, nth_error keys j = Some k -> f (a + j)%nat = g k) ->
  combine keys (map f (seq a (length keys))) = map (fun k => (k, g k)) keys.
Proof.
  intros _. induction keys as [|k keys IH]; intros a H; [reflexivity|]. cbn [length seq map combine]. f_equal.
  - f_equal. rewrite <- (H 0%nat k eq_refl). f_equal. lia.
  - apply IH. intros j k' Hj. rewrite <- (H (S j) k' Hj). f_equal. lia.
Qed.

Lemma read_mmap_ok file ints b : b_keys b <> [] -> run_ok ints (b_keys b) (b_size b) (b_start b) -> (forall k, In k (b_keys b) -> inside file ints k) ->
  read_mmap file b = Ok (map (fun k => (k, fetch file ints k)) (b_keys b)).
Proof.
  intros Nk R Hin. unfold read_mmap. set (n := (header_size + b_size b)%nat).
  assert (L : (b_start b + n * length (b_keys b) <= length file)%nat).
  { destruct (b_keys b) as [|k0 t] eqn:Ek; [contradiction|]. rewrite <- Ek in *.
    assert (Hl : (length (b_keys b) - 1 < length (b_keys b))%nat) by (rewrite Ek; cbn; lia).
    destruct (nth_error (b_keys b) (length (b_keys b) - 1)) as [k|] eqn:El; [|apply nth_error_None in El; lia].
    destruct (R _ _ El) as (i & A & B & C). destruct (Hin k (nth_error_In _ _ El)) as (i' & A' & _ & B'). rewrite A in A'. injection A' as <-.
    rewrite B, C in B'. unfold n. assert (length (b_keys b) = S (length (b_keys b) - 1)) by lia. nia. }
  rewrite (proj2 (Nat.leb_le _ _) L). f_equal. apply combine_map_eq; intros j k Hj; destruct (R j k Hj) as (i & A & B & C); unfold fetch; rewrite A, B, C; reflexivity.
Qed.

Lemma mapM_map {A B} (f : A -> result B) (g : A -> B) l : (forall x, In x l -> f x = Ok (g x)) -> mapM f l = Ok (map g l).
Proof.
  induction l as [|x l IH]; intros H; [reflexivity|]. cbn [mapM map]. rewrite (H x (or_introl eq_refl)). cbn [bind].
  rewrite IH by (intros y Hy; apply H; right; exact Hy). reflexivity.
Qed.
Lemma concat_map_map {A B C} (h : A -> list B) (g : B -> C) l : List.concat (map (fun x => map g (h x)) l) = map g (flat_map h l).
Proof. induction l as [|x l IH]; [reflexivity|]. cbn [map List.concat flat_map]. rewrite map_app, IH. reflexivity. Qed.

Lemma read_packdata_ok file ints keys : (forall k, In k keys -> inside file ints k) ->
  read_packdata true file ints keys = Ok (map (fun k => (k, fetch file ints k)) keys, headers_good ints (map (fun k => (k, fetch file ints k)) keys)).
Proof.
  intros H. unfold read_packdata. destruct (batches_ok ints keys) as [E F].
  { intros k Hk. destruct (H k Hk) as (i & A & B & _). eauto. }
  rewrite (mapM_map _ (fun b => map (fun k => (k, fetch file ints k)) (b_keys b))).
  - cbn [rmap bind]. rewrite concat_map_map, E. reflexivity.
  - intros b Hb. rewrite Forall_forall in F. destruct (F b Hb) as [A B]. apply read_mmap_ok; [exact A|exact B|].
    intros k Hk. apply H. rewrite <- E. apply in_flat_map. eauto.
Qed.

(** ** Blocks *)
Definition good_block (b : Z * list Z) : Prop := int32 (fst b) /\ (0 < length (snd b))%nat /\ Z.of_nat (length (snd b)) < 2 ^ 31.
Lemma blk_length b : length (blk b) = (header_size + length (snd b))%nat.
Proof. unfold blk. rewrite !app_length, !enc_length. reflexivity. Qed.
Lemma blk_id b rest : good_block b -> head_id (blk b ++ rest) = fst b.
Proof. intros (H & _). unfold head_id, blk. rewrite <- app_assoc. rewrite firstn_app_exact by apply enc_length. apply dec_enc4, H. Qed.
Lemma blk_size b rest : good_block b -> head_size (blk b ++ rest) = Z.of_nat (length (snd b)).
Proof.
  intros (_ & _ & H). unfold head_size, blk. rewrite <- !app_assoc. rewrite skipn_app_exact by apply enc_length.
  rewrite firstn_app_exact by apply enc_length. apply dec_enc4. unfold int32. lia.
Qed.
Lemma blk_body b : skipn header_size (blk b) = snd b.
Proof. unfold blk. rewrite app_assoc. apply skipn_app_exact. rewrite app_length, !enc_length. reflexivity. Qed.

Definition size_of (l : list (Z * list Z)) : nat := length (flat_map blk l).
Lemma at_block l1 b l2 : at_ (flat_map blk (l1 ++ b :: l2)) (size_of l1) (header_size + length (snd b)) = blk b.
Proof.
  unfold at_, size_of. rewrite flat_map_app. cbn [flat_map]. rewrite skipn_app_exact by reflexivity. apply firstn_app_exact, blk_length.
Qed.
Lemma size_app l1 l2 : size_of (l1 ++ l2) = (size_of l1 + size_of l2)%nat.
Proof. unfold size_of. rewrite flat_map_app, app_length. reflexivity. Qed.
Lemma size_cons b l : size_of (b :: l) = (header_size + length (snd b) + size_of l)%nat.
Proof. unfold size_of. cbn [flat_map]. rewrite app_length, blk_length. reflexivity. Qed.

(** Where the blocks are *)
Fixpoint found (l : list (Z * list Z)) (start : nat) : idict :=
  match l with [] => [] | b :: t => (fst b, mkI (fst b) (length (snd b)) start) :: found t (start + (length (snd b) + header_size)) end.

Lemma dset_new {V} (k : Z) (v : V) d : ~ In k (map fst d) -> dset Z.eqb k v d = d ++ [(k, v)].
Proof.
  induction d as [|[k' v'] d IH]; intros H; [reflexivity|]. cbn [dset]. destruct (Z.eqb_spec k k') as [->|]; [exfalso; apply H; left; reflexivity|].
  cbn [app]. rewrite IH; [reflexivity|]. intros K. apply H. right; exact K.
Qed.
Lemma found_keys l : forall start, map fst (found l start) = map fst l.
Proof. induction l as [|b l IH]; intros start; [reflexivity|]. cbn [found map fst]. rewrite IH. reflexivity. Qed.

Lemma scan_ok l2 : forall l1 fuel, Forall good_block (l1 ++ l2) -> NoDup (map fst (l1 ++ l2)) -> (length l2 <= fuel)%nat ->
  scan fuel (flat_map blk (l1 ++ l2)) (size_of l1) (found l1 0) = Some (found (l1 ++ l2) 0).
Proof.
  assert (FA : forall l l' s, found (l ++ l') s = found l s ++ found l' (s + size_of l)).
  { induction l as [|b l IH]; intros l' s; [unfold size_of; cbn; rewrite Nat.add_0_r; reflexivity|]. cbn [app found]. rewrite IH. f_equal. f_equal. rewrite size_cons. f_equal. lia. }
  induction l2 as [|b l2 IH]; intros l1 fuel HB ND Hf.
  - rewrite app_nil_r in *. destruct fuel as [|fuel]; [reflexivity|]. cbn [scan].
    rewrite (proj2 (Nat.ltb_ge _ _)); [reflexivity|]. unfold size_of. lia.
  - destruct fuel as [|fuel]; [cbn in Hf; lia|]. cbn [scan].
    assert (Gb : good_block b) by (rewrite Forall_forall in HB; apply HB, in_app_iff; right; left; reflexivity).
    assert (L : length (flat_map blk (l1 ++ b :: l2)) = (size_of l1 + (header_size + length (snd b) + size_of l2))%nat).
    { change (size_of (l1 ++ b :: l2) = (size_of l1 + (header_size + length (snd b) + size_of l2))%nat). rewrite size_app, size_cons. reflexivity. }
    pose proof Gb as (_ & Pb & _). rewrite L. rewrite (proj2 (Nat.ltb_lt _ _)) by lia.
    assert (Hh : at_ (flat_map blk (l1 ++ b :: l2)) (size_of l1) header_size = firstn header_size (blk b)).
    { unfold at_, size_of. rewrite flat_map_app. cbn [flat_map]. rewrite skipn_app_exact by reflexivity. rewrite firstn_app.
      rewrite blk_length. replace (header_size - (header_size + length (snd b)))%nat with 0%nat by lia. rewrite firstn_O, app_nil_r. reflexivity. }
    cbv zeta. rewrite Hh.
    assert (Hid : head_id (firstn header_size (blk b)) = fst b).
    { rewrite <- (blk_id b [] Gb), app_nil_r. unfold head_id. rewrite firstn_firstn. reflexivity. }
    assert (Hsz : head_size (firstn header_size (blk b)) = Z.of_nat (length (snd b))).
    { rewrite <- (blk_size b [] Gb), app_nil_r. unfold head_size. rewrite skipn_firstn_comm, firstn_firstn. reflexivity. }
    rewrite Hid, Hsz. rewrite (proj2 (Z.ltb_ge _ _)) by lia. rewrite Nat2Z.id. rewrite (proj2 (Nat.leb_le _ _)) by lia.
    replace (l1 ++ b :: l2) with ((l1 ++ [b]) ++ l2) in * by (rewrite <- app_assoc; reflexivity).
    replace (size_of l1 + header_size + length (snd b))%nat with (size_of (l1 ++ [b])) by (rewrite size_app, size_cons; unfold size_of; cbn [flat_map length]; lia).
    rewrite dset_new.
    + replace (found l1 0 ++ [(fst b, mkI (fst b) (length (snd b)) (size_of l1))]) with (found (l1 ++ [b]) 0) by (rewrite FA; reflexivity).
      apply IH; [exact HB|exact ND|cbn in Hf; lia].
    + rewrite found_keys. rewrite <- app_assoc, map_app in ND. cbn [app map] in ND. intros K. apply (NoDup_remove_2 _ _ _ ND). apply in_app_iff. left; exact K.
Qed.
Lemma scan_file l : Forall good_block l -> NoDup (map fst l) -> scan (length (flat_map blk l)) (flat_map blk l) 0 [] = Some (found l 0).
Proof.
  intros H ND. apply (scan_ok l [] _ H ND). change (length l <= size_of l)%nat. clear. induction l as [|b l IH]; [cbn; lia|]. rewrite size_cons. cbn [length]. unfold header_size. lia.
Qed.

Lemma found_get l k : NoDup (map fst l) -> In k (map fst l) -> forall s,
  exists l1 b l2, l = l1 ++ (k, b) :: l2 /\ dget Z.eqb k (found l s) = Ok (mkI k (length b) (s + size_of l1)).
Proof.
  induction l as [|[k' b'] l IH]; intros ND Hk s; [contradiction|]. cbn [map fst] in *. apply NoDup_cons_iff in ND. destruct ND as [Nk ND].
  cbn [found dget fst snd]. destruct (Z.eqb_spec k k') as [->|Ne].
  - exists [], b', l. split; [reflexivity|]. unfold size_of. cbn [flat_map length]. rewrite Nat.add_0_r. reflexivity.
  - destruct Hk as [->|Hk]; [contradiction|]. destruct (IH ND Hk (s + (length b' + header_size))%nat) as (l1 & b & l2 & -> & E).
    exists ((k', b') :: l1), b, l2. split; [reflexivity|]. rewrite E. do 2 f_equal. rewrite size_cons. cbn [snd]. lia.
Qed.

(** ** All the records asked for *)
Definition body_of (l : list (Z * list Z)) (k : Z) : list Z := match dget Z.eqb k l with Ok b => b | Err _ => [] end.
Lemma body_at l1 k b l2 : NoDup (map fst (l1 ++ (k, b) :: l2)) -> body_of (l1 ++ (k, b) :: l2) k = b.
Proof.
  intros ND. unfold body_of. assert (E : dget Z.eqb k (l1 ++ (k, b) :: l2) = Ok b); [|rewrite E; reflexivity].
  induction l1 as [|[k' b'] l1 IH]; cbn [app dget]; [rewrite Z.eqb_refl; reflexivity|].
  cbn [app map] in ND. apply NoDup_cons_iff in ND. destruct ND as [N ND]. destruct (Z.eqb_spec k k') as [->|]; [|apply IH, ND].
  exfalso. apply N. cbn [fst]. rewrite map_app. apply in_app_iff. right; left; reflexivity.
Qed.

(** Every key leads to some block of the expected size *)
Definition on_block (l : list (Z * list Z)) (ints : idict) (k : Z) : Prop :=
  exists i l1 b l2, dget Z.eqb k ints = Ok i /\ i_inhid i = k /\ l = l1 ++ b :: l2 /\ i_start i = size_of l1 /\ i_size i = length (snd b).

Lemma on_block_inside l ints k : Forall good_block l -> on_block l ints k -> inside (flat_map blk l) ints k.
Proof.
  intros HB (i & l1 & b & l2 & A & _ & -> & B & C). exists i. split; [exact A|].
  assert (G : good_block b) by (rewrite Forall_forall in HB; apply HB, in_app_iff; right; left; reflexivity). destruct G as (_ & P & _).
  split; [lia|]. change (length (flat_map blk (l1 ++ b :: l2))) with (size_of (l1 ++ b :: l2)). rewrite size_app, size_cons. lia.
Qed.
Lemma on_block_fetch l ints k : on_block l ints k -> exists b, In b l /\ fetch (flat_map blk l) ints k = blk b.
Proof.
  intros (i & l1 & b & l2 & A & _ & -> & B & C). exists b. split; [apply in_app_iff; right; left; reflexivity|].
  unfold fetch. rewrite A, B, C. apply at_block.
Qed.

Definition packs_ok (file : list Z) (ints : idict) (keys : list Z) : result (list (Z * list Z)) :=
  do r <- read_packdata true file ints keys;
  if snd r then (if forallb (fun k => dmem Z.eqb k ints) keys then Ok (fst r) else Err ValueError)
  else rmap fst (read_packdata true file (fix_int_dict file ints) keys).

Lemma dget_fix file ints k i : fst (k, i) = i_inhid i -> dget Z.eqb k ints = Ok i -> forall fd i', scan (length file) file 0 [] = Some fd ->
  dget Z.eqb k fd = Ok i' -> dget Z.eqb k (fix_int_dict file ints) = Ok i'.
Proof.
  intros E Hk fd i' Hs Hf. unfold fix_int_dict. rewrite Hs. cbn [fst] in E.
  induction ints as [|[k' j] ints IH]; [discriminate|]. cbn [dget] in Hk. cbn [flat_map fst snd].
  destruct (Z.eqb_spec k k') as [->|Ne].
  - injection Hk as ->. rewrite <- E, Hf. cbn [app dget]. rewrite Z.eqb_refl. reflexivity.
  - destruct (dget Z.eqb (i_inhid j) fd); cbn [app dget]; [rewrite (proj2 (Z.eqb_neq _ _) Ne)|]; apply IH, Hk.
Qed.

Lemma read_blocks l ints keys : Forall good_block l -> NoDup (map fst l) ->
  (forall k, In k keys -> on_block l ints k /\ In k (map fst l)) ->
  packs_ok (flat_map blk l) ints keys = Ok (map (fun k => (k, blk (k, body_of l k))) keys).
Proof.
  intros HB ND H. unfold packs_ok. rewrite read_packdata_ok by (intros k Hk; apply on_block_inside, H; assumption). cbn [bind fst snd].
  assert (Gb : forall b, In b l -> good_block b) by (apply Forall_forall, HB).
  destruct (headers_good _ _) eqn:Eh.
  - assert (Em : forallb (fun k => dmem Z.eqb k ints) keys = true).
    { apply forallb_forall. intros k Hk. destruct (H k Hk) as [(i & _ & _ & _ & A & _) _]. apply (dmem_dget Z.eqb). eauto. }
    rewrite Em. f_equal. apply map_ext_in. intros k Hk. f_equal. unfold headers_good in Eh. rewrite forallb_forall in Eh.
    specialize (Eh (k, fetch (flat_map blk l) ints k)). cbn [fst snd] in Eh.
    assert (I : In (k, fetch (flat_map blk l) ints k) (map (fun k => (k, fetch (flat_map blk l) ints k)) keys)) by (apply in_map_iff; exists k; auto).
    specialize (Eh I). destruct (H k Hk) as [Ob _]. pose proof Ob as (i & l1 & b & l2 & A & Ei & El & B & C). rewrite A in Eh.
    assert (F : fetch (flat_map blk l) ints k = blk b) by (unfold fetch; rewrite A, B, C, El; apply at_block). rewrite F in *.
    apply andb_true_iff in Eh. destruct Eh as [Eh _]. apply Z.eqb_eq in Eh. rewrite <- (app_nil_r (blk b)), blk_id in Eh.
    + destruct b as [k' b]. cbn [fst] in Eh. rewrite <- Eh, Ei in *. assert (Eb : body_of l k = b) by (rewrite El; apply body_at; rewrite <- El; exact ND). rewrite Eb. reflexivity.
    + apply Gb. rewrite El. apply in_app_iff. right; left; reflexivity.
  - pose proof (scan_file l HB ND) as Hs.
    assert (Hf : forall k, In k keys -> exists l1 b l2, l = l1 ++ (k, b) :: l2 /\ dget Z.eqb k (fix_int_dict (flat_map blk l) ints) = Ok (mkI k (length b) (size_of l1))).
    { intros k Hk. destruct (H k Hk) as [(i & _ & _ & _ & A & Ei & _) Ik]. destruct (found_get l k ND Ik 0%nat) as (l1 & b & l2 & El & Ef).
      exists l1, b, l2. split; [exact El|]. eapply dget_fix; [symmetry; exact Ei|exact A|exact Hs|exact Ef]. }
    rewrite read_packdata_ok.
    + cbn [rmap fst]. f_equal. apply map_ext_in. intros k Hk. f_equal. destruct (Hf k Hk) as (l1 & b & l2 & El & Ef). unfold fetch. rewrite Ef. cbn [i_start i_size].
      assert (Eb : body_of l k = b) by (rewrite El; apply body_at; rewrite <- El; exact ND). rewrite Eb, El. apply (at_block l1 (k, b) l2).
    + intros k Hk. destruct (Hf k Hk) as (l1 & b & l2 & El & Ef). apply on_block_inside; [exact HB|].
      exists (mkI k (length b) (size_of l1)), l1, (k, b), l2. repeat split; [exact Ef|exact El].
Qed.
