(** What write_data writes. *)
From Coq Require Import List ZArith Bool Arith Lia Permutation Sorted.
From Verif Require Import Lib.Py Lib.Np Lib.Dict Model.Hdf5 Model.Mir Spec.MirSpec Proofs.Hdf5Proofs Proofs.SelectTotal Proofs.MirBase.
Import ListNotations.
Open Scope Z_scope.
Open Scope list_scope.

Definition isize (f : fmt) (recs : list spec) (h : Z) : nat := (integration_size f recs h * val_size f)%nat.
Fixpoint layout (f : fmt) (recs : list spec) (hs : list Z) (start : nat) : idict :=
  match hs with [] => [] | h :: t => (h, mkI h (isize f recs h) start) :: layout f recs t (start + (isize f recs h + header_size)) end.
Definition rpos (f : fmt) (g : list spec) : list (Z * (nat * nat)) :=
  combine (map s_hid g) (combine (starts 0 (map (rec_size f) g)) (cumsum 0 (map (rec_size f) g))).
Definition positions (f : fmt) (recs : list spec) (hs : list Z) : rdict := map (fun h => (h, rpos f (of_integration h recs))) hs.

Lemma place_ok f recs off : (0 < val_size f)%nat -> (off = None \/ exists o, off = Some o /\ offs_ok f recs o) ->
  forall hs start, (forall h, In h hs -> (0 < integration_size f recs h)%nat) ->
  place f recs off (map (fun h => (h, nonzero (fun s => s_inhid s =? h) recs)) hs) start = Ok (layout f recs hs start, positions f recs hs).
Proof.
  intros Hv Ho. induction hs as [|h hs IH]; intros start Hs; [reflexivity|]. cbn [map place]. rewrite group_take.
  set (g := of_integration h recs). assert (Hh : (0 < list_sum (map (rec_size f) g))%nat) by (apply (Hs h); left; reflexivity).
  assert (Ng : map (rec_size f) g <> []) by (destruct (map (rec_size f) g); [cbn in Hh; lia|discriminate]).
  assert (E : (match off with
        | None => (minus_each (cumsum 0 (map (rec_size f) g)) (map (rec_size f) g), cumsum 0 (map (rec_size f) g))
        | Some off => (map (fun o => (o / val_size f)%nat) (take 0%nat off (nonzero (fun s => s_inhid s =? h) recs)),
             map (fun p => (fst p + snd p)%nat) (combine (map (fun o => (o / val_size f)%nat) (take 0%nat off (nonzero (fun s => s_inhid s =? h) recs))) (map (rec_size f) g)))
        end) = (starts 0 (map (rec_size f) g), cumsum 0 (map (rec_size f) g))).
  { destruct Ho as [->|(o & -> & Lo & Ho)]; [rewrite minus_cumsum; reflexivity|].
    rewrite take_where by exact Lo. rewrite Ho. fold g. rewrite map_map.
    replace (map (fun x => (val_size f * x / val_size f)%nat) (starts 0 (map (rec_size f) g))) with (starts 0 (map (rec_size f) g)).
    - rewrite cumsum_starts. reflexivity.
    - symmetry. rewrite <- map_id. apply map_ext. intros x. rewrite Nat.mul_comm. apply Nat.div_mul. lia. }
  cbv zeta. rewrite E. rewrite cumsum_max by exact Ng. cbn [Nat.add].
  replace (list_sum (map (rec_size f) g) * val_size f)%nat with (isize f recs h) by reflexivity.
  assert (Pz : (0 < isize f recs h)%nat) by (unfold isize; apply Nat.mul_pos_pos; [exact Hh|exact Hv]).
  rewrite (proj2 (Nat.eqb_neq _ _)) by lia. rewrite IH by (intros h' Hh'; apply Hs; right; exact Hh'). reflexivity.
Qed.

Definition hids (recs : list spec) : list Z := uniqueZ (map s_inhid recs).
Lemma generate_ok f recs off : (0 < val_size f)%nat -> (off = None \/ exists o, off = Some o /\ offs_ok f recs o) ->
  (forall s, In s recs -> (0 < integration_size f recs (s_inhid s))%nat) ->
  generate_recpos f recs off = Ok (layout f recs (hids recs) 0, positions f recs (hids recs)).
Proof.
  intros Hv Ho Hs. unfold generate_recpos, group_by. apply place_ok; [exact Hv|exact Ho|].
  intros h Hh. apply (proj1 (uniqueZ_In _ _)) in Hh. apply in_map_iff in Hh. destruct Hh as (s & <- & I). apply Hs, I.
Qed.

(** The values of one spectral record *)
Definition item (f : fmt) (data : rdata) (s : spec) : list Z :=
  match dget Z.eqb (s_hid s) data with Ok d => (if scaled f then [fst d] else []) ++ snd d | Err _ => [] end.
Definition has_item (f : fmt) (data : rdata) (s : spec) : Prop :=
  exists scale vals, dget Z.eqb (s_hid s) data = Ok (scale, vals) /\ length vals = (data_nvals f * s_nch s)%nat /\
    (scaled f = true -> fits f scale) /\ Forall (fits f) vals.
Lemma item_length f data s : has_item f data s -> length (item f data s) = rec_size f s.
Proof.
  intros (sc & vals & E & L & _). unfold item, rec_size. rewrite E. cbn [fst snd]. rewrite app_length, L. destruct (scaled f); reflexivity.
Qed.
Lemma item_fits f data s : has_item f data s -> Forall (fits f) (item f data s).
Proof.
  intros (sc & vals & E & L & Fs & Fv). unfold item. rewrite E. apply Forall_app. split; [|exact Fv].
  destruct (scaled f); [|constructor]. repeat constructor; apply Fs; reflexivity.
Qed.

Lemma put_exact {A} (pre mid post v : list A) : length v = length mid ->
  put_slice (pre ++ mid ++ post) (length pre) (length pre + length mid) v = Ok (pre ++ v ++ post).
Proof.
  intros L. unfold put_slice. rewrite L. replace (length pre + length mid - length pre)%nat with (length mid) by lia. rewrite Nat.eqb_refl.
  rewrite firstn_app_exact by reflexivity. rewrite (app_assoc pre mid post). rewrite (skipn_app_exact (pre ++ mid) post) by (rewrite app_length; reflexivity). reflexivity.
Qed.
Lemma set_nth_mid {A} (pre : list A) x y post : set_nth (length pre) x (pre ++ y :: post) = pre ++ x :: post.
Proof. induction pre as [|z pre IH]; [reflexivity|]. cbn. rewrite IH. reflexivity. Qed.

Lemma pack_one_ok f data s pre mid post : has_item f data s -> length mid = rec_size f s ->
  pack_one f data (pre ++ mid ++ post) (s_hid s, (length pre, (length pre + rec_size f s)%nat)) = Ok (pre ++ item f data s ++ post).
Proof.
  intros (sc & vals & E & L & _) Lm. unfold pack_one, item. rewrite E. cbn [bind fst snd]. unfold rec_size in *. destruct (scaled f).
  - destruct mid as [|y mid]; [discriminate|]. cbn [app]. rewrite set_nth_mid. cbn [length] in Lm.
    replace (pre ++ sc :: mid ++ post) with ((pre ++ [sc]) ++ mid ++ post) by (rewrite <- app_assoc; reflexivity).
    replace (length pre + 1)%nat with (length (pre ++ [sc])) by (rewrite app_length; reflexivity).
    replace (length pre + (1 + data_nvals f * s_nch s))%nat with (length (pre ++ [sc]) + length mid)%nat by (rewrite app_length; cbn [length]; lia).
    rewrite put_exact by lia. rewrite <- app_assoc. reflexivity.
  - cbn [app]. rewrite <- Lm. rewrite put_exact by lia. reflexivity.
Qed.

Lemma pack_ok f data g : (forall s, In s g -> has_item f data s) -> forall pre rest, (list_sum (map (rec_size f) g) = length rest)%nat ->
  foldM (pack_one f data) (combine (map s_hid g) (combine (starts (length pre) (map (rec_size f) g)) (cumsum (length pre) (map (rec_size f) g)))) (pre ++ rest) =
  Ok (pre ++ flat_map (item f data) g).
Proof.
  induction g as [|s g IH]; intros Hg pre rest L.
  - cbn in L. destruct rest; [reflexivity|discriminate].
  - cbn [map starts cumsum combine]. rewrite foldM_cons. change (list_sum (map (rec_size f) (s :: g))) with (rec_size f s + list_sum (map (rec_size f) g))%nat in L.
    assert (Hs : has_item f data s) by (apply Hg; left; reflexivity).
    rewrite <- (firstn_skipn (rec_size f s) rest). rewrite pack_one_ok by (try exact Hs; rewrite firstn_length; lia). cbn [bind flat_map].
    rewrite app_assoc. replace (length pre + rec_size f s)%nat with (length (pre ++ item f data s)) by (rewrite app_length, item_length by exact Hs; reflexivity).
    rewrite IH; [rewrite <- app_assoc; reflexivity|intros s' Hs'; apply Hg; right; exact Hs'|]. rewrite skipn_length. lia.
Qed.

(** A file is a sequence of blocks *)
Definition blk (b : Z * list Z) : list Z := enc 4 (fst b) ++ enc 4 (Z.of_nat (length (snd b))) ++ snd b.
Definition body (f : fmt) (data : rdata) (recs : list spec) (h : Z) : list Z :=
  flat_map (enc (val_size f)) (flat_map (item f data) (of_integration h recs)).
Definition bodies (f : fmt) (data : rdata) (recs : list spec) (hs : list Z) : list (Z * list Z) := map (fun h => (h, body f data recs h)) hs.

Lemma items_length f data g : (forall s, In s g -> has_item f data s) -> length (flat_map (item f data) g) = list_sum (map (rec_size f) g).
Proof.
  induction g as [|s g IH]; intros H; [reflexivity|]. cbn [flat_map map list_sum fold_right]. rewrite app_length, IH by (intros s' Hs'; apply H; right; exact Hs').
  rewrite item_length by (apply H; left; reflexivity). reflexivity.
Qed.
Lemma group_In h recs s : In s (of_integration h recs) <-> In s recs /\ s_inhid s = h.
Proof. unfold of_integration. rewrite filter_In, Z.eqb_eq. reflexivity. Qed.
Lemma body_length f data recs h : (forall s, In s recs -> has_item f data s) -> length (body f data recs h) = isize f recs h.
Proof.
  intros H. unfold body, isize. rewrite flat_enc_length, items_length; [reflexivity|]. intros s Hs. apply group_In in Hs. apply H, Hs.
Qed.

Lemma dget_map {V} (g : Z -> V) hs h : In h hs -> dget Z.eqb h (map (fun h => (h, g h)) hs) = Ok (g h).
Proof.
  induction hs as [|k hs IH]; [contradiction|]. intros H. cbn [map dget]. destruct (Z.eqb_spec h k); [subst; reflexivity|].
  destruct H as [->|H]; [contradiction|]. apply IH, H.
Qed.

Lemma storable_parts f recs data : storable f recs data ->
  NoDup (map s_hid recs) /\ (forall s, In s recs -> has_item f data s) /\ (forall s, In s recs -> (0 < integration_size f recs (s_inhid s))%nat) /\
  (forall s, In s recs -> int32 (s_inhid s) /\ Z.of_nat (isize f recs (s_inhid s)) < 2 ^ 31).
Proof.
  intros [ND H]. split; [exact ND|]. split; [intros s Hs; apply (H s Hs)|]. split; [intros s Hs; apply (H s Hs)|].
  intros s Hs. destruct (H s Hs) as (A & _ & B & _). split; [exact A|exact B].
Qed.

Lemma write_ok f junk recs data : (0 < val_size f)%nat -> storable f recs data ->
  write_data f junk recs data = Ok (flat_map blk (bodies f data recs (hids recs))).
Proof.
  intros Hv Hst. destruct (storable_parts f recs data Hst) as (_ & HI & Hp & _). unfold write_data.
  rewrite (generate_ok f recs None Hv (or_introl eq_refl) Hp). cbn [bind fst snd].
  assert (G : forall hs start, (forall h, In h hs -> In h (hids recs)) ->
    mapM (fun e : Z * ipos => do rp <- dget Z.eqb (fst e) (positions f recs (hids recs)); make_packdata f junk data (snd e) rp) (layout f recs hs start) =
    Ok (map blk (bodies f data recs hs))).
  { induction hs as [|h hs IH]; intros start Hh; [reflexivity|]. cbn [layout mapM fst snd]. unfold positions at 1.
    rewrite (dget_map (fun h => rpos f (of_integration h recs))) by (apply Hh; left; reflexivity). cbn [bind].
    unfold make_packdata. cbn [i_size i_inhid]. unfold rpos.
    pose proof (pack_ok f data (of_integration h recs)) as P. specialize (P (fun s Hs => HI s (proj1 (proj1 (group_In _ _ _) Hs))) []
      (map junk (seq 0 (isize f recs h / val_size f)))). cbn [app length] in P. rewrite P.
    - cbn [bind]. rewrite IH by (intros h' Hh'; apply Hh; right; exact Hh'). cbn [bind bodies map]. unfold blk at 2. cbn [fst snd].
      rewrite body_length by exact HI. reflexivity.
    - rewrite map_length, seq_length. unfold isize. rewrite Nat.div_mul by lia. reflexivity. }
  rewrite G by auto. cbn [bind]. rewrite flat_map_concat_map. reflexivity.
Qed.
