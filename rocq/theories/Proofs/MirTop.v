(** Round trips of Mir files. *)
From Coq Require Import List ZArith Bool Arith Lia Permutation Sorted.
From Verif Require Import Lib.Py Lib.Np Lib.Dict Lib.Sorting Model.Hdf5 Model.Mir Spec.MirSpec Proofs.Hdf5Proofs Proofs.SelectTotal Proofs.FlagConvert Proofs.AddAxis Proofs.MirBase Proofs.MirWrite Proofs.MirRead.
Import ListNotations.
Open Scope Z_scope.
Open Scope list_scope.

Section Top.
Context (f : fmt) (Hv : (0 < val_size f)%nat) (data : rdata) (R : list spec).
Context (St : storable f R data).

Let HI : forall s, In s R -> has_item f data s := proj1 (proj2 (storable_parts f R data St)).
Let Hp : forall s, In s R -> (0 < integration_size f R (s_inhid s))%nat := proj1 (proj2 (proj2 (storable_parts f R data St))).
Let Hz : forall s, In s R -> int32 (s_inhid s) /\ Z.of_nat (isize f R (s_inhid s)) < 2 ^ 31 := proj2 (proj2 (proj2 (storable_parts f R data St))).

Lemma hids_In recs h : In h (hids recs) <-> exists s, In s recs /\ s_inhid s = h.
Proof. unfold hids. rewrite uniqueZ_In, in_map_iff. split; intros (s & A & B); eauto. Qed.

Lemma good_bodies H : incl H (hids R) -> Forall good_block (bodies f data R H).
Proof.
  intros Hi. apply Forall_forall. intros b Hb. unfold bodies in Hb. apply in_map_iff in Hb. destruct Hb as (h & <- & Hh).
  apply Hi, hids_In in Hh. destruct Hh as (s & Hs & <-). unfold good_block. cbn [fst snd]. rewrite body_length by exact HI.
  destruct (Hz s Hs) as [A B]. split; [exact A|]. split; [|exact B]. unfold isize. specialize (Hp s Hs). apply Nat.mul_pos_pos; assumption.
Qed.
Lemma bodies_ids H : map fst (bodies f data R H) = H.
Proof. unfold bodies. rewrite map_map. cbn [fst]. apply map_id. Qed.
Lemma bodies_app H1 H2 : bodies f data R (H1 ++ H2) = bodies f data R H1 ++ bodies f data R H2.
Proof. apply map_app. Qed.

Lemma layout_get hs h : NoDup hs -> In h hs -> forall s, exists h1 h2, hs = h1 ++ h :: h2 /\
  dget Z.eqb h (layout f R hs s) = Ok (mkI h (isize f R h) (s + size_of (bodies f data R h1))).
Proof.
  induction hs as [|k hs IH]; intros ND Hh s; [contradiction|]. apply NoDup_cons_iff in ND. destruct ND as [Nk ND]. cbn [layout dget].
  destruct (Z.eqb_spec h k) as [->|Ne].
  - exists [], hs. split; [reflexivity|]. unfold size_of. cbn. rewrite Nat.add_0_r. reflexivity.
  - destruct Hh as [->|Hh]; [contradiction|]. destruct (IH ND Hh (s + (isize f R k + header_size))%nat) as (h1 & h2 & -> & E).
    exists (k :: h1), h2. split; [reflexivity|]. rewrite E. do 2 f_equal. cbn [bodies map]. rewrite size_cons. cbn [snd]. rewrite body_length by exact HI.
    fold (bodies f data R h1). lia.
Qed.

Lemma uniform_size n H : (forall h, In h H -> isize f R h = n) -> size_of (bodies f data R H) = (length H * (header_size + n))%nat.
Proof.
  induction H as [|h H IH]; intros E; [reflexivity|]. cbn [bodies map]. rewrite size_cons. cbn [snd length Nat.mul]. rewrite body_length by exact HI.
  rewrite (E h (or_introl eq_refl)). fold (bodies f data R H). rewrite IH by (intros k Hk; apply E; right; exact Hk). reflexivity.
Qed.

Lemma on_block_all H h : NoDup H -> (forall k, In k H <-> In k (hids R)) -> (H = hids R \/ uniform f R) -> In h (hids R) ->
  on_block (bodies f data R H) (layout f R (hids R) 0) h.
Proof.
  intros ND HH C Hh. destruct (layout_get (hids R) h (uniqueZ_NoDup _) Hh 0%nat) as (h1 & h2 & E & D). cbn [Nat.add] in D.
  destruct C as [->|U].
  - exists (mkI h (isize f R h) (size_of (bodies f data R h1))), (bodies f data R h1), (h, body f data R h), (bodies f data R h2).
    split; [exact D|]. split; [reflexivity|]. split; [rewrite E at 1; rewrite bodies_app; reflexivity|]. split; [reflexivity|]. cbn [snd i_size]. symmetry. apply body_length, HI.
  - assert (L : length H = length (hids R)).
    { apply Permutation_length. apply NoDup_Permutation; [exact ND|apply uniqueZ_NoDup|exact HH]. }
    assert (Lh : (length h1 < length H)%nat) by (rewrite L, E, app_length; cbn; lia).
    destruct (nth_error H (length h1)) as [k|] eqn:Ek; [|apply nth_error_None in Ek; lia].
    destruct (nth_error_split H _ Ek) as (k1 & k2 & EH & Lk).
    assert (US : forall x, In x (hids R) -> isize f R x = isize f R h).
    { intros x Hx. apply hids_In in Hx, Hh. destruct Hx as (a & Ha & <-), Hh as (b & Hb & <-). unfold isize. f_equal. apply U; assumption. }
    exists (mkI h (isize f R h) (size_of (bodies f data R h1))), (bodies f data R k1), (k, body f data R k), (bodies f data R k2).
    split; [exact D|]. split; [reflexivity|]. split; [rewrite EH at 1; rewrite bodies_app; reflexivity|]. cbn [i_start i_size snd]. split.
    + rewrite !(uniform_size (isize f R h)); [rewrite Lk; reflexivity| |].
      * intros x Hx. apply US, HH. rewrite EH. apply in_app_iff. left; exact Hx.
      * intros x Hx. apply US. rewrite E. apply in_app_iff. left; exact Hx.
    + rewrite body_length by exact HI. symmetry. apply US, HH. rewrite EH. apply in_app_iff. right; left; reflexivity.
Qed.

Lemma body_of_bodies H h : In h H -> body_of (bodies f data R H) h = body f data R h.
Proof. intros Hh. unfold body_of, bodies. rewrite dget_map by exact Hh. reflexivity. Qed.

(** *** Cutting *)
Lemma rpos_get g s : NoDup (map s_hid g) -> In s g -> (forall x, In x g -> has_item f data x) -> exists g1 g2, g = g1 ++ s :: g2 /\
  dget Z.eqb (s_hid s) (rpos f g) = Ok (length (flat_map (item f data) g1), (length (flat_map (item f data) g1) + rec_size f s)%nat).
Proof.
  intros ND Hs Hg.
  assert (G : forall g a, NoDup (map s_hid g) -> In s g -> (forall x, In x g -> has_item f data x) -> exists g1 g2, g = g1 ++ s :: g2 /\
    dget Z.eqb (s_hid s) (combine (map s_hid g) (combine (starts a (map (rec_size f) g)) (cumsum a (map (rec_size f) g)))) =
    Ok ((a + length (flat_map (item f data) g1))%nat, (a + length (flat_map (item f data) g1) + rec_size f s)%nat)).
  { clear g ND Hs Hg. induction g as [|x g IH]; intros a ND Hs Hg; [contradiction|]. cbn [map] in ND. apply NoDup_cons_iff in ND. destruct ND as [Nx ND].
    cbn [map starts cumsum combine dget]. destruct (Z.eqb_spec (s_hid s) (s_hid x)) as [E|Ne].
    - assert (x = s). { destruct Hs as [->|Hs]; [reflexivity|]. exfalso. apply Nx. rewrite <- E. apply in_map, Hs. } subst x.
      exists [], g. split; [reflexivity|]. cbn [flat_map length]. rewrite Nat.add_0_r. reflexivity.
    - destruct Hs as [->|Hs]; [contradiction|]. destruct (IH (a + rec_size f x)%nat ND Hs (fun y Hy => Hg y (or_intror Hy))) as (g1 & g2 & -> & E).
      exists (x :: g1), g2. split; [reflexivity|]. rewrite E. cbn [flat_map]. rewrite app_length, item_length by (apply Hg; left; reflexivity). do 2 f_equal; lia. }
  destruct (G g 0%nat ND Hs Hg) as (g1 & g2 & A & B). exists g1, g2. split; [exact A|exact B].
Qed.

Lemma cut_ok g1 s g2 : has_item f data s ->
  cut f (flat_map (item f data) (g1 ++ s :: g2)) (length (flat_map (item f data) g1), (length (flat_map (item f data) g1) + rec_size f s)%nat) =
  Ok (snd (stored f data s)).
Proof.
  intros (sc & vals & E & L & _). rewrite flat_map_app. cbn [flat_map]. set (I1 := flat_map (item f data) g1). set (I2 := flat_map (item f data) g2). clearbody I1 I2. unfold cut, stored, item, rec_size. rewrite E. cbn [snd fst].
  destruct (scaled f); cbn [app].
  - rewrite nth_error_app2, Nat.sub_diag by lia. cbn [nth_error]. do 2 f_equal.
    replace (I1 ++ sc :: vals ++ I2) with ((I1 ++ [sc]) ++ vals ++ I2) by (rewrite <- app_assoc; reflexivity).
    rewrite (skipn_app_exact (I1 ++ [sc])) by (rewrite app_length; reflexivity). apply firstn_app_exact. lia.
  - do 2 f_equal. rewrite skipn_app_exact by reflexivity. apply firstn_app_exact. lia.
Qed.

Lemma filter_NoDup_map {A B} (h : A -> B) (p : A -> bool) l : NoDup (map h l) -> NoDup (map h (filter p l)).
Proof.
  induction l as [|x l IH]; intros ND; [constructor|]. cbn [map] in ND. apply NoDup_cons_iff in ND. destruct ND as [N ND]. cbn [filter].
  destruct (p x); [|apply IH, ND]. cbn [map]. constructor; [|apply IH, ND]. intros K. apply N. apply in_map_iff in K. destruct K as (y & <- & Hy).
  apply filter_In in Hy. apply in_map, Hy.
Qed.

Lemma view_body h : view (val_size f) (length (body f data R h) / val_size f) (body f data R h) = flat_map (item f data) (of_integration h R).
Proof.
  unfold body. rewrite flat_enc_length, Nat.div_mul by lia.
  rewrite <- (app_nil_r (flat_map (enc (val_size f)) _)). apply view_enc; [exact Hv|].
  apply Forall_forall. intros z Hz'. apply in_flat_map in Hz'. destruct Hz' as (s & Hs & Hz'). apply group_In in Hs.
  pose proof (item_fits f data s (HI s (proj1 Hs))) as F. rewrite Forall_forall in F. apply F, Hz'.
Qed.

Lemma groups_perm (sel : list spec) hs : NoDup hs -> (forall s, In s sel -> In (s_inhid s) hs) ->
  Permutation (flat_map (fun h => of_integration h sel) hs) sel.
Proof.
  intros ND. induction sel as [|s sel IH]; intros H.
  - clear. induction hs; [constructor|exact IHhs].
  - transitivity (s :: flat_map (fun h => of_integration h sel) hs); [|constructor; apply IH; intros x Hx; apply H; right; exact Hx].
    specialize (H s (or_introl eq_refl)). clear IH. induction hs as [|h hs IHh]; [contradiction|]. apply NoDup_cons_iff in ND. destruct ND as [N ND]. cbn [flat_map].
    unfold of_integration at 1. cbn [filter]. destruct (Z.eqb_spec (s_inhid s) h) as [E|Ne].
    + cbn [app]. constructor. unfold of_integration at 2. apply Permutation_app_head.
      assert (Eq : flat_map (fun h0 => of_integration h0 (s :: sel)) hs = flat_map (fun h0 => of_integration h0 sel) hs); [|rewrite Eq; apply Permutation_refl].
      rewrite !flat_map_concat_map. f_equal. apply map_ext_in. intros k Hk. unfold of_integration. cbn [filter].
      rewrite (proj2 (Z.eqb_neq _ _)) by (intros K; apply N; congruence). reflexivity.
    + destruct H as [E|H]; [congruence|]. fold (of_integration h sel).
      rewrite (IHh ND H). symmetry. apply Permutation_middle.
Qed.

Lemma mapM_concat {A B} (k : A -> result (list B)) (g : A -> list B) l : (forall x, In x l -> k x = Ok (g x)) ->
  rmap (@List.concat _) (mapM k l) = Ok (flat_map g l).
Proof. intros H. rewrite (mapM_map k g l H). cbn [rmap]. rewrite flat_map_concat_map. reflexivity. Qed.

Lemma read_data_ok off H sel : offs_ok f R off -> NoDup H -> (forall k, In k H <-> In k (hids R)) -> (H = hids R \/ uniform f R) -> incl sel R ->
  exists out, read_data f true (flat_map blk (bodies f data R H)) R off sel = Ok out /\ Permutation out (map (stored f data) sel).
Proof.
  intros Ho ND HH C Hsel. unfold read_data. rewrite generate_ok; [|exact Hv|right; exists off; split; [reflexivity|exact Ho]|exact Hp]. cbn [bind fst snd].
  set (file := flat_map blk (bodies f data R H)). set (keys := map fst (group_by sel)).
  assert (Ek : keys = hids sel) by (unfold keys, group_by, hids; rewrite map_map; cbn [fst]; apply map_id).
  assert (Hk : forall k, In k keys -> In k (hids R)).
  { intros k Hk. rewrite Ek in Hk. apply hids_In in Hk. destruct Hk as (s & Hs & <-). apply hids_In. exists s. split; [apply Hsel, Hs|reflexivity]. }
  pose proof (read_blocks (bodies f data R H) (layout f R (hids R) 0) keys) as RB.
  specialize (RB (good_bodies H (fun h Hh => proj1 (HH h) Hh))). rewrite bodies_ids in RB. specialize (RB ND).
  specialize (RB (fun k Hi => conj (on_block_all H k ND HH C (Hk k Hi)) (proj2 (HH k) (Hk k Hi)))). fold file in RB. unfold packs_ok in RB.
  destruct (read_packdata true file (layout f R (hids R) 0) keys) as [r|]; [|discriminate]. cbn [bind] in *. rewrite RB. cbn [bind]. clear RB.
  rewrite (mapM_concat _ (fun e => map (stored f data) (of_integration (fst e) sel))).
  - eexists. split; [reflexivity|]. unfold group_by. rewrite flat_map_concat_map, map_map. cbn [fst]. rewrite <- flat_map_concat_map.
    assert (Em : flat_map (fun h => map (stored f data) (of_integration h sel)) (uniqueZ (map s_inhid sel)) =
                 map (stored f data) (flat_map (fun h => of_integration h sel) (uniqueZ (map s_inhid sel)))).
    { induction (uniqueZ (map s_inhid sel)) as [|h hs IH]; [reflexivity|]. cbn [flat_map]. rewrite map_app, IH. reflexivity. }
    rewrite Em. apply Permutation_map, groups_perm; [apply uniqueZ_NoDup|]. intros s Hs. apply (proj2 (uniqueZ_In _ _)), in_map, Hs.
  - intros [h idx] He. assert (Hh : In h keys) by (apply in_map_iff; exists (h, idx); auto).
    unfold group_by in He. apply in_map_iff in He. destruct He as (h' & Eh & _). injection Eh as <- <-. cbn [fst snd].
    rewrite dget_map by exact Hh. cbn [bind]. rewrite blk_body. cbn [snd]. rewrite body_of_bodies by (apply HH, Hk, Hh). rewrite view_body, group_take.
    rewrite (mapM_map _ (stored f data)); [reflexivity|]. intros s Hs. apply group_In in Hs. destruct Hs as [Hs Es].
    unfold positions. rewrite dget_map by (apply Hk, Hh). cbn [bind].
    destruct (rpos_get (of_integration h' R) s) as (g1 & g2 & Eg & Er).
    + apply filter_NoDup_map. exact (proj1 St).
    + apply group_In. split; [apply Hsel, Hs|exact Es].
    + intros x Hx. apply group_In in Hx. apply HI, Hx.
    + rewrite Er. cbn [bind]. rewrite Eg, cut_ok by (apply HI, Hsel, Hs). reflexivity.
Qed.
End Top.

(** ** Several writes *)
Lemma of_app h a b : of_integration h (a ++ b) = of_integration h a ++ of_integration h b.
Proof. unfold of_integration. apply filter_app. Qed.
Lemma of_nil h a : (forall s, In s a -> s_inhid s <> h) -> of_integration h a = [].
Proof.
  induction a as [|s a IH]; intros H; [reflexivity|]. unfold of_integration. cbn [filter]. rewrite (proj2 (Z.eqb_neq _ _) (H s (or_introl eq_refl))).
  apply IH. intros x Hx. apply H. right; exact Hx.
Qed.
Lemma separate_cons p parts : separate (p :: parts) -> separate parts /\ forall a b, In a p -> In b (List.concat parts) -> s_inhid a <> s_inhid b.
Proof.
  intros H. split.
  - intros i j a b L Ha Hb. apply (H (S i) (S j) a b); [cbn; lia|exact Ha|exact Hb].
  - intros a b Ha Hb. apply in_concat in Hb. destruct Hb as (q & Hq & Hb). destruct (In_nth _ _ [] Hq) as (j & Lj & <-).
    apply (H 0%nat (S j) a b); [cbn; lia|exact Ha|exact Hb].
Qed.
Lemma ordered_cons p parts : ordered (p :: parts) -> ordered parts /\ forall a b, In a p -> In b (List.concat parts) -> s_inhid a < s_inhid b.
Proof.
  intros H. split.
  - intros i j a b L Ha Hb. apply (H (S i) (S j) a b); [cbn; lia|exact Ha|exact Hb].
  - intros a b Ha Hb. apply in_concat in Hb. destruct Hb as (q & Hq & Hb). destruct (In_nth _ _ [] Hq) as (j & Lj & <-).
    apply (H 0%nat (S j) a b); [cbn; lia|exact Ha|exact Hb].
Qed.

Lemma NoDup_app_parts {A} (a b : list A) : NoDup (a ++ b) -> NoDup a /\ NoDup b.
Proof.
  induction a as [|x a IH]; intros H; [split; [constructor|exact H]|]. cbn [app] in H. apply NoDup_cons_iff in H. destruct H as [N H].
  destruct (IH H) as [A1 B1]. split; [|exact B1]. constructor; [|exact A1]. intros K. apply N, in_app_iff. left; exact K.
Qed.
Lemma storable_app f a b data : (forall x y, In x a -> In y b -> s_inhid x <> s_inhid y) -> storable f (a ++ b) data -> storable f a data /\ storable f b data.
Proof.
  intros D [ND H]. rewrite map_app in ND. split; (split; [|intros s Hs]).
  - apply (NoDup_app_parts _ _ ND).
  - destruct (H s (proj2 (in_app_iff _ _ _) (or_introl Hs))) as (A & B & C & E).
    unfold integration_size in *. rewrite of_app, (of_nil (s_inhid s) b), app_nil_r in B, C by (intros y Hy; apply not_eq_sym, D; assumption). repeat split; assumption || apply A.
  - apply (NoDup_app_parts _ _ ND).
  - destruct (H s (proj2 (in_app_iff _ _ _) (or_intror Hs))) as (A & B & C & E).
    unfold integration_size in *. rewrite of_app, (of_nil (s_inhid s) a) in B, C by (intros y Hy; apply D; assumption). repeat split; assumption || apply A.
Qed.

Lemma hids_perm_in parts k : In k (flat_map hids parts) <-> In k (hids (List.concat parts)).
Proof.
  rewrite in_flat_map, hids_In. split.
  - intros (p & Hp & Hk). apply hids_In in Hk. destruct Hk as (s & Hs & E). exists s. split; [|exact E]. apply in_concat. eauto.
  - intros (s & Hs & E). apply in_concat in Hs. destruct Hs as (p & Hp & Hs). exists p. split; [exact Hp|]. apply hids_In. eauto.
Qed.
Lemma hids_NoDup parts : separate parts -> NoDup (flat_map hids parts).
Proof.
  induction parts as [|p parts IH]; intros S; [constructor|]. destruct (separate_cons p parts S) as [S' D]. cbn [flat_map].
  apply AddAxis.NoDup_app_intro; [apply uniqueZ_NoDup|apply IH, S'|].
  intros k Hk K. apply hids_perm_in in K. apply hids_In in Hk, K. destruct Hk as (a & Ha & <-), K as (b & Hb & E). exact (D a b Ha Hb (eq_sym E)).
Qed.

Lemma sorted_same (a b : list Z) : StronglySorted Z.lt a -> StronglySorted Z.lt b -> (forall x, In x a <-> In x b) -> a = b.
Proof.
  revert b. induction a as [|x a IH]; intros [|y b] SA SB H; [reflexivity| | |].
  - exfalso. apply (proj2 (H y)). left; reflexivity.
  - exfalso. apply (proj1 (H x)). left; reflexivity.
  - inversion SA as [|? ? SA' FA]; subst. inversion SB as [|? ? SB' FB]; subst. rewrite Forall_forall in FA, FB.
    assert (x = y).
    { destruct (proj1 (H x) (or_introl eq_refl)) as [E|E]; [congruence|]. destruct (proj2 (H y) (or_introl eq_refl)) as [E'|E']; [congruence|].
      specialize (FA _ E'). specialize (FB _ E). lia. }
    subst y. f_equal. apply IH; [exact SA'|exact SB'|]. intros z. split; intros Hz.
    + destruct (proj1 (H z) (or_intror Hz)) as [E|E]; [subst; specialize (FA _ Hz); lia|exact E].
    + destruct (proj2 (H z) (or_intror Hz)) as [E|E]; [subst; specialize (FB _ Hz); lia|exact E].
Qed.
Lemma hids_sorted r : StronglySorted Z.lt (hids r).
Proof. apply uniqueZ_sorted. Qed.
Lemma ordered_hids parts : ordered parts -> flat_map hids parts = hids (List.concat parts).
Proof.
  intros O. apply sorted_same; [|apply hids_sorted|apply hids_perm_in].
  induction parts as [|p parts IH]; [constructor|]. destruct (ordered_cons p parts O) as [O' D]. cbn [flat_map].
  assert (G : forall a b : list Z, StronglySorted Z.lt a -> StronglySorted Z.lt b -> (forall x y, In x a -> In y b -> x < y) -> StronglySorted Z.lt (a ++ b)).
  { clear. induction a as [|x a IH]; intros b SA SB H; [exact SB|]. inversion SA as [|? ? SA' FA]; subst. cbn [app]. constructor.
    - apply IH; [exact SA'|exact SB|]. intros u v Hu Hv. apply H; [right; exact Hu|exact Hv].
    - apply Forall_app. split; [exact FA|]. apply Forall_forall. intros v Hv. apply H; [left; reflexivity|exact Hv]. }
  apply G; [apply hids_sorted|apply IH, O'|]. intros x y Hx Hy. apply hids_perm_in in Hy. apply hids_In in Hx, Hy.
  destruct Hx as (a & Ha & <-), Hy as (b & Hb & <-). apply D; assumption.
Qed.

Lemma body_ext f data r r' h : of_integration h r = of_integration h r' -> body f data r h = body f data r' h.
Proof. intros E. unfold body. rewrite E. reflexivity. Qed.

Lemma written_ok f parts data : (0 < val_size f)%nat -> separate parts -> storable f (List.concat parts) data ->
  forall file, written f parts data file <-> file = flat_map blk (bodies f data (List.concat parts) (flat_map hids parts)).
Proof.
  intros Hv. induction parts as [|p parts IH]; intros S St file; [reflexivity|]. destruct (separate_cons p parts S) as [S' D].
  cbn [List.concat] in St. destruct (storable_app f p (List.concat parts) data D St) as [Sp Sq]. specialize (IH S' Sq).
  assert (E : bodies f data (List.concat (p :: parts)) (flat_map hids (p :: parts)) = bodies f data p (hids p) ++ bodies f data (List.concat parts) (flat_map hids parts)).
  { cbn [List.concat flat_map]. unfold bodies. rewrite map_app. f_equal; apply map_ext_in; intros h Hh; f_equal; apply body_ext; rewrite of_app.
    - apply hids_In in Hh. destruct Hh as (s & Hs & <-). rewrite (of_nil (s_inhid s) (List.concat parts)), app_nil_r; [reflexivity|]. intros y Hy. apply not_eq_sym, D; assumption.
    - apply hids_perm_in, hids_In in Hh. destruct Hh as (s & Hs & <-). rewrite (of_nil (s_inhid s) p); [reflexivity|]. intros y Hy. apply D; assumption. }
  rewrite E, flat_map_app. cbn [written]. split.
  - intros (junk & f1 & f2 & W1 & W2 & ->). rewrite write_ok in W1 by assumption. injection W1 as <-. f_equal. apply IH, W2.
  - intros ->. exists (fun _ => 0). do 2 eexists. split; [apply write_ok; assumption|]. split; [apply IH; reflexivity|reflexivity].
Qed.

Lemma offsets_ok f parts : separate parts -> offs_ok f (List.concat parts) (offsets f parts).
Proof.
  induction parts as [|p parts IH]; intros S; [split; [reflexivity|intros h; reflexivity]|]. destruct (separate_cons p parts S) as [S' D].
  unfold offsets. cbn [map List.concat]. apply offs_app; [apply recalc_ok|apply IH, S'|exact D].
Qed.
Lemma ordered_separate parts : ordered parts -> separate parts.
Proof. intros O p q a b L Ha Hb E. specialize (O p q a b L Ha Hb). lia. Qed.

Lemma round_trip f parts data file sel : (0 < val_size f)%nat -> storable f (List.concat parts) data -> separate parts ->
  (ordered parts \/ uniform f (List.concat parts)) -> written f parts data file -> incl sel (List.concat parts) ->
  exists out, read_data f true file (List.concat parts) (offsets f parts) sel = Ok out /\ Permutation out (map (stored f data) sel).
Proof.
  intros Hv St S C W Hsel. apply written_ok in W; [|assumption..]. subst file. apply read_data_ok; [exact Hv|exact St|apply offsets_ok, S|apply hids_NoDup, S|intros k; apply hids_perm_in| |exact Hsel].
  destruct C as [O|U]; [left; apply ordered_hids, O|right; exact U].
Qed.
