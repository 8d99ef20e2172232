(** Coarse channels and flags of the MWA correlators. *)
From Coq Require Import List ZArith Bool Arith Lia Sorted Permutation.
From Verif Require Import Lib.Py Lib.Np Lib.Sorting Lib.Dict Lib.Slice Lib.Cube Model.MwaCorr Spec.MwaCorrSpec Proofs.MwaCorrProofs.
Import ListNotations.
Notation length := List.length.
Open Scope list_scope.
Open Scope Z_scope.

(** * Files of coarse channels *)
Lemma none_filter {A} (f : A -> bool) l : (forall x, In x l -> f x = false) -> filter f l = [].
Proof. induction l as [|x l IH]; intros H; [reflexivity|]. cbn. rewrite H by (left; reflexivity). apply IH. intros; apply H; right; assumption. Qed.
Lemma all_filter {A} (f : A -> bool) l : (forall x, In x l -> f x = true) -> filter f l = l.
Proof. induction l as [|x l IH]; intros H; [reflexivity|]. cbn. rewrite H by (left; reflexivity). f_equal. apply IH. intros; apply H; right; assumption. Qed.
Lemma rank_up : forall l j, StronglySorted Z.lt l -> (j < length l)%nat -> count (fun d => d <? nth j l 0) l = Z.of_nat j.
Proof.
  unfold count. induction l as [|x l IH]; intros j S' H; [cbn in H; lia|]. inversion S' as [|? ? S1 F]; subst. rewrite Forall_forall in F. destruct j as [|j]; cbn [nth filter].
  - rewrite Z.ltb_irrefl. rewrite none_filter; [reflexivity|]. intros y Hy. apply Z.ltb_ge. specialize (F y Hy). lia.
  - cbn in H. assert (x < nth j l 0) by (apply F, nth_In; lia). replace (x <? nth j l 0) with true by lia. cbn [length]. specialize (IH j S1 ltac:(lia)). lia.
Qed.
Lemma rank_down : forall l j, StronglySorted Z.lt l -> (j < length l)%nat -> count (fun d => d >? nth j l 0) l = Z.of_nat (length l) - 1 - Z.of_nat j.
Proof.
  unfold count. induction l as [|x l IH]; intros j S' H; [cbn in H; lia|]. inversion S' as [|? ? S1 F]; subst. rewrite Forall_forall in F. destruct j as [|j]; cbn [nth filter].
  - replace (x >? x) with false by lia. rewrite all_filter; [cbn [length]; lia|]. intros y Hy. specialize (F y Hy). lia.
  - cbn in H. assert (x < nth j l 0) by (apply F, nth_In; lia). replace (x >? nth j l 0) with false by lia. cbn [length]. specialize (IH j S1 ltac:(lia)). lia.
Qed.
Lemma filter_filter {A} (f g : A -> bool) l : (forall x, In x l -> f x = true -> g x = true) -> filter f (filter g l) = filter f l.
Proof.
  induction l as [|x l IH]; intros H; [reflexivity|]. cbn. specialize (IH (fun y Hy => H y (or_intror Hy))).
  destruct (g x) eqn:E; cbn; rewrite IH; [reflexivity|]. destruct (f x) eqn:E2; [|reflexivity]. rewrite H in E by (auto; left; reflexivity). discriminate.
Qed.
Lemma split_perm (f g : Z -> bool) l : (forall x, g x = negb (f x)) -> Permutation (filter f l ++ filter g l) l.
Proof.
  intros H. induction l as [|x l IH]; [constructor|]. cbn. rewrite H. destruct (f x); cbn; [constructor; exact IH|].
  apply Permutation_sym, Permutation_cons_app, Permutation_sym, IH.
Qed.
Lemma mapped_perm chans : Permutation (mapped_chans chans) chans.
Proof.
  unfold mapped_chans. transitivity (filter (fun c => c <=? 128) chans ++ filter (fun c => c >? 128) chans).
  - apply Permutation_app_head, Permutation_sym, Permutation_rev.
  - apply split_perm. intros x. lia.
Qed.
Lemma mapped_holds chans j : StronglySorted Z.lt chans -> (j < length (mapped_chans chans))%nat ->
  file_holds false chans (Z.of_nat j + 1) (nth j (mapped_chans chans) 0).
Proof.
  intros S' H. assert (I : In (nth j (mapped_chans chans) 0) chans) by (apply (Permutation_in _ (mapped_perm chans)), nth_In, H).
  split; [exact I|]. unfold mapped_chans in *. set (low := filter (fun c => c <=? 128) chans) in *. set (high := filter (fun c => c >? 128) chans) in *.
  assert (SL : StronglySorted Z.lt low) by apply StronglySorted_filter, S'. assert (SH : StronglySorted Z.lt high) by apply StronglySorted_filter, S'.
  rewrite app_length, rev_length in H. destruct (Nat.lt_ge_cases j (length low)) as [L|L].
  - rewrite app_nth1 in * by exact L. set (c := nth j low 0) in *. assert (IL : In c low) by apply nth_In, L. apply filter_In in IL as [_ IL].
    rewrite IL. rewrite <- (rank_up low j SL L). fold c. unfold count, low. rewrite filter_filter by (intros; lia). lia.
  - rewrite app_nth2 in * by exact L. rewrite rev_nth in * by lia. set (m := (length high - S (j - length low))%nat) in *. assert (LM : (m < length high)%nat) by lia.
    set (c := nth m high 0) in *. assert (IH : In c high) by apply nth_In, LM. apply filter_In in IH as [_ IH].
    replace (c <=? 128) with false by lia. pose proof (rank_down high m SH LM) as R. fold c in R.
    assert (E : count (fun d => d >? c) high = count (fun d => d >? c) chans) by (unfold count, high; rewrite filter_filter by (intros; lia); reflexivity).
    rewrite <- E, R. unfold count. fold low. lia.
Qed.
Lemma ordered_len mwax chans : length (ordered_files mwax chans) = length chans.
Proof.
  unfold ordered_files. destruct mwax; [reflexivity|]. rewrite map_length, argsort_len. apply Permutation_length, mapped_perm.
Qed.
Lemma ordered_holds mwax chans i : StronglySorted Z.lt chans -> (i < length chans)%nat ->
  file_holds mwax chans (nth i (ordered_files mwax chans) 0) (nth i chans 0).
Proof.
  intros S' H. unfold ordered_files. destruct mwax; [split; [apply nth_In, H|reflexivity]|].
  assert (L : (i < length (argsortZ (mapped_chans chans)))%nat) by (rewrite argsort_len, (Permutation_length (mapped_perm chans)); exact H).
  rewrite (nth_map _ _ _ 0%nat) by exact L.
  assert (E : nth i chans 0 = nth (nth i (argsortZ (mapped_chans chans)) 0%nat) (mapped_chans chans) 0).
  { rewrite <- (nth_take 0 0) by exact L. rewrite (argsort_of (mapped_chans chans) chans S' (mapped_perm chans)). reflexivity. }
  rewrite E.
  apply mapped_holds; [exact S'|]. pose proof (nth_In _ 0%nat L) as Q. apply (argsort_by_In _ _ _) in Q. exact Q.
Qed.
Lemma holds_fun mwax chans f g c : file_holds mwax chans f c -> file_holds mwax chans g c -> f = g.
Proof. unfold file_holds. intros [_ H] [_ H']. destruct mwax; [congruence|]. destruct (c <=? 128); congruence. Qed.
Lemma ordered_NoDup mwax chans : StronglySorted Z.lt chans -> NoDup (ordered_files mwax chans).
Proof.
  intros S'. unfold ordered_files. destruct mwax; [apply StronglySorted_Zlt_NoDup, S'|].
  apply FinFun.Injective_map_NoDup; [intros x y; lia|]. eapply Permutation_NoDup; [apply Permutation_sym, argsortZ_perm|apply seq_NoDup].
Qed.
Lemma holds_at mwax chans f c : StronglySorted Z.lt chans -> file_holds mwax chans f c ->
  exists i, (i < length chans)%nat /\ nth i chans 0 = c /\ nth i (ordered_files mwax chans) 0 = f.
Proof.
  intros S' H. pose proof H as [I _]. apply (In_nth _ _ 0) in I as (i & L & E). exists i. split; [exact L|]. split; [exact E|].
  apply (holds_fun mwax chans _ _ c); [|exact H]. rewrite <- E. apply ordered_holds; auto.
Qed.
Lemma holds_inj mwax chans f c d : StronglySorted Z.lt chans -> file_holds mwax chans f c -> file_holds mwax chans f d -> c = d.
Proof.
  intros S' H H'. destruct (holds_at mwax chans f c S' H) as (i & L & <- & E). destruct (holds_at mwax chans f d S' H') as (j & L' & <- & E'). f_equal.
  apply (proj1 (NoDup_nth _ 0) (ordered_NoDup mwax chans S')); rewrite ?ordered_len; auto. congruence.
Qed.

Lemma flat_block {A B} (g : A -> list B) n d : forall l m k, (forall x, In x l -> length (g x) = n) -> (m < length l)%nat -> (k < n)%nat ->
  nth_error (flat_map g l) (m * n + k) = nth_error (g (nth m l d)) k.
Proof.
  induction l as [|x l IH]; intros m k H L K; [cbn in L; lia|]. cbn [flat_map]. pose proof (H x (or_introl eq_refl)) as E. destruct m as [|m].
  - cbn [Nat.mul nth]. rewrite Nat.add_0_l. apply nth_error_app1. lia.
  - rewrite nth_error_app2 by (cbn; lia). rewrite E. cbn [nth]. replace (S m * n + k - n)%nat with (m * n + k)%nat by (cbn; lia).
    apply IH; [intros; apply H; right; assumption|cbn in L; lia|exact K].
Qed.
Lemma spw_In mwax chans inc i : In i (spw_inds mwax chans inc) <-> (i < length chans)%nat /\ In (nth i (ordered_files mwax chans) 0) inc.
Proof.
  unfold spw_inds. rewrite (nonzero_spec 0), ordered_len. rewrite isinZ_spec. reflexivity.
Qed.
Lemma spw_sorted mwax chans inc : StronglySorted lt (spw_inds mwax chans inc).
Proof. apply nonzero_sorted. Qed.

Definition start_index mwax chans inc (i m : nat) : Prop := (m < length (spw_inds mwax chans inc))%nat /\ nth m (spw_inds mwax chans inc) 0%nat = i.
Lemma started mwax chans inc n f i : StronglySorted Z.lt chans -> (i < length chans)%nat -> nth i (ordered_files mwax chans) 0 = f -> In f inc ->
  exists m, start_index mwax chans inc i m /\ file_start mwax chans inc n f = Ok (m * n)%nat.
Proof.
  intros S' L E I. assert (J : In i (spw_inds mwax chans inc)) by (apply spw_In; rewrite E; auto).
  apply (In_nth _ _ 0%nat) in J as (m & Lm & Em). exists m. split; [split; auto|]. unfold file_start.
  assert (LF : length (file_nums mwax chans inc) = length (spw_inds mwax chans inc)) by (unfold file_nums, take; apply map_length).
  assert (NF : NoDup (file_nums mwax chans inc)).
  { unfold file_nums, take. apply (proj2 (NoDup_nth _ 0)). rewrite map_length. intros x y Lx Ly. rewrite !(nth_map _ _ _ 0%nat) by assumption. intros Q.
    apply (proj1 (NoDup_nth _ 0) (ordered_NoDup mwax chans S')) in Q.
    - apply (proj1 (NoDup_nth _ 0%nat) (StronglySorted_lt_NoDup _ (spw_sorted mwax chans inc))) in Q; auto.
    - rewrite ordered_len. apply (proj1 (spw_In mwax chans inc _)), nth_In, Lx.
    - rewrite ordered_len. apply (proj1 (spw_In mwax chans inc _)), nth_In, Ly. }
  assert (EF : nth m (file_nums mwax chans inc) 0 = f) by (unfold file_nums; rewrite (nth_take 0 0) by exact Lm; rewrite Em; exact E).
  rewrite <- EF. rewrite index_at by (auto; lia). reflexivity.
Qed.

Theorem channels mwax chans inc center cfine width n f c :
  StronglySorted Z.lt chans -> file_holds mwax chans f c -> In f inc ->
  exists s, file_start mwax chans inc n f = Ok s /\
  (consecutive chans -> forall k, (k < n)%nat ->
     nth_error (freq_array mwax chans inc center cfine width n) (s + k) =
     Some (center + (c - nth (length chans / 2) chans 0) * cfine * width + Z.of_nat k * width)) /\
  (channel_missing mwax chans inc -> forall k, (k < n)%nat -> nth_error (window_ids mwax chans inc n) (s + k) = Some c) /\
  (~ channel_missing mwax chans inc -> forall k, (k < n)%nat -> nth_error (window_ids mwax chans inc n) (s + k) = Some 0) /\
  (forall g d t, file_holds mwax chans g d -> In g inc -> c < d -> file_start mwax chans inc n g = Ok t -> (s + n <= t)%nat).
Proof.
  intros S' H I. destruct (holds_at mwax chans f c S' H) as (i & L & E & EF). destruct (started mwax chans inc n f i S' L EF I) as (m & (Lm & Em) & ->).
  exists (m * n)%nat. split; [reflexivity|].
  assert (GAP : has_gap (spw_inds mwax chans inc) = true <-> channel_missing mwax chans inc).
  { assert (G : forall l, StronglySorted lt l -> has_gap l = true <-> exists x y z, In x l /\ In z l /\ (x < y < z)%nat /\ ~ In y l).
    { clear. induction l as [|x [|y l] IH]; intros S'.
      - cbn. split; [discriminate|]. intros (x & y & z & [] & _).
      - cbn. split; [discriminate|]. intros (u & v & w & [<-|[]] & [<-|[]] & Q & _). lia.
      - inversion S' as [|? ? S1 F]; subst. rewrite Forall_forall in F. change (has_gap (x :: y :: l)) with ((1 <? y - x)%nat || has_gap (y :: l)). rewrite orb_true_iff, (IH S1).
        inversion S1 as [|? ? S2 F2]; subst. rewrite Forall_forall in F2. pose proof (F y (or_introl eq_refl)) as XY. split.
        + intros [G|(u & v & w & U & W & Q & N)].
          * apply Nat.ltb_lt in G. exists x, (S x), y. split; [left; reflexivity|]. split; [right; left; reflexivity|]. split; [lia|].
            intros [Q|[Q|Q]]; try lia. apply F2 in Q. lia.
          * exists u, v, w. split; [right; exact U|]. split; [right; exact W|]. split; [exact Q|]. intros [<-|Q']; [|contradiction]. apply F in U. lia.
        + intros (u & v & w & U & W & Q & N). destruct U as [<-|U].
          * destruct (Nat.lt_ge_cases 1 (y - x)) as [G|G]; [left; apply Nat.ltb_lt, G|right].
            assert (y <> v) by (intros ->; apply N; right; left; reflexivity).
            exists y, v, w. split; [left; reflexivity|]. split; [destruct W as [W|W]; [lia|exact W]|]. split; [lia|]. intros Q'. apply N. right. exact Q'.
          * right. exists u, v, w. split; [exact U|]. split; [destruct W as [<-|W]; [apply F in U; lia|exact W]|]. split; [exact Q|]. intros Q'. apply N. right. exact Q'. }
    rewrite (G _ (spw_sorted mwax chans inc)). pose proof (proj1 (StronglySorted_nth _ 0 chans) S') as SN. split.
    - intros (x & y & z & X & Z' & Q & N). apply spw_In in X as [LX IX]. apply spw_In in Z' as [LZ IZ].
      exists (nth x chans 0), (nth y chans 0), (nth z chans 0), (nth x (ordered_files mwax chans) 0), (nth z (ordered_files mwax chans) 0).
      split; [apply nth_In; lia|]. split; [split; apply SN; lia|]. split; [apply ordered_holds; auto|]. split; [exact IX|]. split; [apply ordered_holds; auto|]. split; [exact IZ|].
      intros h Hh Ih. apply N. apply spw_In. split; [lia|]. rewrite (holds_fun mwax chans _ h (nth y chans 0)); [exact Ih| |exact Hh]. apply ordered_holds; [exact S'|lia].
    - intros (a & b & d & f' & g & B & AB & FA & IA & GD & ID & N).
      destruct (holds_at mwax chans f' a S' FA) as (x & LX & EX & OX). destruct (holds_at mwax chans g d S' GD) as (z & LZ & EZ & OZ).
      apply (In_nth _ _ 0) in B as (y & LY & EY). exists x, y, z.
      split; [apply spw_In; rewrite OX; auto|]. split; [apply spw_In; rewrite OZ; auto|]. split.
      + assert (forall u v, (u < length chans)%nat -> (v < length chans)%nat -> nth u chans 0 < nth v chans 0 -> (u < v)%nat).
        { intros u v Lu Lv Q. destruct (Nat.lt_trichotomy u v) as [T|[->|T]]; [exact T|lia|]. specialize (SN v u T Lu). lia. }
        split; apply H0; auto; lia.
      + intros Q. apply spw_In in Q as [_ Q]. apply (N _ (eq_rect _ (fun w => file_holds mwax chans _ w) (ordered_holds mwax chans y S' LY) _ EY) Q). }
  split; [|split; [|split]].
  - intros CO k K. unfold freq_array. rewrite (flat_block _ n 0%nat) by (auto; intros; rewrite map_length, seq_length; reflexivity). rewrite Em.
    rewrite nth_error_map. rewrite (nth_error_nth' _ 0%nat) by (rewrite seq_length; exact K). rewrite seq_nth by exact K. cbn [option_map Nat.add]. f_equal.
    rewrite <- E. rewrite (CO i L). rewrite (CO (length chans / 2)%nat) by (apply Nat.div_lt; lia). f_equal. f_equal. f_equal. f_equal. lia.
  - intros C k K. apply GAP in C. unfold window_ids. rewrite C. rewrite (flat_block _ n 0%nat) by (auto; intros; apply repeat_length). rewrite Em, E.
    rewrite (nth_error_nth' _ 0) by (rewrite repeat_length; exact K). f_equal. apply (repeat_spec n), nth_In; rewrite repeat_length; exact K.
  - intros C k K. destruct (has_gap (spw_inds mwax chans inc)) eqn:HG; [exfalso; apply C, GAP; reflexivity|]. unfold window_ids. rewrite HG.
    rewrite (flat_block _ n 0%nat) by (auto; intros; apply repeat_length).
    rewrite (nth_error_nth' _ 0) by (rewrite repeat_length; exact K). f_equal. apply (repeat_spec n), nth_In; rewrite repeat_length; exact K.
  - intros g d t G IG CD T. destruct (holds_at mwax chans g d S' G) as (i' & L' & E' & EG). destruct (started mwax chans inc n g i' S' L' EG IG) as (m' & (Lm' & Em') & E2).
    rewrite E2 in T. injection T as <-.
    assert (i < i')%nat. { destruct (Nat.lt_trichotomy i i') as [Q|[->|Q]]; [exact Q|lia|]. pose proof (proj1 (StronglySorted_nth _ 0 chans) S' i' i Q L). lia. }
    assert (m < m')%nat.
    { destruct (Nat.lt_trichotomy m m') as [Q|[->|Q]]; [exact Q|lia|]. pose proof (proj1 (StronglySorted_nth _ 0%nat _) (spw_sorted mwax chans inc) m' m Q Lm). lia. }
    nia.
Qed.

(** * Flags *)
Lemma up_In a b s x : 0 < s -> In x (py_range a b s) <-> exists k, 0 <= k /\ x = a + s * k /\ x < b.
Proof.
  intros H. unfold py_range, range_len, arith. replace (s >? 0) with true by lia. rewrite in_map_iff. setoid_rewrite in_seq. destruct (Z.ltb_spec a b) as [L|L].
  - split.
    + intros (k & <- & K). exists (Z.of_nat k). split; [lia|]. split; [reflexivity|].
      assert (Z.of_nat k <= (b - a - 1) / s) by lia. pose proof (Z.mul_div_le (b - a - 1) s H). nia.
    + intros (k & K & -> & B). exists (Z.to_nat k). split; [rewrite Z2Nat.id; lia|]. assert (k <= (b - a - 1) / s) by (apply Z.div_le_lower_bound; lia). lia.
  - split; [intros (k & _ & K); lia|]. intros (k & K & -> & B). nia.
Qed.
Lemma down_In a b s x : 0 < s -> In x (py_range a b (- s)) <-> exists k, 0 <= k /\ x = a - s * k /\ b < x.
Proof.
  intros H. unfold py_range, range_len, arith. replace (- s >? 0) with false by lia. rewrite Z.opp_involutive, in_map_iff. setoid_rewrite in_seq. destruct (Z.ltb_spec b a) as [L|L].
  - split.
    + intros (k & <- & K). exists (Z.of_nat k). split; [lia|]. split; [lia|].
      assert (Z.of_nat k <= (a - b - 1) / s) by lia. pose proof (Z.mul_div_le (a - b - 1) s H). nia.
    + intros (k & K & -> & B). exists (Z.to_nat k). split; [rewrite Z2Nat.id; lia|]. assert (k <= (a - b - 1) / s) by (apply Z.div_le_lower_bound; lia). lia.
  - split; [intros (k & _ & K); lia|]. intros (k & K & -> & B). nia.
Qed.
Lemma bad_In m n e dc c : 0 < n -> 0 <= c < n * m ->
  In c (bad_chans (n * m) n e dc) <-> c mod n < e \/ n - 1 - c mod n < e \/ (dc = true /\ c mod n = n / 2).
Proof.
  intros N C. unfold bad_chans. rewrite in_app_iff, in_flat_map. setoid_rewrite range_In. setoid_rewrite in_app_iff. setoid_rewrite (up_In _ _ n); [|exact N]. setoid_rewrite down_In; [|exact N].
  pose proof (Z.div_mod c n ltac:(lia)) as DM. pose proof (Z.mod_pos_bound c n N) as R. set (q := c / n) in *. set (r := c mod n) in *.
  assert (Q : 0 <= q) by (unfold q; apply Z.div_pos; lia). split.
  - intros [(j & J & [(k & K & E & _)|(k & K & E & _)])|D].
    + left. assert (r <= j); [|lia]. assert (n * (q - k) = j - r) by lia. destruct (Z.le_gt_cases 0 (q - k)); nia.
    + right. left. assert (n - 1 - r <= j); [|lia]. assert (n * (m - 1 - q - k) = j - (n - 1 - r)) by lia. destruct (Z.le_gt_cases 0 (m - 1 - q - k)); nia.
    + right. right. destruct dc; [|destruct D]. split; [reflexivity|]. apply (up_In _ _ n) in D as (k & K & E & _); [|exact N].
      assert (0 <= n / 2 < n) by (split; [apply Z.div_pos; lia|apply Z.div_lt_upper_bound; lia]). assert (n * (q - k) = n / 2 - r) by lia. assert (q - k = 0) by nia. nia.
  - intros [G|[G|[-> G]]].
    + left. exists r. split; [lia|]. left. exists q. split; [exact Q|]. lia.
    + left. destruct (Z.eq_dec c 0) as [Z0|NZ].
      * exists 0. split; [lia|]. left. exists 0. lia.
      * exists (n - 1 - r). split; [lia|]. right. exists (m - 1 - q). split; [nia|]. split; [lia|]. lia.
    + right. apply (up_In _ _ n); [exact N|]. exists q. split; [exact Q|]. lia.
Qed.
Theorem flagged ntimes m nfine width int_time edge start stop dc flags :
  0 < width -> 0 < int_time -> 0 < nfine -> (width | edge) -> (int_time | start) -> (int_time | stop) ->
  exists r, flag_init ntimes (nfine * m) nfine width int_time edge start stop dc flags = Ok r /\
  forall t b c p, Z.of_nat t < ntimes -> Z.of_nat c < nfine * m ->
  let k := Z.of_nat c mod nfine in
  r t b c p = true <->
  flags t b c p = true \/ k * width < edge \/ (nfine - 1 - k) * width < edge \/ (dc = true /\ k = nfine / 2) \/
  Z.of_nat t * int_time < start \/ (ntimes - 1 - Z.of_nat t) * int_time < stop.
Proof.
  intros W I N (e & ->) (s & ->) (z & ->). unfold flag_init. rewrite !Z.mod_mul, !Z.div_mul by lia. cbn [Z.gtb Z.compare]. eexists. split; [reflexivity|].
  intros t b c p T C. cbv beta. rewrite !orb_true_iff, !andb_true_iff, isinZ_spec, bad_In by lia.
  replace (s >? 0) with (0 <? s) by lia. replace (z >? 0) with (0 <? z) by lia.
  rewrite !Z.ltb_lt, Z.leb_le.
  assert (A : forall x y w, 0 < w -> x * w < y * w <-> x < y) by (intros; symmetry; apply Z.mul_lt_mono_pos_r; assumption).
  rewrite !A by assumption. intuition lia.
Qed.
Theorem flag_refused ntimes nfreqs nfine width int_time edge start stop dc flags :
  0 < width -> 0 < int_time -> ~ (width | edge) \/ ~ (int_time | start) \/ ~ (int_time | stop) ->
  flag_init ntimes nfreqs nfine width int_time edge start stop dc flags = Err ValueError.
Proof.
  intros W I H. unfold flag_init.
  assert (A : forall x w, 0 < w -> (x mod w >? 0) = false -> (w | x)).
  { intros x w P E. apply Z.mod_divide; [lia|]. pose proof (Z.mod_pos_bound x w P). lia. }
  destruct (edge mod width >? 0) eqn:E1; [reflexivity|]. destruct (start mod int_time >? 0) eqn:E2; [reflexivity|]. destruct (stop mod int_time >? 0) eqn:E3; [reflexivity|].
  apply A in E1; [|exact W]. apply A in E2; [|exact I]. apply A in E3; [|exact I]. tauto.
Qed.

Lemma marked : forall marks l a, length marks = length l -> In a (mask_select marks l) <-> exists i, (i < length l)%nat /\ nth i marks false = true /\ nth i l 0 = a.
Proof.
  induction marks as [|b marks IH]; intros [|x l] a H; try discriminate; cbn [mask_select].
  - split; [intros []|]. intros (i & L & _). cbn in L. lia.
  - injection H as H. specialize (IH l a H). split.
    + destruct b; [intros [<-|Q]|intros Q].
      * exists 0%nat. cbn. repeat split; lia.
      * apply IH in Q as (i & L & M & E). exists (S i). cbn. repeat split; auto; lia.
      * apply IH in Q as (i & L & M & E). exists (S i). cbn. repeat split; auto; lia.
    + intros ([|i] & L & M & E); cbn in L, M, E.
      * subst b. left. exact E.
      * assert (In a (mask_select marks l)) by (apply IH; exists i; repeat split; auto; lia). destruct b; [right|]; assumption.
Qed.
Theorem bad_antennas ants tiles marks flags row i k t c p :
  all_antennas ants -> length tiles = 128%nat -> NoDup tiles -> length marks = 128%nat -> (i < 128)%nat -> (k < 128)%nat ->
  nth_error (pairs_of (sorted_tiles ants tiles)) row = Some (nth i tiles 0, nth k tiles 0) ->
  flag_ants ants marks flags t row c p = true <-> flags t row c p = true \/ nth i marks false = true \/ nth k marks false = true.
Proof.
  intros A LT NT LM Li Lk H. unfold flag_ants. rewrite orb_true_iff. pose proof A as (LA & NA & BA).
  apply (pairs_inv 0) in H as (x & y & XY & LY & E1 & E2 & ->). rewrite tiles_len, LA in LY. rewrite tiles_len.
  assert (AT : forall j z, (j < 128)%nat -> (z < 128)%nat -> nth j tiles 0 = nth z (sorted_tiles ants tiles) 0 -> nth j ants 0 = Z.of_nat z).
  { intros j z Lj Lz E. destruct (at_index ants (Z.of_nat z) A ltac:(lia)) as (w & Lw & Ew). pose proof (tile_at ants tiles w A Lw) as T. rewrite Ew, Nat2Z.id in T.
    rewrite T in E. apply (proj1 (NoDup_nth tiles 0) NT) in E; [|lia|lia]. subst w. exact Ew. }
  apply AT in E1; [|lia|lia]. apply AT in E2; [|lia|lia].
  unfold bad_rows. rewrite LA.
  pose proof (pairs_nth 0%nat (seq 0 128) x y XY ltac:(rewrite seq_length; exact LY)) as P. rewrite seq_length in P. rewrite !seq_nth in P by lia.
  assert (M : forall j z, (j < 128)%nat -> nth j ants 0 = Z.of_nat z -> isinZ (Z.of_nat z) (mask_select marks ants) = true <-> nth j marks false = true).
  { intros j z Lj Ej. rewrite isinZ_spec, marked by lia. rewrite LA. split.
    - intros (w & Lw & Mw & Ew). rewrite <- Ej in Ew. apply (proj1 (NoDup_nth ants 0) NA) in Ew; [|lia|lia]. subst w. exact Mw.
    - intros Mj. exists j. auto. }
  erewrite nth_error_nth by (rewrite nth_error_map, P; reflexivity). cbn [fst snd Nat.add]. rewrite orb_true_iff, (M i x Li E1), (M k y Lk E2). reflexivity.
Qed.
