(** find_clusters returns the isolated cliques of the nearness graph. *)
From Coq Require Import List ZArith Bool Lia Permutation Sorted.
From Verif Require Import Lib.Py Lib.Sorting Lib.Np Model.Redundancy Spec.RedundancySpec.
Import ListNotations.
Open Scope Z_scope.

(** ** Distances *)

Lemma dist2_sqdist v w : dist2 v w = sqdist v w.
Proof.
  revert w; induction v as [|x v IH]; intros [|y w]; try reflexivity.
  unfold dist2 in *. simpl. rewrite IH. lia.
Qed.

Lemma within_near tol v w : within tol v w = true <-> near tol v w.
Proof.
  unfold within, near. rewrite dist2_sqdist, Bool.andb_true_iff, !Z.ltb_lt.
  replace (tol ^ 2) with (tol * tol) by lia. reflexivity.
Qed.

Lemma sqdist_nonneg v w : 0 <= sqdist v w.
Proof. revert w; induction v as [|x v IH]; intros [|y w]; simpl; try lia. specialize (IH w). nia. Qed.

Lemma sqdist_sym v w : sqdist v w = sqdist w v.
Proof. revert w; induction v as [|x v IH]; intros [|y w]; simpl; try lia. rewrite (IH w). lia. Qed.

Lemma near_sym tol v w : near tol v w -> near tol w v.
Proof. unfold near. rewrite (sqdist_sym v w). tauto. Qed.

Lemma linked_sym tol vecs i j : linked tol vecs i j -> linked tol vecs j i.
Proof. intros [->|H]; [left; reflexivity|right; apply near_sym; exact H]. Qed.

Lemma linked_refl tol vecs i : linked tol vecs i i.
Proof. left. reflexivity. Qed.

Lemma near_x tol v w : (1 <= length v)%nat -> (1 <= length w)%nat -> near tol v w ->
  0 < tol /\ Z.abs (nth 0 v 0 - nth 0 w 0) < tol.
Proof.
  intros Hv Hw [Ht H]. split; [exact Ht|].
  destruct v as [|x v], w as [|y w]; simpl in *; try lia.
  pose proof (sqdist_nonneg v w). nia.
Qed.

(** ** Splitting *)

Lemma concat_cut {A} sizes (l : list A) : concat (cut sizes l) = firstn (list_sum sizes) l.
Proof.
  revert l; induction sizes as [|s t IH]; intros l; [reflexivity|].
  simpl. rewrite IH. clear IH. revert l. induction s as [|s IHs]; intros l; [reflexivity|].
  destruct l as [|x l]; simpl; [rewrite firstn_nil; reflexivity|]. rewrite IHs. reflexivity.
Qed.

Lemma list_sum_repeat k n : list_sum (repeat k n) = (n * k)%nat.
Proof. induction n; simpl; lia. Qed.

Lemma concat_array_split {A} (l : list A) n : n <> O -> concat (array_split l n) = l.
Proof.
  intros Hn. unfold array_split. rewrite concat_cut, list_sum_app, !list_sum_repeat.
  pose proof (Nat.div_mod (length l) n Hn). pose proof (Nat.mod_upper_bound (length l) n Hn).
  rewrite firstn_all2; [reflexivity|]. nia.
Qed.

Lemma cut_nonempty {A} sizes (l : list A) b :
  Forall (fun s => s <> O) sizes -> (list_sum sizes <= length l)%nat ->
  In b (cut sizes l) -> b <> [].
Proof.
  revert l; induction sizes as [|s t IH]; intros l Hs Hl Hb; [destruct Hb|].
  inversion Hs; subst. simpl in Hl, Hb. destruct Hb as [<-|Hb].
  - intros E. apply (f_equal (@length A)) in E. rewrite firstn_length in E. simpl in E. lia.
  - apply (IH (skipn s l)); auto. rewrite skipn_length. lia.
Qed.

Lemma array_split_nonempty {A} (l : list A) n b :
  (1 <= n <= length l)%nat -> In b (array_split l n) -> b <> [].
Proof.
  intros Hn. unfold array_split.
  assert (Hd : (1 <= length l / n)%nat) by (apply Nat.div_le_lower_bound; lia).
  pose proof (Nat.div_mod (length l) n ltac:(lia)). pose proof (Nat.mod_upper_bound (length l) n ltac:(lia)).
  apply cut_nonempty.
  - apply Forall_app. split; apply Forall_forall; intros s Hs; apply repeat_spec in Hs; lia.
  - rewrite list_sum_app, !list_sum_repeat. nia.
Qed.

(** ** Adjacency *)

Lemma nth_set_nth {A} i (v : A) l k d :
  nth k (set_nth i v l) d = if (Nat.eqb k i && (i <? length l)%nat)%bool then v else nth k l d.
Proof.
  revert i k; induction l as [|x l IH]; intros i k.
  - destruct i; simpl; rewrite Bool.andb_false_r; reflexivity.
  - destruct i as [|i], k as [|k]; simpl; try reflexivity. rewrite IH. reflexivity.
Qed.

Section Adj.
  Variables (vecs : list (list Z)) (tol : Z).
  Let w i j := within tol (nth i vecs []) (nth j vecs []).
  Let stp b2 := fun adj i => set_nth i (uniqueN (nth i adj [] ++ filter (w i) b2)) adj.

  Lemma inner_links b2 b1 adj : Forall (fun i => (i < length adj)%nat) b1 ->
    length (fold_left (stp b2) b1 adj) = length adj
    /\ (Forall (StronglySorted lt) adj -> Forall (StronglySorted lt) (fold_left (stp b2) b1 adj))
    /\ (forall k j, In j (nth k (fold_left (stp b2) b1 adj) []) <->
          In j (nth k adj []) \/ (In k b1 /\ In j b2 /\ w k j = true)).
  Proof.
    revert adj; induction b1 as [|i b1 IH]; intros adj Hb.
    - simpl. split; [reflexivity|]. split; [tauto|]. intros; tauto.
    - inversion Hb as [|? ? Hi Hb']; subst. simpl.
      destruct (IH (stp b2 adj i)) as (HL & HS & HM).
      { unfold stp. rewrite set_nth_length. exact Hb'. }
      split; [rewrite HL; unfold stp; apply set_nth_length|]. split.
      + intros Hs. apply HS. unfold stp. rewrite Forall_forall in *. intros l Hl.
        destruct (In_nth _ _ [] Hl) as (k & Hk & <-). rewrite set_nth_length in Hk.
        rewrite nth_set_nth. destruct (_ && _)%bool; [apply uniqueN_sorted|].
        apply Hs, nth_In. exact Hk.
      + intros k j. rewrite HM. unfold stp at 1. rewrite nth_set_nth.
        destruct (Nat.eqb_spec k i) as [->|Hne]; simpl.
        * rewrite (proj2 (Nat.ltb_lt _ _) Hi). rewrite uniqueN_In, in_app_iff, filter_In. tauto.
        * split; [intros [H|(H1&H2&H3)]; auto|intros [H|([E|H1]&H2&H3)]; auto].
          congruence.
  Qed.

  Lemma links pairs adj :
    Forall (fun bb => Forall (fun i => (i < length adj)%nat) (fst bb)) pairs ->
    length (fold_left (link_blocks vecs tol) pairs adj) = length adj
    /\ (Forall (StronglySorted lt) adj ->
        Forall (StronglySorted lt) (fold_left (link_blocks vecs tol) pairs adj))
    /\ (forall k j, In j (nth k (fold_left (link_blocks vecs tol) pairs adj) []) <->
          In j (nth k adj []) \/
          exists b1 b2, In (b1, b2) pairs /\ apart vecs tol b1 b2 = false
                        /\ In k b1 /\ In j b2 /\ w k j = true).
  Proof.
    revert adj; induction pairs as [|[b1 b2] pairs IH]; intros adj Hb.
    - simpl. split; [reflexivity|]. split; [tauto|]. intros; split; [tauto|]. intros [H|(?&?&[]&_)]. exact H.
    - inversion Hb as [|? ? Hi Hb']; subst. simpl in Hi. cbn [fold_left link_blocks].
      destruct (apart vecs tol b1 b2) eqn:EA.
      + destruct (IH adj Hb') as (HL & HS & HM). split; [exact HL|]. split; [exact HS|].
        intros k j. rewrite HM. split; (intros [H|(c1&c2&H1&H2)]; [tauto|right; exists c1, c2]).
        * split; [right; exact H1|exact H2].
        * destruct H1 as [E|H1]; [inversion E; subst; destruct H2; congruence|]. tauto.
      + destruct (inner_links b2 b1 adj Hi) as (HL0 & HS0 & HM0).
        fold (stp b2) in *. change (fun adj0 i => _) with (stp b2).
        destruct (IH (fold_left (stp b2) b1 adj)) as (HL & HS & HM).
        { rewrite HL0. exact Hb'. }
        split; [congruence|]. split; [auto|].
        intros k j. rewrite HM, HM0. split.
        * intros [[H|H]|(c1&c2&H1&H2)]; [tauto|right; exists b1, b2; simpl; tauto|].
          right. exists c1, c2. split; [right; exact H1|exact H2].
        * intros [H|(c1&c2&[E|H1]&H2)]; [tauto| |right; exists c1, c2; tauto].
          inversion E; subst. tauto.
  Qed.
End Adj.

Lemma sorted_hd_last (f : nat -> Z) b k :
  StronglySorted (fun i j => f i <= f j) b -> In k b -> f (hd O b) <= f k <= f (last b O).
Proof.
  induction b as [|x b IH]; intros Hs Hk; [destruct Hk|].
  inversion Hs as [|? ? Hs' HF]; subst. rewrite Forall_forall in HF.
  assert (Hl : f x <= f (last (x :: b) O)).
  { destruct b as [|y b]; [simpl; lia|]. cbn [last].
    apply HF. clear. revert y; induction b as [|z b IH]; intros y; [left; reflexivity|]. right. apply IH. }
  destruct Hk as [<-|Hk]; [simpl hd; lia|].
  specialize (IH Hs' Hk). pose proof (HF k Hk). simpl hd.
  destruct b as [|y b]; [destruct Hk|]. cbn [last] in *. lia.
Qed.

Lemma sorted_concat {A} (R : A -> A -> Prop) ll b :
  StronglySorted R (concat ll) -> In b ll -> StronglySorted R b.
Proof.
  induction ll as [|a ll IH]; intros Hs Hb; [destruct Hb|]. simpl in Hs.
  assert (Happ : StronglySorted R a /\ StronglySorted R (concat ll)).
  { clear - Hs. induction a as [|x a IH]; simpl in *; [split; [constructor|exact Hs]|].
    inversion Hs as [|? ? H1 H2]; subst. destruct (IH H1) as [Ha Hc]. split; [|exact Hc].
    constructor; [exact Ha|]. apply Forall_app in H2. tauto. }
  destruct Hb as [<-|Hb]; tauto.
Qed.

(** What the adjacency lists are supposed to be: the sorted lists of the linked locations. *)
Definition neighbourhoods (tol : Z) (vecs : list (list Z)) (adj : list (list nat)) : Prop :=
  length adj = length vecs
  /\ forall k, (k < length vecs)%nat ->
       StronglySorted lt (nth k adj [])
       /\ forall j, In j (nth k adj []) <-> (j < length vecs)%nat /\ linked tol vecs k j.

Lemma adj_list_blocks d vecs tol nb : shaped d vecs -> (1 <= nb <= length vecs)%nat ->
  exists adj, adj_list vecs tol (Some nb) = Ok adj /\ neighbourhoods tol vecs adj.
Proof.
  intros [Hd Hsh] Hnb. unfold adj_list.
  destruct (Nat.eqb_spec nb 0) as [?|_]; [lia|].
  set (order := argsortZ _). set (blocks := array_split order nb).
  assert (HP : Permutation order (seq 0 (length vecs))).
  { unfold order. rewrite argsortZ_perm, map_length. reflexivity. }
  assert (HC : concat blocks = order) by (apply concat_array_split; lia).
  assert (HL : length order = length vecs) by (rewrite (Permutation_length HP), seq_length; reflexivity).
  assert (Hin : forall i, In i order <-> (i < length vecs)%nat).
  { intros i. split; intros H.
    - apply (Permutation_in _ HP), in_seq in H. lia.
    - apply (Permutation_in _ (Permutation_sym HP)), in_seq. lia. }
  assert (HS : StronglySorted (fun i j => xcoord vecs i <= xcoord vecs j) order).
  { pose proof (argsortZ_sorted (map (fun v => nth 0 v 0) vecs)) as H. fold order in H.
    unfold take in H. apply (proj2 (StronglySorted_map _ _ _)) in H.
    assert (Hb : Forall (fun i => (i < length vecs)%nat) order) by (apply Forall_forall; intros i Hi; apply Hin; exact Hi).
    clear - H Hb. induction order as [|i o IH]; constructor; inversion H; inversion Hb; subst; auto.
    rewrite Forall_forall in *. intros j Hj.
    specialize (H3 j Hj). specialize (H7 j Hj). unfold xcoord.
    rewrite !(nth_map (fun v => nth 0 v 0) vecs _ [] 0) in H3 by assumption. exact H3. }
  destruct (existsb _ blocks) eqn:EB.
  { exfalso. apply existsb_exists in EB. destruct EB as (b & Hb & E). apply Nat.eqb_eq in E.
    apply (array_split_nonempty order nb b) in Hb; [|lia]. destruct b; [congruence|discriminate]. }
  eexists; split; [reflexivity|].
  set (adj0 := map (fun k => [k]) (seq 0 (length vecs))).
  assert (HL0 : length adj0 = length vecs) by (unfold adj0; rewrite map_length, seq_length; reflexivity).
  destruct (links vecs tol (list_prod blocks blocks) adj0) as (A & B & C).
  { apply Forall_forall. intros [b1 b2] Hb. apply in_prod_iff in Hb. simpl.
    apply Forall_forall. intros i Hi. rewrite HL0. apply Hin. rewrite <- HC. apply in_concat. eauto with *.
    exists b1. tauto. }
  split; [congruence|]. intros k Hk. split.
  - apply (proj1 (Forall_forall _ _) (B ltac:(apply Forall_forall; clear;
      intros l Hl; apply in_map_iff in Hl; destruct Hl as (x & <- & _); repeat constructor))).
    apply nth_In. rewrite A, HL0. exact Hk.
  - intros j. rewrite C.
    assert (Ek : nth k adj0 [] = [k]).
    { unfold adj0. rewrite (nth_map (fun k => [k]) _ _ O []) by (rewrite seq_length; exact Hk).
      rewrite seq_nth by exact Hk. reflexivity. }
    rewrite Ek. unfold linked. split.
    + intros [[<-|[]]|(b1&b2&Hb&_&H1&H2&Hw)]; [split; [exact Hk|left; reflexivity]|].
      split; [|right; apply within_near; exact Hw].
      apply in_prod_iff in Hb. apply Hin. rewrite <- HC. apply in_concat. exists b2. tauto.
    + intros [Hj [<-|Hn]]; [left; left; reflexivity|right].
      apply Hin in Hj. rewrite <- HC in Hj. apply in_concat in Hj. destruct Hj as (b2 & Hb2 & Hj).
      pose proof (proj2 (Hin k) Hk) as Hk'. rewrite <- HC in Hk'. apply in_concat in Hk'.
      destruct Hk' as (b1 & Hb1 & Hk').
      exists b1, b2. split; [apply in_prod_iff; tauto|].
      split; [|split; [exact Hk'|split; [exact Hj|apply within_near; exact Hn]]].
      assert (Hj2 : (j < length vecs)%nat).
      { apply Hin. rewrite <- HC. apply in_concat. exists b2. tauto. }
      rewrite <- HC in HS.
      pose proof (sorted_hd_last _ _ _ (sorted_concat _ _ _ HS Hb1) Hk') as X1.
      pose proof (sorted_hd_last _ _ _ (sorted_concat _ _ _ HS Hb2) Hj) as X2.
      destruct (near_x tol (nth k vecs []) (nth j vecs [])) as [Ht Hx].
      { rewrite Hsh; [exact Hd|apply nth_In; exact Hk]. }
      { rewrite Hsh; [exact Hd|apply nth_In; exact Hj2]. }
      { exact Hn. }
      unfold apart. rewrite Z.gtb_ltb. apply Z.ltb_ge.
      change (nth 0 (nth k vecs []) 0) with (xcoord vecs k) in Hx.
      change (nth 0 (nth j vecs []) 0) with (xcoord vecs j) in Hx. lia.
Qed.

Lemma adj_list_default d vecs tol : shaped d vecs -> vecs <> [] ->
  exists adj, adj_list vecs tol None = Ok adj /\ neighbourhoods tol vecs adj.
Proof.
  intros Hsh Hne.
  destruct (adj_list_blocks d vecs tol (Z.to_nat (Z.max (Z.of_nat (length vecs) / 1024) 1)) Hsh) as (adj & H).
  - assert (length vecs <> O) by (destruct vecs; [congruence|discriminate]).
    assert (Z.of_nat (length vecs) / 1024 <= Z.of_nat (length vecs)) by (apply Z.div_le_upper_bound; lia).
    lia.
  - exists adj. exact H.
Qed.

(** ** Cliques *)

Lemma same_set_eq a b : same_set a b = true <-> a = b.
Proof. unfold same_set. destruct (list_eq_dec Nat.eq_dec a b); split; congruence. Qed.

Lemma fold_visit l v : length (fold_left (fun v i => set_nth i true v) l v) = length v
  /\ forall k, nth k (fold_left (fun v i => set_nth i true v) l v) false = true <->
       nth k v false = true \/ (In k l /\ (k < length v)%nat).
Proof.
  revert v; induction l as [|i l IH]; intros v; simpl.
  - split; [reflexivity|]. intros; tauto.
  - destruct (IH (set_nth i true v)) as [HL HM]. rewrite set_nth_length in HL, HM.
    split; [exact HL|]. intros k. rewrite HM, nth_set_nth.
    destruct (Nat.eqb_spec k i) as [->|Hne]; simpl.
    + destruct (Nat.ltb_spec i (length v)).
      * split; auto.
      * split; [intros [A|[A B]]; auto|intros [A|[A B]]; auto; lia].
    + split; [intros [A|[A B]]; auto|intros [A|[[A|A] B]]; auto; congruence].
Qed.

Section Cliques.
  Variable (adj : list (list nat)).
  Hypothesis self : forall k, (k < length adj)%nat -> In k (nth k adj []).
  Hypothesis bound : forall k j, (k < length adj)%nat -> In j (nth k adj []) -> (j < length adj)%nat.
  Let clique k := forall it, In it (nth k adj []) -> nth it adj [] = nth k adj [].

  Lemma clique_run n : (n <= length adj)%nat ->
    let '(visited, gps) := fold_left (clique_step adj) (seq 0 n) (repeat false (length adj), []) in
    length visited = length adj
    /\ (forall j, nth j visited false = true ->
          (j < n)%nat \/ exists g, In g gps /\ In j g)
    /\ (forall k, (k < n)%nat -> clique k -> In (nth k adj []) gps)
    /\ (forall g, In g gps -> exists k, (k < length adj)%nat /\ clique k /\ g = nth k adj []
                              /\ forall j, In j g -> nth j visited false = true)
    /\ NoDup gps.
  Proof.
    induction n as [|n IH]; intros Hn.
    - simpl. rewrite repeat_length. split; [reflexivity|]. split; [|split; [|split]].
      + intros j Hj. exfalso. rewrite nth_repeat in Hj. discriminate.
      + lia.
      + intros g [].
      + constructor.
    - rewrite seq_S, fold_left_app. simpl.
      destruct (fold_left (clique_step adj) (seq 0 n) _) as [visited gps].
      specialize (IH ltac:(lia)). destruct IH as (HL & HV & HC & HG & HN).
      unfold clique_step. destruct (nth n visited false) eqn:EV.
      + split; [exact HL|]. split; [intros j Hj; destruct (HV j Hj); [left; lia|right; assumption]|].
        split; [|split; assumption].
        intros k Hk Hck. assert (k < n \/ k = n)%nat as [Hlt | ->] by lia; [apply HC; assumption|].
        destruct (HV n EV) as [?|(g & Hg & Hng)]; [lia|].
        destruct (HG g Hg) as (k0 & _ & Hc0 & Eg & _). rewrite (Hc0 n) by (rewrite <- Eg; exact Hng).
        rewrite <- Eg. exact Hg.
      + destruct (forallb _ _) eqn:EF.
        * destruct (fold_visit (nth n adj []) (set_nth n true visited)) as [HL' HV'].
          rewrite set_nth_length in HL', HV'.
          assert (Hcl : clique n).
          { intros it Hit. rewrite forallb_forall in EF. apply same_set_eq, EF. exact Hit. }
          split; [congruence|]. split; [|split; [|split]].
          -- intros j Hj. apply HV' in Hj. destruct Hj as [Hj|[Hj _]].
             ++ rewrite nth_set_nth in Hj. destruct (Nat.eqb_spec j n); simpl in Hj; [left; lia|].
                destruct (HV j Hj) as [?|(g & ? & ?)]; [left; lia|right; exists g; rewrite in_app_iff; tauto].
             ++ right. exists (nth n adj []). rewrite in_app_iff. simpl. tauto.
          -- intros k Hk Hck. rewrite in_app_iff.
             assert (k < n \/ k = n)%nat as [Hlt | ->] by lia; [left; apply HC; assumption|right; left; reflexivity].
          -- intros g Hg. apply in_app_iff in Hg. destruct Hg as [Hg|[<-|[]]].
             ++ destruct (HG g Hg) as (k & Hk & Hc & E & Hv). exists k. repeat split; auto.
                intros j Hj. apply HV'. left. rewrite nth_set_nth.
                destruct (_ && _)%bool; [reflexivity|apply Hv; exact Hj].
             ++ exists n. repeat split; auto. intros j Hj. apply HV'. right.
                split; [exact Hj|]. rewrite HL. apply (bound n); [lia|exact Hj].
          -- apply NoDup_rev in HN. rewrite <- (rev_involutive (gps ++ _)). apply NoDup_rev.
             rewrite rev_app_distr. simpl. constructor; [|exact HN]. rewrite <- in_rev. intros Hin.
             destruct (HG _ Hin) as (k & Hk & Hc & E & Hv).
             rewrite (Hv n) in EV; [discriminate|]. apply self. lia.
        * split; [rewrite set_nth_length; exact HL|]. split; [|split; [|split]].
          -- intros j Hj. rewrite nth_set_nth in Hj. destruct (Nat.eqb_spec j n); simpl in Hj; [left; lia|].
             destruct (HV j Hj); [left; lia|right; assumption].
          -- intros k Hk Hck. assert (k < n \/ k = n)%nat as [Hlt | ->] by lia; [apply HC; assumption|].
             exfalso. apply Bool.not_true_iff_false in EF. apply EF. apply forallb_forall. intros it Hit.
             apply same_set_eq, Hck. exact Hit.
          -- intros g Hg. destruct (HG g Hg) as (k & Hk & Hc & E & Hv). exists k. repeat split; auto.
             intros j Hj. rewrite nth_set_nth. destruct (_ && _)%bool; [reflexivity|apply Hv; exact Hj].
          -- exact HN.
  Qed.

  Lemma clique_groups :
    let gps := snd (fold_left (clique_step adj) (seq 0 (length adj)) (repeat false (length adj), [])) in
    NoDup gps /\ forall g, In g gps <-> exists k, (k < length adj)%nat /\ clique k /\ g = nth k adj [].
  Proof.
    pose proof (clique_run (length adj) (le_n _)) as H.
    destruct (fold_left _ _ _) as [visited gps]. destruct H as (_ & _ & HC & HG & HN). simpl.
    split; [exact HN|]. intros g. split.
    - intros Hg. destruct (HG g Hg) as (k & ? & ? & ? & _). exists k. auto.
    - intros (k & Hk & Hc & ->). apply HC; assumption.
  Qed.
End Cliques.

(** ** From adjacency to cliques of the graph *)

Section Graph.
  Variables (tol : Z) (vecs : list (list Z)) (adj : list (list nat)).
  Hypothesis HA : neighbourhoods tol vecs adj.

  Lemma adj_len : length adj = length vecs. Proof. apply HA. Qed.
  Lemma adj_In k j : (k < length vecs)%nat ->
    In j (nth k adj []) <-> (j < length vecs)%nat /\ linked tol vecs k j.
  Proof. intros Hk. apply (proj2 HA k Hk). Qed.

  Lemma isolated_is_clique g : isolated_clique tol vecs g <->
    exists k, (k < length adj)%nat
              /\ (forall it, In it (nth k adj []) -> nth it adj [] = nth k adj [])
              /\ g = nth k adj [].
  Proof.
    rewrite adj_len. split.
    - intros (Hne & Hs & Hb & Hc & Hi).
      assert (Hall : forall k, In k g -> nth k adj [] = g).
      { intros k Hk. pose proof (Hb k Hk) as Hk'. apply (sorted_unique lt); try (intros; lia); auto.
        - apply HA. exact Hk'.
        - intros j. rewrite (adj_In k j Hk'). split.
          + intros [Hj Hl]. apply (Hi k); assumption.
          + intros Hj. split; [apply Hb; exact Hj|apply Hc; assumption]. }
      destruct g as [|k g]; [congruence|]. exists k.
      assert (Hk : In k (k :: g)) by (left; reflexivity).
      split; [apply Hb; exact Hk|]. rewrite (Hall k Hk). split; [exact Hall|reflexivity].
    - intros (k & Hk & Hc & ->).
      assert (Hkk : In k (nth k adj [])) by (apply adj_In; [exact Hk|split; [exact Hk|apply linked_refl]]).
      split; [intros E; rewrite E in Hkk; destruct Hkk|]. split; [apply HA; exact Hk|].
      split; [intros i Hi; apply (adj_In k i Hk) in Hi; tauto|].
      split.
      + intros i j Hi Hj. rewrite <- (Hc i Hi) in Hj. apply adj_In in Hj; [tauto|].
        apply (adj_In k i Hk) in Hi. tauto.
      + intros i j Hi Hj Hl. rewrite <- (Hc i Hi). apply adj_In; [|tauto].
        apply (adj_In k i Hk) in Hi. tauto.
  Qed.

  Lemma cliques_spec strict gps : find_cliques adj strict = Ok gps ->
    NoDup (concat gps) /\ (forall g, In g gps <-> isolated_clique tol vecs g)
    /\ (strict = true -> forall i, (i < length vecs)%nat -> In i (concat gps)).
  Proof.
    unfold find_cliques. intros H.
    pose proof (clique_groups adj) as G.
    destruct (fold_left _ _ _) as [visited gps0]. simpl in G.
    destruct G as [HN HG].
    { intros k Hk. rewrite adj_len in Hk. apply adj_In; [exact Hk|split; [exact Hk|apply linked_refl]]. }
    { intros k j Hk Hj. rewrite adj_len in *. apply (adj_In k j Hk) in Hj. tauto. }
    assert (HG' : forall g, In g gps0 <-> isolated_clique tol vecs g).
    { intros g. rewrite HG. symmetry. apply isolated_is_clique. }
    assert (E : gps = gps0 /\ (strict = true -> forallb (fun st => memb same_set st gps0) adj = true)).
    { destruct strict; simpl in H.
      - destruct (forallb _ adj); simpl in H; inversion H. auto.
      - inversion H. split; [reflexivity|discriminate]. }
    destruct E as [-> Hst]. split; [|split; [exact HG'|]].
    - assert (Hd : forall g1 g2 i, In g1 gps0 -> In g2 gps0 -> In i g1 -> In i g2 -> g1 = g2).
      { intros g1 g2 i H1 H2 I1 I2. apply HG in H1, H2.
        destruct H1 as (k1 & _ & C1 & ->). destruct H2 as (k2 & _ & C2 & ->).
        rewrite <- (C1 i I1). apply C2. exact I2. }
      assert (Hs : forall g, In g gps0 -> NoDup g).
      { intros g Hg. apply HG' in Hg. destruct Hg as (_ & Hs & _). clear - Hs.
        induction Hs as [|x l Hl IH HF]; constructor; auto. intros Hin. rewrite Forall_forall in HF.
        specialize (HF x Hin). lia. }
      clear - HN Hd Hs. induction gps0 as [|g t IH]; [constructor|]. inversion HN; subst. simpl.
      assert (IH' : NoDup (concat t)).
      { apply IH; auto; [intros; eapply Hd; eauto; right; assumption|intros; apply Hs; right; assumption]. }
      assert (Hsep : forall i, In i g -> ~ In i (concat t)).
      { intros i Hi Hc. apply in_concat in Hc. destruct Hc as (g2 & Hg2 & Hi2).
        assert (g = g2) by (apply (Hd g g2 i); simpl; auto). subst. contradiction. }
      pose proof (Hs g (or_introl eq_refl)) as Hg. clear - IH' Hsep Hg.
      induction Hg as [|x l Hx Hl IHl]; [exact IH'|]. simpl. constructor.
      + rewrite in_app_iff. intros [?|?]; [contradiction|]. apply (Hsep x); [left; reflexivity|assumption].
      + apply IHl. intros i Hi. apply Hsep. right. exact Hi.
    - intros Es i Hi. specialize (Hst Es). rewrite forallb_forall in Hst.
      specialize (Hst (nth i adj [])). apply in_concat. exists (nth i adj []). split.
      + apply (memb_spec same_set same_set_eq), Hst, nth_In. rewrite adj_len. exact Hi.
      + apply adj_In; [exact Hi|split; [exact Hi|apply linked_refl]].
  Qed.

  Lemma cliques_total : exists gps, find_cliques adj false = Ok gps.
  Proof. unfold find_cliques. destruct (fold_left _ _ _). simpl. eauto. Qed.

  Lemma cliques_strict_fails :
    (exists e, find_cliques adj true = Err e) <->
    exists i j k, (i < length vecs)%nat /\ (j < length vecs)%nat /\ (k < length vecs)%nat
      /\ linked tol vecs i j /\ linked tol vecs j k /\ ~ linked tol vecs i k.
  Proof.
    unfold find_cliques.
    pose proof (clique_groups adj) as G.
    destruct (fold_left _ _ _) as [visited gps]. simpl in G. simpl.
    destruct G as [HN HG].
    { intros k Hk. rewrite adj_len in Hk. apply adj_In; [exact Hk|split; [exact Hk|apply linked_refl]]. }
    { intros k j Hk Hj. rewrite adj_len in *. apply (adj_In k j Hk) in Hj. tauto. }
    assert (HD : forall i k, linked tol vecs i k \/ ~ linked tol vecs i k).
    { intros i k. unfold linked. destruct (Nat.eq_dec i k) as [->|Hne]; [left; left; reflexivity|].
      destruct (within tol (nth i vecs []) (nth k vecs [])) eqn:E.
      - left. right. apply within_near. exact E.
      - right. intros [?|Hn]; [contradiction|]. apply within_near in Hn. congruence. }
    destruct (forallb _ adj) eqn:EF; simpl.
    - split; [intros [e He]; discriminate|]. intros (i & j & k & Hi & Hj & Hk & L1 & L2 & L3). exfalso.
      rewrite forallb_forall in EF.
      assert (Hg : In (nth j adj []) gps).
      { apply (memb_spec same_set same_set_eq), EF, nth_In. rewrite adj_len. exact Hj. }
      apply HG in Hg. apply isolated_is_clique in Hg. destruct Hg as (_ & _ & _ & Hc & _).
      apply L3, Hc; apply adj_In; auto using linked_sym.
    - split; [|intros _; eauto]. intros _.
      apply Bool.not_true_iff_false in EF.
      assert (Hx : exists j, (j < length vecs)%nat /\ ~ In (nth j adj []) gps).
      { assert (exists st, In st adj /\ memb same_set st gps = false) as (st & Hst & Hm).
        { clear - EF. induction adj as [|a l IH]; [exfalso; apply EF; reflexivity|].
          simpl in EF. destruct (memb same_set a gps) eqn:E.
          - destruct IH as (st & ? & ?); [exact EF|]. exists st. simpl. auto.
          - exists a. simpl. auto. }
        destruct (In_nth _ _ [] Hst) as (j & Hj & <-). exists j. split; [rewrite <- adj_len; exact Hj|].
        rewrite <- (memb_spec same_set same_set_eq). congruence. }
      destruct Hx as (j & Hj & Hnin).
      (* some member's neighbourhood differs *)
      assert (Hb : exists it, In it (nth j adj []) /\ nth it adj [] <> nth j adj []).
      { destruct (forallb (fun it => same_set (nth it adj []) (nth j adj [])) (nth j adj [])) eqn:E.
        - exfalso. apply Hnin, HG. exists j. rewrite adj_len. split; [exact Hj|]. split; [|reflexivity].
          intros it Hit. rewrite forallb_forall in E. apply same_set_eq, E. exact Hit.
        - revert E. generalize (nth j adj []) at 2 3 as l0. clear. intros l0 E.
          induction l0 as [|x l IH]; [discriminate|]. simpl in E. destruct (same_set (nth x adj []) (nth j adj [])) eqn:Es.
          + destruct (IH E) as (it & ? & ?). exists it. simpl. auto.
          + exists x. split; [left; reflexivity|]. intros H. apply same_set_eq in H. congruence. }
      destruct Hb as (it & Hit & Hne). apply (adj_In j it Hj) in Hit. destruct Hit as [Hit Hl].
      (* find an element in one but not the other *)
      assert (Hd : exists x, (In x (nth it adj []) /\ ~ In x (nth j adj []))
                             \/ (In x (nth j adj []) /\ ~ In x (nth it adj []))).
      { destruct (existsb (fun x => negb (isinN x (nth j adj []))) (nth it adj [])) eqn:E1.
        - apply existsb_exists in E1. destruct E1 as (x & H1 & H2). exists x. left. split; [exact H1|].
          apply isinN_false. apply Bool.negb_true_iff. exact H2.
        - destruct (existsb (fun x => negb (isinN x (nth it adj []))) (nth j adj [])) eqn:E2.
          + apply existsb_exists in E2. destruct E2 as (x & H1 & H2). exists x. right. split; [exact H1|].
            apply isinN_false. apply Bool.negb_true_iff. exact H2.
          + exfalso. apply Hne. apply (sorted_unique lt); try (intros; lia); try (apply HA; assumption).
            apply Bool.not_true_iff_false in E1, E2.
            intros x. split; intros Hx.
            * destruct (isinN x (nth j adj [])) eqn:E; [apply isinN_spec; exact E|].
              exfalso. apply E1. apply existsb_exists. exists x. rewrite E. auto.
            * destruct (isinN x (nth it adj [])) eqn:E; [apply isinN_spec; exact E|].
              exfalso. apply E2. apply existsb_exists. exists x. rewrite E. auto. }
      destruct Hd as (x & [[H1 H2]|[H1 H2]]).
      + apply (adj_In it x Hit) in H1. exists j, it, x. rewrite (adj_In j x Hj) in H2.
        repeat split; try tauto.
      + apply (adj_In j x Hj) in H1. exists it, j, x. rewrite (adj_In it x Hit) in H2.
        repeat split; try tauto. apply linked_sym. exact Hl.
  Qed.
End Graph.

(** ** find_clusters *)

Lemma isort_ids ids g : ids_of ids g (isort Z.leb (map (fun i => nth i ids 0) g)).
Proof.
  split.
  - symmetry. apply isort_perm.
  - pose proof (isort_sorted Z.leb ltac:(intros; lia) ltac:(intros; lia) (map (fun i => nth i ids 0) g)) as H.
    clear - H. induction H as [|x l Hl IH HF]; constructor; [exact IH|].
    eapply Forall_impl; [|exact HF]. unfold le. intros; lia.
Qed.

Lemma clusters_spec d ids vecs tol strict gps : shaped d vecs ->
  find_clusters ids vecs tol strict = Ok gps ->
  exists igs, Forall2 (ids_of ids) igs gps
    /\ NoDup (concat igs) /\ (forall g, In g igs <-> isolated_clique tol vecs g)
    /\ (strict = true -> Permutation (concat igs) (seq 0 (length vecs))).
Proof.
  intros Hsh H. unfold find_clusters in H.
  destruct vecs as [|v0 vecs0]; [discriminate|]. set (vecs := v0 :: vecs0) in *.
  destruct (adj_list_default d vecs tol Hsh) as (adj & EA & HA); [discriminate|].
  rewrite EA in H. cbn [bind] in H. destruct (find_cliques adj strict) as [igs|] eqn:EC; [|discriminate].
  cbn [bind] in H. inversion H; subst gps. exists igs.
  destruct (cliques_spec tol vecs adj HA strict igs EC) as (HN & HG & HS).
  split; [|split; [exact HN|split; [exact HG|]]].
  - clear. induction igs; constructor; auto. apply isort_ids.
  - intros Es. apply NoDup_Permutation; [exact HN|apply seq_NoDup|]. intros i. rewrite in_seq. split.
    + intros Hi. apply in_concat in Hi. destruct Hi as (g & Hg & Hi). apply HG in Hg.
      destruct Hg as (_ & _ & Hb & _). specialize (Hb i Hi). lia.
    + intros Hi. apply HS; [exact Es|lia].
Qed.

Lemma ids_of_concat ids igs gps : Forall2 (ids_of ids) igs gps ->
  Permutation (concat gps) (map (fun i => nth i ids 0) (concat igs)).
Proof.
  induction 1 as [|g gp igs gps [Hp _] _ IH]; [constructor|]. simpl. rewrite map_app.
  apply Permutation_app; assumption.
Qed.

Lemma map_nth_seq (ids : list Z) : map (fun i => nth i ids 0) (seq 0 (length ids)) = ids.
Proof.
  induction ids as [|x t IH]; [reflexivity|]. simpl. f_equal. rewrite <- seq_shift, map_map. exact IH.
Qed.

Lemma clusters_strict_cover d ids vecs tol gps : shaped d vecs -> length ids = length vecs ->
  find_clusters ids vecs tol true = Ok gps -> Permutation (concat gps) ids.
Proof.
  intros Hsh Hl H. destruct (clusters_spec d ids vecs tol true gps Hsh H) as (igs & HF & _ & _ & HP).
  rewrite (ids_of_concat ids igs gps HF), (HP eq_refl), <- Hl, map_nth_seq. reflexivity.
Qed.

Lemma clusters_total d ids vecs tol : shaped d vecs -> vecs <> [] ->
  exists gps, find_clusters ids vecs tol false = Ok gps.
Proof.
  intros Hsh Hne. unfold find_clusters. destruct (adj_list_default d vecs tol Hsh Hne) as (adj & -> & HA).
  cbn [bind]. destruct (cliques_total adj) as (gps & ->). cbn [bind]. eauto.
Qed.

Lemma clusters_strict_fails d ids vecs tol : shaped d vecs -> vecs <> [] ->
  find_clusters ids vecs tol true = Err ValueError <->
  exists i j k, (i < length vecs)%nat /\ (j < length vecs)%nat /\ (k < length vecs)%nat
      /\ linked tol vecs i j /\ linked tol vecs j k /\ ~ linked tol vecs i k.
Proof.
  intros Hsh Hne. unfold find_clusters. destruct (adj_list_default d vecs tol Hsh Hne) as (adj & -> & HA).
  rewrite <- (cliques_strict_fails tol vecs adj HA). cbn [bind].
  destruct (find_cliques adj true) as [g|e] eqn:E; cbn [bind]; split.
  - discriminate.
  - intros [e He]. discriminate.
  - eauto.
  - intros _. unfold find_cliques in E. destruct (fold_left _ _ _). destruct (_ && _)%bool; congruence.
Qed.
