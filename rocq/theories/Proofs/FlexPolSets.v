(** The sets of windows with the same channels that remove_flex_pol builds, and
    axes on which polarization varies slowest. *)
From Coq Require Import List ZArith Bool Arith Lia Sorted Permutation.
From Verif Require Import Lib.Py Lib.Np Lib.Cube Lib.Sorting Spec.UVDataSpec Spec.FreqSpec Spec.FlexPolSpec
  Model.UVData Model.Freq Model.PhaseCenter Model.FlexPol Proofs.AccessProofs Proofs.FreqProofs Proofs.FreqReorder.
Import ListNotations.
Notation length := List.length.
Open Scope Z_scope.

Definition keyeqb (a b : list Z * list Z) : bool := listZ_eqb (fst a) (fst b) && listZ_eqb (snd a) (snd b).
Lemma keyeqb_eq a b : keyeqb a b = true <-> a = b.
Proof.
  unfold keyeqb. rewrite andb_true_iff, !listZ_eqb_eq. destruct a, b. simpl. split; [intros [-> ->]; reflexivity|].
  intros E. injection E as -> ->. auto.
Qed.

Definition ws_key (s : wset) := (ws_freqs s, ws_widths s).

Section Sets.
Variables (key : Z -> list Z * list Z) (polf : Z -> Z).

Record sets_inv (done : list Z) (sets : list wset) : Prop := {
  si_spws : forall s, In s sets -> ws_spws s = filter (fun w => keyeqb (ws_key s) (key w)) done;
  si_some : forall s, In s sets -> ws_spws s <> [];
  si_pols : forall s, In s sets -> ws_pols s = map polf (ws_spws s);
  si_nodup : forall s, In s sets -> NoDup (ws_pols s);
  si_keys : NoDup (map ws_key sets);
  si_all : forall w, In w done -> exists s, In s sets /\ ws_key s = key w }.

Lemma add_window_cases w pol sets sets' :
  add_window (fst (key w)) (snd (key w)) w pol sets = Ok sets' ->
  (exists s1 s s2, sets = s1 ++ s :: s2 /\ ws_key s = key w /\ ~ In pol (ws_pols s) /\
     sets' = s1 ++ mkWset (ws_freqs s) (ws_widths s) (ws_spws s ++ [w]) (ws_pols s ++ [pol]) :: s2) \/
  ((forall s, In s sets -> ws_key s <> key w) /\ sets' = sets ++ [mkWset (fst (key w)) (snd (key w)) [w] [pol]]).
Proof.
  revert sets'. induction sets as [|s sets IH]; intros sets' H; simpl in H.
  - injection H as <-. right. split; [intros s []|reflexivity].
  - change (listZ_eqb (ws_freqs s) (fst (key w)) && listZ_eqb (ws_widths s) (snd (key w))) with (keyeqb (ws_key s) (key w)) in H.
    destruct (keyeqb (ws_key s) (key w)) eqn:E.
    + destruct (isinZ pol (ws_pols s)) eqn:P; [discriminate|]. injection H as <-. left.
      apply isinZ_false in P. apply keyeqb_eq in E. exists [], s, sets. auto.
    + apply bind_Ok in H. destruct H as (sets1 & H1 & H). injection H as <-.
      assert (N : ws_key s <> key w) by (intros C; apply keyeqb_eq in C; congruence).
      destruct (IH sets1 H1) as [(s1 & t & s2 & -> & K & P & ->)|[NK ->]].
      * left. exists (s :: s1), t, s2. auto.
      * right. split; [|reflexivity]. intros t [<-|Ht]; auto.
Qed.

Lemma add_window_inv done sets sets' w : ~ In w done -> sets_inv done sets ->
  add_window (fst (key w)) (snd (key w)) w (polf w) sets = Ok sets' -> sets_inv (done ++ [w]) sets'.
Proof.
  intros Hw I H. destruct I as [I1 I2 I3 I4 I5 I6].
  destruct (add_window_cases _ _ _ _ H) as [(s1 & s & s2 & -> & K & P & ->)|[NK ->]].
  - set (s' := mkWset _ _ _ _). assert (Ks : ws_key s' = ws_key s) by reflexivity.
    assert (Hs : In s (s1 ++ s :: s2)) by (apply in_app_iff; right; left; reflexivity).
    assert (Oth : forall t, In t s1 \/ In t s2 -> In t (s1 ++ s :: s2) /\ keyeqb (ws_key t) (key w) = false).
    { intros t Ht. split; [apply in_app_iff; destruct Ht; [left|right; right]; assumption|].
      destruct (keyeqb (ws_key t) (key w)) eqn:E; [|reflexivity]. exfalso. apply keyeqb_eq in E. rewrite <- K in E.
      rewrite map_app in I5. simpl in I5. apply NoDup_remove_2 in I5. apply I5. rewrite <- E.
      apply in_app_iff. destruct Ht; [left|right]; apply in_map; assumption. }
    assert (Cs : forall t, In t (s1 ++ s' :: s2) -> t = s' \/ (In t s1 \/ In t s2)).
    { intros t Ht. apply in_app_iff in Ht. destruct Ht as [Ht|[Ht|Ht]]; auto. }
    constructor.
    + intros t Ht. rewrite filter_app. simpl. destruct (Cs t Ht) as [->|Ht'].
      * rewrite Ks. assert (E : keyeqb (ws_key s) (key w) = true) by (apply keyeqb_eq; exact K). rewrite E, <- (I1 s Hs). reflexivity.
      * destruct (Oth t Ht') as [Hi E]. rewrite E, app_nil_r. auto.
    + intros t Ht. destruct (Cs t Ht) as [->|Ht']; [simpl; destruct (ws_spws s); discriminate|]. destruct (Oth t Ht'); auto.
    + intros t Ht. destruct (Cs t Ht) as [->|Ht']; [|destruct (Oth t Ht'); auto]. simpl. rewrite map_app, <- (I3 s Hs). reflexivity.
    + intros t Ht. destruct (Cs t Ht) as [->|Ht']; [|destruct (Oth t Ht'); auto]. simpl.
      apply (Permutation_NoDup (Permutation_cons_append (ws_pols s) (polf w))). constructor; auto.
    + rewrite map_app in *. simpl in *. exact I5.
    + intros v Hv. apply in_app_iff in Hv. destruct Hv as [Hv|[<-|[]]].
      * destruct (I6 v Hv) as (t & Ht & Kt). apply in_app_iff in Ht. destruct Ht as [Ht|[<-|Ht]].
        -- exists t. split; [apply in_app_iff; left|]; assumption.
        -- exists s'. split; [apply in_app_iff; right; left; reflexivity | exact Kt].
        -- exists t. split; [apply in_app_iff; right; right|]; assumption.
      * exists s'. split; [apply in_app_iff; right; left; reflexivity | exact K].
  - set (s' := mkWset _ _ _ _). assert (Ks : ws_key s' = key w) by (unfold ws_key; simpl; symmetry; apply surjective_pairing).
    assert (Fn : filter (fun v => keyeqb (key w) (key v)) done = []).
    { destruct (filter _ done) as [|v l] eqn:E; [reflexivity|]. exfalso.
      assert (Hv : In v (filter (fun v => keyeqb (key w) (key v)) done)) by (rewrite E; left; reflexivity).
      apply filter_In in Hv. destruct Hv as [Hv Kv]. apply keyeqb_eq in Kv. destruct (I6 v Hv) as (t & Ht & Kt).
      apply (NK t Ht). congruence. }
    constructor.
    + intros t Ht. rewrite filter_app. simpl. apply in_app_iff in Ht. destruct Ht as [Ht|[<-|[]]].
      * assert (E : keyeqb (ws_key t) (key w) = false).
        { destruct (keyeqb _ _) eqn:E; [|reflexivity]. apply keyeqb_eq in E. destruct (NK t Ht E). }
        rewrite E, app_nil_r. auto.
      * rewrite Ks, Fn. assert (E : keyeqb (key w) (key w) = true) by (apply keyeqb_eq; reflexivity). rewrite E. reflexivity.
    + intros t Ht. apply in_app_iff in Ht. destruct Ht as [Ht|[<-|[]]]; [auto|discriminate].
    + intros t Ht. apply in_app_iff in Ht. destruct Ht as [Ht|[<-|[]]]; [auto|reflexivity].
    + intros t Ht. apply in_app_iff in Ht. destruct Ht as [Ht|[<-|[]]]; [auto|]. simpl. repeat constructor. simpl; tauto.
    + rewrite map_app. simpl. rewrite Ks. apply (Permutation_NoDup (Permutation_cons_append _ (key w))). constructor; [|exact I5].
      intros C. apply in_map_iff in C. destruct C as (t & E & Ht). exact (NK t Ht E).
    + intros v Hv. apply in_app_iff in Hv. destruct Hv as [Hv|[<-|[]]].
      * destruct (I6 v Hv) as (t & Ht & Kt). exists t. split; [apply in_app_iff; left; exact Ht | exact Kt].
      * exists s'. split; [apply in_app_iff; right; left; reflexivity | exact Ks].
Qed.
End Sets.

Definition polf (spws fp : list Z) (w : Z) : Z :=
  nth (match index_of Z.eqb w spws with Some i => i | None => O end) fp 0.

Lemma pol_of_Ok spws fp w : length fp = length spws -> In w spws -> pol_of spws fp w = Ok (polf spws fp w).
Proof.
  intros L H. unfold pol_of, polf. destruct (index_of Z.eqb w spws) as [i|] eqn:E.
  - apply (index_of_Some Z.eqb Z.eqb_eq 0) in E. destruct E as (Hi & _ & _). rewrite (nth_error_nth' fp 0) by lia. reflexivity.
  - apply (index_of_None Z.eqb Z.eqb_eq) in E. contradiction.
Qed.

Lemma window_sets_inv u fp ws done sets sets' :
  length fp = length (spw_array u) -> (forall w, In w ws -> In w (spw_array u)) -> NoDup (done ++ ws) ->
  sets_inv (sorted_window u) (polf (spw_array u) fp) done sets ->
  window_sets u fp ws sets = Ok sets' ->
  sets_inv (sorted_window u) (polf (spw_array u) fp) (done ++ ws) sets'.
Proof.
  intros L. revert done sets. induction ws as [|w ws IH]; intros done sets Hin N I H; cbn [window_sets] in H.
  - injection H as <-. rewrite app_nil_r. exact I.
  - rewrite (pol_of_Ok _ _ _ L (Hin w (or_introl eq_refl))) in H. cbn [bind] in H.
    destruct (sorted_window u w) as [fr wi] eqn:E. apply bind_Ok in H. destruct H as (sets1 & H1 & H).
    change (done ++ w :: ws) with (done ++ [w] ++ ws) in *. rewrite app_assoc in *.
    apply (IH (done ++ [w]) sets1); [intros; apply Hin; right; assumption | exact N | | exact H].
    apply (add_window_inv _ _ done sets sets1 w); [|exact I|rewrite E; exact H1].
    rewrite <- app_assoc in N. apply NoDup_remove_2 in N. intros C. apply N. apply in_app_iff. left. exact C.
Qed.

Lemma sets_inv_nil key pf : sets_inv key pf [] [].
Proof. constructor; simpl; try tauto. constructor. Qed.

(** With every window of a set having its own polarization, nothing fails. *)
Lemma window_sets_total u fp ws done sets :
  length fp = length (spw_array u) -> (forall w, In w ws -> In w (spw_array u)) -> NoDup (done ++ ws) ->
  (forall w w', In w (done ++ ws) -> In w' (done ++ ws) -> sorted_window u w = sorted_window u w' ->
     polf (spw_array u) fp w = polf (spw_array u) fp w' -> w = w') ->
  sets_inv (sorted_window u) (polf (spw_array u) fp) done sets ->
  exists sets', window_sets u fp ws sets = Ok sets'.
Proof.
  intros L. revert done sets. induction ws as [|w ws IH]; intros done sets Hin N D I; cbn [window_sets].
  - eauto.
  - rewrite (pol_of_Ok _ _ _ L (Hin w (or_introl eq_refl))). cbn [bind].
    destruct (sorted_window u w) as [fr wi] eqn:E.
    assert (A : exists sets1, add_window fr wi w (polf (spw_array u) fp w) sets = Ok sets1).
    { assert (S : forall t, In t sets -> ws_key t = (fr, wi) -> ~ In (polf (spw_array u) fp w) (ws_pols t)).
      { intros t Ht Kt C. rewrite (si_pols _ _ _ _ I t Ht) in C. apply in_map_iff in C. destruct C as (v & Ev & Hv).
        rewrite (si_spws _ _ _ _ I t Ht) in Hv. apply filter_In in Hv. destruct Hv as [Hv Kv]. apply keyeqb_eq in Kv.
        assert (v = w).
        { apply D; [apply in_app_iff; left; exact Hv | apply in_app_iff; right; left; reflexivity | congruence | exact Ev]. }
        subst v. apply NoDup_remove_2 in N. apply N. apply in_app_iff. left. exact Hv. }
      clear -S. induction sets as [|t sets IH]; simpl; [eauto|].
      destruct (listZ_eqb (ws_freqs t) fr && listZ_eqb (ws_widths t) wi) eqn:E.
      - apply andb_prop in E. destruct E as [E1 E2]. apply listZ_eqb_eq in E1, E2.
        assert (P : isinZ (polf (spw_array u) fp w) (ws_pols t) = false).
        { apply isinZ_false. apply S; [left; reflexivity|]. unfold ws_key. congruence. }
        rewrite P. eauto.
      - destruct IH as [s1 ->]; [intros; apply S; [right|]; assumption|]. cbn [bind]. eauto. }
    destruct A as [sets1 A]. rewrite A. cbn [bind].
    change (done ++ w :: ws) with (done ++ [w] ++ ws) in *. rewrite app_assoc in *.
    apply (IH (done ++ [w]) sets1); [intros; apply Hin; right; assumption | exact N | exact D |].
    apply (add_window_inv _ _ done sets sets1 w); [|exact I|rewrite E; exact A].
    rewrite <- app_assoc in N. apply NoDup_remove_2 in N. intros C. apply N. apply in_app_iff. left. exact C.
Qed.

(** ** Consequences *)
Section SetsFacts.
Variables (key : Z -> list Z * list Z) (pf : Z -> Z) (ws : list Z) (sets : list wset).
Hypothesis I : sets_inv key pf ws sets.
Hypothesis N : NoDup ws.

Lemma set_of w : In w ws -> exists s, In s sets /\ ws_key s = key w /\ In w (ws_spws s).
Proof.
  intros Hw. destruct (si_all _ _ _ _ I w Hw) as (s & Hs & K). exists s. split; [exact Hs|]. split; [exact K|].
  rewrite (si_spws _ _ _ _ I s Hs). apply filter_In. split; [exact Hw|]. apply keyeqb_eq. exact K.
Qed.

Lemma in_set s w : In s sets -> In w (ws_spws s) -> In w ws /\ ws_key s = key w.
Proof.
  intros Hs Hw. rewrite (si_spws _ _ _ _ I s Hs) in Hw. apply filter_In in Hw. destruct Hw as [Hw K]. apply keyeqb_eq in K. auto.
Qed.

Lemma set_unique s t : In s sets -> In t sets -> ws_key s = ws_key t -> s = t.
Proof.
  pose proof (si_keys _ _ _ _ I) as NK. clear I. revert NK. induction sets as [|x l IH]; simpl; [tauto|].
  intros NK [<-|Hs] [<-|Ht] E; try reflexivity; apply NoDup_cons_iff in NK; destruct NK as [Nx NK].
  - exfalso. apply Nx. rewrite E. apply in_map, Ht.
  - exfalso. apply Nx. rewrite <- E. apply in_map, Hs.
  - apply IH; assumption.
Qed.

Lemma first_spw_set s w : In s sets -> In w (ws_spws s) -> first_spw sets w = ws_first s.
Proof.
  intros Hs Hw. unfold first_spw. destruct (find _ sets) as [t|] eqn:F.
  - apply find_some in F. destruct F as [Ht F]. apply isinZ_spec in F. f_equal. apply set_unique; try assumption.
    destruct (in_set s w Hs Hw), (in_set t w Ht F). congruence.
  - exfalso. apply find_none with (x := s) in F; [|exact Hs]. apply isinZ_false in F. contradiction.
Qed.

Lemma first_in s : In s sets -> In (ws_first s) (ws_spws s).
Proof. intros Hs. pose proof (si_some _ _ _ _ I s Hs). unfold ws_first. destruct (ws_spws s); [congruence|left; reflexivity]. Qed.

Lemma first_inj s t : In s sets -> In t sets -> ws_first s = ws_first t -> s = t.
Proof.
  intros Hs Ht E. apply set_unique; try assumption. pose proof (first_in s Hs) as A. pose proof (first_in t Ht) as B.
  rewrite E in A. destruct (in_set s _ Hs A), (in_set t _ Ht B). congruence.
Qed.

Lemma first_spw_key w w' : In w ws -> In w' ws -> (first_spw sets w = first_spw sets w' <-> key w = key w').
Proof.
  intros Hw Hw'. destruct (set_of w Hw) as (s & Hs & Ks & Is), (set_of w' Hw') as (t & Ht & Kt & It).
  rewrite (first_spw_set s w Hs Is), (first_spw_set t w' Ht It). split; intros E.
  - rewrite <- Ks, <- Kt. f_equal. apply first_inj; assumption.
  - f_equal. apply set_unique; congruence.
Qed.

Lemma key_pol_inj w w' : In w ws -> In w' ws -> key w = key w' -> pf w = pf w' -> w = w'.
Proof.
  intros Hw Hw' K P. destruct (set_of w Hw) as (s & Hs & Ks & Is).
  assert (Is' : In w' (ws_spws s)) by (rewrite (si_spws _ _ _ _ I s Hs); apply filter_In; split; [exact Hw'|]; apply keyeqb_eq; congruence).
  pose proof (si_nodup _ _ _ _ I s Hs) as ND. rewrite (si_pols _ _ _ _ I s Hs) in ND.
  clear -ND Is Is' P. induction (ws_spws s) as [|x l IH]; [destruct Is|]. simpl in ND. apply NoDup_cons_iff in ND. destruct ND as [Nx ND].
  destruct Is as [<-|Is], Is' as [<-|Is']; try reflexivity.
  - exfalso. apply Nx. rewrite P. apply in_map, Is'.
  - exfalso. apply Nx. rewrite <- P. apply in_map, Is.
  - apply IH; assumption.
Qed.

Lemma all_windows_perm : Permutation (concat (map ws_spws sets)) ws.
Proof.
  apply NoDup_Permutation.
  - pose proof (si_keys _ _ _ _ I) as NK.
    assert (A : forall s, In s sets -> NoDup (ws_spws s)) by (intros s Hs; rewrite (si_spws _ _ _ _ I s Hs); apply NoDup_filter, N).
    assert (B : forall s w, In s sets -> In w (ws_spws s) -> ws_key s = key w) by (intros s w Hs Hw; apply (in_set s w Hs Hw)).
    clear -NK A B. induction sets as [|s l IH]; simpl; [constructor|]. simpl in NK. apply NoDup_cons_iff in NK. destruct NK as [Ns NK].
    assert (HD : forall l1 l2 : list Z, NoDup l1 -> NoDup l2 -> (forall x, In x l1 -> ~ In x l2) -> NoDup (l1 ++ l2)).
    { clear. induction l1 as [|x l1 IH]; intros l2 N1 N2 D; simpl; [exact N2|]. apply NoDup_cons_iff in N1. destruct N1 as [Nx N1].
      constructor; [rewrite in_app_iff; intros [C|C]; [contradiction|apply (D x (or_introl eq_refl) C)]|].
      apply IH; auto. intros y Hy. apply D. right. exact Hy. }
    apply HD; [apply A; left; reflexivity | apply IH; try assumption; intros; [apply A|apply B]; try (right; assumption); assumption|].
    intros w Hw C. apply in_concat in C. destruct C as (x & Hx & C). apply in_map_iff in Hx. destruct Hx as (t & <- & Ht).
    apply Ns. rewrite (B s w (or_introl eq_refl) Hw), <- (B t w (or_intror Ht) C). apply in_map, Ht.
  - exact N.
  - intros w. split.
    + intros C. apply in_concat in C. destruct C as (x & Hx & C). apply in_map_iff in Hx. destruct Hx as (t & <- & Ht). apply (in_set t w Ht C).
    + intros Hw. destruct (set_of w Hw) as (s & Hs & _ & Is). apply in_concat. exists (ws_spws s). split; [apply in_map, Hs | exact Is].
Qed.

(** When all sets have as many windows as there are polarizations, each set has
    exactly one window of each. *)
Lemma window_in_set upols s p : NoDup upols -> (forall w, In w ws -> In (pf w) upols) ->
  In s sets -> length (ws_spws s) = length upols -> In p upols -> exists w, In w (ws_spws s) /\ pf w = p.
Proof.
  intros NU HU Hs L Hp. pose proof (si_nodup _ _ _ _ I s Hs) as ND. pose proof (si_pols _ _ _ _ I s Hs) as PE.
  assert (Inc : incl (ws_pols s) upols).
  { intros x Hx. rewrite PE in Hx. apply in_map_iff in Hx. destruct Hx as (w & <- & Hw). apply HU. apply (in_set s w Hs Hw). }
  assert (In p (ws_pols s)) as Hin.
  { refine (@NoDup_length_incl Z (ws_pols s) upols ND _ Inc p Hp). rewrite PE, map_length. lia. }
  rewrite PE in Hin. apply in_map_iff in Hin. destruct Hin as (w & E & Hw). eauto.
Qed.
End SetsFacts.

(** ** Blocks *)
Lemma contiguous_blocks l : contiguous l ->
  exists porder, NoDup porder /\ (forall p, In p porder <-> In p l) /\
  l = concat (map (fun p => repeat p (count_occ Z.eq_dec l p)) porder).
Proof.
  induction l as [|a l IH]; intros C.
  - exists []. split; [constructor|]. split; [tauto|reflexivity].
  - destruct (IH (contiguous_tail _ _ C)) as (po & N & M & E).
    destruct (in_dec Z.eq_dec a l) as [Hin|Hout].
    + assert (Hd : exists po', po = a :: po').
      { destruct l as [|b t]; [destruct Hin|]. assert (b = a).
        { destruct Hin as [|Hin]; [congruence|]. destruct (In_nth _ _ 0 Hin) as (k & Hk & Ek).
          apply (C 0%nat 1%nat (S (S k))); simpl; first [lia | symmetry; exact Ek]. }
        subst b. destruct po as [|q po]; [simpl in E; discriminate|]. exists po. f_equal.
        rewrite map_cons, concat_cons in E. assert (Q : In q (a :: t)) by (apply M; left; reflexivity).
        apply (count_occ_In Z.eq_dec) in Q. destruct (count_occ Z.eq_dec (a :: t) q) as [|m]; [lia|]. cbn [repeat app] in E. congruence. }
      destruct Hd as (po' & ->). exists (a :: po'). split; [exact N|]. split.
      { intros p. rewrite M. simpl. split; [tauto|]. intros [<-|]; assumption. }
      apply NoDup_cons_iff in N. destruct N as [Na N]. simpl map in E |- *. simpl concat in E |- *.
      destruct (Z.eq_dec a a) as [_|]; [|congruence]. simpl. f_equal. etransitivity; [exact E|]. f_equal. f_equal.
      apply map_ext_in. intros p Hp. destruct (Z.eq_dec a p) as [->|]; [contradiction|]. reflexivity.
    + exists (a :: po). split; [constructor; [rewrite M; exact Hout|exact N]|]. split; [intros p; simpl; rewrite M; reflexivity|].
      simpl map. simpl concat. destruct (Z.eq_dec a a) as [_|]; [|congruence].
      apply (count_occ_not_In Z.eq_dec) in Hout. rewrite Hout. simpl. f_equal. etransitivity; [exact E|]. f_equal.
      apply map_ext_in. intros p Hp. apply M in Hp. destruct (Z.eq_dec a p) as [->|]; [|reflexivity].
      apply (count_occ_not_In Z.eq_dec) in Hout. contradiction.
Qed.

(** [where_eq] picks one block out of an axis made of blocks. *)
Lemma where_eq_app v b1 b2 a1 a2 : length a1 = length b1 -> where_eq v (b1 ++ b2) (a1 ++ a2) = where_eq v b1 a1 ++ where_eq v b2 a2.
Proof.
  revert a1. unfold where_eq. 
  assert (G : forall b1 a1 n, length a1 = length b1 -> forall (x : list Z), length x = n ->
    take 0 (x ++ a1 ++ a2) (where_from n (Z.eqb v) (b1 ++ b2)) =
    take 0 (x ++ a1 ++ a2) (where_from n (Z.eqb v) b1) ++ take 0 (x ++ a1 ++ a2) (where_from (n + length b1) (Z.eqb v) b2)).
  { clear. induction b1 as [|c b1 IH]; intros a1 n L x Lx; simpl; [rewrite Nat.add_0_r; reflexivity|].
    destruct a1 as [|d a1]; [discriminate|]. injection L as L.
    specialize (IH a1 (S n) L (x ++ [d]) ltac:(rewrite app_length; simpl; lia)). rewrite <- !app_assoc in IH. simpl in IH.
    replace (n + S (length b1))%nat with (S n + length b1)%nat by lia.
    destruct (v =? c); simpl; [f_equal; exact IH | exact IH]. }
  intros a1 L. unfold nonzero. pose proof (G b1 a1 O L [] eq_refl) as G0. cbn [app Nat.add] in G0. rewrite G0. clear G G0. f_equal.
  - apply map_ext_in. intros i Hi. apply nonzero_lt in Hi. rewrite app_nth1 by lia. reflexivity.
  - assert (S : forall n m, where_from (n + m) (Z.eqb v) b2 = map (fun i => (n + i)%nat) (where_from m (Z.eqb v) b2)).
    { clear. induction b2 as [|c b2 IH]; intros n m; simpl; [reflexivity|].
      replace (S (n + m))%nat with (n + S m)%nat by lia. rewrite IH. destruct (v =? c); reflexivity. }
    replace (where_from (length b1) (Z.eqb v) b2) with (where_from (length b1 + 0) (Z.eqb v) b2) by (f_equal; lia). rewrite S. unfold take. rewrite map_map.
    apply map_ext. intros i. rewrite app_nth2 by lia. f_equal. lia.
Qed.

Lemma where_eq_repeat v p n a : length a = n -> where_eq v (repeat p n) a = if v =? p then a else [].
Proof.
  intros L. unfold where_eq. destruct (v =? p) eqn:E.
  - replace (nonzero (Z.eqb v) (repeat p n)) with (seq 0 n); [rewrite <- L; apply take_seq|].
    apply (nonzero_unique 0); [apply seq_sorted|]. intros i. rewrite in_seq, repeat_length. split; [|lia].
    intros [_ H]. split; [lia|]. rewrite nth_indep with (d' := p) by (rewrite repeat_length; lia). rewrite nth_repeat. exact E.
  - replace (nonzero (Z.eqb v) (repeat p n)) with (@nil nat); [reflexivity|].
    apply (nonzero_unique 0); [constructor|]. intros i. rewrite repeat_length. split; [intros []|]. intros [Hi C].
    rewrite nth_indep with (d' := p) in C by (rewrite repeat_length; lia). rewrite nth_repeat in C. congruence.
Qed.

(** An axis in blocks on which every block carries the same labels. *)
Lemma equal_blocks (cnt : Z -> nat) (porder : list Z) (firsts F : list Z) :
  NoDup porder -> length firsts = length (concat (map (fun p => repeat p (cnt p)) porder)) ->
  (forall p, In p porder -> where_eq p (concat (map (fun p => repeat p (cnt p)) porder)) firsts = F) ->
  firsts = concat (map (fun _ => F) porder) /\ (forall p, In p porder -> cnt p = length F).
Proof.
  revert firsts. induction porder as [|p po IH]; intros firsts N L H; simpl in *.
  - split; [destruct firsts; [reflexivity|discriminate]|tauto].
  - rewrite app_length, repeat_length in L. apply NoDup_cons_iff in N. destruct N as [Np N].
    rewrite <- (firstn_skipn (cnt p) firsts) in H |- *. set (f1 := firstn (cnt p) firsts) in *. set (f2 := skipn (cnt p) firsts) in *.
    assert (L1 : length f1 = cnt p) by (unfold f1; rewrite firstn_length; lia).
    assert (L2 : length f2 = length (concat (map (fun p => repeat p (cnt p)) po))) by (unfold f2; rewrite skipn_length; lia).
    assert (W : forall q, where_eq q (repeat p (cnt p) ++ concat (map (fun p => repeat p (cnt p)) po)) (f1 ++ f2) =
                          (if q =? p then f1 else []) ++ where_eq q (concat (map (fun p => repeat p (cnt p)) po)) f2).
    { intros q. rewrite where_eq_app by (rewrite repeat_length; exact L1). f_equal. apply where_eq_repeat. exact L1. }
    assert (Z0 : where_eq p (concat (map (fun p => repeat p (cnt p)) po)) f2 = []).
    { unfold where_eq. replace (nonzero (Z.eqb p) _) with (@nil nat); [reflexivity|]. apply (nonzero_unique 0); [constructor|].
      intros i. split; [intros []|]. intros [Hi E]. apply Z.eqb_eq in E. apply Np.
      assert (In p (concat (map (fun p => repeat p (cnt p)) po))) as Hin by (rewrite E; apply nth_In, Hi).
      apply in_concat in Hin. destruct Hin as (x & Hx & Hin). apply in_map_iff in Hx. destruct Hx as (q & <- & Hq).
      apply repeat_spec in Hin. congruence. }
    assert (F1 : f1 = F).
    { rewrite <- (H p (or_introl eq_refl)), W, Z.eqb_refl, Z0, app_nil_r. reflexivity. }
    destruct (IH f2 N L2) as [E2 C2].
    { intros q Hq. rewrite <- (H q (or_intror Hq)), W. destruct (q =? p) eqn:E; [|reflexivity]. apply Z.eqb_eq in E. congruence. }
    split; [rewrite F1, E2 at 1; reflexivity|]. intros q [<-|Hq]; [congruence|auto].
Qed.

Lemma where_eq_blocks (cnt : Z -> nat) porder F p : NoDup porder -> In p porder -> (forall q, In q porder -> cnt q = length F) ->
  where_eq p (concat (map (fun p => repeat p (cnt p)) porder)) (concat (map (fun _ => F) porder)) = F.
Proof.
  intros N Hp C. induction porder as [|q po IH]; [destruct Hp|]. simpl. apply NoDup_cons_iff in N. destruct N as [Nq N].
  rewrite where_eq_app by (rewrite repeat_length; symmetry; apply C; left; reflexivity).
  rewrite where_eq_repeat by (symmetry; apply C; left; reflexivity).
  destruct (p =? q) eqn:E.
  - apply Z.eqb_eq in E. subst q. unfold where_eq. replace (nonzero (Z.eqb p) _) with (@nil nat); [apply app_nil_r|].
    apply (nonzero_unique 0); [constructor|]. intros i. split; [intros []|]. intros [Hi E]. apply Z.eqb_eq in E. exfalso. apply Nq.
    assert (In p (concat (map (fun p => repeat p (cnt p)) po))) as Hin by (rewrite E; apply nth_In, Hi).
    apply in_concat in Hin. destruct Hin as (x & Hx & Hin). apply in_map_iff in Hx. destruct Hx as (r & <- & Hr).
    apply repeat_spec in Hin. congruence.
  - simpl. apply IH; [exact N| |intros; apply C; right; assumption]. destruct Hp as [->|]; [rewrite Z.eqb_refl in E; discriminate|assumption].
Qed.
