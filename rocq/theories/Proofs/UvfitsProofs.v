(** Proofs about UVFITS files. *)
From Coq Require Import List ZArith Bool Arith Lia Sorting.Sorted Permutation QArith Qabs.
From Verif Require Import Lib.Py Lib.Np Lib.Cube Lib.Sorting Lib.Dict Spec.FreqSpec Model.Freq Model.Uvfits Spec.UvfitsSpec Proofs.FreqProofs Proofs.FreqReorder.
Import ListNotations.
Open Scope Z_scope.

(** * Lists *)
Lemma diffs_length l : length (diffs l) = (length l - 1)%nat.
Proof. induction l as [|x [|y l] IH]; [reflexivity|reflexivity|]. cbn [diffs length] in *. rewrite IH. lia. Qed.
Lemma diffs_nth l : forall i, (S i < length l)%nat -> nth i (diffs l) 0 = nth (S i) l 0 - nth i l 0.
Proof.
  induction l as [|x [|y l] IH]; intros i L; cbn [length] in L; try lia. change (diffs (x :: y :: l)) with ((y - x) :: diffs (y :: l)). destruct i; [reflexivity|].
  change (nth (S i) ((y - x) :: diffs (y :: l)) 0) with (nth i (diffs (y :: l)) 0). rewrite IH by (cbn [length]; lia). reflexivity.
Qed.
Lemma constant_spec l : constant l = true <-> forall x, In x l -> x = nth 0 l 0.
Proof.
  destruct l as [|a l]; cbn [constant nth]; [split; [intros _ x []|reflexivity]|]. rewrite forallb_forall. split.
  - intros H x [<- | I]; [reflexivity|]. specialize (H x I). apply Z.eqb_eq in H. congruence.
  - intros H x I. apply Z.eqb_eq. symmetry. apply H. right. exact I.
Qed.
Lemma constant_median l v : l <> [] -> (forall x, In x l -> x = v) -> median2 l = 2 * v.
Proof.
  intros N H. unfold median2. assert (L : (0 < length l)%nat) by (destruct l; [contradiction | cbn; lia]).
  assert (G : forall i, (i < length l)%nat -> nth i (isort Z.leb l) 0 = v).
  { intros i Li. apply H. apply (isort_In Z.leb). apply nth_In. rewrite isort_length. exact Li. }
  rewrite !G; [lia | |].
  - apply Nat.div_lt; lia.
  - apply Nat.le_lt_trans with (length l - 1)%nat; [apply Nat.div_le_upper_bound; lia | lia].
Qed.

(** One window: [L] frequencies, [V] widths *)
Definition step_of (L V : list Z) : Z := median2 V / 2 * (match diffs L with [] => 1 | _ => Z.sgn (median2 (diffs L)) end).
Definition spacedb (L V : list Z) : bool :=
  match diffs L with
  | [] => true
  | _ => constant (diffs L) && constant V && forallb (Z.eqb (nth 0 V 0 * (if forallb (fun x => x <? 0) (diffs L) then -1 else 1))) (diffs L)
  end.
Section Window.
Variables (L V : list Z).
Hypotheses (NE : L <> []) (LV : length V = length L) (PV : Forall (fun w => 0 < w) V).
Lemma short_window : diffs L = [] -> exists f v, L = [f] /\ V = [v] /\ 0 < v.
Proof.
  intros D. destruct L as [|f [|g l]]; [contradiction| |discriminate D]. destruct V as [|v [|w l]]; try discriminate LV. inversion PV. eauto.
Qed.
Lemma window_steps : spacedb L V = true ->
  step_of L V <> 0 /\ (forall c, (c < length L)%nat -> nth c L 0 = nth 0 L 0 + Z.of_nat c * step_of L V) /\
  (forall c, (c < length V)%nat -> nth c V 0 = Z.abs (step_of L V)) /\
  (step_of L V < 0 <-> (2 <= length L)%nat /\ nth 1 L 0 < nth 0 L 0).
Proof.
  unfold spacedb, step_of. destruct (diffs L) as [|d0 ds] eqn:D.
  - intros _. destruct (short_window D) as (f & v & -> & -> & P).
    rewrite (constant_median [v] v) by (try discriminate; intros x [<- | []]; reflexivity).
    replace (2 * v / 2) with v by (rewrite Z.mul_comm, Z.div_mul; lia). cbn [length nth]. split; [lia|]. split; [intros c Lc; assert (c = 0)%nat as -> by lia; cbn; lia|].
    split; [intros c Lc; assert (c = 0)%nat as -> by lia; cbn; lia|]. split; [lia | intros (X & _); lia].
  - rewrite <- D. intros H. apply andb_true_iff in H as (H & H3). apply andb_true_iff in H as (H1 & H2).
    apply constant_spec with (l := diffs L) in H1 || idtac. rewrite forallb_forall in H3.
    assert (L2 : (2 <= length L)%nat). { pose proof (diffs_length L) as X. rewrite D in X. cbn in X. lia. }
    pose proof (proj1 (constant_spec V) H2) as CV. set (v := nth 0 V 0) in *.
    assert (Pv : 0 < v). { rewrite Forall_forall in PV. apply PV. apply nth_In. lia. }
    assert (VN : V <> []) by (destruct V; [cbn in LV; lia | discriminate]).
    set (e := if forallb (fun x => x <? 0) (diffs L) then -1 else 1) in *.
    assert (Ee : e = 1 \/ e = -1) by (unfold e; destruct (forallb (fun x => x <? 0) (diffs L)); auto).
    assert (DD : forall x, In x (diffs L) -> x = v * e) by (intros x I; specialize (H3 x I); apply Z.eqb_eq in H3; congruence).
    rewrite (constant_median V v VN CV). rewrite (constant_median (diffs L) (v * e)); [|rewrite D; discriminate | exact DD].
    replace (2 * v / 2) with v by (rewrite Z.mul_comm, Z.div_mul; lia).
    assert (Q : v * Z.sgn (2 * (v * e)) = v * e) by (destruct Ee as [-> | ->]; nia). rewrite Q.
    assert (ST : forall i, (S i < length L)%nat -> nth (S i) L 0 = nth i L 0 + v * e).
    { intros i Li. pose proof (diffs_nth L i Li) as X. rewrite (DD (nth i (diffs L) 0)) in X; [lia|]. apply nth_In. rewrite diffs_length. lia. }
    split; [destruct Ee as [-> | ->]; lia|]. split; [|split].
    + induction c as [|c IH]; intros Lc; [lia|]. rewrite (ST c Lc), IH by lia. nia.
    + intros c Lc. rewrite (CV (nth c V 0)) by (apply nth_In; lia). fold v. destruct Ee as [-> | ->]; lia.
    + rewrite (ST 0%nat) by lia. split; [intros X; split; [exact L2 | lia] | intros (_ & X); lia].
Qed.
Lemma spacedb_spec : spacedb L V = true <-> spaced L V.
Proof.
  unfold spacedb, spaced. split.
  - intros H L2. destruct (diffs L) as [|d0 ds] eqn:D; [pose proof (diffs_length L) as X; rewrite D in X; cbn in X; lia|]. rewrite <- D in *.
    apply andb_true_iff in H as (H & H3). apply andb_true_iff in H as (H1 & H2). rewrite forallb_forall in H3.
    exists (nth 0 V 0), (if forallb (fun x => x <? 0) (diffs L) then -1 else 1). split; [destruct (forallb _ _); auto|]. split.
    + apply Forall_forall. apply constant_spec, H2.
    + intros i Li. rewrite <- (diffs_nth L i Li). symmetry. apply Z.eqb_eq, H3, nth_In. rewrite diffs_length. lia.
  - intros H. destruct (diffs L) as [|d0 ds] eqn:D; [reflexivity|].
    assert (L2 : (2 <= length L)%nat). { pose proof (diffs_length L) as X. rewrite D in X. cbn in X. lia. }
    destruct (H L2) as (w & e & Ee & FV & ST). rewrite <- D. rewrite Forall_forall in FV, PV.
    assert (Ev : nth 0 V 0 = w) by (apply FV, nth_In; lia). assert (Pw : 0 < w) by (rewrite <- Ev; apply PV, nth_In; lia).
    assert (DD : forall x, In x (diffs L) -> x = w * e).
    { intros x I. apply In_nth with (d := 0) in I as (i & Li & <-). rewrite diffs_length in Li. rewrite diffs_nth by lia. apply ST. lia. }
    rewrite Ev. apply andb_true_iff. split; [apply andb_true_iff; split|].
    + apply constant_spec. intros x I. rewrite (DD x I). symmetry. apply DD, nth_In. rewrite diffs_length. lia.
    + apply constant_spec. intros x I. rewrite (FV x I). congruence.
    + apply forallb_forall. intros x I. apply Z.eqb_eq. rewrite (DD x I). f_equal.
      destruct Ee as [-> | ->].
      * replace (forallb (fun x => x <? 0) (diffs L)) with false; [reflexivity|]. symmetry. apply not_true_iff_false. intros F. rewrite forallb_forall in F.
        specialize (F x I). apply Z.ltb_lt in F. rewrite (DD x I) in F. lia.
      * replace (forallb (fun x => x <? 0) (diffs L)) with true; [reflexivity|]. symmetry. apply forallb_forall. intros y J. apply Z.ltb_lt. rewrite (DD y J). lia.
Qed.
End Window.

(** Blocks of [n] *)
Lemma blocks_length {A} (g : nat -> list A) n : (forall s, length (g s) = n) -> forall m a, length (List.concat (map g (seq a m))) = (m * n)%nat.
Proof. intros H. induction m as [|m IH]; intros a; [reflexivity|]. cbn [seq map List.concat]. rewrite app_length, H, IH. lia. Qed.
Lemma blocks_nth {A} (g : nat -> list A) n d : (forall s, length (g s) = n) -> forall m a k, (k < m * n)%nat ->
  nth k (List.concat (map g (seq a m))) d = nth (k mod n) (g (a + k / n)%nat) d.
Proof.
  intros H. induction m as [|m IH]; intros a k L; [lia|]. cbn [seq map List.concat]. assert (N : (n <> 0)%nat) by (intros ->; lia).
  destruct (le_lt_dec n k) as [G | G].
  - rewrite app_nth2 by (rewrite H; exact G). rewrite H, IH by lia.
    replace k with (n + (k - n))%nat at 3 4 by lia. replace ((n + (k - n)) mod n)%nat with ((k - n) mod n)%nat.
    2:{ replace (n + (k - n))%nat with ((k - n) + 1 * n)%nat by lia. rewrite Nat.mod_add; [reflexivity | exact N]. }
    replace ((n + (k - n)) / n)%nat with (1 + (k - n) / n)%nat.
    2:{ replace (n + (k - n))%nat with ((k - n) + 1 * n)%nat by lia. rewrite Nat.div_add; lia. }
    f_equal. f_equal. lia.
  - rewrite app_nth1 by (rewrite H; exact G). rewrite Nat.mod_small, Nat.div_small by exact G. f_equal. f_equal. lia.
Qed.
Lemma map_seq_nth {A B} (f : A -> B) (d : A) l : map f l = map (fun s => f (nth s l d)) (seq 0 (length l)).
Proof.
  rewrite <- (map_map (fun s => nth s l d) f). f_equal. symmetry. exact (take_seq d l).
Qed.
Lemma nth_repeat_lt {A} (x d : A) n k : (k < n)%nat -> nth k (repeat x n) d = x.
Proof. revert k. induction n as [|n IH]; intros [|k] L; cbn; try lia; [reflexivity|]. apply IH. lia. Qed.

Section Axis.
Variables (spws flex : list Z) (n : nat).
Hypotheses (ND : NoDup spws) (FX : flex = List.concat (map (fun w => repeat w n) spws)).
Lemma flex_length : length flex = (length spws * n)%nat.
Proof. rewrite FX, (map_seq_nth _ 0). apply (blocks_length (fun s => repeat (nth s spws 0) n)). intros s. apply repeat_length. Qed.
Lemma flex_nth k : (k < length spws * n)%nat -> nth k flex 0 = nth (k / n) spws 0.
Proof.
  intros L. rewrite FX, (map_seq_nth _ 0). rewrite (blocks_nth (fun s => repeat (nth s spws 0) n) n 0 (fun s => repeat_length _ _)) by exact L.
  apply nth_repeat_lt. apply Nat.mod_upper_bound. intros ->. lia.
Qed.
Lemma window_at s : (s < length spws)%nat -> nonzero (Z.eqb (nth s spws 0)) flex = seq (s * n) n.
Proof.
  intros L. symmetry. apply (nonzero_unique 0); [apply seq_sorted|]. intros i. rewrite in_seq, flex_length, Z.eqb_eq. split.
  - intros Hi. assert (N : (n <> 0)%nat) by lia. assert (Hl : (i < length spws * n)%nat) by nia. split; [exact Hl|].
    rewrite flex_nth by exact Hl. f_equal. apply Nat.div_unique with (r := (i - s * n)%nat); lia.
  - intros (Hl & E). rewrite flex_nth in E by exact Hl. assert (N : (n <> 0)%nat) by (intros ->; lia).
    assert (Hd : (i / n < length spws)%nat) by (apply Nat.div_lt_upper_bound; lia).
    apply (proj1 (NoDup_nth spws 0) ND) in E; [|exact L | exact Hd]. subst s. pose proof (Nat.div_mod i n N). pose proof (Nat.mod_upper_bound i n N). nia.
Qed.
End Axis.
Lemma of_window_nth l a n c : (c < n)%nat -> nth c (take 0 l (seq a n)) 0 = nth (a + c) l 0.
Proof. intros L. rewrite nth_take by (rewrite seq_length; exact L). rewrite seq_nth by exact L. reflexivity. Qed.

(** * Writing *)
Definition pol_order (o : fobj) : list nat := if (1 <? npols o)%nat then argsortZ (map Z.abs (o_pols o)) else [0%nat].
Definition sorted_pols (o : fobj) : list Z := take 0 (o_pols o) (pol_order o).
Definition ant_shift (miriad : bool) (o : fobj) : Z := if miriad && isinZ 0 (o_ants o) && forallb (Z.leb 0) (o_ants o) then 1 else 0.
Definition id_offset (o : fobj) : Z := if isinZ 0 (map fst (o_cat o)) then 1 else 0.
Definition sizes (o : fobj) : list nat := map (fun w => length (nonzero (Z.eqb w) (o_flex o))) (o_spws o).
Definition pols_fit (o : fobj) : bool := negb ((2 <? npols o)%nat && negb (constant (diffs (sorted_pols o)))).

Lemma write_ok miriad o f : write_uvfits miriad o = Ok f ->
  check_flex_spw_contiguous (o_spws o) (o_flex o) = Ok tt /\ forallb (window_spaced o) (o_spws o) = true /\
  length (uniqueN (sizes o)) = 1%nat /\ Forall (fun w => 0 < window_start o w) (o_spws o) /\
  pols_fit o = true /\
  f_nspw f = length (o_spws o) /\ f_nchan f = (nfreqs o / length (o_spws o))%nat /\ f_npol f = npols o /\
  f_pol0 f = nth 0 (sorted_pols o) 0 /\
  f_dpol f = (if (1 <? npols o)%nat then nth 1 (sorted_pols o) 0 - nth 0 (sorted_pols o) 0 else 1) /\
  f_freq0 f = nth 0 (map (window_start o) (o_spws o)) 0 /\ f_dfreq f = nth 0 (map (window_delta o) (o_spws o)) 0 /\
  f_fq f = (if (1 <? length (o_spws o))%nat then Some (map (fun x => x - f_freq0 f) (map (window_start o) (o_spws o)), map (window_delta o) (o_spws o)) else None) /\
  f_rows f = map (fun r =>
                {| r_uvw := (- fst (fst (r_uvw r)), - snd (fst (r_uvw r)), - snd (r_uvw r));
                   r_time := r_time r; r_lst := r_lst r;
                   r_ant1 := r_ant1 r + ant_shift miriad o; r_ant2 := r_ant2 r + ant_shift miriad o;
                   r_int := r_int r; r_src := r_src r + id_offset o |}) (o_rows o) /\
  (forall b s c p, f_data f b s c p =
     (fst (o_data o b (s * f_nchan f + c) (nth p (pol_order o) 0))%nat, - snd (o_data o b (s * f_nchan f + c) (nth p (pol_order o) 0))%nat,
      o_ns o b (s * f_nchan f + c)%nat (nth p (pol_order o) 0%nat) * (if o_flags o b (s * f_nchan f + c)%nat (nth p (pol_order o) 0%nat) then -1 else 1))) /\
  f_ants f = map (Z.add (ant_shift miriad o)) (o_ants o) /\ f_src f = map (fun e => (fst e + id_offset o, snd e)) (o_cat o).
Proof.
  unfold write_uvfits. destruct (check_flex_spw_contiguous (o_spws o) (o_flex o)) as [[]|] eqn:C; cbn [bind]; [|discriminate].
  destruct (forallb (window_spaced o) (o_spws o)) eqn:SP; cbn [negb]; [|discriminate].
  fold (sizes o). destruct (length (uniqueN (sizes o)) =? 1)%nat eqn:Z1; cbn [negb]; [|discriminate]. apply Nat.eqb_eq in Z1.
  destruct (existsb (fun x => x <=? 0) (map (window_start o) (o_spws o))) eqn:ST; [discriminate|].
  destruct (existsb (Z.eqb 0) (map (window_delta o) (o_spws o))) eqn:DE; [discriminate|].
  cbv zeta. fold (npols o). fold (pol_order o). fold (sorted_pols o).
  destruct ((2 <? npols o)%nat && negb (constant (diffs (sorted_pols o)))) eqn:PF; [discriminate|].
  intros E. injection E as <-. cbn [f_nspw f_nchan f_npol f_pol0 f_dpol f_freq0 f_dfreq f_fq f_rows f_data f_ants f_src].
  split; [reflexivity|]. split; [reflexivity|]. split; [exact Z1|].
  split. { apply Forall_forall. intros w I. apply Z.lt_nge. intros X. apply not_true_iff_false in ST. apply ST, existsb_exists. exists (window_start o w).
    split; [apply in_map, I | apply Z.leb_le, X]. }
  split; [unfold pols_fit; rewrite PF; reflexivity|]. repeat (split; [reflexivity|]). reflexivity.
Qed.

Lemma sorted_pols_perm o : o_pols o <> [] -> Permutation (pol_order o) (seq 0 (npols o)).
Proof.
  intros N. unfold pol_order. destruct (1 <? npols o)%nat eqn:E.
  - unfold npols. rewrite <- (map_length Z.abs). apply argsortZ_perm.
  - apply Nat.ltb_ge in E. unfold npols in *. destruct (o_pols o) as [|x [|y l]]; [contradiction | reflexivity | cbn in E; lia].
Qed.
Lemma sorted_pols_sorted o : o_pols o <> [] -> by_size (sorted_pols o).
Proof.
  intros N. unfold sorted_pols, pol_order, by_size. destruct (1 <? npols o)%nat eqn:E.
  - pose proof (argsortZ_sorted (map Z.abs (o_pols o))) as S. pose proof (argsortZ_perm (map Z.abs (o_pols o))) as P. rewrite map_length in P.
    revert S P. generalize (argsortZ (map Z.abs (o_pols o))). intros idx S P.
    assert (Q : take 0 (map Z.abs (o_pols o)) idx = map Z.abs (take 0 (o_pols o) idx)).
    { unfold take. rewrite map_map. apply map_ext_in. intros i I. apply (Permutation_in _ P) in I. apply in_seq in I. rewrite (nth_map _ _ _ 0) by lia. reflexivity. }
    rewrite Q in S. apply (proj2 (StronglySorted_map _ _ _)) in S. exact S.
  - apply Nat.ltb_ge in E. unfold npols in E. destruct (o_pols o) as [|x [|y l]]; [contradiction | | cbn in E; lia]. cbn. repeat constructor.
Qed.
Lemma axis_is (l : list Z) : l <> [] -> ((2 < length l)%nat -> constant (diffs l) = true) ->
  hdu_axis (length l) (nth 0 l 0) (if (1 <? length l)%nat then nth 1 l 0 - nth 0 l 0 else 1) = l.
Proof.
  intros N C. unfold hdu_axis. apply nth_ext with (d := 0) (d' := 0); [rewrite map_length, seq_length; reflexivity|]. intros i L. rewrite map_length, seq_length in L.
  rewrite (nth_map _ _ _ 0%nat) by (rewrite seq_length; exact L). rewrite seq_nth by exact L. cbn [Nat.add].
  destruct (1 <? length l)%nat eqn:E.
  - apply Nat.ltb_lt in E.
    assert (ST : forall j, (S j < length l)%nat -> nth (S j) l 0 = nth j l 0 + (nth 1 l 0 - nth 0 l 0)).
    { intros j Lj. pose proof (diffs_nth l j Lj) as X. destruct (le_lt_dec (length l) 2) as [G | G].
      - assert (j = 0)%nat as -> by lia. lia.
      - pose proof (proj1 (constant_spec _) (C G)) as K. rewrite (K (nth j (diffs l) 0)) in X by (apply nth_In; rewrite diffs_length; lia).
        rewrite (diffs_nth l 0 E) in X. lia. }
    clear C. induction i as [|i IH]; [lia|]. rewrite (ST i L), <- IH by lia. nia.
  - apply Nat.ltb_ge in E. assert (i = 0)%nat as -> by lia. lia.
Qed.

(** * There and back *)
Section Back.
Variables (miriad : bool) (o : fobj) (f : uvfits) (n : nat).
Hypotheses (O : obj_ok o) (W : write_uvfits miriad o = Ok f) (IO : in_order n o).

Lemma n_pos : (0 < n)%nat.
Proof.
  destruct n; [|lia]. exfalso. apply (oo_freqs _ O). pose proof (oo_flex _ O) as L. unfold in_order in IO. rewrite IO in L. apply length_zero_iff_nil.
  unfold nfreqs in L. rewrite <- L. clear. induction (o_spws o); [reflexivity | assumption].
Qed.
Lemma nfreqs_is : nfreqs o = (length (o_spws o) * n)%nat.
Proof. rewrite <- (oo_flex _ O). apply flex_length, IO. Qed.
Lemma spws_pos : (0 < length (o_spws o))%nat.
Proof. destruct (oo_spws _ O) as (N & _). destruct (o_spws o); [contradiction | cbn; lia]. Qed.
Lemma nchan_is : f_nchan f = n.
Proof. destruct (write_ok _ _ _ W) as (_ & _ & _ & _ & _ & _ & -> & _). rewrite nfreqs_is, Nat.mul_comm, Nat.div_mul; [reflexivity|]. pose proof spws_pos. lia. Qed.
Lemma window_is l s : (s < length (o_spws o))%nat -> of_window o l (nth s (o_spws o) 0) = take 0 l (seq (s * n) n).
Proof. intros L. unfold of_window. rewrite (window_at (o_spws o) (o_flex o) n (proj2 (oo_spws _ O)) IO s L). reflexivity. Qed.

Definition start s := nth s (map (window_start o) (o_spws o)) 0.
Definition delta s := nth s (map (window_delta o) (o_spws o)) 0.
Lemma window_numbers s : (s < length (o_spws o))%nat ->
  delta s <> 0 /\ (forall c, (c < n)%nat -> nth (s * n + c) (o_freqs o) 0 = start s + Z.of_nat c * delta s) /\
  (forall c, (c < n)%nat -> nth (s * n + c) (o_widths o) 0 = Z.abs (delta s)) /\
  (delta s < 0 <-> (2 <= n)%nat /\ nth (s * n + 1) (o_freqs o) 0 < nth (s * n) (o_freqs o) 0).
Proof.
  intros L. pose proof n_pos as NP. destruct (write_ok _ _ _ W) as (_ & SP & _). rewrite forallb_forall in SP.
  specialize (SP (nth s (o_spws o) 0) (nth_In _ _ L)). unfold window_spaced in SP. rewrite !window_is in SP by exact L.
  assert (Es : start s = nth 0 (take 0 (o_freqs o) (seq (s * n) n)) 0).
  { unfold start. rewrite (nth_map _ _ _ 0) by exact L. unfold window_start. rewrite window_is by exact L. reflexivity. }
  assert (Ed : delta s = step_of (take 0 (o_freqs o) (seq (s * n) n)) (take 0 (o_widths o) (seq (s * n) n))).
  { unfold delta. rewrite (nth_map _ _ _ 0) by exact L. unfold window_delta, step_of. rewrite !window_is by exact L. reflexivity. }
  set (F := take 0 (o_freqs o) (seq (s * n) n)) in *. set (V := take 0 (o_widths o) (seq (s * n) n)) in *.
  assert (LF : length F = n) by (unfold F; rewrite take_length, seq_length; reflexivity).
  assert (LV : length V = n) by (unfold V; rewrite take_length, seq_length; reflexivity).
  destruct (window_steps F V) as (D0 & D1 & D2 & D3).
  { intros X. rewrite X in LF. cbn in LF. lia. } { congruence. }
  { unfold V, take. apply Forall_forall. intros x I. apply in_map_iff in I as (i & <- & I). apply in_seq in I.
    pose proof (oo_positive _ O) as P. rewrite Forall_forall in P. apply P, nth_In. rewrite (oo_widths _ O), nfreqs_is. nia. }
  { exact SP. }
  rewrite <- Ed, LF in *. rewrite <- Es in D1. split; [exact D0|]. split; [|split].
  - intros c Lc. rewrite <- (of_window_nth (o_freqs o) (s * n) n c Lc). apply D1, Lc.
  - intros c Lc. rewrite <- (of_window_nth (o_widths o) (s * n) n c Lc). apply D2. rewrite LV. exact Lc.
  - destruct (le_lt_dec 2 n) as [G | G].
    + unfold F in D3. rewrite !of_window_nth in D3 by lia. rewrite Nat.add_0_r in D3. exact D3.
    + split; [intros X; apply D3 in X; lia | intros (X & _); lia].
Qed.

Lemma index_split k : (k < nfreqs o)%nat -> (k / n < length (o_spws o))%nat /\ (k mod n < n)%nat /\ (k / n * n + k mod n)%nat = k.
Proof.
  rewrite nfreqs_is. intros L. pose proof n_pos as NP. assert (N : (n <> 0)%nat) by lia.
  split; [apply Nat.div_lt_upper_bound; lia|]. split; [apply Nat.mod_upper_bound; lia|]. pose proof (Nat.div_mod k n N). lia.
Qed.

Lemma read_all : read_uvfits None None None f = Ok (fill_data (read_meta f) (f_nchan f) (f_data f)).
Proof. reflexivity. Qed.

Lemma fq_is : f_fq f = (if (1 <? length (o_spws o))%nat then Some (map (fun x => x - start 0) (map (window_start o) (o_spws o)), map (window_delta o) (o_spws o)) else None).
Proof. pose proof (write_ok _ _ _ W) as H. do 10 destruct H as (_ & H). destruct H as (E & _ & -> & _). rewrite E. reflexivity. Qed.
Lemma f_facts : f_nspw f = length (o_spws o) /\ f_npol f = npols o /\ f_freq0 f = start 0 /\ f_dfreq f = delta 0.
Proof. pose proof (write_ok _ _ _ W) as H. do 5 destruct H as (_ & H). destruct H as (-> & _ & -> & _ & _ & -> & -> & _). auto. Qed.

Lemma back_freqs : o_freqs (read_meta f) = o_freqs o.
Proof.
  destruct f_facts as (E1 & E2 & E3 & E4). cbn [read_meta o_freqs]. rewrite fq_is, E1, E3, E4, nchan_is.
  destruct (1 <? length (o_spws o))%nat eqn:M.
  - set (g := fun s => map (fun j => start 0 + nth s (map (fun x => x - start 0) (map (window_start o) (o_spws o))) 0 + Z.of_nat j * nth s (map (window_delta o) (o_spws o)) 0) (seq 0 n)).
    assert (G : forall s, length (g s) = n) by (intros s; unfold g; rewrite map_length, seq_length; reflexivity).
    apply nth_ext with (d := 0) (d' := 0); [rewrite (blocks_length g n G); symmetry; exact nfreqs_is|].
    intros k L. rewrite (blocks_length g n G), <- nfreqs_is in L. destruct (index_split k L) as (L1 & L2 & E).
    rewrite (blocks_nth g n 0 G) by (rewrite <- nfreqs_is; exact L). cbn [Nat.add].
    rewrite <- E at 3. destruct (window_numbers _ L1) as (_ & X & _). rewrite (X _ L2). unfold g.
    rewrite (nth_map _ _ _ 0%nat) by (rewrite seq_length; exact L2). rewrite seq_nth by exact L2. cbn [Nat.add].
    rewrite (nth_map _ _ _ 0) by (rewrite map_length; exact L1). fold (start (k / n)) (delta (k / n)). lia.
  - apply Nat.ltb_ge in M. pose proof spws_pos as SP. assert (S1 : length (o_spws o) = 1%nat) by lia.
    apply nth_ext with (d := 0) (d' := 0); unfold hdu_axis; rewrite map_length, seq_length; [fold (nfreqs o); rewrite nfreqs_is; lia|].
    intros k L. rewrite (nth_map _ _ _ 0%nat) by (rewrite seq_length; exact L). rewrite seq_nth by exact L. cbn [Nat.add].
    destruct (window_numbers 0%nat ltac:(lia)) as (_ & X & _). specialize (X k L). cbn [Nat.mul Nat.add] in X. rewrite X. lia.
Qed.
Lemma back_widths : if ((length (o_spws o) =? 1)%nat && (nth 1 (o_freqs o) 0 <? nth 0 (o_freqs o) 0) && (2 <=? nfreqs o)%nat)
  then o_widths (read_meta f) = map Z.opp (o_widths o) else o_widths (read_meta f) = o_widths o.
Proof.
  destruct f_facts as (E1 & E2 & E3 & E4). cbn [read_meta o_widths]. rewrite fq_is, E1, E4, nchan_is. pose proof spws_pos as SP.
  destruct (1 <? length (o_spws o))%nat eqn:M.
  - apply Nat.ltb_lt in M. replace (length (o_spws o) =? 1)%nat with false by (symmetry; apply Nat.eqb_neq; lia). cbn [andb].
    set (g := fun s => repeat (Z.abs (nth s (map (window_delta o) (o_spws o)) 0)) n).
    assert (G : forall s, length (g s) = n) by (intros s; apply repeat_length).
    apply nth_ext with (d := 0) (d' := 0); [rewrite (blocks_length g n G), (oo_widths _ O); symmetry; exact nfreqs_is|].
    intros k L. rewrite (blocks_length g n G), <- nfreqs_is in L. destruct (index_split k L) as (L1 & L2 & E).
    rewrite (blocks_nth g n 0 G) by (rewrite <- nfreqs_is; exact L). cbn [Nat.add]. unfold g. rewrite nth_repeat_lt by exact L2. fold (delta (k / n)).
    rewrite <- E at 2. destruct (window_numbers _ L1) as (_ & _ & X & _). rewrite (X _ L2). reflexivity.
  - apply Nat.ltb_ge in M. assert (S1 : length (o_spws o) = 1%nat) by lia. rewrite S1. cbn [Nat.eqb andb].
    assert (NF : nfreqs o = n) by (rewrite nfreqs_is; lia). rewrite NF.
    destruct (window_numbers 0%nat ltac:(lia)) as (_ & _ & X & Y). cbn [Nat.mul Nat.add] in X, Y.
    assert (WL : length (o_widths o) = n) by (rewrite (oo_widths _ O); exact NF).
    destruct ((nth 1 (o_freqs o) 0 <? nth 0 (o_freqs o) 0) && (2 <=? n)%nat) eqn:D.
    + apply andb_true_iff in D as (D1 & D2). apply Z.ltb_lt in D1. apply Nat.leb_le in D2. assert (N : delta 0 < 0) by (apply Y; auto).
      apply nth_ext with (d := 0) (d' := 0); rewrite repeat_length; [rewrite map_length; congruence|]. intros k L. rewrite nth_repeat_lt by exact L.
      rewrite (nth_map _ _ _ 0) by lia. rewrite (X k L). lia.
    + assert (N : ~ delta 0 < 0). { intros N. apply Y in N as (N1 & N2). apply Z.ltb_lt in N2. apply Nat.leb_le in N1. rewrite N1, N2 in D. discriminate. }
      apply nth_ext with (d := 0) (d' := 0); rewrite repeat_length; [congruence|]. intros k L. rewrite nth_repeat_lt by exact L. rewrite (X k L). lia.
Qed.
Lemma back_flex : length (o_flex (read_meta f)) = nfreqs o /\
    forall k, (k < nfreqs o)%nat -> exists i, (i < length (o_spws o))%nat /\ nth k (o_flex o) 0 = nth i (o_spws o) 0 /\ nth k (o_flex (read_meta f)) 0 = Z.of_nat i.
Proof.
  destruct f_facts as (E1 & E2 & E3 & E4). cbn [read_meta o_flex]. rewrite fq_is, E1, nchan_is. pose proof spws_pos as SP.
  assert (B : forall k, (k < nfreqs o)%nat -> nth k (o_flex o) 0 = nth (k / n) (o_spws o) 0).
  { intros k L. apply flex_nth with (1 := IO). rewrite <- nfreqs_is. exact L. }
  destruct (1 <? length (o_spws o))%nat eqn:M.
  - set (g := fun s => repeat (Z.of_nat s) n). assert (G : forall s, length (g s) = n) by (intros s; apply repeat_length).
    rewrite (blocks_length g n G). split; [symmetry; exact nfreqs_is|]. intros k L. destruct (index_split k L) as (L1 & L2 & E). exists (k / n)%nat.
    split; [exact L1|]. split; [apply B, L|]. rewrite (blocks_nth g n 0 G) by (rewrite <- nfreqs_is; exact L). apply nth_repeat_lt, L2.
  - apply Nat.ltb_ge in M. assert (S1 : length (o_spws o) = 1%nat) by lia. rewrite repeat_length.
    assert (NF : nfreqs o = n) by (rewrite nfreqs_is; lia). split; [congruence|]. intros k L. exists 0%nat. split; [lia|]. split.
    + rewrite (B k L). f_equal. apply Nat.div_small. lia.
    + apply nth_repeat_lt. lia.
Qed.
Lemma back_pols : o_pols (read_meta f) = sorted_pols o.
Proof.
  pose proof (write_ok _ _ _ W) as H. do 4 destruct H as (_ & H). destruct H as (PF & _ & _ & E1 & E2 & E3 & _). cbn [read_meta o_pols]. rewrite E1, E2, E3.
  assert (L : length (sorted_pols o) = npols o).
  { unfold sorted_pols. rewrite take_length. rewrite (Permutation_length (sorted_pols_perm o (proj1 (oo_pols _ O)))). apply seq_length. }
  rewrite <- L. apply axis_is.
  - intros X. rewrite X in L. cbn in L. destruct (oo_pols _ O) as (N & _). unfold npols in L. destruct (o_pols o); [contradiction | discriminate].
  - intros G. unfold pols_fit in PF. rewrite L in G. apply Nat.ltb_lt in G. rewrite G in PF. destruct (constant (diffs (sorted_pols o))); [reflexivity | discriminate].
Qed.

Lemma in_cat e s : In (s, e) (o_cat o) <-> In (s + id_offset o, e) (map (fun e => (fst e + id_offset o, snd e)) (o_cat o)).
Proof.
  rewrite in_map_iff. split.
  - intros I. exists (s, e). auto.
  - intros ((s0 & e0) & E & I). cbn in E. injection E as E1 E2. assert (s0 = s) by lia. subst. exact I.
Qed.

Theorem there_and_back : back (ant_shift miriad o) o (fill_data (read_meta f) (f_nchan f) (f_data f)).
Proof.
  pose proof (write_ok _ _ _ W) as H. do 13 destruct H as (_ & H). destruct H as (ER & ED & EA & ES). destruct f_facts as (E1 & E2 & E3 & E4).
  constructor; cbn [fill_data o_rows o_freqs o_widths o_flex o_spws o_pols o_ants o_cat o_data o_flags o_ns].
  - cbn [read_meta o_rows]. rewrite ER, map_map. 
    assert (G : forall l, Forall2 (same_row (ant_shift miriad o) o (fill_data (read_meta f) (f_nchan f) (f_data f))) l
      (map (fun r => {| r_uvw := (- fst (fst (- fst (fst (r_uvw r)), - snd (fst (r_uvw r)), - snd (r_uvw r))), - snd (fst (- fst (fst (r_uvw r)), - snd (fst (r_uvw r)), - snd (r_uvw r))), - snd (- fst (fst (r_uvw r)), - snd (fst (r_uvw r)), - snd (r_uvw r)));
         r_time := r_time r; r_lst := r_lst r; r_ant1 := r_ant1 r + ant_shift miriad o; r_ant2 := r_ant2 r + ant_shift miriad o; r_int := r_int r; r_src := r_src r + id_offset o |}) l)).
    { induction l as [|r l IH]; [constructor|]. cbn [map]. constructor; [|exact IH]. unfold same_row. cbn [r_uvw r_time r_lst r_ant1 r_ant2 r_int r_src fst snd].
      split; [destruct (r_uvw r) as ((u & v) & w); cbn [fst snd]; rewrite !Z.opp_involutive; reflexivity|]. repeat (split; [reflexivity|]).
      intros e. cbn [fill_data o_cat read_meta]. rewrite ES. apply in_cat. }
    apply G.
  - cbn [read_meta o_ants]. exact EA.
  - apply back_freqs.
  - apply back_widths.
  - cbn [read_meta o_spws]. rewrite E1. reflexivity.
  - apply back_flex.
  - rewrite back_pols. split; [|apply sorted_pols_sorted, (oo_pols _ O)]. symmetry. apply take_perm, sorted_pols_perm, (oo_pols _ O).
  - intros b k p p' (Lb & Lk & Lp) Lp' E. rewrite back_pols in E. rewrite nchan_is. destruct (index_split k Lk) as (L1 & L2 & Ek).
    pose proof (sorted_pols_perm o (proj1 (oo_pols _ O))) as PP.
    assert (LO : length (pol_order o) = npols o) by (rewrite (Permutation_length PP); apply seq_length).
    unfold sorted_pols in E. rewrite nth_take in E by (rewrite LO; exact Lp').
    assert (LQ : (nth p' (pol_order o) 0 < npols o)%nat). { assert (I : In (nth p' (pol_order o) 0%nat) (seq 0 (npols o))) by (apply (Permutation_in _ PP), nth_In; rewrite LO; exact Lp'). apply in_seq in I. lia. }
    apply (proj1 (NoDup_nth _ 0) (proj2 (oo_pols _ O))) in E; [|exact Lp | exact LQ].
    rewrite ED, nchan_is, Ek, <- E. pose proof (oo_ns _ O b k p (conj Lb (conj Lk Lp))) as NS. split; [|split].
    + rewrite Z.opp_involutive. destruct (o_data o b k p); reflexivity.
    + destruct (o_flags o b k p); lia.
    + destruct (o_flags o b k p); cbn [orb].
      * apply Z.leb_le. lia.
      * rewrite Z.mul_1_r. destruct (Z.eqb_spec (o_ns o b k p) 0) as [-> | N]; [reflexivity|]. apply Z.leb_gt. lia.
Qed.
End Back.

(** * What can be written *)
Lemma sizes_nth flex w : length (nonzero (Z.eqb w) flex) = count_occ Z.eq_dec flex w.
Proof.
  unfold nonzero. generalize 0%nat. induction flex as [|v flex IH]; intros n; [reflexivity|]. cbn [where_from count_occ].
  destruct (Z.eqb_spec w v) as [-> | N].
  - destruct (Z.eq_dec v v); [|contradiction]. cbn [length]. f_equal. apply IH.
  - destruct (Z.eq_dec v w); [congruence|]. apply IH.
Qed.
Lemma one_size l : l <> [] -> (length (uniqueN l) = 1%nat <-> exists n, forall x, In x l -> x = n).
Proof.
  intros N. split.
  - intros H. destruct (uniqueN l) as [|n [|m t]] eqn:E; try discriminate. exists n. intros x I. apply uniqueN_In in I. rewrite E in I. destruct I as [-> | []]. reflexivity.
  - intros (n & H). rewrite <- (uniqueN_char l [n]); [reflexivity | repeat constructor|]. intros x. split.
    + intros [<- | []]. destruct l as [|y l]; [contradiction|]. rewrite <- (H y) by (left; reflexivity). left. reflexivity.
    + intros I. left. symmetry. apply H, I.
Qed.
Lemma evenly_constant l : evenly_spaced l <-> constant (diffs l) = true.
Proof.
  split.
  - intros (d & H). apply constant_spec. intros x I.
    assert (G : forall i, (i < length (diffs l))%nat -> nth i (diffs l) 0 = d) by (intros i Li; rewrite diffs_length in Li; rewrite diffs_nth by lia; apply H; lia).
    apply In_nth with (d := 0) in I as (i & Li & <-). rewrite !G by lia. reflexivity.
  - intros H. exists (nth 0 (diffs l) 0). intros i Li. rewrite <- diffs_nth by exact Li. apply (proj1 (constant_spec _) H), nth_In. rewrite diffs_length. lia.
Qed.
Lemma pols_fit_spec o : o_pols o <> [] -> (pols_fit o = true <-> evenly_spaced (sorted_pols o)).
Proof.
  intros N. assert (L : length (sorted_pols o) = npols o).
  { unfold sorted_pols. rewrite take_length, (Permutation_length (sorted_pols_perm o N)). apply seq_length. }
  unfold pols_fit. destruct (2 <? npols o)%nat eqn:E; cbn [andb negb].
  - rewrite negb_involutive. symmetry. apply evenly_constant.
  - apply Nat.ltb_ge in E. split; [intros _|reflexivity]. exists (nth 1 (sorted_pols o) 0 - nth 0 (sorted_pols o) 0). intros i Li.
    assert (i = 0)%nat as -> by lia. reflexivity.
Qed.
Lemma by_size_unique l l' : NoDup (map Z.abs l) -> Permutation l l' -> by_size l -> by_size l' -> l = l'.
Proof.
  intros N P S1 S2.
  assert (G : forall m, NoDup (map Z.abs m) -> by_size m -> StronglySorted (fun x y => Z.abs x < Z.abs y) m).
  { clear. induction m as [|x m IH]; intros N S; [constructor|]. cbn [map] in N. inversion N as [|? ? NI N']; subst. inversion S as [|? ? S' F]; subst.
    constructor; [apply IH; assumption|]. rewrite Forall_forall in F |- *. intros y I. specialize (F y I). cbv beta in F.
    assert (Z.abs x <> Z.abs y) by (intros X; apply NI; rewrite X; apply in_map, I). lia. }
  apply (sorted_unique (fun x y => Z.abs x < Z.abs y)).
  - intros; lia. - intros; lia. - apply G; assumption.
  - apply G; [|assumption]. eapply Permutation_NoDup; [|exact N]. apply Permutation_map, P.
  - intros x. split; apply Permutation_in; [exact P | symmetry; exact P].
Qed.

Lemma window_facts o w : obj_ok o -> (forall w, In w (o_flex o) <-> In w (o_spws o)) -> In w (o_spws o) ->
  let F := window_freqs w (o_flex o) (o_freqs o) in let V := window_freqs w (o_flex o) (o_widths o) in
  of_window o (o_freqs o) w = F /\ of_window o (o_widths o) w = V /\ F <> [] /\ length V = length F /\ Forall (fun w => 0 < w) V.
Proof.
  intros O A I F V.
  assert (E1 : of_window o (o_freqs o) w = F) by (apply take_window_freqs; symmetry; exact (oo_flex _ O)).
  assert (E2 : of_window o (o_widths o) w = V) by (apply take_window_freqs; rewrite (oo_flex _ O); exact (oo_widths _ O)).
  assert (LN : length (nonzero (Z.eqb w) (o_flex o)) <> 0%nat).
  { rewrite sizes_nth. apply A in I. apply (count_occ_In Z.eq_dec) in I. lia. }
  split; [exact E1|]. split; [exact E2|]. rewrite <- E1, <- E2. unfold of_window. split; [|split].
  - intros X. apply LN. rewrite <- (take_length 0 (o_freqs o)), X. reflexivity.
  - rewrite !take_length. reflexivity.
  - apply Forall_forall. intros x J. unfold take in J. apply in_map_iff in J as (i & <- & J). apply nonzero_lt in J.
    pose proof (oo_positive _ O) as P. rewrite Forall_forall in P. apply P, nth_In. rewrite (oo_widths _ O), <- (oo_flex _ O). exact J.
Qed.

Theorem write_exact miriad o : obj_ok o -> NoDup (map Z.abs (o_pols o)) ->
  ((exists f, write_uvfits miriad o = Ok f) <-> writable o).
Proof.
  intros O ND. destruct (oo_spws _ O) as (SN & SD). destruct (oo_pols _ O) as (PN & PD).
  assert (FN : o_flex o <> []). { intros X. pose proof (oo_flex _ O) as L. rewrite X in L. apply (oo_freqs _ O). unfold nfreqs in L. destruct (o_freqs o); [reflexivity | discriminate]. }
  split.
  - intros (f & W). destruct (write_ok _ _ _ W) as (C & SP & SZ & ST & PF & _). apply (contiguity_exact _ _ FN SN SD) in C as (C1 & C2).
    unfold writable. split; [exact C1|]. split; [exact C2|]. split; [|split; [|split]].
    + apply one_size in SZ; [|unfold sizes; destruct (o_spws o); [contradiction | discriminate]]. destruct SZ as (n & H). exists n. intros w I. rewrite <- sizes_nth. apply H. unfold sizes.
      apply in_map_iff. exists w. auto.
    + intros w I. destruct (window_facts o w O C2 I) as (E1 & E2 & F1 & F2 & F3). rewrite forallb_forall in SP. specialize (SP w I). unfold window_spaced in SP.
      rewrite E1, E2 in SP. apply spacedb_spec; assumption.
    + intros w I. destruct (window_facts o w O C2 I) as (E1 & _). rewrite Forall_forall in ST. specialize (ST w I). unfold window_start in ST. rewrite E1 in ST. exact ST.
    + exists (sorted_pols o). split; [symmetry; apply take_perm, sorted_pols_perm, PN|]. split; [apply sorted_pols_sorted, PN|]. apply pols_fit_spec; assumption.
  - intros (C1 & C2 & (n & SZ) & SP & ST & pols & P1 & P2 & P3).
    assert (EP : pols = sorted_pols o).
    { apply by_size_unique; [| |exact P2 | apply sorted_pols_sorted, PN].
      - eapply Permutation_NoDup; [|exact ND]. apply Permutation_map, P1.
      - transitivity (o_pols o); [symmetry; exact P1|]. symmetry. apply take_perm, sorted_pols_perm, PN. }
    subst pols. apply (pols_fit_spec o PN) in P3. unfold write_uvfits. rewrite (proj2 (contiguity_exact _ _ FN SN SD) (conj C1 C2)). cbn [bind].
    assert (B1 : forallb (window_spaced o) (o_spws o) = true).
    { apply forallb_forall. intros w I. destruct (window_facts o w O C2 I) as (E1 & E2 & F1 & F2 & F3). unfold window_spaced. rewrite E1, E2. apply spacedb_spec; auto. }
    rewrite B1. cbn [negb]. cbv zeta. fold (sizes o).
    assert (B2 : length (uniqueN (sizes o)) = 1%nat).
    { apply one_size; [unfold sizes; destruct (o_spws o); [contradiction | discriminate]|]. exists n. intros x I. unfold sizes in I. apply in_map_iff in I as (w & <- & I). rewrite sizes_nth. apply SZ, I. }
    rewrite B2. cbn [Nat.eqb negb].
    assert (B3 : existsb (fun x => x <=? 0) (map (window_start o) (o_spws o)) = false).
    { apply not_true_iff_false. intros X. apply existsb_exists in X as (x & I & X). apply in_map_iff in I as (w & <- & I). apply Z.leb_le in X.
      specialize (ST w I). destruct (window_facts o w O C2 I) as (E1 & _). unfold window_start in X. rewrite E1 in X. lia. }
    rewrite B3.
    assert (B4 : existsb (Z.eqb 0) (map (window_delta o) (o_spws o)) = false).
    { apply not_true_iff_false. intros X. apply existsb_exists in X as (x & I & X). apply in_map_iff in I as (w & <- & I). apply Z.eqb_eq in X.
      destruct (window_facts o w O C2 I) as (E1 & E2 & F1 & F2 & F3). rewrite forallb_forall in B1. specialize (B1 w I). unfold window_spaced in B1. rewrite E1, E2 in B1.
      destruct (window_steps _ _ F1 F2 F3 B1) as (X' & _). apply X'. unfold step_of. unfold window_delta in X. rewrite E1, E2 in X. symmetry. exact X. }
    rewrite B4. fold (npols o). fold (pol_order o). fold (sorted_pols o). unfold pols_fit in P3. apply negb_true_iff in P3. rewrite P3. eexists. reflexivity.
Qed.

(** * Reading a part *)
Lemma full_index n i : StronglySorted lt i -> Forall (fun k => (k < n)%nat) i -> (n <= length i)%nat -> i = seq 0 n.
Proof.
  intros S F L. apply (sorted_unique lt); try (intros; lia); [exact S | apply seq_sorted|].
  assert (N : NoDup i). { clear - S. induction S as [|x l S IH F]; constructor; [|exact IH]. intros I. rewrite Forall_forall in F. specialize (F x I). lia. }
  rewrite Forall_forall in F. intros x. split; [intros I; apply in_seq; specialize (F x I); lia|].
  intros I. apply (NoDup_length_incl N (l' := seq 0 n)); [rewrite seq_length; exact L | | exact I]. intros y J. apply in_seq. specialize (F y J). lia.
Qed.
Lemma part n i : index_list n i -> Qle_bool 1 (fraction i 1 n) = true -> i = None \/ i = Some (seq 0 n).
Proof.
  destruct i as [i|]; [|auto]. intros (N & S & F) H. right. f_equal. apply full_index; [exact S | exact F|]. cbn [fraction] in H.
  apply Qle_bool_iff in H. unfold Qle in H. cbn [Qnum Qden] in H. rewrite Nat.mul_1_r in H.
  assert (P : (0 < n)%nat) by (destruct i as [|x i]; [contradiction|]; inversion F; lia).
  replace (Z.pos (Pos.of_nat n)) with (Z.of_nat n) in H; [lia|]. rewrite <- (Nat2Pos.id n) at 1 by lia. apply positive_nat_Z.
Qed.
Lemma only_none b : only_if b None = None.
Proof. destruct b; reflexivity. Qed.
Lemma kept n i b : index_list n i -> let j := only_if (b || Qlt1 (fraction i 1 n)) i in
  in_axis n j = true /\ count n j = count n i /\ forall k, (k < count n i)%nat -> along j k = pos i k.
Proof.
  intros H j. assert (D : j = i \/ j = None /\ i = Some (seq 0 n)).
  { unfold j, only_if, Qlt1. destruct b; [auto|]. cbn [orb]. destruct (Qle_bool 1 (fraction i 1 n)) eqn:E; [|auto]. cbn [negb]. destruct (part n i H E) as [-> | ->]; auto. }
  clearbody j. destruct D as [-> | (-> & ->)].
  - split; [|auto]. destruct i as [i|]; [|reflexivity]. cbn [in_axis]. apply forallb_forall. destruct H as (_ & _ & F). rewrite Forall_forall in F. intros k I. apply Nat.ltb_lt, F, I.
  - split; [reflexivity|]. cbn [count along pos]. rewrite seq_length. split; [reflexivity|]. intros k L. rewrite seq_nth by exact L. reflexivity.
Qed.
Lemma picks_pick {A} (d : A) i l : index_list (length l) i -> picks i l (pick d l i).
Proof.
  destruct i as [i|]; [|reflexivity]. intros (_ & _ & F). cbn [picks pick]. split; [apply take_length|]. intros k d' L. rewrite Forall_forall in F.
  unfold take. rewrite (nth_map _ _ _ 0%nat) by exact L. apply nth_indep. apply F, nth_In, L.
Qed.
Lemma picks_full {A} i (l : list A) n : n = length l -> i = None \/ i = Some (seq 0 n) -> picks i l l.
Proof.
  intros -> [-> | ->]; [reflexivity|]. cbn [picks]. rewrite seq_length. split; [reflexivity|]. intros k d L. rewrite seq_nth by exact L. reflexivity.
Qed.
Lemma pos_full i n k : i = None \/ i = Some (seq 0 n) -> (k < n)%nat -> pos i k = k.
Proof. intros [-> | ->] L; [reflexivity|]. cbn [pos]. rewrite seq_nth by exact L. reflexivity. Qed.
Lemma pick_length {A} (d : A) l i n : length l = n -> length (pick d l i) = count n i.
Proof. intros <-. destruct i; [apply take_length | reflexivity]. Qed.

(** A file as it is written *)
Record file_ok (f : uvfits) : Prop := {
  fo_rows : length (o_freqs (read_meta f)) = (f_nspw f * f_nchan f)%nat;
  fo_chan : (0 < f_nchan f)%nat;
  fo_one : f_nspw f = 1%nat -> f_fq f = None }.
Lemma written_ok miriad o f n : obj_ok o -> write_uvfits miriad o = Ok f -> in_order n o -> file_ok f.
Proof.
  intros O W IO. destruct (f_facts miriad o f W) as (E1 & _). constructor.
  - rewrite (back_freqs miriad o f n O W IO). fold (nfreqs o). rewrite E1, (nchan_is miriad o f n O W IO). apply (nfreqs_is o n O IO).
  - rewrite (nchan_is miriad o f n O W IO). apply (n_pos o n O IO).
  - intros X. rewrite (fq_is miriad o f W), <- E1, X. reflexivity.
Qed.

Theorem read_part f bi fi pi : file_ok f -> f_nspw f = 1%nat \/ fi = None ->
  index_list (length (f_rows f)) bi -> index_list (length (o_freqs (read_meta f))) fi -> index_list (f_npol f) pi ->
  exists o', read_uvfits bi fi pi f = Ok o' /\ cut_of bi fi pi (fill_data (read_meta f) (f_nchan f) (f_data f)) o'.
Proof.
  intros FO ONE Ib If Ip. set (full := fill_data (read_meta f) (f_nchan f) (f_data f)). unfold read_uvfits.
  assert (LR : length (o_rows (read_meta f)) = length (f_rows f)) by apply map_length.
  assert (LP : length (o_pols (read_meta f)) = f_npol f) by (cbn [read_meta o_pols]; unfold hdu_axis; rewrite map_length, seq_length; reflexivity).
  assert (LF := fo_rows _ FO).
  assert (LW : length (o_widths (read_meta f)) = length (o_freqs (read_meta f))).
  { cbn [read_meta o_freqs o_widths]. destruct (f_fq f) as [(st & ws)|].
    - rewrite (blocks_length _ (f_nchan f)) by (intros; apply repeat_length). rewrite (blocks_length _ (f_nchan f)) by (intros; rewrite map_length; apply seq_length). reflexivity.
    - unfold hdu_axis. rewrite repeat_length, map_length, seq_length. reflexivity. }
  assert (LX : length (o_flex (read_meta f)) = length (o_freqs (read_meta f))).
  { cbn [read_meta o_freqs o_flex]. destruct (f_fq f) as [(st & ws)|].
    - rewrite (blocks_length _ (f_nchan f)) by (intros; apply repeat_length). rewrite (blocks_length _ (f_nchan f)) by (intros; rewrite map_length; apply seq_length). reflexivity.
    - unfold hdu_axis. rewrite repeat_length, map_length, seq_length. reflexivity. }
  assert (FF : fraction fi (f_nspw f) (length (o_freqs (read_meta f))) = fraction fi 1 (length (o_freqs (read_meta f)))).
  { destruct ONE as [-> | ->]; reflexivity. }
  rewrite FF. cbv zeta.
  destruct (Qle_bool 1 (fraction bi 1 (length (f_rows f))) && Qle_bool 1 (fraction fi 1 (length (o_freqs (read_meta f)))) && Qle_bool 1 (fraction pi 1 (f_npol f))) eqn:ALL.
  - apply andb_true_iff in ALL as (ALL & A3). apply andb_true_iff in ALL as (A1 & A2).
    apply (part _ _ Ib) in A1. apply (part _ _ If) in A2. apply (part _ _ Ip) in A3. fold full. exists full. split; [reflexivity|].
    constructor; cbn [full fill_data o_rows o_freqs o_widths o_flex o_spws o_pols o_ants o_cat].
    + eapply picks_full; [symmetry; exact LR | exact A1].
    + eapply picks_full; [reflexivity | exact A2].
    + eapply picks_full; [symmetry; exact LW | exact A2].
    + eapply picks_full; [symmetry; exact LX | exact A2].
    + reflexivity.
    + eapply picks_full; [symmetry; exact LP | exact A3].
    + auto.
    + intros b k p (Lb & Lk & Lp). unfold nrows, nfreqs, npols, full in Lb, Lk, Lp. cbn [fill_data o_rows o_freqs o_pols] in Lb, Lk, Lp. rewrite LR in Lb. rewrite LP in Lp.
      rewrite (pos_full _ _ _ A1 Lb), (pos_full _ _ _ A2 Lk), (pos_full _ _ _ A3 Lp). auto.
  - clear ALL.
    set (by_blt := Qle_bool (fraction bi 1 (length (f_rows f))) (fraction fi 1 (length (o_freqs (read_meta f)))) && Qle_bool (fraction bi 1 (length (f_rows f))) (fraction pi 1 (f_npol f))).
    set (by_freq := negb by_blt && Qle_bool (fraction fi 1 (length (o_freqs (read_meta f)))) (fraction pi 1 (f_npol f))). 
    destruct (kept _ _ by_blt Ib) as (B1 & B2 & B3). destruct (kept _ _ by_freq If) as (F1 & F2 & F3). destruct (kept _ _ (negb by_blt && negb by_freq) Ip) as (P1 & P2 & P3).
    cbv zeta in B1, B2, B3, F1, F2, F3, P1, P2, P3.
    set (bj := only_if (by_blt || Qlt1 (fraction bi 1 (length (f_rows f)))) bi) in *.
    set (fj := only_if (by_freq || Qlt1 (fraction fi 1 (length (o_freqs (read_meta f))))) fi) in *.
    set (pj := only_if (negb by_blt && negb by_freq || Qlt1 (fraction pi 1 (f_npol f))) pi) in *.
    (* the number of channels that are read from each window *)
    assert (G1 : in_axis (f_nchan f) fj = true /\ (f_nspw f * count (f_nchan f) fj)%nat = count (length (o_freqs (read_meta f))) fi).
    { destruct ONE as [E | E].
      - rewrite LF, E, Nat.mul_1_l in *. split; [exact F1|]. rewrite Nat.mul_1_l. exact F2.
      - assert (X : fj = None) by (unfold fj; rewrite E; apply only_none). rewrite X, E. split; [reflexivity|]. cbn [count]. symmetry. exact LF. }
    destruct G1 as (G1 & G2).
    assert (FST : (if by_blt then in_axis (length (f_rows f)) bj else if by_freq then in_axis (f_nchan f) fj else in_axis (f_npol f) pj) = true) by (destruct by_blt, by_freq; assumption).
    rewrite FST. cbn [negb].
    assert (SPW : o_spws (select_meta bi fi pi (read_meta f)) = o_spws (read_meta f)).
    { cbn [select_meta o_spws]. destruct fi as [fi|]; [|reflexivity]. destruct ONE as [E | E]; [|discriminate]. cbn [read_meta o_spws o_flex]. rewrite E, (fo_one _ FO E).
      cbn [seq map filter pick]. destruct If as (N & S & F). destruct fi as [|i fi]; [contradiction|]. cbn [take map].
      replace (nth i (repeat 0 (f_nchan f)) 0) with 0; [reflexivity|]. symmetry. apply nth_repeat_lt. inversion F; subst. rewrite LF, E in *. lia. }
    rewrite SPW. assert (SL : (length (o_spws (read_meta f)) =? f_nspw f)%nat = true) by (apply Nat.eqb_eq; cbn [read_meta o_spws]; rewrite map_length, seq_length; reflexivity).
    rewrite SL. cbn [negb]. rewrite B1, G1, P1. cbn [andb negb].
    assert (SF : (f_nspw f * count (f_nchan f) fj =? length (o_freqs (select_meta bi fi pi (read_meta f))))%nat = true).
    { apply Nat.eqb_eq. rewrite G2. symmetry. apply pick_length. reflexivity. }
    rewrite SF. cbn [negb]. eexists. split; [reflexivity|].
    constructor; cbn [full fill_data o_rows o_freqs o_widths o_flex o_spws o_pols o_ants o_cat o_data o_flags o_ns].
    + cbn [select_meta o_rows]. apply picks_pick. rewrite LR. exact Ib.
    + cbn [select_meta o_freqs]. apply picks_pick. exact If.
    + cbn [select_meta o_widths]. apply picks_pick. rewrite LW. exact If.
    + cbn [select_meta o_flex]. apply picks_pick. rewrite LX. exact If.
    + exact SPW.
    + cbn [select_meta o_pols]. apply picks_pick. rewrite LP. exact Ip.
    + auto.
    + intros b k p (Lb & Lk & Lp). unfold nrows, nfreqs, npols in Lb, Lk, Lp. cbn [fill_data select_meta o_rows o_freqs o_pols] in Lb, Lk, Lp.
      rewrite (pick_length _ _ _ _ LR) in Lb. rewrite (pick_length _ _ _ _ eq_refl) in Lk. rewrite (pick_length _ _ _ _ LP) in Lp.
      rewrite (B3 b Lb), (P3 p Lp).
      assert (EK : f_data f (pos bi b) (k / count (f_nchan f) fj) (along fj (k mod count (f_nchan f) fj)) (pos pi p) =
                   f_data f (pos bi b) (pos fi k / f_nchan f) (pos fi k mod f_nchan f) (pos pi p)).
      { destruct ONE as [E | E].
        - rewrite E, Nat.mul_1_l in G2. rewrite G2. rewrite Nat.div_small, Nat.mod_small by exact Lk. rewrite (F3 k Lk).
          assert (PK : (pos fi k < f_nchan f)%nat).
          { rewrite LF, E in If, Lk. destruct fi as [fi|]; cbn [pos count] in *; [|lia]. destruct If as (_ & _ & F). rewrite Forall_forall in F. assert (I := nth_In fi 0%nat Lk). apply F in I. lia. }
          rewrite Nat.div_small, Nat.mod_small by exact PK. reflexivity.
        - assert (X : fj = None) by (unfold fj; rewrite E; apply only_none). rewrite X, E. reflexivity. }
      rewrite EK. auto.
Qed.

(** Channels of a file with several windows *)
Theorem read_channels f bi i pi o' : file_ok f -> (2 <= f_nspw f)%nat -> f_fq f <> None ->
  index_list (length (o_freqs (read_meta f))) (Some i) -> (length i < length (o_freqs (read_meta f)))%nat ->
  read_uvfits bi (Some i) pi f = Ok o' -> o_freqs o' = o_freqs (read_meta f) /\ o_data o' = o_data (fill_data (read_meta f) (f_nchan f) (f_data f)).
Proof.
  intros FO TWO FQ If L. unfold read_uvfits. cbv zeta.
  destruct (Qle_bool 1 _ && Qle_bool 1 _ && Qle_bool 1 _); [intros E; injection E as <-; split; reflexivity|].
  set (bj := only_if _ bi). set (pj := only_if _ pi). intros R. exfalso. revert R.
  match goal with |- context [in_axis (f_nchan f) (only_if ?B (Some i))] => generalize B end. intros B.
  match goal with |- (if negb ?A then _ else _) = _ -> _ => destruct A; cbn [negb]; [|discriminate] end.
  destruct (length (o_spws (select_meta bi (Some i) pi (read_meta f))) =? f_nspw f)%nat eqn:SP; cbn [negb]; [|discriminate]. apply Nat.eqb_eq in SP.
  destruct (in_axis (length (f_rows f)) bj && in_axis (f_nchan f) (only_if B (Some i)) && in_axis (f_npol f) pj) eqn:BD; cbn [negb]; [|discriminate].
  apply andb_true_iff in BD as (BD & _). apply andb_true_iff in BD as (_ & BD).
  destruct (f_nspw f * count (f_nchan f) (only_if B (Some i)) =? length (o_freqs (select_meta bi (Some i) pi (read_meta f))))%nat eqn:SZ; cbn [negb]; [|discriminate]. intros _.
  apply Nat.eqb_eq in SZ. cbn [select_meta o_freqs pick] in SZ. rewrite take_length in SZ. destruct B; cbn [only_if count in_axis] in *.
  - clear SP. destruct If as (N & _). destruct i as [|x i]; [contradiction|]. cbn [length] in SZ. nia.
  - rewrite (fo_rows _ FO) in L. lia.
Qed.
