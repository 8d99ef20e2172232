(** Averages of metrics. *)
From Coq Require Import List ZArith Bool Arith QArith Qcanon String Sorted Permutation Lia.
From Verif Require Import Lib.Py Lib.Np Lib.QSum Model.UVFlag Model.FlagSelect Model.Collapse Model.FlagMode
  Spec.CollapseSpec Spec.FlagSpec Spec.FlagModeSpec Spec.FlagMetricSpec Proofs.CollapseProofs Proofs.FlagProofs Proofs.FlagModeProofs.
Import ListNotations.
Notation length := List.length.
Open Scope list_scope.
Open Scope Qc_scope.

Notation tiny := (Q2Qc (1 # 10000000000)).
Definition amount (k : kind) (l : list (num * Qc)) : Qc := qsum (map (fun c => snd c * term k (fst c)) (live l)).

Lemma live_app a b : live (a ++ b) = live a ++ live b.
Proof. apply filter_app. Qed.
Lemma weight_app a b : weight (a ++ b) = weight a + weight b.
Proof. unfold weight. rewrite live_app, map_app, qsum_app. reflexivity. Qed.
Lemma amount_app k a b : amount k (a ++ b) = amount k a + amount k b.
Proof. unfold amount. rewrite live_app, map_app, qsum_app. reflexivity. Qed.
Lemma average_eq k l : average k l = (if Qclt_le_dec tiny (weight l) then back k (amount k l / weight l) else Inf false, weight l).
Proof. reflexivity. Qed.
Lemma average_by k l l' : weight l = weight l' -> amount k l = amount k l' -> average k l = average k l'.
Proof. intros A B. rewrite !average_eq, A, B. reflexivity. Qed.

Lemma Permutation_filter' {A} (p : A -> bool) l l' : Permutation l l' -> Permutation (filter p l) (filter p l').
Proof.
  induction 1 as [|x l l' P IH|x y l|l l' l'' P IH P' IH']; cbn [filter]; try constructor.
  - destruct (p x); [constructor|]; exact IH.
  - destruct (p x), (p y); try apply Permutation_refl. constructor.
  - eapply Permutation_trans; eassumption.
Qed.
Lemma average_perm k l l' : Permutation l l' -> average k l = average k l'.
Proof.
  intros P. pose proof (Permutation_filter' (fun c : num * Qc => match fst c with Inf _ => false | _ => true end) _ _ P) as Q.
  apply average_by; apply qsum_perm; apply Permutation_map; exact Q.
Qed.

Lemma Qcmult_le_0_compat a b : 0 <= a -> 0 <= b -> 0 <= a * b.
Proof. intros A B. rewrite <- (Qcmult_0_l b). apply Qcmult_le_compat_r; assumption. Qed.
Lemma tiny_pos : 0 < tiny.
Proof. reflexivity. Qed.
Lemma clear_nonneg w : clear_weight w -> 0 <= w.
Proof. intros [->|H]; [apply Qcle_refl|]. apply Qclt_le_weak. eapply Qclt_trans; [apply tiny_pos|exact H]. Qed.

Definition all_clear (l : list (num * Qc)) : Prop := forall c, In c l -> clear_weight (snd c).

Lemma clear_sum : forall l, all_clear l -> clear_weight (weight l) /\ 0 <= weight l /\
  (weight l = 0 -> forall c, In c (live l) -> snd c = 0).
Proof.
  unfold weight. intros l H.
  assert (H' : forall c, In c (live l) -> clear_weight (snd c)) by (intros c I; apply H; apply (proj1 (proj1 (filter_In _ _ _) I))).
  clear H. revert H'. generalize (live l). clear l. induction l as [|c l IH]; intros H.
  - split; [left; reflexivity|]. split; [apply Qcle_refl|]. intros _ c [].
  - destruct (IH (fun c I => H c (or_intror I))) as (A & B & C). cbn [map qsum fold_right]. fold (qsum (map snd l)).
    pose proof (H c (or_introl eq_refl)) as D. pose proof (clear_nonneg _ D) as E. destruct D as [D|D].
    + rewrite D, Qcplus_0_l. split; [exact A|]. split; [exact B|]. intros Z c' [<-|I]; [exact D|apply C; assumption].
    + split; [right|split].
      * eapply Qclt_le_trans; [exact D|]. rewrite <- (Qcplus_0_r (snd c)) at 1. apply Qcplus_le_compat; [apply Qcle_refl|exact B].
      * rewrite <- (Qcplus_0_r 0). apply Qcplus_le_compat; assumption.
      * intros Z. exfalso. assert (L : tiny < 0); [|discriminate L]. rewrite <- Z. eapply Qclt_le_trans; [exact D|].
        rewrite <- (Qcplus_0_r (snd c)) at 1. apply Qcplus_le_compat; [apply Qcle_refl|exact B].
Qed.
Lemma amount_zero k l : all_clear l -> weight l = 0 -> amount k l = 0.
Proof.
  intros H Z. destruct (clear_sum l H) as (_ & _ & C). specialize (C Z). unfold amount.
  revert C. generalize (live l). clear. induction l as [|c l IH]; intros C; [reflexivity|].
  cbn [map qsum fold_right]. fold (qsum (map (fun c => snd c * term k (fst c)) l)).
  rewrite IH by (intros; apply C; right; assumption). rewrite (C c (or_introl eq_refl)). ring.
Qed.
Lemma amount_abs_nonneg l : all_clear l -> 0 <= amount AbsMean l.
Proof.
  intros H. unfold amount. apply qsum_nonneg. intros x I. apply in_map_iff in I. destruct I as (c & <- & I).
  apply filter_In in I. destruct I as [I _]. pose proof (clear_nonneg _ (H c I)) as P.
  apply Qcmult_le_0_compat; [exact P|]. cbn [term]. destruct (fst c) as [q| |]; try apply Qcle_refl.
  destruct (Qclt_le_dec q 0) as [L|L]; [|exact L]. apply Qclt_le_weak in L. apply Qcopp_le_compat in L. exact L.
Qed.

(** An average counts for the values it was made of. *)
Lemma one_average k l : all_clear l -> weight [average k l] = weight l /\ amount k [average k l] = amount k l.
Proof.
  intros H. destruct (clear_sum l H) as (A & B & _). unfold weight at 1, amount at 1, live. rewrite average_eq. cbn [filter fst snd].
  destruct (Qclt_le_dec tiny (weight l)) as [L|L].
  - assert (NZ : weight l <> 0) by (intros Z; rewrite Z in L; discriminate L).
    assert (E : match back k (amount k l / weight l) with Inf _ => false | _ => true end = true) by (destruct k; reflexivity).
    rewrite E. cbn [map qsum fold_right fst snd]. rewrite !Qcplus_0_r. split; [reflexivity|].
    destruct k; cbn [back term]; try (field; exact NZ).
    destruct (Qclt_le_dec (amount AbsMean l / weight l) 0) as [N|N]; [exfalso|field; exact NZ].
    apply (Qclt_not_le _ _ N). unfold Qcdiv. apply Qcmult_le_0_compat; [apply amount_abs_nonneg; exact H|].
    apply Qcnot_lt_le. intros I.
    assert (X : weight l * / weight l = 1) by (apply Qcmult_inv_r; exact NZ).
    assert (Y : weight l * / weight l <= 0).
    { rewrite Qcmult_comm. rewrite <- (Qcmult_0_l (weight l)). apply Qcmult_le_compat_r; [apply Qclt_le_weak; exact I|exact B]. }
    rewrite X in Y. exact (Y eq_refl).
  - cbn [map qsum fold_right]. destruct A as [A|A]; [|exfalso; exact (Qclt_not_le _ _ A L)].
    split; [symmetry; exact A|]. symmetry. apply amount_zero; assumption.
Qed.

Lemma average_groups k : forall groups, (forall g, In g groups -> all_clear g) ->
  average k (map (average k) groups) = average k (List.concat groups).
Proof.
  intros groups H. assert (E : weight (map (average k) groups) = weight (List.concat groups) /\ amount k (map (average k) groups) = amount k (List.concat groups)).
  { induction groups as [|g l IH]; [split; reflexivity|]. cbn [map List.concat].
    change (average k g :: map (average k) l) with ([average k g] ++ map (average k) l). rewrite !weight_app, !amount_app.
    destruct (IH (fun g I => H g (or_intror I))) as [A B]. destruct (one_average k g (H g (or_introl eq_refl))) as [C D].
    rewrite A, B, C, D. split; reflexivity. }
  destruct E. apply average_by; assumption.
Qed.
Lemma average_head k g l : all_clear g -> average k (average k g :: l) = average k (g ++ l).
Proof.
  intros H. destruct (one_average k g H) as [C D]. change (average k g :: l) with ([average k g] ++ l).
  apply average_by; [rewrite !weight_app|rewrite !amount_app]; [rewrite C|rewrite D]; reflexivity.
Qed.

(** * utils.collapse takes averages *)
Definition cells (a : arr num) (w : option (index -> Qc)) (l : list index) : list (num * Qc) := map (fun i => (at_ a i, weight_of w i)) l.
Definition squares (l : list (num * Qc)) : Qc := qsum (map (fun c => snd c * snd c) (live l)).

Lemma live_sum (g : num * Qc -> Qc) (h : index -> Qc) a w l :
  (forall i, In i l -> h i = if isinf (at_ a i) then 0 else g (at_ a i, weight_of w i)) ->
  qsum (map h l) = qsum (map g (live (cells a w l))).
Proof.
  induction l as [|i l IH]; intros H; [reflexivity|]. cbn [cells map live filter fst]. fold (cells a w l). fold (live (cells a w l)).
  change (qsum (h i :: map h l)) with (h i + qsum (map h l)). rewrite IH by (intros; apply H; right; assumption).
  rewrite (H i (or_introl eq_refl)). destruct (at_ a i) eqn:E; cbn [isinf]; cbn [map]; try reflexivity. apply Qcplus_0_l.
Qed.

Lemma reduce_at {A B} (f : list A -> B) ax a m : mask (length (shape a)) ax = Ok m ->
  reduce f ax a = Ok (mkarr (kept m (shape a)) (fun o => f (map (at_ a) (fibre m (shape a) o)))).
Proof. intros H. unfold reduce. rewrite H. reflexivity. Qed.

Lemma mean_avg (g : num -> num) k a w ax m rw2 : mask (length (shape a)) ax = Ok m ->
  (forall i, isinf (g (at_ a i)) = isinf (at_ a i)) -> (forall i, isinf (at_ a i) = false -> fin (g (at_ a i)) = term k (at_ a i)) ->
  exists d ws sq, mean_collapse (on_nums g a) w ax true rw2 = Ok (Nums d :: Nums ws :: if rw2 then [Nums sq] else []) /\
    shape d = kept m (shape a) /\ shape ws = kept m (shape a) /\ shape sq = kept m (shape a) /\
    forall o, let c := cells a w (fibre m (shape a) o) in
      at_ d o = (if Qclt_le_dec tiny (weight c) then Fin (amount k c / weight c) else Inf false) /\
      at_ ws o = Fin (weight c) /\ at_ sq o = Fin (squares c).
Proof.
  intros M I V. unfold mean_collapse. cbn [shape on_nums masked_weights].
  rewrite (reduce_at qsum ax (masked_weights w (on_nums g a)) m M). cbn [bind shape masked_weights on_nums].
  rewrite (reduce_at qsum ax (mkarr (shape a) _) m M). cbn [bind shape].
  rewrite (reduce_at qsum ax (mkarr (shape a) _) m M). cbn [bind shape at_].
  do 3 eexists. split; [destruct rw2; reflexivity|]. cbn [shape]. split; [reflexivity|]. split; [reflexivity|]. split; [reflexivity|].
  intros o. cbv zeta. set (c := cells a w (fibre m (shape a) o)). cbn [at_].
  assert (W : qsum (map (at_ (masked_weights w (on_nums g a))) (fibre m (shape a) o)) = weight c).
  { unfold weight, c. apply live_sum. intros i _. cbn [masked_weights on_nums at_]. rewrite I. unfold weight_of. destruct (isinf (at_ a i)); cbn [snd]; destruct w; ring. }
  rewrite W. split; [|split].
  - unfold above. change threshold with tiny. destruct (Qclt_le_dec tiny (weight c)); [|reflexivity]. f_equal. f_equal.
    unfold amount, c. apply live_sum. intros i _. cbn [masked_weights on_nums at_]. rewrite I. unfold weight_of. destruct (isinf (at_ a i)) eqn:E; cbn [fst snd].
    + destruct w; ring.
    + rewrite (V i E). destruct w; ring.
  - reflexivity.
  - f_equal. unfold squares, c. apply live_sum. intros i _. cbn [masked_weights on_nums at_]. rewrite I. unfold weight_of. destruct (isinf (at_ a i)); cbn [snd]; destruct w; ring.
Qed.

Lemma on_nums_id a : on_nums (fun x => x) a = a.
Proof. destruct a. reflexivity. Qed.

Lemma collapse_avg k a w ax m rw2 : mask (length (shape a)) ax = Ok m -> suits k a ->
  exists d ws sq, Collapse.collapse (Nums a) (called k) w ax true rw2 = Ok (Nums d :: Nums ws :: if rw2 then [Nums sq] else []) /\
    shape d = kept m (shape a) /\ shape ws = kept m (shape a) /\ shape sq = kept m (shape a) /\
    forall o, let c := cells a w (fibre m (shape a) o) in
      at_ d o = fst (average k c) /\ at_ ws o = Fin (snd (average k c)) /\ at_ sq o = Fin (squares c).
Proof.
  intros M S. destruct k.
  - assert (P : plain a) by (destruct S as [S|S]; [discriminate S|exact S]).
    change (Collapse.collapse (Nums a) (called Mean) w ax true rw2) with (mean_collapse a w ax true rw2).
    replace (mean_collapse a w ax true rw2) with (mean_collapse (on_nums (fun x => x) a) w ax true rw2) by (rewrite on_nums_id; reflexivity).
    destruct (mean_avg (fun x => x) Mean a w ax m rw2 M) as (d & ws & sq & E & A & B & C & D); [reflexivity| |].
    { intros i X. destruct (at_ a i) eqn:Y; [reflexivity|discriminate X|elim (P i q Y)]. }
    exists d, ws, sq. split; [exact E|]. split; [exact A|]. split; [exact B|]. split; [exact C|]. exact D.
  - assert (P : plain a) by (destruct S as [S|S]; [discriminate S|exact S]).
    change (Collapse.collapse (Nums a) (called AbsMean) w ax true rw2) with (mean_collapse (on_nums nabs a) w ax true rw2).
    destruct (mean_avg nabs AbsMean a w ax m rw2 M) as (d & ws & sq & E & A & B & C & D).
    { intros i. destruct (at_ a i); reflexivity. }
    { intros i X. destruct (at_ a i) eqn:Y; [reflexivity|discriminate X|elim (P i q Y)]. }
    exists d, ws, sq. split; [exact E|]. split; [exact A|]. split; [exact B|]. split; [exact C|]. exact D.
  - change (Collapse.collapse (Nums a) (called QuadMean) w ax true rw2) with (quadmean_collapse a w ax true rw2). unfold quadmean_collapse.
    destruct (mean_avg (fun x => nsquare (nabs x)) QuadMean a w ax m rw2 M) as (d & ws & sq & E & A & B & C & D).
    { intros i. destruct (at_ a i); reflexivity. }
    { intros i X. destruct (at_ a i) eqn:Y; [|discriminate X|reflexivity]. cbn [nabs nsquare fin term]. apply qabs_square. }
    rewrite E. cbn [bind]. exists (on_nums nsqrt d), ws, sq. split; [reflexivity|]. split; [exact A|]. split; [exact B|]. split; [exact C|].
    intros o. cbv zeta. destruct (D o) as (X & Y & Z). split; [|split; assumption]. cbn [at_ on_nums]. rewrite X. rewrite average_eq. cbn [fst].
    destruct (Qclt_le_dec _ _); reflexivity.
Qed.

(** Along the first axis and along the last one *)
Lemma mask_first n : mask (S n) (AxisInt 0) = Ok (true :: repeat false n).
Proof.
  unfold mask, norm_axis. cbn [bind]. rewrite (proj2 (Z.leb_le _ _)) by lia. rewrite (proj2 (Z.ltb_lt _ _)) by lia.
  cbn [andb bind Z.ltb Z.compare Z.to_nat]. cbn [seq map Nat.eqb]. f_equal. f_equal.
  rewrite <- seq_shift, map_map. cbn [Nat.eqb]. generalize 0%nat as s. induction n as [|n IH]; intros s; [reflexivity|]. cbn [seq map repeat]. rewrite (IH (S s)). reflexivity.
Qed.
Lemma fibre_keep : forall s o, within s o -> fibre (repeat false (length s)) s o = [o].
Proof.
  induction s as [|n s IH]; intros o W; inversion W as [|x ? o' ? L W']; subst; [reflexivity|].
  cbn [length repeat fibre]. rewrite (proj2 (Nat.ltb_lt _ _) L), (IH o' W'). reflexivity.
Qed.
Lemma fibre_first n s o : within s o -> fibre (true :: repeat false (length s)) (n :: s) o = map (fun i => i :: o) (seq 0 n).
Proof.
  intros W. cbn [fibre]. rewrite (fibre_keep s o W). cbn [map]. induction (seq 0 n) as [|x l IH]; [reflexivity|]. cbn [flat_map map app]. rewrite IH. reflexivity.
Qed.
Lemma kept_none {A} : forall (s : list A) n, n = length s -> kept (repeat false n) s = s.
Proof. induction s as [|x s IH]; intros n ->; [reflexivity|]. cbn [length repeat kept]. f_equal. apply IH. reflexivity. Qed.

Lemma average_pair k c d w : d = fst (average k c) -> w = snd (average k c) -> (d, w) = average k c.
Proof. intros -> ->. symmetry. apply surjective_pairing. Qed.
Lemma average_plain k c q : k <> QuadMean -> fst (average k c) <> Root q.
Proof. intros N. rewrite average_eq. cbn [fst]. destruct (Qclt_le_dec _ _); [|discriminate]. destruct k; try discriminate. congruence. Qed.
Lemma average_suits k (d : arr num) : (forall o, exists c, at_ d o = fst (average k c)) -> suits k d.
Proof.
  intros H. destruct k; [right|right|left; reflexivity]; intros o q; destruct (H o) as (c & ->); apply average_plain; discriminate.
Qed.

(** * combine_metrics *)
Lemma all_metrics_ok : forall vs ms, Forall2 (fun v p => metrics_are v (fst p) (snd p)) vs ms -> all_metrics vs = Some ms.
Proof.
  induction 1 as [|v p vs ms H F IH]; [reflexivity|]. destruct H as ((sq & M & _) & _). cbn [all_metrics]. unfold metric_of. rewrite M, IH.
  rewrite <- surjective_pairing. reflexivity.
Qed.
Definition stacked (x : index) (p : arr num * arr Qc) : num * Qc := (at_ (fst p) x, at_ (snd p) x).
Lemma map_seq_nth {A B} (f : A -> B) d l : map (fun i => f (nth i l d)) (seq 0 (length l)) = map f l.
Proof.
  induction l as [|a l IH]; [reflexivity|]. cbn [length seq map nth]. f_equal. rewrite <- seq_shift, map_map. exact IH.
Qed.
Lemma combine_ok rc k u m w others ms : metrics_are u m w -> Forall2 (fun v p => metrics_are v (fst p) (snd p)) others ms ->
  Forall (fun v => form v = form u) others -> suits k m -> Forall (fun p => suits k (fst p)) ms ->
  exists v d dw, combine_metrics rc (called k) u others = Ok v /\ same_labels u v /\ metrics_are v d dw /\ suits k d /\
    forall x, within (form u) x -> stacked x (d, dw) = average k (stacked x (m, w) :: map (stacked x) ms).
Proof.
  intros ((sq & M & Q) & SM & SW) F FF SK FS. unfold combine_metrics. rewrite M, (all_metrics_ok _ _ F).
  assert (SH : forallb (fun p => shape_eqb (shape m) (shape (fst p))) ms = true).
  { clear -F FF SM. induction F as [|v p vs ms H F IH]; [reflexivity|]. inversion FF; subst. cbn [forallb]. rewrite IH by assumption.
    destruct H as (_ & S & _). rewrite andb_true_r. apply shape_eqb_spec. congruence. }
  rewrite SH. cbn [negb]. set (da := stack m (m :: map fst ms)). set (wa := stack w (w :: map snd ms)).
  assert (SD : shape da = length (m :: map fst ms) :: form u) by (unfold da, stack; cbn [shape nth]; rewrite SM; reflexivity).
  assert (SK' : suits k da).
  { destruct k; [right|right|left; reflexivity]; intros ix q; unfold da, stack; cbn [at_]; destruct ix as [|n ix].
    all: try (destruct SK as [SK|SK]; [discriminate SK|apply SK]).
    all: destruct (nth_in_or_default n (m :: map fst ms) m) as [I|E]; [|rewrite E; destruct SK as [SK|SK]; [discriminate SK|apply SK]].
    all: destruct I as [E|I]; [rewrite <- E; destruct SK as [SK|SK]; [discriminate SK|apply SK]|].
    all: apply in_map_iff in I; destruct I as (p & E & I); rewrite <- E; rewrite Forall_forall in FS; destruct (FS p I) as [X|X]; [discriminate X|apply X]. }
  pose proof (mask_first (length (form u))) as MK.
  assert (MK' : mask (length (shape da)) (AxisInt 0) = Ok (true :: repeat false (length (form u)))) by (rewrite SD; exact MK).
  destruct (collapse_avg k da (Some (at_ wa)) (AxisInt 0) _ false MK' SK') as (d & ws & sq' & E & A & B & _ & D).
  rewrite E. cbn [bind]. rewrite SD in A, B. cbn [kept] in A, B. rewrite kept_none in A, B by reflexivity.
  unfold checked, check_shapes. cbn [o_mode with_mode shape weights_back]. change (form (with_mode _ u)) with (form u).
  change (square_form (with_mode _ u)) with (square_form u). rewrite A, B, (proj2 (shape_eqb_spec (form u) (form u)) eq_refl).
  assert (QS : match sq with Some s => shape_eqb (shape s) (square_form u) | None => true end = true)
    by (destruct sq; [apply shape_eqb_spec; apply Q; reflexivity|reflexivity]).
  rewrite QS. cbn [andb negb]. rewrite andb_false_r.
  do 3 eexists. split; [reflexivity|]. split; [apply with_mode_labels|].
  split; [split; [exists sq; split; [reflexivity|exact Q]|split; [exact A|exact B]]|].
  split; [apply average_suits; intros o; eexists; apply (D o)|].
  intros x W. unfold stacked. cbn [fst snd at_ weights_back]. destruct (D x) as (X & Y & _). rewrite X, Y. cbn [fin].
  rewrite <- surjective_pairing. f_equal. rewrite SD. rewrite fibre_first by exact W. unfold cells. rewrite map_map. unfold da, wa, stack. cbn [at_ weight_of].
  cbn [length seq map nth]. f_equal. rewrite <- seq_shift, map_map. cbn [nth].
  rewrite <- (map_seq_nth (fun p => (at_ (fst p) x, at_ (snd p) x)) (m, w) ms). rewrite map_length. apply map_ext. intros i.
  change m with (fst (m, w)) at 1. rewrite map_nth. change w with (snd (m, w)) at 2. rewrite map_nth. reflexivity.
Qed.

(** * collapse_pol *)
Lemma map_cons_seq (pre : index) n : map (cons 0%nat) [pre] = [0%nat :: pre] /\ length (seq 0 n) = n.
Proof. split; [reflexivity|apply seq_length]. Qed.
Lemma flat_map_single {A B} (f : A -> B) l : flat_map (fun x => [f x]) l = map f l.
Proof. induction l as [|x l IH]; [reflexivity|]. cbn [flat_map map app]. rewrite IH. reflexivity. Qed.
Lemma fibre_last2 a b c i j : (i < a)%nat -> (j < b)%nat ->
  fibre [false; false; true] [a; b; c] [i; j] = map (fun p => [i; j; p]) (seq 0 c).
Proof.
  intros A B. cbn [fibre]. rewrite (proj2 (Nat.ltb_lt _ _) A), (proj2 (Nat.ltb_lt _ _) B). cbn [map]. rewrite flat_map_single, !map_map. reflexivity.
Qed.
Lemma fibre_last3 a b c d i j l : (i < a)%nat -> (j < b)%nat -> (l < c)%nat ->
  fibre [false; false; false; true] [a; b; c; d] [i; j; l] = map (fun p => [i; j; l; p]) (seq 0 d).
Proof.
  intros A B C. cbn [fibre]. rewrite (proj2 (Nat.ltb_lt _ _) A), (proj2 (Nat.ltb_lt _ _) B), (proj2 (Nat.ltb_lt _ _) C).
  cbn [map]. rewrite flat_map_single, !map_map. reflexivity.
Qed.

(** What averages are taken of: the metric and its weights, or the flags *)
Definition data (m : mode) : arr num := as_nums (darr m).
Lemma collapse_data k m w ax rw rw2 : Collapse.collapse (darr m) (called k) w ax rw rw2 = Collapse.collapse (Nums (data m)) (called k) w ax rw rw2.
Proof. destruct m, k; reflexivity. Qed.
Definition axes (u : mobj) : list nat := removelast (form u).
Definition last_mask (u : mobj) : list bool := match o_type u with TypeAntenna => [false; false; false; true] | _ => [false; false; true] end.
Lemma mask_last u : mask (length (form u)) (AxisInt (-1)) = Ok (last_mask u).
Proof. unfold form, last_mask. destruct (o_type u); reflexivity. Qed.
Lemma kept_last u : kept (last_mask u) (form u) = axes u.
Proof. unfold axes, last_mask, form. destruct (o_type u); reflexivity. Qed.
Lemma fibre_last u x : within (axes u) x -> fibre (last_mask u) (form u) x = map (fun p => x ++ [p]) (seq 0 (pol_size (o_pols u))).
Proof.
  unfold axes, form, last_mask. destruct (o_type u); cbn [removelast]; intros W.
  1,2: inversion W as [|i ? ? ? A W1]; subst; inversion W1 as [|j ? ? ? B W2]; subst; inversion W2; subst; apply fibre_last2; assumption.
  apply within3 in W. destruct W as (i & j & l & -> & A & B & C). apply fibre_last3; assumption.
Qed.
Lemma form_axes u : form u = axes u ++ [pol_size (o_pols u)].
Proof. unfold axes, form. destruct (o_type u); reflexivity. Qed.

Definition joined (u : mobj) : fpols := Joined (pol_list (o_pols u)).

Lemma collapse_pol_core rc k u : shape (data (o_mode u)) = form u -> suits k (data (o_mode u)) -> squares_of (o_mode u) = None ->
  (1 < pol_size (o_pols u))%nat ->
  exists d dw, collapse_pol rc (called k) u = Ok (with_pols (joined u) (settle (called k) (o_mode u) d dw None) u) /\
    shape d = axes u ++ [1%nat] /\ shape dw = axes u ++ [1%nat] /\ suits k d /\
    forall x, within (axes u) x -> (at_ d (x ++ [0%nat]), at_ dw (x ++ [0%nat])) =
      average k (cells (data (o_mode u)) (weights_in (o_mode u)) (map (fun p => x ++ [p]) (seq 0 (pol_size (o_pols u))))).
Proof.
  intros SH SK NS LP. unfold collapse_pol. rewrite (proj2 (Nat.ltb_lt _ _) LP). rewrite collapse_data.
  assert (MK : mask (length (shape (data (o_mode u)))) (AxisInt (-1)) = Ok (last_mask u)) by (rewrite SH; apply mask_last).
  destruct (collapse_avg k _ (weights_in (o_mode u)) _ _ false MK SK) as (d & ws & sq & E & A & B & _ & D).
  rewrite E. cbn [bind as_nums]. rewrite NS. rewrite SH, kept_last in A, B.
  exists (keep_axis d), (keep_axis (weights_back ws)). split.
  - unfold checked. match goal with |- (if rc && negb ?c then _ else _) = _ => assert (CS : c = true) end.
    + unfold check_shapes. cbn [o_mode with_pols]. change (form (with_pols (Joined (pol_list (o_pols u))) ?m u)) with
        (match o_type u with TypeAntenna => [length (o_ants u); length (o_freq u); length (o_time u); 1%nat] | _ => [length (o_time u); length (o_freq u); 1%nat] end).
      assert (SF : axes u ++ [1%nat] = match o_type u with TypeAntenna => [length (o_ants u); length (o_freq u); length (o_time u); 1%nat] | _ => [length (o_time u); length (o_freq u); 1%nat] end)
        by (unfold axes, form; destruct (o_type u); reflexivity).
      unfold settle. destruct (o_mode u).
      * assert (NB : is_bool_method (called k) = false) by (destruct k; reflexivity). rewrite NB. cbn [shape keep_axis ones]. rewrite A.
        rewrite <- SF, (proj2 (shape_eqb_spec _ _) eq_refl). reflexivity.
      * cbn [shape keep_axis weights_back]. rewrite A, B, <- SF, (proj2 (shape_eqb_spec _ _) eq_refl). reflexivity.
    + rewrite CS. cbn [negb]. rewrite andb_false_r. reflexivity.
  - cbn [shape keep_axis weights_back]. rewrite A, B. split; [reflexivity|]. split; [reflexivity|].
    split; [apply average_suits; intros o; cbn [at_ keep_axis]; eexists; apply D|].
    intros x W. cbn [at_ keep_axis weights_back]. rewrite removelast_last. destruct (D x) as (X & Y & _). rewrite X, Y. cbn [fin].
    rewrite <- surjective_pairing. rewrite SH, fibre_last by exact W. reflexivity.
Qed.

(** * to_waterfall *)
Lemma mapM_exists {A B} (f : A -> result B) (P : A -> B -> Prop) : forall l, (forall x, In x l -> exists y, f x = Ok y /\ P x y) ->
  exists ys, mapM f l = Ok ys /\ Forall2 P l ys.
Proof.
  induction l as [|x l IH]; intros H; [exists []; split; [reflexivity|constructor]|].
  destruct (H x (or_introl eq_refl)) as (y & E & Py). destruct (IH (fun x I => H x (or_intror I))) as (ys & Es & F).
  exists (y :: ys). cbn [mapM]. rewrite E. cbn [bind]. rewrite Es. cbn [bind]. split; [reflexivity|constructor; assumption].
Qed.
Lemma Forall2_nth_error {A B} (P : A -> B -> Prop) l ys : Forall2 P l ys -> forall i (d : A), (i < length l)%nat ->
  exists y, nth_error ys i = Some y /\ P (nth i l d) y.
Proof.
  induction 1 as [|x y l ys H F IH]; intros i d L; [cbn in L; lia|]. destruct i as [|i]; [exists y; split; [reflexivity|exact H]|].
  cbn [length] in L. destruct (IH i d ltac:(lia)) as (z & E & Q). exists z. split; [exact E|exact Q].
Qed.

Lemma cells_take (m : mode) rows (j p : nat) :
  cells (data (match m with Flags f => Flags (take_rows rows f) | Metrics a w sq => Metrics (take_rows rows a) (take_rows rows w) sq end))
    (match m with Flags _ => None | Metrics _ w _ => Some (at_ (take_rows rows w)) end) (map (fun i => [i; j; p]) (seq 0 (length rows))) =
  cells (data m) (weights_in m) (map (fun r => [r; j; p]) rows).
Proof.
  unfold cells. rewrite !map_map. transitivity (map (fun i => (fun r => (at_ (data m) [r; j; p], weight_of (weights_in m) [r; j; p])) (nth i rows 0%nat)) (seq 0 (length rows))).
  - apply map_ext. intros i. destruct m; reflexivity.
  - rewrite (map_seq_nth (fun r => (at_ (data m) [r; j; p], weight_of (weights_in m) [r; j; p])) 0%nat rows). reflexivity.
Qed.

Definition row_cells (u : mobj) (t : Z) (j p : nat) : list (num * Qc) :=
  cells (data (o_mode u)) (weights_in (o_mode u)) (map (fun r => [r; j; p]) (at_time (o_time u) t)).

Lemma rows_out_ok k rws u : o_type u = TypeBaseline -> shape (data (o_mode u)) = form u -> suits k (data (o_mode u)) ->
  exists l, rows_out (called k) rws u = Ok l /\
    Forall2 (fun t p => forall j q, (j < length (o_freq u))%nat -> (q < pol_size (o_pols u))%nat ->
      let c := row_cells u t j q in
      at_ (fst (fst p)) [j; q] = fst (average k c) /\ at_ (snd (fst p)) [j; q] = Fin (snd (average k c)) /\
      (rws = true -> at_ (snd p) [j; q] = Fin (squares c))) (uniqueZ (o_time u)) l /\
    Forall (fun p => suits k (fst (fst p))) l.
Proof.
  intros T SH SK. unfold form in SH. rewrite T in SH. unfold rows_out.
  assert (X : exists l, mapM (fun t => let rows := rows_at (o_time u) t in
     do outs <- Collapse.collapse (take_array rows (darr (o_mode u))) (called k)
       (match o_mode u with Flags _ => None | Metrics _ w _ => Some (at_ (take_rows rows w)) end) (AxisInt 0) true rws; three rws outs) (uniqueZ (o_time u)) = Ok l /\
     Forall2 (fun t p => (forall j q, (j < length (o_freq u))%nat -> (q < pol_size (o_pols u))%nat ->
      let c := row_cells u t j q in
      at_ (fst (fst p)) [j; q] = fst (average k c) /\ at_ (snd (fst p)) [j; q] = Fin (snd (average k c)) /\
      (rws = true -> at_ (snd p) [j; q] = Fin (squares c))) /\ suits k (fst (fst p))) (uniqueZ (o_time u)) l).
  { apply mapM_exists. intros t _. cbv zeta. set (rows := rows_at (o_time u) t).
    set (m' := match o_mode u with Flags f => Flags (take_rows rows f) | Metrics a w sq => Metrics (take_rows rows a) (take_rows rows w) sq end).
    set (wo := match o_mode u with Flags _ => None | Metrics _ w _ => Some (at_ (take_rows rows w)) end).
    assert (DM : take_array rows (darr (o_mode u)) = darr m') by (unfold m'; destruct (o_mode u); reflexivity).
    rewrite DM, collapse_data.
    assert (SD : shape (data m') = length rows :: [length (o_freq u); pol_size (o_pols u)]).
    { unfold m'. unfold data in SH |- *. destruct (o_mode u); cbn [darr as_nums shape take_rows] in SH |- *; rewrite SH; reflexivity. }
    assert (SK' : suits k (data m')).
    { destruct SK as [SK|SK]; [left; exact SK|right]. intros ix q. unfold m'. unfold plain in SK. destruct (o_mode u) as [g|a ? ?]; cbn [data darr as_nums at_ take_rows] in SK |- *.
      - discriminate.
      - destruct ix; apply SK. }
    assert (MK : mask (length (shape (data m'))) (AxisInt 0) = Ok [true; false; false]) by (rewrite SD; reflexivity).
    destruct (collapse_avg k (data m') wo (AxisInt 0) _ rws MK SK') as (d & ws & sq & E & A & B & C & D).
    rewrite E. cbn [bind].
    assert (ET : three rws (Nums d :: Nums ws :: if rws then [Nums sq] else []) = Ok (d, ws, if rws then sq else ws)) by (destruct rws; reflexivity).
    rewrite ET. eexists. split; [reflexivity|]. cbn [fst snd]. split; [|apply average_suits; intros o; eexists; apply D].
    intros j q Lj Lq. cbv zeta. destruct (D [j; q]) as (X & Y & Z). rewrite SD in X, Y, Z.
    rewrite (fibre_first (length rows) [length (o_freq u); pol_size (o_pols u)] [j; q] ltac:(repeat constructor; assumption)) in X, Y, Z
      || (change [true; false; false] with (true :: repeat false (length [length (o_freq u); pol_size (o_pols u)])) in X, Y, Z;
          rewrite fibre_first in X, Y, Z by (repeat constructor; assumption)).
    unfold m', wo in X, Y, Z. rewrite cells_take in X, Y, Z. unfold rows in X, Y, Z. rewrite rows_at_spec in X, Y, Z. fold (row_cells u t j q) in X, Y, Z.
    split; [exact X|]. split; [exact Y|]. intros ->. exact Z. }
  destruct X as (l & E & F). exists l. split; [exact E|]. split.
  - clear -F. induction F as [|t p ts l [H _] F IH]; constructor; assumption.
  - clear -F. induction F as [|t p ts l [_ H] F IH]; constructor; assumption.
Qed.

Definition core (rc : bool) (method : string) (rws : bool) (u : mobj) : result mobj :=
  do v <- match o_type u with
          | TypeAntenna =>
              do outs <- Collapse.collapse (darr (o_mode u)) method (weights_in (o_mode u)) (AxisTuple [0%Z]) true false;
              do p <- three false outs;
              Ok (as_waterfall (o_time u) (o_lst u)
                    (settle method (o_mode u) (swap01 (fst (fst p))) (swap01 (weights_back (snd (fst p)))) (squares_of (o_mode u))) u)
          | TypeBaseline =>
              do l <- rows_out method rws u;
              let s := [length (uniqueZ (o_time u)); length (o_freq u); pol_size (o_pols u)] in
              Ok (as_waterfall (uniqueZ (o_time u)) (first_lsts u)
                    (settle method (o_mode u) (outs_at s (map (fun p => fst (fst p)) l))
                       (weights_back (outs_at s (map (fun p => snd (fst p)) l)))
                       (if rws then Some (weights_back (outs_at s (map snd l))) else squares_of (o_mode u))) u)
          | TypeWaterfall => Ok (as_waterfall (o_time u) (o_lst u) (o_mode u) u)
          end;
  checked rc v.
Lemma to_waterfall_keep rc method kp rws u : o_type u <> TypeWaterfall -> kp = true \/ (pol_size (o_pols u) <= 1)%nat ->
  to_waterfall rc method kp rws u = core rc method rws u.
Proof.
  intros T K. unfold to_waterfall.
  assert (N : negb kp && (1 <? pol_size (o_pols u))%nat = false) by (destruct K as [->|K]; [reflexivity|]; rewrite (proj2 (Nat.ltb_ge _ _) K); apply andb_false_r).
  rewrite N. cbn [bind]. unfold core. destruct (o_type u) eqn:E; [elim (T eq_refl)| |]; destruct (kp || (pol_size (o_pols u) =? 1)%nat); reflexivity.
Qed.
Lemma to_waterfall_join rc method rws u : (1 < pol_size (o_pols u))%nat ->
  to_waterfall rc method false rws u = do u <- collapse_pol true method u; core rc method rws u.
Proof.
  intros L. unfold to_waterfall. assert (N : (pol_size (o_pols u) =? 1)%nat = false) by (apply Nat.eqb_neq; lia). rewrite N. cbn [negb orb andb].
  rewrite (proj2 (Nat.ltb_lt _ _) L). destruct (o_type u); reflexivity.
Qed.

Lemma settle_metrics k m d w sq : o_mode m = o_mode m -> forall a b c, o_mode m = Metrics a b c -> settle (called k) (o_mode m) d w sq = Metrics d w sq.
Proof. intros _ a b c ->. reflexivity. Qed.
Lemma settle_flags k (f : arr bool) d w sq : settle (called k) (Flags f) d w sq = Metrics d (ones d) None.
Proof. destruct k; reflexivity. Qed.
Lemma uniqueZ_twice l : uniqueZ (uniqueZ l) = uniqueZ l.
Proof. symmetry. apply uniqueZ_char; [apply uniqueZ_sorted|]. tauto. Qed.

Lemma at_time_hd times t r : hd_error (at_time times t) = Some r -> match rows_at times t with r :: _ => Some r | [] => None end = Some r.
Proof. rewrite rows_at_spec. destruct (at_time times t); auto. Qed.

(** The weights a collapse gives: counted in metric mode, ones in flag mode *)
Definition weight_given (m : mode) (w : Qc) : Qc := match m with Flags _ => 1 | Metrics _ _ _ => w end.

Lemma core_ok rc k rws u : o_type u <> TypeWaterfall -> shape (data (o_mode u)) = form u -> suits k (data (o_mode u)) ->
  (forall s, squares_of (o_mode u) = Some s -> shape s = square_form u) ->
  exists v d dw, core rc (called k) rws u = Ok v /\ waterfall_labels u v /\ o_pols v = o_pols u /\ metrics_are v d dw /\
    forall i j p, (i < length (o_time v))%nat -> (j < length (o_freq v))%nat -> (p < pol_size (o_pols v))%nat ->
      let c := cells (data (o_mode u)) (weights_in (o_mode u)) (sources u (o_time v) i j [p]) in
      at_ d [i; j; p] = fst (average k c) /\ at_ dw [i; j; p] = weight_given (o_mode u) (snd (average k c)).
Proof.
  intros T SH SK SQ. unfold core. destruct (o_type u) eqn:ET; [elim T; reflexivity| |]; clear T.
  - destruct (rows_out_ok k rws u ET SH SK) as (l & E & F & _). rewrite E. cbn [bind].
    set (s := [length (uniqueZ (o_time u)); length (o_freq u); pol_size (o_pols u)]).
    set (D := outs_at s (map (fun p => fst (fst p)) l)). set (W := weights_back (outs_at s (map (fun p => snd (fst p)) l))).
    set (Q := if rws then Some (weights_back (outs_at s (map snd l))) else squares_of (o_mode u)).
    assert (exists dw Q', settle (called k) (o_mode u) D W Q = Metrics D dw Q' /\ shape dw = s /\ (forall x, Q' = Some x -> shape x = s) /\
       forall x, at_ dw x = weight_given (o_mode u) (at_ W x)) as (dw & Q' & ES & Sdw & SQ' & VW).
    { destruct (o_mode u) as [f|a b c] eqn:EM.
      - rewrite settle_flags. do 2 eexists. split; [reflexivity|]. split; [reflexivity|]. split; [discriminate|reflexivity].
      - cbn [settle]. exists W, Q. split; [reflexivity|]. split; [reflexivity|]. split; [|reflexivity].
        unfold Q. destruct rws; [intros x X; injection X as <-; reflexivity|]. cbn [squares_of] in SQ |- *. intros x X. apply (SQ x X). }
    rewrite ES. unfold checked, check_shapes. cbn [o_mode as_waterfall].
    set (v := as_waterfall (uniqueZ (o_time u)) (first_lsts u) (Metrics D dw Q') u).
    assert (FV : form v = s) by reflexivity.
    assert (QV : square_form v = s) by (unfold square_form, v, s; cbn [as_waterfall o_time o_freq o_pols]; rewrite uniqueZ_twice; reflexivity).
    rewrite FV, QV, Sdw, (proj2 (shape_eqb_spec s s) eq_refl). change (shape D) with s. rewrite (proj2 (shape_eqb_spec s s) eq_refl).
    assert (CQ : match Q' with Some x => shape_eqb (shape x) s | None => true end = true) by (destruct Q'; [apply shape_eqb_spec; apply SQ'; reflexivity|reflexivity]).
    rewrite CQ. cbn [andb negb]. rewrite andb_false_r.
    exists v, D, dw. split; [reflexivity|]. split; [|split; [reflexivity|split]].
    + split; [reflexivity|]. split; [reflexivity|]. rewrite ET. cbn [v as_waterfall o_time o_lst]. split; [apply uniqueZ_sorted|].
      split; [intros t; apply uniqueZ_In|]. intros i r Li H. unfold v in H. cbn [as_waterfall o_time] in H. apply at_time_hd in H.
      unfold first_lsts, v. cbn [as_waterfall o_lst]. rewrite (nth_indep _ 0%Z (match rows_at (o_time u) 0%Z with r :: _ => nth r (o_lst u) 0%Z | [] => 0%Z end))
        by (rewrite map_length; exact Li).
      rewrite (map_nth (fun t => match rows_at (o_time u) t with r :: _ => nth r (o_lst u) 0%Z | [] => 0%Z end)).
      destruct (rows_at (o_time u) (nth i (uniqueZ (o_time u)) 0%Z)) as [|r' ?]; [discriminate H|]. injection H as ->. reflexivity.
    + split; [exists Q'; split; [reflexivity|rewrite QV; exact SQ']|]. rewrite FV. split; [reflexivity|exact Sdw].
    + intros i j p Li Lj Lp. cbv zeta. unfold v in Li, Lj, Lp |- *. cbn [as_waterfall o_time o_freq o_pols] in Li, Lj, Lp |- *.
      destruct (Forall2_nth_error _ _ _ F i 0%Z Li) as (y & EY & Y). destruct (Y j p Lj Lp) as (A & B & _).
      unfold sources. rewrite ET. rewrite VW. unfold D, W, outs_at. cbn [at_ weights_back].
      rewrite !nth_error_map, EY. cbn [option_map]. rewrite A, B. cbn [fin].
      cbn [map]. rewrite flat_map_single. split; reflexivity.
  - pose proof SH as SH'. unfold form in SH'. rewrite ET in SH'. rewrite collapse_data.
    assert (MK : mask (length (shape (data (o_mode u)))) (AxisTuple [0%Z]) = Ok [true; false; false; false]) by (rewrite SH'; reflexivity).
    destruct (collapse_avg k _ (weights_in (o_mode u)) _ _ false MK SK) as (d & ws & sq & E & A & B & _ & D).
    rewrite E. cbn [bind three as_nums fst snd]. rewrite SH' in A, B. cbn [kept] in A, B.
    set (s := [length (o_time u); length (o_freq u); pol_size (o_pols u)]).
    assert (SD : shape (swap01 d) = s) by (unfold swap01; cbn [shape]; rewrite A; reflexivity).
    assert (SW : shape (swap01 (weights_back ws)) = s) by (unfold swap01; cbn [shape weights_back]; rewrite B; reflexivity).
    assert (UT : uniqueZ (o_time u) = uniqueZ (o_time u)) by reflexivity.
    assert (exists dw Q', settle (called k) (o_mode u) (swap01 d) (swap01 (weights_back ws)) (squares_of (o_mode u)) = Metrics (swap01 d) dw Q' /\ shape dw = s /\
       (forall x, Q' = Some x -> shape x = square_form u) /\
       forall x, at_ dw x = weight_given (o_mode u) (at_ (swap01 (weights_back ws)) x)) as (dw & Q' & ES & Sdw & SQ' & VW).
    { destruct (o_mode u) as [f|a b c] eqn:EM.
      - rewrite settle_flags. do 2 eexists. split; [reflexivity|]. split; [exact SD|]. split; [discriminate|reflexivity].
      - cbn [settle]. do 2 eexists. split; [reflexivity|]. split; [exact SW|]. split; [exact SQ|reflexivity]. }
    rewrite ES. unfold checked, check_shapes. cbn [o_mode as_waterfall].
    set (v := as_waterfall (o_time u) (o_lst u) (Metrics (swap01 d) dw Q') u).
    assert (FV : form v = s) by reflexivity. assert (QV : square_form v = square_form u) by reflexivity.
    rewrite FV, QV, Sdw, SD, (proj2 (shape_eqb_spec s s) eq_refl).
    assert (CQ : match Q' with Some x => shape_eqb (shape x) (square_form u) | None => true end = true) by (destruct Q'; [apply shape_eqb_spec; apply SQ'; reflexivity|reflexivity]).
    rewrite CQ. cbn [andb negb]. rewrite andb_false_r.
    exists v, (swap01 d), dw. split; [reflexivity|]. split; [|split; [reflexivity|split]].
    + split; [reflexivity|]. split; [reflexivity|]. rewrite ET. split; reflexivity.
    + split; [exists Q'; split; [reflexivity|rewrite QV; exact SQ']|]. rewrite FV. split; [exact SD|exact Sdw].
    + intros i j p Li Lj Lp. cbv zeta. unfold v in Li, Lj, Lp. cbn [as_waterfall o_time o_freq o_pols] in Li, Lj, Lp.
      rewrite VW. unfold swap01. cbn [at_ weights_back]. destruct (D [j; i; p]) as (X & Y & _). rewrite X, Y. cbn [fin]. rewrite SH'.
      rewrite (fibre_first _ [length (o_freq u); length (o_time u); pol_size (o_pols u)] [j; i; p]
        ltac:(repeat constructor; assumption)). unfold sources. rewrite ET. cbn [map]. rewrite flat_map_single. split; reflexivity.
Qed.

Lemma at_time_In times t r : In r (at_time times t) -> (r < length times)%nat.
Proof. unfold at_time. rewrite filter_In, in_seq. lia. Qed.
Lemma cells_flat {A} a w (f : A -> list index) l : cells a w (flat_map f l) = List.concat (map (fun x => cells a w (f x)) l).
Proof. induction l as [|x l IH]; [reflexivity|]. cbn [flat_map map List.concat]. unfold cells in *. rewrite map_app, IH. reflexivity. Qed.

Lemma join_groups {A} k a w d dw (pre : A -> index) (rows : list A) n :
  (forall x, clear_weight (weight_of w x)) ->
  (forall r, In r rows -> (at_ d (pre r ++ [0%nat]), at_ dw (pre r ++ [0%nat])) = average k (cells a w (map (fun p => pre r ++ [p]) (seq 0 n)))) ->
  average k (cells d (Some (at_ dw)) (map (fun r => pre r ++ [0%nat]) rows)) =
  average k (cells a w (flat_map (fun r => map (fun p => pre r ++ [p]) (seq 0 n)) rows)).
Proof.
  intros C H. rewrite cells_flat. rewrite <- average_groups.
  - f_equal. unfold cells at 1. rewrite !map_map. apply map_ext_in. intros r I. cbn [weight_of]. apply H. exact I.
  - intros g I. apply in_map_iff in I. destruct I as (r & <- & _). intros c Ic. unfold cells in Ic. apply in_map_iff in Ic.
    destruct Ic as (x & <- & _). cbn [snd]. apply C.
Qed.

Lemma waterfall_join rc k rws u m w : o_mode u = Metrics m w None -> shape m = form u -> shape w = form u -> suits k m ->
  (1 < pol_size (o_pols u))%nat -> (forall x, clear_weight (at_ w x)) ->
  exists v d dw, to_waterfall rc (called k) false rws u = Ok v /\ waterfall_labels u v /\ o_pols v = joined u /\ metrics_are v d dw /\
    forall i j, (i < length (o_time v))%nat -> (j < length (o_freq v))%nat ->
      (at_ d [i; j; 0%nat], at_ dw [i; j; 0%nat]) = average k (cells m (Some (at_ w)) (sources u (o_time v) i j (seq 0 (pol_size (o_pols u))))).
Proof.
  intros M SM SW SK LP CL. rewrite to_waterfall_join by exact LP.
  assert (DM : data (o_mode u) = m) by (rewrite M; reflexivity). assert (WM : weights_in (o_mode u) = Some (at_ w)) by (rewrite M; reflexivity).
  destruct (collapse_pol_core true k u) as (d1 & w1 & E & S1 & S2 & SK1 & V1); [rewrite DM; exact SM|rewrite DM; exact SK|rewrite M; reflexivity|exact LP|].
  rewrite DM, WM in V1. rewrite E. cbn [bind]. assert (ES : settle (called k) (o_mode u) d1 w1 None = Metrics d1 w1 None) by (rewrite M; reflexivity). rewrite ES. clear E ES.
  set (u1 := with_pols (joined u) (Metrics d1 w1 None) u).
  assert (F1 : form u1 = axes u ++ [1%nat]) by (unfold u1, form, axes, form; cbn [with_pols o_type]; destruct (o_type u); reflexivity).
  destruct (o_type u) eqn:ET.
  - unfold core. change (o_type u1) with (o_type u). rewrite ET. cbn [bind]. unfold checked, check_shapes. cbn [as_waterfall o_mode u1 with_pols].
    assert (FV : form (as_waterfall (o_time u1) (o_lst u1) (Metrics d1 w1 None) u1) = axes u ++ [1%nat])
      by (unfold axes, form; rewrite ET; reflexivity).
    fold u1. rewrite FV, S1, S2, (proj2 (shape_eqb_spec _ _) eq_refl). cbn [andb negb]. rewrite andb_false_r.
    eexists _, d1, w1. split; [reflexivity|]. split; [split; [reflexivity|]; split; [reflexivity|]; rewrite ET; split; reflexivity|].
    split; [reflexivity|]. split; [split; [exists None; split; [reflexivity|discriminate]|]; rewrite FV; split; assumption|].
    intros i j Li Lj. cbn [as_waterfall o_time o_freq u1 with_pols] in Li, Lj. unfold sources. rewrite ET.
    apply (V1 [i; j]). unfold axes, form. rewrite ET. repeat constructor; assumption.
  - destruct (core_ok rc k rws u1) as (v & d & dw & E & L & P & MA & V).
    + change (o_type u1) with (o_type u). rewrite ET. discriminate.
    + change (data (o_mode u1)) with d1. rewrite F1. exact S1.
    + exact SK1.
    + discriminate.
    + exists v, d, dw. split; [exact E|]. split; [exact L|]. split; [exact P|]. split; [exact MA|]. intros i j Li Lj.
      destruct (V i j 0%nat Li Lj ltac:(rewrite P; cbn [pol_size u1 with_pols o_pols joined]; lia)) as (A & B). rewrite A, B. cbn [weight_given u1 with_pols o_mode].
      rewrite <- surjective_pairing. unfold sources. change (o_type u1) with (o_type u). rewrite ET. cbn [map]. rewrite flat_map_single.
      cbn [u1 with_pols o_mode data darr as_nums weights_in o_time].
      apply (join_groups k m (Some (at_ w)) d1 w1 (fun r => [r; j])); [exact CL|]. intros r I. apply at_time_In in I.
      apply (V1 [r; j]). unfold axes, form. rewrite ET. destruct L as (_ & LF & _). rewrite LF in Lj. repeat constructor; assumption.
  - destruct (core_ok rc k rws u1) as (v & d & dw & E & L & P & MA & V).
    + change (o_type u1) with (o_type u). rewrite ET. discriminate.
    + change (data (o_mode u1)) with d1. rewrite F1. exact S1.
    + exact SK1.
    + discriminate.
    + exists v, d, dw. split; [exact E|]. split; [exact L|]. split; [exact P|]. split; [exact MA|]. intros i j Li Lj.
      destruct (V i j 0%nat Li Lj ltac:(rewrite P; cbn [pol_size u1 with_pols o_pols joined]; lia)) as (A & B). rewrite A, B. cbn [weight_given u1 with_pols o_mode].
      rewrite <- surjective_pairing. unfold sources. change (o_type u1) with (o_type u). rewrite ET. cbn [map]. rewrite flat_map_single.
      cbn [u1 with_pols o_mode data darr as_nums weights_in o_ants].
      apply (join_groups k m (Some (at_ w)) d1 w1 (fun r => [r; j; i])); [exact CL|]. intros r I. apply in_seq in I.
      apply (V1 [r; j; i]). unfold axes, form. rewrite ET. destruct L as (_ & LF & LT). change (o_type u1) with (o_type u) in LT. rewrite ET in LT.
      destruct LT as [LT _]. rewrite LF in Lj. rewrite LT in Li. repeat constructor; try assumption. lia.
Qed.

(** Fractions of flags *)
Definition flag_cell (b : bool) : num * Qc := (Fin (if b then 1 else 0), 1).
Lemma weight_flags l : weight (map flag_cell l) = qnat (length l).
Proof.
  induction l as [|b l IH]; [reflexivity|]. cbn [map]. change (flag_cell b :: map flag_cell l) with ([flag_cell b] ++ map flag_cell l).
  rewrite weight_app, IH. cbn [length]. unfold weight, live, qnat. cbn [filter flag_cell fst map snd qsum fold_right].
  apply Qc_is_canon. cbn [this Q2Qc Qcplus]. rewrite !Qred_correct. rewrite Nat2Z.inj_succ. unfold Z.succ. rewrite inject_Z_plus. ring.
Qed.
Lemma amount_flags l : amount Mean (map flag_cell l) = qnat (count l).
Proof.
  induction l as [|b l IH]; [reflexivity|]. cbn [map]. change (flag_cell b :: map flag_cell l) with ([flag_cell b] ++ map flag_cell l).
  rewrite amount_app, IH. unfold amount, live. cbn [filter flag_cell fst map snd qsum fold_right term]. destruct b; unfold count; cbn [filter].
  - cbn [length]. unfold qnat. apply Qc_is_canon. cbn [this Q2Qc Qcplus Qcmult]. rewrite !Qred_correct. rewrite Nat2Z.inj_succ. unfold Z.succ. rewrite inject_Z_plus. ring.
  - ring.
Qed.
Lemma qnat_big n : (0 < n)%nat -> tiny < qnat n.
Proof.
  intros H. apply (Qclt_le_trans _ 1); [reflexivity|]. unfold qnat, Qcle. cbn [this Q2Qc]. rewrite !Qred_correct.
  change 1%Q with (inject_Z 1). rewrite <- Zle_Qle. lia.
Qed.
Lemma average_flags l : l <> [] -> average Mean (map flag_cell l) = (Fin (qnat (count l) / qnat (length l)), qnat (length l)).
Proof.
  intros N. rewrite average_eq, weight_flags, amount_flags. destruct (Qclt_le_dec tiny (qnat (length l))) as [L|L]; [reflexivity|].
  exfalso. apply (Qclt_not_le _ _ (qnat_big (length l) ltac:(destruct l; [congruence|cbn; lia])) L).
Qed.
