(** C86: averaging metrics. *)
From Coq Require Import List ZArith Bool Arith QArith Qcanon String Sorted Permutation FinFun Lia.
From Verif Require Import Lib.Py Lib.Np Lib.QSum Model.UVFlag Model.FlagSelect Model.Collapse Model.FlagMode
  Spec.CollapseSpec Spec.FlagSpec Spec.FlagModeSpec Spec.FlagMetricSpec Proofs.FlagProofs Proofs.FlagModeProofs Proofs.FlagMetricProofs.
Import ListNotations.
Notation length := List.length.
Open Scope list_scope.
Open Scope Qc_scope.

(** to_waterfall averages, at every time, channel and polarization, over the
    baselines or antennas.  The weight of a cell is that of all it stands for. *)
Theorem C86_waterfall : forall run_check k (keep_pol return_weights_square : bool) u m w,
  metrics_are u m w -> suits k m -> o_type u <> TypeWaterfall -> (keep_pol = true \/ pol_size (o_pols u) <= 1)%nat ->
  exists v d dw, to_waterfall run_check (called k) keep_pol return_weights_square u = Ok v /\
    waterfall_labels u v /\ o_pols v = o_pols u /\ metrics_are v d dw /\
    forall i j p, (i < length (o_time v))%nat -> (j < length (o_freq v))%nat -> (p < pol_size (o_pols v))%nat ->
      (at_ d [i; j; p], at_ dw [i; j; p]) = average k (values m w (sources u (o_time v) i j [p])).
Proof.
  intros rc k kp rws u m w ((sq & M & Q) & SM & SW) SK T K. rewrite to_waterfall_keep by assumption.
  destruct (core_ok rc k rws u T) as (v & d & dw & E & L & P & MA & V); [rewrite M; exact SM|rewrite M; exact SK|rewrite M; exact Q|].
  exists v, d, dw. split; [exact E|]. split; [exact L|]. split; [exact P|]. split; [exact MA|]. intros i j p Li Lj Lp.
  destruct (V i j p Li Lj Lp) as [A B]. rewrite A, B, M. cbn [weight_given]. rewrite <- surjective_pairing. reflexivity.
Qed.
Print Assumptions C86_waterfall.

(** Without keep_pol the polarizations are averaged first.  This gives the average
    over everything, unless a weight is tiny. *)
Theorem C86_polarizations : forall run_check k (return_weights_square : bool) u m w,
  o_mode u = Metrics m w None -> metrics_are u m w -> suits k m -> (1 < pol_size (o_pols u))%nat ->
  (forall x, clear_weight (at_ w x)) ->
  exists v d dw, to_waterfall run_check (called k) false return_weights_square u = Ok v /\
    waterfall_labels u v /\ o_pols v = Joined (pol_list (o_pols u)) /\ metrics_are v d dw /\
    forall i j, (i < length (o_time v))%nat -> (j < length (o_freq v))%nat ->
      (at_ d [i; j; 0%nat], at_ dw [i; j; 0%nat]) =
      average k (values m w (sources u (o_time v) i j (seq 0 (pol_size (o_pols u))))).
Proof. intros rc k rws u m w M (_ & SM & SW) SK LP CL. exact (waterfall_join rc k rws u m w M SM SW SK LP CL). Qed.
Print Assumptions C86_polarizations.

(** A waterfall stays as it is if its polarizations are kept. *)
Theorem C86_already : forall run_check method return_weights_square u, o_type u = TypeWaterfall ->
  to_waterfall run_check method true return_weights_square u = Ok u.
Proof. intros rc method rws u T. unfold to_waterfall. rewrite T. reflexivity. Qed.
Print Assumptions C86_already.

(** collapse_pol averages over the polarizations and changes nothing else. *)
Theorem C86_collapse_pol : forall run_check k u m w,
  o_mode u = Metrics m w None -> metrics_are u m w -> suits k m -> (1 < pol_size (o_pols u))%nat ->
  exists v d dw, collapse_pol run_check (called k) u = Ok v /\ metrics_are v d dw /\
    o_pols v = Joined (pol_list (o_pols u)) /\ same_labels u (with_pols (o_pols u) (o_mode u) v) /\
    forall x, within (removelast (form u)) x ->
      (at_ d (x ++ [0%nat]), at_ dw (x ++ [0%nat])) =
      average k (values m w (map (fun p => x ++ [p]) (seq 0 (pol_size (o_pols u))))).
Proof.
  intros rc k u m w M (_ & SM & SW) SK LP.
  destruct (collapse_pol_core rc k u) as (d & dw & E & S1 & S2 & _ & V); [rewrite M; exact SM|rewrite M; exact SK|rewrite M; reflexivity|exact LP|].
  rewrite M in E, V. do 3 eexists. split; [exact E|]. split; [|split; [reflexivity|split; [repeat split|exact V]]].
  assert (F : form (with_pols (joined u) (Metrics d dw None) u) = axes u ++ [1%nat])
    by (unfold axes, form; cbn [with_pols o_type]; destruct (o_type u); reflexivity).
  split; [exists None; split; [reflexivity|discriminate]|]. cbn [settle]. rewrite F. split; assumption.
Qed.
Print Assumptions C86_collapse_pol.

(** Flags are averaged as zeros and ones, and all weights are then one. *)
Theorem C86_flags : forall run_check k (keep_pol return_weights_square : bool) u f,
  flags_are u f -> o_type u <> TypeWaterfall -> (keep_pol = true \/ pol_size (o_pols u) <= 1)%nat ->
  exists v d dw, to_waterfall run_check (called k) keep_pol return_weights_square u = Ok v /\
    waterfall_labels u v /\ o_pols v = o_pols u /\ metrics_are v d dw /\
    forall i j p, (i < length (o_time v))%nat -> (j < length (o_freq v))%nat -> (p < pol_size (o_pols v))%nat ->
      at_ d [i; j; p] = fst (average k (map (fun x => (Fin (if at_ f x then 1 else 0), 1)) (sources u (o_time v) i j [p]))) /\
      at_ dw [i; j; p] = 1.
Proof.
  intros rc k kp rws u f (M & SM) T K. rewrite to_waterfall_keep by assumption.
  destruct (core_ok rc k rws u T) as (v & d & dw & E & L & P & MA & V); [rewrite M; exact SM|rewrite M; right; intros x q; discriminate|rewrite M; discriminate|].
  exists v, d, dw. split; [exact E|]. split; [exact L|]. split; [exact P|]. split; [exact MA|]. intros i j p Li Lj Lp.
  destruct (V i j p Li Lj Lp) as [A B]. rewrite A, B, M. split; reflexivity.
Qed.
Print Assumptions C86_flags.

(** The mean of flags is the fraction flagged. *)
Theorem C86_fraction : forall run_check (keep_pol : bool) u f, flags_are u f -> o_type u <> TypeWaterfall ->
  (keep_pol = true \/ pol_size (o_pols u) <= 1)%nat ->
  exists v d dw, to_waterfall run_check "mean" keep_pol false u = Ok v /\ metrics_are v d dw /\
    forall i j p, (i < length (o_time v))%nat -> (j < length (o_freq v))%nat -> (p < pol_size (o_pols v))%nat ->
      let samples := map (at_ f) (sources u (o_time v) i j [p]) in
      samples <> [] -> at_ d [i; j; p] = Fin (qnat (List.length (filter (fun b => b) samples)) / qnat (length samples)).
Proof.
  intros rc kp u f F T K. destruct (C86_flags rc Mean kp false u f F T K) as (v & d & dw & E & _ & _ & MA & V).
  exists v, d, dw. split; [exact E|]. split; [exact MA|]. intros i j p Li Lj Lp samples N. destruct (V i j p Li Lj Lp) as [A _]. rewrite A.
  replace (map (fun x => (Fin (if at_ f x then 1 else 0), 1)) (sources u (o_time v) i j [p])) with (map flag_cell samples)
    by (unfold samples; rewrite map_map; reflexivity).
  rewrite average_flags by exact N. reflexivity.
Qed.
Print Assumptions C86_fraction.

(** combine_metrics averages over the objects, sample by sample. *)
Definition at_sample (x : index) (p : arr num * arr Qc) : num * Qc := (at_ (fst p) x, at_ (snd p) x).
Definition metrics_list (l : list mobj) (ms : list (arr num * arr Qc)) : Prop := Forall2 (fun v p => metrics_are v (fst p) (snd p)) l ms.
Theorem C86_combine : forall run_check k u m w others ms, metrics_are u m w -> metrics_list others ms ->
  Forall (fun v => form v = form u) others -> suits k m -> Forall (fun p => suits k (fst p)) ms ->
  exists v d dw, combine_metrics run_check (called k) u others = Ok v /\ same_labels u v /\ metrics_are v d dw /\
    forall x, within (form u) x -> (at_ d x, at_ dw x) = average k ((at_ m x, at_ w x) :: map (at_sample x) ms).
Proof.
  intros rc k u m w others ms M F FF SK FS. destruct (combine_ok rc k u m w others ms M F FF SK FS) as (v & d & dw & E & L & MA & _ & V).
  exists v, d, dw. split; [exact E|]. split; [exact L|]. split; [exact MA|]. exact V.
Qed.
Print Assumptions C86_combine.

(** The order of the other objects does not matter, *)
Theorem C86_combine_order : forall run_check k u m w others ms others' ms', metrics_are u m w -> metrics_list others ms ->
  metrics_list others' ms' -> Permutation ms ms' ->
  Forall (fun v => form v = form u) others -> Forall (fun v => form v = form u) others' -> suits k m -> Forall (fun p => suits k (fst p)) ms ->
  exists v d dw v' d' dw', combine_metrics run_check (called k) u others = Ok v /\ combine_metrics run_check (called k) u others' = Ok v' /\
    metrics_are v d dw /\ metrics_are v' d' dw' /\ forall x, within (form u) x -> at_ d x = at_ d' x /\ at_ dw x = at_ dw' x.
Proof.
  intros rc k u m w others ms others' ms' M F F' P FF FF' SK FS.
  destruct (C86_combine rc k u m w others ms M F FF SK FS) as (v & d & dw & E & _ & MA & V).
  assert (FS' : Forall (fun p => suits k (fst p)) ms') by (rewrite Forall_forall in *; intros p I; apply FS; eapply Permutation_in; [apply Permutation_sym; exact P|exact I]).
  destruct (C86_combine rc k u m w others' ms' M F' FF' SK FS') as (v' & d' & dw' & E' & _ & MA' & V').
  exists v, d, dw, v', d', dw'. split; [exact E|]. split; [exact E'|]. split; [exact MA|]. split; [exact MA'|]. intros x W.
  assert (X : (at_ d x, at_ dw x) = (at_ d' x, at_ dw' x)); [|injection X; auto].
  rewrite V, V' by exact W. apply average_perm. constructor. apply Permutation_map. exact P.
Qed.
Print Assumptions C86_combine_order.

(** and neither does combining some first and the rest later. *)
Theorem C86_combine_chain : forall run_check k u m w some ms rest ns, metrics_are u m w -> metrics_list some ms -> metrics_list rest ns ->
  Forall (fun v => form v = form u) (some ++ rest) -> suits k m -> Forall (fun p => suits k (fst p)) (ms ++ ns) ->
  (forall x, clear_weight (at_ w x)) -> Forall (fun p => forall x, clear_weight (at_ (snd p) x)) ms ->
  exists v d dw a b c e, combine_metrics run_check (called k) u (some ++ rest) = Ok v /\
    combine_metrics run_check (called k) u some = Ok a /\ combine_metrics run_check (called k) a rest = Ok b /\
    metrics_are v d dw /\ metrics_are b c e /\ forall x, within (form u) x -> at_ c x = at_ d x /\ at_ e x = at_ dw x.
Proof.
  intros rc k u m w some ms rest ns M F G FF SK FS CW CM. apply Forall_app in FF. destruct FF as [FF GG]. apply Forall_app in FS. destruct FS as [FS GS].
  destruct (C86_combine rc k u m w (some ++ rest) (ms ++ ns) M) as (v & d & dw & E & _ & MA & V).
  { apply Forall2_app; assumption. } { apply Forall_app; split; assumption. } { exact SK. } { apply Forall_app; split; assumption. }
  destruct (combine_ok rc k u m w some ms M F FF SK FS) as (a & d1 & w1 & E1 & L1 & M1 & S1 & V1).
  assert (FA : form a = form u) by (destruct L1 as (T & _ & N & _ & _ & _ & T' & _ & Fr & P); unfold form; rewrite T, N, T', Fr, P; reflexivity).
  destruct (C86_combine rc k a d1 w1 rest ns M1 G) as (b & c & e & E2 & _ & M2 & V2); [rewrite FA; exact GG|exact S1|exact GS|].
  exists v, d, dw, a, b, c, e. split; [exact E|]. split; [exact E1|]. split; [exact E2|]. split; [exact MA|]. split; [exact M2|]. intros x W.
  assert (X : (at_ c x, at_ e x) = (at_ d x, at_ dw x)); [|injection X; auto].
  rewrite (V2 x) by (rewrite FA; exact W). rewrite V by exact W. change (at_ d1 x, at_ w1 x) with (stacked x (d1, w1)). rewrite (V1 x W).
  rewrite average_head.
  - cbn [app]. rewrite map_app. reflexivity.
  - intros q [<-|I]; [apply CW|]. apply in_map_iff in I. destruct I as (p & <- & I). rewrite Forall_forall in CM. apply (CM p I).
Qed.
Print Assumptions C86_combine_chain.

(** Objects with flags, other shapes or a logical method are refused. *)
Theorem C86_combine_refuses : forall run_check method u others,
  ((exists f, o_mode u = Flags f) \/ (exists v f, In v others /\ o_mode v = Flags f) \/
   (exists m w v m' w', metrics_are u m w /\ In v others /\ metrics_are v m' w' /\ form v <> form u) \/
   method = "or"%string \/ method = "and"%string) ->
  combine_metrics run_check method u others = Err ValueError.
Proof.
  intros rc method u others H. unfold combine_metrics. destruct (o_mode u) as [g|m w sq] eqn:M; [reflexivity|].
  destruct (all_metrics others) as [l|] eqn:A; [|reflexivity].
  assert (AM : forall v, In v others -> exists p, metric_of v = Some p /\ In p l).
  { clear -A. revert l A. induction others as [|v vs IH]; intros l A; [intros v []|]. cbn [all_metrics] in A.
    destruct (metric_of v) as [p|] eqn:E; [|discriminate A]. destruct (all_metrics vs) as [l'|]; [|discriminate A]. injection A as <-.
    intros v' [<-|I]; [exists p; split; [exact E|left; reflexivity]|]. destruct (IH l' eq_refl v' I) as (q & Eq & Iq). exists q. split; [exact Eq|right; exact Iq]. }
  destruct H as [(f & H)|[(v & f & I & H)|[(m0 & w0 & v & m' & w' & MU & I & MV & N)|[H|H]]]].
  - discriminate H.
  - destruct (AM v I) as (p & E & _). unfold metric_of in E. rewrite H in E. discriminate E.
  - destruct MU as ((s & X & _) & SM & _). assert (m0 = m) by congruence. subst m0. clear X.
    destruct MV as ((s' & X & _) & SM' & _). destruct (AM v I) as (p & E & Ip). unfold metric_of in E. rewrite X in E. injection E as <-.
    destruct (forallb _ l) eqn:FB; [|reflexivity]. exfalso. rewrite forallb_forall in FB. specialize (FB _ Ip). cbn [fst] in FB. apply shape_eqb_spec in FB. congruence.
  - subst method. destruct (negb _); reflexivity.
  - subst method. destruct (negb _); reflexivity.
Qed.
Print Assumptions C86_combine_refuses.

(** With convert_wgts, the mean is the fraction flagged of the samples that are not
    on a line flagged everywhere, and infinite if there are none. *)
Lemma zero_weights (f : index -> bool) (w : index -> Qc) l : (forall x, In x l -> w x = 0 \/ w x = 1) ->
  average Mean (map (fun x => (Fin (if f x then 1 else 0), w x)) l) =
  average Mean (map flag_cell (map f (filter (fun x => Qc_eq_bool (w x) 1) l))).
Proof.
  intros H.
  assert (E : forall l, (forall x, In x l -> w x = 0 \/ w x = 1) ->
    weight (map (fun x => (Fin (if f x then 1 else 0), w x)) l) = weight (map flag_cell (map f (filter (fun x => Qc_eq_bool (w x) 1) l))) /\
    amount Mean (map (fun x => (Fin (if f x then 1 else 0), w x)) l) = amount Mean (map flag_cell (map f (filter (fun x => Qc_eq_bool (w x) 1) l)))).
  { clear. induction l as [|x l IH]; intros H; [split; reflexivity|]. destruct (IH (fun x I => H x (or_intror I))) as [A B]. cbn [map].
    change ((Fin (if f x then 1 else 0), w x) :: map (fun x => (Fin (if f x then 1 else 0), w x)) l) with
      ([(Fin (if f x then 1 else 0), w x)] ++ map (fun x => (Fin (if f x then 1 else 0), w x)) l).
    rewrite weight_app, amount_app, A, B. destruct (H x (or_introl eq_refl)) as [E|E]; cbn [filter]; rewrite E.
    - change (Qc_eq_bool 0 1) with false. cbv iota. unfold weight at 1, amount at 1, live. cbn [filter fst snd map qsum fold_right term]. split; ring.
    - change (Qc_eq_bool 1 1) with true. cbv iota. cbn [map].
      change (flag_cell (f x) :: map flag_cell (map f (filter (fun x => Qc_eq_bool (w x) 1) l))) with
        ([flag_cell (f x)] ++ map flag_cell (map f (filter (fun x => Qc_eq_bool (w x) 1) l))).
      rewrite weight_app, amount_app. split; reflexivity. }
  destruct (E l H). apply average_by; assumption.
Qed.
Lemma sources_within u times i j p x : (i < length times)%nat -> (j < length (o_freq u))%nat -> (p < pol_size (o_pols u))%nat ->
  (o_type u <> TypeBaseline -> times = o_time u) -> In x (sources u times i j [p]) -> within (form u) x.
Proof.
  intros Li Lj Lp HT I. unfold sources, form in *. destruct (o_type u).
  - destruct I as [<-|[]]. rewrite HT in Li by discriminate. repeat constructor; assumption.
  - apply in_flat_map in I. destruct I as (r & Ir & [<-|[]]). apply at_time_In in Ir. repeat constructor; assumption.
  - apply in_flat_map in I. destruct I as (r & Ir & [<-|[]]). apply in_seq in Ir. rewrite HT in Li by discriminate. repeat constructor; try assumption; lia.
Qed.
Lemma NoDup_sources u times i j p : NoDup (sources u times i j [p]).
Proof.
  unfold sources. cbn [map]. destruct (o_type u); [repeat constructor; intros []| |].
  - rewrite flat_map_single. apply FinFun.Injective_map_NoDup; [intros a b H; congruence|]. apply NoDup_filter, seq_NoDup.
  - rewrite flat_map_single. apply FinFun.Injective_map_NoDup; [intros a b H; congruence|]. apply seq_NoDup.
Qed.
Theorem C86_unflagged_fraction : forall run_check (keep_pol : bool) u f, flags_are u f -> rows_ok u -> o_type u <> TypeWaterfall ->
  (keep_pol = true \/ pol_size (o_pols u) <= 1)%nat ->
  exists a v d dw, to_metric run_check true u = Ok a /\ to_waterfall run_check "mean" keep_pol false a = Ok v /\ metrics_are v d dw /\
    forall i j p counted, (i < length (o_time v))%nat -> (j < length (o_freq v))%nat -> (p < pol_size (o_pols v))%nat ->
      NoDup counted -> (forall x, In x counted <-> In x (sources u (o_time v) i j [p]) /\ ~ whole_line u f x) ->
      at_ dw [i; j; p] = qnat (length counted) /\
      (counted = [] -> at_ d [i; j; p] = Inf false) /\
      (counted <> [] -> at_ d [i; j; p] = Fin (qnat (length (filter (at_ f) counted)) / qnat (length counted))).
Proof.
  intros rc kp u f F R T K. destruct (to_metric_ok u f F rc true (fun _ => R)) as (a & m & w & E & L & M & SM & SW & VM & VW).
  assert (FA : form a = form u) by (destruct L as (? & ? & ? & ? & ? & ? & ? & ? & ? & ?); unfold form; repeat match goal with H : _ a = _ u |- _ => rewrite H; clear H end; reflexivity).
  destruct L as (LT & LN & La & L1 & L2 & Lb & Lt & Ll & Lf & Lp).
  destruct (C86_waterfall rc Mean kp false a m w) as (v & d & dw & E' & WL & P & MA & V).
  { split; [exists None; split; [exact M|discriminate]|]. rewrite FA. split; assumption. }
  { right. intros x q. rewrite VM. discriminate. }
  { rewrite LT. exact T. } { rewrite Lp. exact K. }
  exists a, v, d, dw. split; [exact E|]. split; [exact E'|]. split; [exact MA|]. intros i j p counted Li Lj Lq ND CI.
  specialize (V i j p Li Lj Lq).
  assert (SA : sources a (o_time v) i j [p] = sources u (o_time v) i j [p]) by (unfold sources; rewrite LT, Lt, La; reflexivity). rewrite SA in V. clear SA.
  set (src := sources u (o_time v) i j [p]) in *.
  destruct WL as (_ & WF & WT).
  assert (WI : forall x, In x src -> within (form u) x).
  { intros x I. unfold src in I. apply (sources_within u (o_time v) i j p); [exact Li|rewrite WF, Lf in Lj; exact Lj|rewrite P, Lp in Lq; exact Lq| |exact I].
    intros N. rewrite LT in WT. destruct (o_type u); [|elim N; reflexivity|]; destruct WT as [WT _]; rewrite WT; exact Lt. }
  assert (W01 : forall x, In x src -> at_ w x = 0 \/ at_ w x = 1).
  { intros x I. specialize (VW x (WI x I)). destruct VW as [A B]. unfold to_metric in E. rewrite (proj1 F) in E.
    destruct (flag_weights_ok u f F R) as (w' & EW & _). clear E.
    destruct (Qc_eq_dec (at_ w x) 0) as [Z|Z]; [left; exact Z|right]. apply B. intros H. apply Z. apply A. exact H. }
  assert (PM : Permutation counted (filter (fun x => Qc_eq_bool (at_ w x) 1) src)).
  { apply NoDup_Permutation; [exact ND|apply NoDup_filter, NoDup_sources|]. intros x. rewrite filter_In, CI. split.
    - intros [I N]. split; [exact I|]. destruct (VW x (WI x I)) as [_ B]. rewrite B; [reflexivity|]. intros [_ H]. exact (N H).
    - intros [I N]. split; [exact I|]. intros H. destruct (VW x (WI x I)) as [A _]. rewrite A in N by (split; [reflexivity|exact H]). discriminate N. }
  assert (AV : (at_ d [i; j; p], at_ dw [i; j; p]) = average Mean (map flag_cell (map (at_ f) counted))).
  { rewrite V. unfold values. rewrite (map_ext_in _ (fun x => (Fin (if at_ f x then 1 else 0), at_ w x))) by (intros x _; rewrite VM; reflexivity).
    rewrite (zero_weights (at_ f) (at_ w) src W01). apply average_perm. apply Permutation_map, Permutation_map, Permutation_sym. exact PM. }
  split; [|split].
  - change (at_ dw [i; j; p]) with (snd (at_ d [i; j; p], at_ dw [i; j; p])). rewrite AV. cbn [snd average]. rewrite weight_flags, map_length. reflexivity.
  - intros ->. change (at_ d [i; j; p]) with (fst (at_ d [i; j; p], at_ dw [i; j; p])). rewrite AV. reflexivity.
  - intros N. change (at_ d [i; j; p]) with (fst (at_ d [i; j; p], at_ dw [i; j; p])). rewrite AV. rewrite average_flags.
    + cbn [fst]. rewrite map_length. f_equal. f_equal. f_equal. unfold count. clear. induction counted as [|x l IH]; [reflexivity|]. cbn [map filter].
      destruct (at_ f x); cbn [length]; congruence.
    + destruct counted; [congruence|discriminate].
Qed.
Print Assumptions C86_unflagged_fraction.

(** Two antenna pairs at two times, two channels, two polarizations *)
Definition pairs (m : mode) : mobj := mkM TypeBaseline 5 [] [1; 1; 1; 1]%Z [2; 3; 2; 3]%Z
  [2048 * 1 + 2 + 65536; 2048 * 1 + 3 + 65536; 2048 * 1 + 2 + 65536; 2048 * 1 + 3 + 65536]%Z
  [10; 10; 20; 20]%Z [1; 1; 2; 2]%Z [100; 200]%Z (Pols [-5; -6]%Z) m.
Definition pm : arr num := mkarr [4; 2; 2]%nat (fun x => match x with [2; _; 1] => Inf false | [r; j; p] => Fin (qnat (r + j + p)) | _ => Fin 0 end%nat).
Definition pw : arr Qc := mkarr [4; 2; 2]%nat (fun x => match x with [0; _; _]%nat => 0 | [r; _; _] => 1 | _ => 0 end).
Definition pf : arr bool := mkarr [4; 2; 2]%nat (fun x => match x with [0; 0; _] | [2; 0; _] | [3; 1; 0] => true | _ => false end%nat).
Definition ps : option (arr Qc) := Some (mkarr [2; 2; 2]%nat (fun _ => 1)).
Definition num_at (r : result mobj) (x : index) : option (bool * Qc * Qc) :=
  match r with
  | Ok u => match o_mode u with
            | Metrics d w _ => match at_ d x with Fin q => Some (true, q, at_ w x) | Root q => Some (false, q, at_ w x) | Inf _ => Some (false, - (1), at_ w x) end
            | _ => None
            end
  | _ => None
  end.
Definition shown (o : option (bool * Qc * Qc)) : option (bool * Q * Q) := match o with Some (b, q, w) => Some (b, this q, this w) | None => None end.
Lemma pm_plain : plain pm.
Proof. intros x q. unfold pm. cbn [at_]. destruct x as [|[|[|[|r]]] [|j [|[|[|p]] [|? ?]]]]; discriminate. Qed.
Lemma pw_clear x : clear_weight (at_ pw x).
Proof. unfold pw. cbn [at_]. destruct x as [|[|r] [|j [|p [|? ?]]]]; first [left; reflexivity|right; reflexivity]. Qed.
Example C86_case :
  let u := pairs (Metrics pm pw None) in
  metrics_are u pm pw /\ suits Mean pm /\ suits QuadMean pm /\ (forall x, clear_weight (at_ pw x)) /\
  flags_are (pairs (Flags pf)) pf /\ rows_ok (pairs (Flags pf)) /\
  map (fun x => shown (num_at (to_waterfall true "mean" true false u) x)) [[0; 1; 1]; [1; 0; 0]; [1; 0; 1]]%nat =
    [Some (true, 3, 1); Some (true, 5 # 2, 2); Some (true, 4, 1)]%Q /\
  map (fun x => shown (num_at (to_waterfall true "quadmean" false false u) x)) [[0; 0; 0]; [1; 0; 0]]%nat =
    [Some (false, 5 # 2, 2); Some (false, 29 # 3, 3)]%Q /\
  map (fun x => shown (num_at (to_waterfall true "mean" true false (pairs (Flags pf))) x)) [[0; 0; 1]; [1; 1; 0]]%nat =
    [Some (true, 1 # 2, 1); Some (true, 1 # 2, 1)]%Q /\
  map (fun x => shown (num_at (bind (to_metric true true (pairs (Flags pf))) (to_waterfall true "mean" true false)) x)) [[0; 0; 1]; [1; 1; 0]]%nat =
    [Some (true, 0, 1); Some (true, 1 # 2, 2)]%Q /\
  map (fun x => shown (num_at (combine_metrics true "mean" u [u; pairs (Metrics pm (ones pm) None)]) x)) [[0; 0; 0]; [1; 1; 0]; [2; 0; 1]]%nat =
    [Some (true, 0, 1); Some (true, 2, 3); Some (false, -1 # 1, 0)]%Q.
Proof.
  cbv zeta. split; [split; [exists None; split; [reflexivity|discriminate]|split; reflexivity]|].
  split; [right; exact pm_plain|]. split; [left; reflexivity|]. split; [exact pw_clear|]. split; [split; reflexivity|]. split.
  { intros _. split; [reflexivity|]. split; [reflexivity|]. split; [reflexivity|]. split; [discriminate|]. split; [cbn; lia|].
    exists 2048%Z, 65536%Z. split; [constructor|]. intros i Li. cbn [length f_time as_rows pairs o_time] in Li.
    do 4 (destruct i as [|i]; [cbn; lia|]). lia. }
  vm_compute. auto 6.
Qed.

(** With the squares of the weights, which to_waterfall makes on request, the
    polarizations cannot be averaged. *)
Theorem C86_squares_refuted : exists u v m w, metrics_are u m w /\ to_waterfall true "mean" true true u = Ok v /\
  (exists d dw, metrics_are v d dw) /\ (1 < pol_size (o_pols v))%nat /\
  collapse_pol true "mean" v = Err ValueError /\ to_waterfall true "mean" false false v = Err ValueError.
Proof.
  exists (pairs (Metrics pm pw None)). eexists. exists pm, pw.
  split; [split; [exists None; split; [reflexivity|discriminate]|split; reflexivity]|].
  split; [reflexivity|]. split; [do 2 eexists; split; [eexists; split; [reflexivity|intros s X; injection X as <-; reflexivity]|split; reflexivity]|].
  split; [cbn; lia|]. split; vm_compute; reflexivity.
Qed.
Print Assumptions C86_squares_refuted.
