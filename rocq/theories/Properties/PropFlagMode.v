(** C85: flags, metrics and combining flags. *)
From Coq Require Import List ZArith Bool Arith QArith Qcanon Reals Qreals Lia Lra.
From Verif Require Import Lib.Py Lib.Np Lib.QSum Model.UVFlag Model.FlagSelect Model.Collapse Model.FlagMode
  Spec.BlsSpec Spec.CollapseSpec Spec.FlagSpec Spec.FlagModeSpec Proofs.FlagModeProofs.
Import ListNotations.
Open Scope list_scope.
Notation length := List.length.

(** to_flag flags exactly the positions where the metric reaches the threshold. *)
Theorem C85_to_flag : forall run_check threshold u m w, metrics_are u m w ->
  exists v f, to_flag run_check threshold u = Ok v /\ same_labels u v /\ flags_are v f /\
    forall x, at_ f x = true <-> at_least (at_ m x) threshold.
Proof. intros rc t u m w ((sq & M & _) & S & _). exact (to_flag_ok rc t u m w sq M S). Qed.
Print Assumptions C85_to_flag.

(** to_metric makes flags ones and zeros.  The weights are ones; with convert_wgts
    they are zero on the lines of a waterfall that are flagged everywhere. *)
Theorem C85_to_metric : forall run_check (convert_wgts : bool) u f, flags_are u f -> (convert_wgts = true -> rows_ok u) ->
  exists v m w, to_metric run_check convert_wgts u = Ok v /\ same_labels u v /\ metrics_are v m w /\
    (forall x, at_ m x = Fin (if at_ f x then 1 else 0)%Qc) /\
    forall x, within (form u) x ->
      (convert_wgts = true /\ whole_line u f x -> at_ w x = 0%Qc) /\
      (~ (convert_wgts = true /\ whole_line u f x) -> at_ w x = 1%Qc).
Proof.
  intros rc c u f F R. destruct (to_metric_ok u f F rc c R) as (v & m & w & E & L & M & A & B & H).
  exists v, m, w. split; [exact E|]. split; [exact L|]. split; [|exact H].
  assert (FV : form v = form u) by (destruct L as (T & _ & N & _ & _ & _ & T' & _ & Fr & P); unfold form; rewrite T, N, T', Fr, P; reflexivity).
  split; [exists None; split; [exact M|discriminate]|]. rewrite FV. auto.
Qed.
Print Assumptions C85_to_metric.

(** An object already in the mode asked for is returned as it is. *)
Theorem C85_already : forall run_check threshold convert_wgts u,
  (forall f, o_mode u = Flags f -> to_flag run_check threshold u = Ok u) /\
  (forall m w sq, o_mode u = Metrics m w sq -> to_metric run_check convert_wgts u = Ok u).
Proof. intros. split; intros; [unfold to_flag|unfold to_metric]; rewrite H; reflexivity. Qed.
Print Assumptions C85_already.

(** Flags made into a metric come back for every threshold above 0 up to 1. *)
Theorem C85_back : forall run_check (convert_wgts : bool) (threshold : Qc) u f,
  flags_are u f -> (convert_wgts = true -> rows_ok u) -> (0 < threshold)%Qc -> (threshold <= 1)%Qc ->
  exists v w g, to_metric run_check convert_wgts u = Ok v /\ to_flag run_check (Fin threshold) v = Ok w /\
    same_labels u w /\ flags_are w g /\ forall x, at_ g x = at_ f x.
Proof.
  intros rc c t u f F R P Q. destruct (C85_to_metric rc c u f F R) as (v & m & w & E & L & M & A & _).
  destruct (C85_to_flag rc (Fin t) v m w M) as (v' & g & E' & L' & G & H).
  exists v, v', g. split; [exact E|]. split; [exact E'|].
  split; [destruct L as (?&?&?&?&?&?&?&?&?&?), L' as (?&?&?&?&?&?&?&?&?&?); repeat split; congruence|]. split; [exact G|].
  intros x. specialize (H x). rewrite A in H. apply Qlt_Rlt in P. apply Qle_Rle in Q.
  destruct (at_ f x).
  - apply H. right; right. do 2 eexists. split; [reflexivity|]. split; [reflexivity|exact Q].
  - destruct (at_ g x); [|reflexivity]. exfalso. destruct (proj1 H eq_refl) as [X|[X|(a & b & X & Y & Z)]]; try discriminate.
    injection X as <-. injection Y as <-. exact (Rlt_not_le _ _ P Z).
Qed.
Print Assumptions C85_back.

(** Or: a sample is flagged when it is flagged in either object; the second object
    is broadcast to the first. *)
Theorem C85_or : forall run_check u v f g, flags_are u f -> flags_are v g -> spreads (form u) (form v) ->
  exists w h, or_flags run_check u v = Ok w /\ same_labels u w /\ flags_are w h /\
    forall x y, within (form u) x -> goes_with (form v) x y -> at_ h x = at_ f x || at_ g y.
Proof. exact or_ok. Qed.
Print Assumptions C85_or.

Theorem C85_or_refuses : forall run_check u v,
  (forall m w, metrics_are u m w \/ metrics_are v m w -> or_flags run_check u v = Err ValueError) /\
  (forall f g, flags_are u f -> flags_are v g -> ~ spreads (form u) (form v) -> or_flags run_check u v = Err ValueError).
Proof.
  intros rc u v. split.
  - intros m w [((sq & M & _) & _)|((sq & M & _) & _)]; unfold or_flags; rewrite M; [reflexivity|]. destruct (o_mode u); reflexivity.
  - intros f g [M S] [M' S'] N. exact (or_refuses rc u v f g M M' S S' N).
Qed.
Print Assumptions C85_or_refuses.

(** Objects of the same shape: sample by sample, in either order *)
Lemma same_spreads s : spreads s s.
Proof. split; [lia|]. intros k _. left. reflexivity. Qed.
Lemma goes_with_self s x : within s x -> goes_with s x x.
Proof.
  intros W. assert (L : length x = length s) by (induction W; cbn; congruence). split; [exact L|].
  intros k Lk. destruct (nth k (rev s) 0 =? 1)%nat eqn:E; [|reflexivity]. apply Nat.eqb_eq in E.
  assert (K : forall (i : nat), (i < length s)%nat -> (nth i x 0 < nth i s 0)%nat).
  { clear -W. induction W; cbn [length]; intros [|i] Li; cbn [nth]; try lia. apply IHW. lia. }
  rewrite rev_nth in E by lia. rewrite rev_nth by lia. specialize (K (length s - S k)%nat ltac:(lia)). rewrite L. lia.
Qed.
Theorem C85_or_same_shape : forall run_check u v f g, flags_are u f -> flags_are v g -> form u = form v ->
  exists w h w' h', or_flags run_check u v = Ok w /\ or_flags run_check v u = Ok w' /\ flags_are w h /\ flags_are w' h' /\
    forall x, within (form u) x -> at_ h x = at_ f x || at_ g x /\ at_ h' x = at_ h x.
Proof.
  intros rc u v f g F G E.
  destruct (or_ok rc u v f g F G ltac:(rewrite E; apply same_spreads)) as (w & h & A & _ & B & C).
  destruct (or_ok rc v u g f G F ltac:(rewrite E; apply same_spreads)) as (w' & h' & A' & _ & B' & C').
  exists w, h, w', h'. split; [exact A|]. split; [exact A'|]. split; [exact B|]. split; [exact B'|]. intros x Wx.
  rewrite (C x x Wx) by (rewrite <- E; apply goes_with_self; exact Wx). rewrite E in Wx.
  rewrite (C' x x Wx) by (rewrite E; apply goes_with_self; exact Wx). split; [reflexivity|apply orb_comm].
Qed.
Print Assumptions C85_or_same_shape.

(** Two antenna pairs at two times, three channels, one polarization: the first pair
    is flagged in channel 1 at both times, and in channel 2 once. *)
Definition base (m : mode) : mobj := mkM TypeBaseline 5 [] [1; 1; 1; 1]%Z [2; 3; 2; 3]%Z
  [2048 * 1 + 2 + 65536; 2048 * 1 + 3 + 65536; 2048 * 1 + 2 + 65536; 2048 * 1 + 3 + 65536]%Z
  [10; 10; 20; 20]%Z [1; 1; 2; 2]%Z [100; 200; 300]%Z (Pols [-5]%Z) m.
Definition base_flags : arr bool :=
  mkarr [4%nat; 3%nat; 1%nat] (fun x => match x with [0; 1; 0] | [2; 1; 0] | [2; 2; 0] => true | _ => false end%nat).
Definition flat (f t : nat) (m : mode) : mobj :=
  mkM TypeWaterfall 5 [] [] [] [] (map Z.of_nat (seq 7 t)) (map Z.of_nat (seq 7 t)) (map Z.of_nat (seq 1 f)) (Pols [-5]%Z) m.
Definition flag_at (r : result mobj) (x : index) : option bool :=
  match r with Ok u => match o_mode u with Flags f => Some (at_ f x) | _ => None end | _ => None end.
Definition weight_at (r : result mobj) (x : index) : option bool :=
  match r with Ok u => match o_mode u with Metrics _ w _ => Some (Qc_eq_bool (at_ w x) 0) | _ => None end | _ => None end.

Example C85_case :
  flags_are (base (Flags base_flags)) base_flags /\ rows_ok (base (Flags base_flags)) /\
  metrics_are (base (Metrics (as_metric base_flags) (ones base_flags) None)) (as_metric base_flags) (ones base_flags) /\
  map (weight_at (to_metric true true (base (Flags base_flags)))) [[0; 0; 0]; [0; 1; 0]; [2; 1; 0]; [2; 2; 0]; [1; 1; 0]]%nat =
    [Some false; Some true; Some true; Some false; Some false] /\
  spreads [4; 3; 1]%nat [1; 3; 1]%nat /\ ~ spreads [4; 3; 1]%nat [2; 3; 1]%nat /\
  map (flag_at (or_flags true (base (Flags base_flags)) (flat 3 1 (Flags (mkarr [1; 3; 1]%nat (fun x => match x with [0; 0; 0]%nat => true | _ => false end))))))
    [[3; 0; 0]; [3; 1; 0]; [2; 2; 0]]%nat = [Some true; Some false; Some true].
Proof.
  split; [split; reflexivity|]. split.
  { intros _. split; [reflexivity|]. split; [reflexivity|]. split; [reflexivity|]. split; [discriminate|]. split; [cbn; lia|].
    exists 2048%Z, 65536%Z. split; [constructor|]. intros i Li. cbn [length f_time as_rows base o_time] in Li.
    do 4 (destruct i as [|i]; [cbn; lia|]). lia. }
  split; [split; [exists None; split; [reflexivity|discriminate]|split; reflexivity]|].
  split; [vm_compute; reflexivity|].
  split; [split; [cbn; lia|]; intros k L; cbn [length] in L; do 3 (destruct k as [|k]; [cbn; auto|]); lia|].
  split; [|vm_compute; reflexivity]. intros [_ H]. specialize (H 2%nat ltac:(cbn; lia)). cbn in H. lia.
Qed.

(** The documentation of the default threshold, inf, says that nothing is flagged.
    Metrics that are infinite are: a metric without weight comes out so (C49). *)
Theorem C85_default_threshold_refuted : exists u m w v f x,
  metrics_are u m w /\ to_flag true (Inf false) u = Ok v /\ flags_are v f /\ within (form u) x /\ at_ f x = true.
Proof.
  exists (base (Metrics (mkarr [4; 3; 1]%nat (fun _ => Inf false)) (mkarr [4; 3; 1]%nat (fun _ => 0%Qc)) None)).
  do 4 eexists. exists [1; 1; 0]%nat.
  split; [split; [eexists; split; [reflexivity|discriminate]|split; reflexivity]|].
  split; [reflexivity|]. split; [split; reflexivity|]. split; [repeat constructor|reflexivity].
Qed.
Print Assumptions C85_default_threshold_refuted.

(** Nothing but the shapes is compared: flags of different times, frequencies and
    types are combined by position. *)
Theorem C85_or_labels_refuted : exists u v w f g h x,
  flags_are u f /\ flags_are v g /\ or_flags true u v = Ok w /\ flags_are w h /\ within (form u) x /\
  o_type u <> o_type v /\ (forall t, In t (o_time u) -> ~ In t (o_time v)) /\ (forall t, In t (o_freq u) -> ~ In t (o_freq v)) /\
  at_ f x = false /\ at_ h x = true.
Proof.
  exists (base (Flags base_flags)), (flat 3 1 (Flags (mkarr [1; 3; 1]%nat (fun _ => true)))).
  do 4 eexists. exists [1; 1; 0]%nat.
  split; [split; reflexivity|]. split; [split; reflexivity|]. split; [reflexivity|]. split; [split; reflexivity|].
  split; [repeat constructor|]. split; [discriminate|].
  split; [cbn; intros t H; intuition (subst; lia)|]. split; [cbn; intros t H; intuition (subst; lia)|]. split; reflexivity.
Qed.
Print Assumptions C85_or_labels_refuted.
