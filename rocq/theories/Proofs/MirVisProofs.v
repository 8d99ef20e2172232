(** Scaled integers of Mir files. *)
From Coq Require Import List ZArith QArith Qabs Qpower Bool Arith Lia Lqa.
From Verif Require Import Model.MirVis Spec.MirVisSpec.
Import ListNotations.
Open Scope Z_scope.
Open Scope list_scope.

(** ** Powers of two *)
Definition p2 (k : Z) : Q := Qpower 2 k.
Lemma two_nz : ~ (2 == 0)%Q.
Proof. discriminate. Qed.
Lemma p2_pos k : (0 < p2 k)%Q.
Proof. apply Qpower_0_lt. reflexivity. Qed.
Lemma p2_plus a b : (p2 (a + b) == p2 a * p2 b)%Q.
Proof. apply Qpower_plus, two_nz. Qed.
Lemma p2_Z n : 0 <= n -> (p2 n == inject_Z (2 ^ n))%Q.
Proof. intros H. unfold p2. symmetry. apply Zpower_Qpower, H. Qed.
Lemma p2_inv a : (p2 a * p2 (- a) == 1)%Q.
Proof. rewrite <- p2_plus. replace (a + - a) with 0 by lia. reflexivity. Qed.
Lemma p2_le a b : a <= b -> (p2 a <= p2 b)%Q.
Proof.
  intros H. replace b with (a + (b - a)) by lia. rewrite p2_plus. pose proof (p2_pos a). rewrite (p2_Z (b - a)) by lia.
  assert (1 <= inject_Z (2 ^ (b - a)))%Q. { change 1%Q with (inject_Z 1). rewrite <- Zle_Qle. pose proof (Z.pow_pos_nonneg 2 (b - a)). lia. }
  nra.
Qed.
Lemma p2_lt_inv a b : (p2 a < p2 b)%Q -> a < b.
Proof. intros H. destruct (Z_lt_le_dec a b) as [L|L]; [exact L|]. apply p2_le in L. lra. Qed.

Lemma frexp_spec m : (0 < m)%Q -> (p2 (frexp m - 1) <= m < p2 (frexp m))%Q.
Proof.
  intros Hm. unfold frexp. fold (p2 (Z.log2 (Qnum m) - Z.log2 (Zpos (Qden m)))). set (a := Z.log2 (Qnum m)). set (b := Z.log2 (Zpos (Qden m))).
  assert (Hn : 0 < Qnum m) by (destruct m as [[|n|n] d]; cbn in *; [discriminate|reflexivity|discriminate]).
  pose proof (Z.log2_spec (Qnum m) Hn) as [A1 A2]. pose proof (Z.log2_spec (Zpos (Qden m)) ltac:(lia)) as [B1 B2].
  pose proof (Z.log2_nonneg (Qnum m)) as A0. pose proof (Z.log2_nonneg (Zpos (Qden m))) as B0. fold a in A0, A1, A2. fold b in B0, B1, B2.
  assert (E : (m * inject_Z (Zpos (Qden m)) == inject_Z (Qnum m))%Q). { destruct m as [n d]. unfold Qeq. cbn. lia. }
  rewrite Zle_Qle in A1, B1. rewrite Zlt_Qlt in A2, B2. rewrite <- p2_Z in A1, A2, B1, B2 by lia. unfold Z.succ in *.
  set (d := inject_Z (Zpos (Qden m))) in *. set (n := inject_Z (Qnum m)) in *.
  assert (Pb : (p2 (b + 1) == 2 * p2 b)%Q). { rewrite p2_plus. change (p2 1) with 2%Q. ring. }
  assert (Pa : (p2 (a + 1) == 2 * p2 a)%Q). { rewrite p2_plus. change (p2 1) with 2%Q. ring. }
  assert (Pab : (p2 a == p2 (a - b) * p2 b)%Q). { rewrite <- p2_plus. replace (a - b + b) with a by lia. reflexivity. }
  assert (P1 : (p2 (a - b + 1) == 2 * p2 (a - b))%Q). { rewrite p2_plus. change (p2 1) with 2%Q. ring. }
  assert (P2 : (p2 (a - b) == 2 * p2 (a - b - 1))%Q). { replace (a - b) with (a - b - 1 + 1) at 1 by lia. rewrite p2_plus. change (p2 1) with 2%Q. ring. }
  pose proof (p2_pos (a - b)) as Q0. pose proof (p2_pos b) as Q1.
  destruct (Qle_bool (p2 (a - b)) m) eqn:C.
  - apply Qle_bool_iff in C. replace (a - b + 1 - 1) with (a - b) by lia. split; [exact C|]. rewrite P1. apply Qnot_le_lt. intros K. nra.
  - assert (C' : (m < p2 (a - b))%Q). { apply Qnot_le_lt. intros K. apply Qle_bool_iff in K. congruence. }
    split; [|exact C']. apply Qnot_lt_le. intros K. nra.
Qed.
Lemma frexp_unique m e : (p2 (e - 1) <= m < p2 e)%Q -> frexp m = e.
Proof.
  intros [A B]. assert (Hm : (0 < m)%Q) by (pose proof (p2_pos (e - 1)); lra). destruct (frexp_spec m Hm) as [C D].
  assert (e - 1 < frexp m) by (apply p2_lt_inv; lra). assert (frexp m - 1 < e) by (apply p2_lt_inv; lra). lia.
Qed.

(** ** The largest component *)
Lemma qmax_ge a b : (a <= qmax a b)%Q /\ (b <= qmax a b)%Q.
Proof. unfold qmax. destruct (Qle_bool a b) eqn:C; [apply Qle_bool_iff in C|assert (~ (a <= b)%Q) by (intros K; apply Qle_bool_iff in K; congruence)]; lra. Qed.
Lemma largest_ge l m0 : (m0 <= fold_left (fun m x => qmax m (Qabs x)) l m0)%Q /\ forall x, In x l -> (Qabs x <= fold_left (fun m x => qmax m (Qabs x)) l m0)%Q.
Proof.
  revert m0. induction l as [|y l IH]; intros m0; cbn [fold_left]; [split; [lra|contradiction]|].
  destruct (IH (qmax m0 (Qabs y))) as [A B]. pose proof (qmax_ge m0 (Qabs y)) as [C D]. split; [lra|]. intros x [<-|Hx]; [lra|apply B, Hx].
Qed.
Lemma largest_is l m0 : fold_left (fun m x => qmax m (Qabs x)) l m0 = m0 \/ exists x, In x l /\ fold_left (fun m x => qmax m (Qabs x)) l m0 = Qabs x.
Proof.
  revert m0. induction l as [|y l IH]; intros m0; cbn [fold_left]; [left; reflexivity|]. destruct (IH (qmax m0 (Qabs y))) as [A|(x & Hx & A)].
  - rewrite A. unfold qmax. destruct (Qle_bool m0 (Qabs y)); [right; exists y; split; [left|]; reflexivity|left; reflexivity].
  - right. exists x. split; [right; exact Hx|exact A].
Qed.

Definition top (v : vis) : Q := largest (components (data v)).
Definition sf (v : vis) : Z := frexp (top v) - 15.
Lemma top_pos v : (p2 (-52) <= top v)%Q.
Proof. apply (largest_ge (components (data v)) (p2 (-52))). Qed.
Lemma top_spec v : (p2 (sf v + 14) <= top v < p2 (sf v + 15))%Q.
Proof.
  pose proof (top_pos v). pose proof (p2_pos (-52)). destruct (frexp_spec (top v)) as [A B]; [lra|].
  unfold sf. replace (frexp (top v) - 15 + 14) with (frexp (top v) - 1) by lia. replace (frexp (top v) - 15 + 15) with (frexp (top v)) by lia. split; assumption.
Qed.
Lemma comp_In d i : (i < List.length d)%nat -> In (fst (nth i d (0, 0)%Q)) (components d) /\ In (snd (nth i d (0, 0)%Q)) (components d).
Proof. intros H. unfold components. rewrite !in_flat_map. split; (exists (nth i d (0, 0)%Q); split; [apply nth_In, H|cbn; auto]). Qed.
Lemma comp_small v i : (i < List.length (data v))%nat -> (Qabs (fst (ch v i)) < p2 (sf v + 15))%Q /\ (Qabs (snd (ch v i)) < p2 (sf v + 15))%Q.
Proof.
  intros H. destruct (comp_In (data v) i H) as [A B]. pose proof (top_spec v) as [_ T]. destruct (largest_ge (components (data v)) (p2 (-52))) as [_ G].
  split; [apply G in A; unfold ch; eapply Qle_lt_trans; [exact A|exact T]|apply G in B; unfold ch; eapply Qle_lt_trans; [exact B|exact T]].
Qed.

(** ** Truncation *)
Definition trunc (x : Q) : Z := Z.quot (Qnum x) (Zpos (Qden x)).
Lemma trunc_spec x : (Qabs (x - inject_Z (trunc x)) < 1)%Q /\ (Qabs (inject_Z (trunc x)) <= Qabs x)%Q /\ (0 <= x * inject_Z (trunc x))%Q.
Proof.
  destruct x as [n d]. unfold trunc. cbn [Qnum Qden]. set (q := Z.quot n (Zpos d)).
  pose proof (Z.quot_rem' n (Zpos d)) as E. fold q in E. set (r := Z.rem n (Zpos d)) in *.
  assert (D : ((n # d) - inject_Z q == r # d)%Q).
  { unfold Qeq, Qminus, Qplus, Qopp, inject_Z. cbn [Qnum Qden]. rewrite !Pos2Z.inj_mul. rewrite E. ring. }
  assert (A : forall z : Z, (Qabs (z # d) == Z.abs z # d)%Q) by reflexivity.
  rewrite D, !A. change (Qabs (inject_Z q)) with (inject_Z (Z.abs q)).
  unfold Qlt, Qle, Qmult, inject_Z. cbn [Qnum Qden].
  destruct (Z_lt_le_dec n 0) as [L|L].
  - assert (R : - Zpos d < r <= 0). { unfold r. pose proof (Z.rem_bound_pos_neg n (Zpos d) ltac:(lia) ltac:(lia)). lia. }
    assert (Hq : q <= 0). { unfold q. replace n with (- - n) by lia. rewrite Z.quot_opp_l by lia. pose proof (Z.quot_pos (- n) (Zpos d)). lia. }
    split; [lia|]. split; [rewrite !Z.abs_neq by lia; nia|]. nia.
  - assert (R : 0 <= r < Zpos d) by (unfold r; apply Z.rem_bound_pos; lia).
    assert (Hq : 0 <= q) by (unfold q; apply Z.quot_pos; lia).
    split; [lia|]. split; [rewrite !Z.abs_eq by lia; nia|]. nia.
Qed.
Lemma trunc_small x : (Qabs x < p2 15)%Q -> -32768 < trunc x < 32768.
Proof.
  intros H. destruct (trunc_spec x) as (_ & B & _). assert (C : (Qabs (inject_Z (trunc x)) < p2 15)%Q) by lra. change (p2 15) with (inject_Z 32768) in C.
  change (Qabs (inject_Z (trunc x))) with (inject_Z (Z.abs (trunc x))) in C. rewrite <- Zlt_Qlt in C. lia.
Qed.
Lemma int16_trunc x : (Qabs x < p2 15)%Q -> int16 x = trunc x.
Proof. intros H. apply trunc_small in H. unfold int16. fold (trunc x). rewrite Z.mod_small; lia. Qed.
Lemma trunc_Z x n : (x == inject_Z n)%Q -> trunc x = n.
Proof.
  destruct x as [a d]. unfold Qeq, trunc. cbn. intros E. replace a with (n * Zpos d) by lia. apply Z.quot_mul. lia.
Qed.

(** ** Coding and decoding *)
Definition code (s : Z) (p : (Q * Q) * bool) : Z * Z :=
  if snd p then (-32768, -32768) else (int16 (fst (fst p) * p2 (- s)), int16 (snd (fst p) * p2 (- s))).
Lemma pairs_flat {A} (g : A -> Z * Z) l : pairs (flat_map (fun p => [fst (g p); snd (g p)]) l) = map g l.
Proof. induction l as [|x l IH]; [reflexivity|]. cbn [flat_map app pairs map]. rewrite IH, <- surjective_pairing. reflexivity. Qed.
Lemma raw_values v : values (vis_to_raw v) = flat_map (fun p => [fst (code (sf v) p); snd (code (sf v) p)]) (combine (data v) (flags v)).
Proof.
  unfold vis_to_raw. cbn [values]. rewrite !flat_map_concat_map. f_equal. apply map_ext. intros [[x y] b]. unfold code. cbn [fst snd]. fold (top v). fold (sf v). destruct b; reflexivity.
Qed.
Lemma raw_pairs v : pairs (values (vis_to_raw v)) = map (code (sf v)) (combine (data v) (flags v)).
Proof. rewrite raw_values. apply pairs_flat. Qed.
Lemma raw_scale v : scale_fac (vis_to_raw v) = sf v.
Proof. reflexivity. Qed.

Lemma scaled_small v x : (Qabs x < p2 (sf v + 15))%Q -> (Qabs (x * p2 (- sf v)) < p2 15)%Q.
Proof.
  intros H. rewrite Qabs_Qmult, (Qabs_pos (p2 (- sf v))) by (apply Qlt_le_weak, p2_pos). rewrite p2_plus in H. pose proof (p2_inv (sf v)) as I. pose proof (p2_pos (- sf v)) as P.
  set (a := p2 (sf v)) in *. set (b := p2 (- sf v)) in *. setoid_replace (p2 15) with (a * p2 15 * b)%Q; [|transitivity ((a * b) * p2 15)%Q; [rewrite I|]; ring].
  apply Qmult_lt_compat_r; assumption.
Qed.

Lemma decoded s x : (Qabs (x * p2 (- s)) < p2 15)%Q -> cut_to (p2 s) x (p2 s * inject_Z (int16 (x * p2 (- s)))).
Proof.
  intros H. rewrite (int16_trunc _ H). destruct (trunc_spec (x * p2 (- s))) as (A & B & C). set (t := inject_Z (trunc (x * p2 (- s)))) in *.
  pose proof (p2_inv s) as I. pose proof (p2_pos s) as P. set (a := p2 s) in *. set (b := p2 (- s)) in *.
  assert (Ex : (x == a * (x * b))%Q) by (transitivity (x * (a * b))%Q; [rewrite I|]; ring).
  split; [exists (trunc (x * b)); unfold t; ring|]. split; [|split].
  - setoid_replace (x - a * t)%Q with (a * (x * b - t))%Q by (rewrite Ex at 1; ring). rewrite Qabs_Qmult, (Qabs_pos a) by lra.
    setoid_replace a with (a * 1)%Q at 2 by ring. rewrite (Qmult_comm a), (Qmult_comm a). apply Qmult_lt_compat_r; assumption.
  - rewrite Qabs_Qmult. rewrite Ex at 1. rewrite Qabs_Qmult. rewrite (Qabs_pos a) by lra. rewrite !(Qmult_comm a). apply Qmult_le_compat_r; [exact B|lra].
  - rewrite Ex. setoid_replace (a * (x * b) * (a * t))%Q with ((a * a) * (x * b * t))%Q by ring. apply Qmult_le_0_compat; [|exact C]. apply Qmult_le_0_compat; lra.
Qed.

Lemma nth_combine {A B} (l : list A) (m : list B) i a b : List.length l = List.length m -> nth i (combine l m) (a, b) = (nth i l a, nth i m b).
Proof. apply combine_nth. Qed.

Section Code.
Context (v : vis) (Hl : List.length (flags v) = List.length (data v)).
Let s := sf v.
Lemma code_nth i : (i < List.length (data v))%nat ->
  nth i (map (code s) (combine (data v) (flags v))) (0, 0) = code s (ch v i, flagged v i).
Proof.
  intros H. rewrite (nth_indep _ (0, 0) (code s ((0, 0)%Q, false))) by (rewrite map_length, combine_length, Hl; lia).
  rewrite map_nth. rewrite combine_nth by (symmetry; exact Hl). reflexivity.
Qed.
Lemma code_unflagged i : (i < List.length (data v))%nat -> flagged v i = false ->
  -32768 < fst (code s (ch v i, flagged v i)) < 32768 /\ -32768 < snd (code s (ch v i, flagged v i)) < 32768.
Proof.
  intros H F. rewrite F. unfold code. cbn [fst snd]. destruct (comp_small v i H) as [A B]. apply scaled_small in A, B. fold s in A, B.
  rewrite !int16_trunc by assumption. split; apply trunc_small; assumption.
Qed.

Lemma decoded_flags : flags (raw_to_vis (vis_to_raw v)) = flags v.
Proof.
  unfold raw_to_vis. cbn [flags]. rewrite raw_pairs, map_map. fold s. apply (nth_ext _ _ false false).
  - rewrite map_length, combine_length, Hl. lia.
  - intros i Hi. rewrite map_length, combine_length, Hl, Nat.min_id in Hi.
    rewrite (nth_indep _ false ((fun x => fst (code s x) =? -32768) ((0, 0)%Q, false))) by (rewrite map_length, combine_length, Hl; lia).
    rewrite (map_nth (fun x => fst (code s x) =? -32768)), combine_nth by (symmetry; exact Hl).
    fold (ch v i). fold (flagged v i). destruct (flagged v i) eqn:F; [reflexivity|]. apply Z.eqb_neq. pose proof (code_unflagged i Hi F). rewrite F in *. lia.
Qed.
Lemma decoded_weights : weights (raw_to_vis (vis_to_raw v)) = map (fun b : bool => if b then 0%Q else 1%Q) (flags v).
Proof. rewrite <- decoded_flags. reflexivity. Qed.
Lemma decoded_length : List.length (data (raw_to_vis (vis_to_raw v))) = List.length (data v).
Proof. unfold raw_to_vis. cbn [data]. rewrite map_length, raw_pairs, map_length, combine_length, Hl. lia. Qed.
Lemma decoded_ch i : (i < List.length (data v))%nat ->
  ch (raw_to_vis (vis_to_raw v)) i = if flagged v i then (0, 0)%Q else
    (p2 s * inject_Z (int16 (fst (ch v i) * p2 (- s))), p2 s * inject_Z (int16 (snd (ch v i) * p2 (- s))))%Q.
Proof.
  intros H. unfold ch at 1. unfold raw_to_vis. cbn [data]. rewrite raw_pairs, raw_scale. fold s. fold (p2 s).
  set (g := fun p : Z * Z => if fst p =? -32768 then (0, 0)%Q else (p2 s * inject_Z (fst p), p2 s * inject_Z (snd p))%Q).
  rewrite (nth_indep _ (0, 0)%Q (g (0, 0))) by (rewrite !map_length, combine_length, Hl; lia). rewrite (map_nth g), code_nth by exact H.
  destruct (flagged v i) eqn:F; [reflexivity|]. pose proof (code_unflagged i H F) as [A _]. rewrite F in A. unfold g.
  rewrite (proj2 (Z.eqb_neq _ _)) by lia. reflexivity.
Qed.

Lemma step_fine : fine_step (p2 s) v.
Proof.
  split; [apply p2_pos|]. pose proof (top_spec v) as [T _]. fold s in T. destruct (largest_is (components (data v)) (p2 (-52))) as [E|(x & Hx & E)].
  - left. change (top v = p2 (-52)) in E. rewrite E in T. fold (p2 (-66)). rewrite p2_plus in T.
    change (p2 14) with 16384%Q in T. assert (E' : (p2 (-52) == p2 (-66) * 16384)%Q) by reflexivity. rewrite E' in T. lra.
  - right. change (top v = Qabs x) in E. rewrite E in T. rewrite p2_plus in T. unfold components in Hx. apply in_flat_map in Hx. destruct Hx as (c & Hc & Hx).
    destruct (In_nth _ _ (0, 0)%Q Hc) as (i & Hi & Ei). exists i. split; [exact Hi|]. unfold ch. rewrite Ei. destruct Hx as [<-|[<-|[]]]; [left|right]; exact T.
Qed.

Lemma coded_raw i : (i < List.length (data v))%nat ->
  let p := nth i (pairs (values (vis_to_raw v))) (0, 0) in
  if flagged v i then p = (-32768, -32768) else -32768 < fst p < 32768 /\ -32768 < snd p < 32768.
Proof.
  intros H p. unfold p. rewrite raw_pairs. fold s. rewrite code_nth by exact H. destruct (flagged v i) eqn:F; [reflexivity|]. rewrite <- F. apply code_unflagged; assumption.
Qed.
End Code.

Lemma vis_round_trip v : List.length (flags v) = List.length (data v) ->
  exists step, fine_step step v /\ let w := raw_to_vis (vis_to_raw v) in
  flags w = flags v /\ weights w = map (fun b : bool => if b then 0%Q else 1%Q) (flags v) /\ List.length (data w) = List.length (data v) /\
  forall i, (i < List.length (data v))%nat ->
    if flagged v i then ch w i = (0, 0)%Q else cut_to step (fst (ch v i)) (fst (ch w i)) /\ cut_to step (snd (ch v i)) (snd (ch w i)).
Proof.
  intros Hl. exists (p2 (sf v)). split; [apply step_fine|]. cbv zeta. split; [apply decoded_flags, Hl|]. split; [apply decoded_weights, Hl|]. split; [apply decoded_length, Hl|].
  intros i Hi. rewrite decoded_ch by assumption. destruct (flagged v i); [reflexivity|]. cbn [fst snd]. destruct (comp_small v i Hi) as [A B].
  split; apply decoded, scaled_small; assumption.
Qed.

Lemma raw_range v : List.length (flags v) = List.length (data v) -> List.length (values (vis_to_raw v)) = (2 * List.length (data v))%nat /\
  forall i, (i < List.length (data v))%nat -> let re := nth (2 * i) (values (vis_to_raw v)) 0 in let im := nth (2 * i + 1) (values (vis_to_raw v)) 0 in
  if flagged v i then re = -32768 /\ im = -32768 else -32768 < re < 32768 /\ -32768 < im < 32768.
Proof.
  intros Hl.
  assert (G : forall {A} (g : A -> Z * Z) l, List.length (flat_map (fun p => [fst (g p); snd (g p)]) l) = (2 * List.length l)%nat /\
     forall i, (i < List.length l)%nat -> nth (2 * i) (flat_map (fun p => [fst (g p); snd (g p)]) l) 0 = fst (nth i (map g l) (0, 0)) /\
       nth (2 * i + 1) (flat_map (fun p => [fst (g p); snd (g p)]) l) 0 = snd (nth i (map g l) (0, 0))).
  { intros A g l. induction l as [|x l [IH1 IH2]]; [split; [reflexivity|cbn; lia]|]. cbn [flat_map app List.length map]. split; [lia|].
    intros [|i] Hi; [split; reflexivity|]. replace (2 * S i)%nat with (S (S (2 * i))) by lia. replace (S (S (2 * i)) + 1)%nat with (S (S (2 * i + 1))) by lia.
    cbn [nth]. apply IH2. cbn in Hi. lia. }
  destruct (G _ (code (sf v)) (combine (data v) (flags v))) as [G1 G2]. rewrite <- raw_values in G1, G2. rewrite combine_length, Hl, Nat.min_id in *.
  split; [exact G1|]. intros i Hi re im. unfold re, im. destruct (G2 i Hi) as [E1 E2]. rewrite E1, E2. pose proof (coded_raw v Hl i Hi) as C. cbv zeta in C. rewrite raw_pairs in C.
  destruct (flagged v i); [rewrite C; split; reflexivity|exact C].
Qed.

(** ** Back to integers *)
Lemma raw_vis_ch r i : (i < List.length (pairs (values r)))%nat ->
  ch (raw_to_vis r) i = if fst (nth i (pairs (values r)) (0, 0)) =? -32768 then (0, 0)%Q else
    (p2 (scale_fac r) * inject_Z (fst (nth i (pairs (values r)) (0%Z, 0%Z))), p2 (scale_fac r) * inject_Z (snd (nth i (pairs (values r)) (0%Z, 0%Z))))%Q.
Proof.
  intros H. unfold ch, raw_to_vis. cbn [data]. set (g := fun p : Z * Z => if fst p =? -32768 then (0, 0)%Q else (Qpower 2 (scale_fac r) * inject_Z (fst p), Qpower 2 (scale_fac r) * inject_Z (snd p))%Q).
  rewrite (nth_indep _ (0, 0)%Q (g (0, 0))) by (rewrite map_length; exact H). rewrite (map_nth g). reflexivity.
Qed.
Lemma raw_vis_len r : List.length (flags (raw_to_vis r)) = List.length (data (raw_to_vis r)) /\ List.length (data (raw_to_vis r)) = List.length (pairs (values r)).
Proof. unfold raw_to_vis. cbn [flags data]. rewrite !map_length. split; reflexivity. Qed.
Lemma raw_vis_flag r i : flagged (raw_to_vis r) i = (fst (nth i (pairs (values r)) (0, 0)) =? -32768).
Proof.
  unfold flagged, raw_to_vis. cbn [flags]. change false with ((fun p : Z * Z => fst p =? -32768) (0, 0)). apply (map_nth (fun p : Z * Z => fst p =? -32768)).
Qed.

Lemma raw_top r : valid_raw r -> -66 <= scale_fac r -> (top (raw_to_vis r) < p2 (scale_fac r + 15))%Q.
Proof.
  intros [V _] Hs. unfold top, largest. destruct (largest_is (components (data (raw_to_vis r))) (p2 (-52))) as [E|(x & Hx & E)]; fold (p2 (-52)); rewrite E.
  - assert (p2 (-52) < p2 (-51))%Q by reflexivity. pose proof (p2_le (-51) (scale_fac r + 15)). lra || (eapply Qlt_le_trans; [exact H|apply p2_le; lia]).
  - unfold components in Hx. apply in_flat_map in Hx. destruct Hx as (c & Hc & Hx). unfold raw_to_vis in Hc. cbn [data] in Hc. apply in_map_iff in Hc. destruct Hc as ((a, b) & <- & Hp).
    rewrite Forall_forall in V. specialize (V _ Hp). cbn [fst snd] in *. pose proof (p2_pos (scale_fac r + 15)) as P.
    destruct (Z.eqb_spec a (-32768)) as [->|Na]; [destruct Hx as [<-|[<-|[]]]; exact P|]. destruct V as [[K _]|[Va Vb]]; [contradiction|].
    assert (G : forall z, -32768 < z < 32768 -> (Qabs (p2 (scale_fac r) * inject_Z z) < p2 (scale_fac r + 15))%Q).
    { intros z Hz. rewrite Qabs_Qmult, (Qabs_pos (p2 _)) by (apply Qlt_le_weak, p2_pos). rewrite p2_plus. rewrite !(Qmult_comm (p2 (scale_fac r))). apply Qmult_lt_compat_r; [apply p2_pos|].
      change (p2 15) with (inject_Z 32768). change (Qabs (inject_Z z)) with (inject_Z (Z.abs z)). rewrite <- Zlt_Qlt. lia. }
    destruct Hx as [<-|[<-|[]]]; apply G; assumption.
Qed.

Lemma raw_exact r : valid_raw r -> -66 <= scale_fac r -> same_vis (raw_to_vis (vis_to_raw (raw_to_vis r))) (raw_to_vis r).
Proof.
  intros V Hs. set (v := raw_to_vis r). destruct (raw_vis_len r) as [L1 L2]. fold v in L1, L2.
  pose proof (raw_top r V Hs) as T. fold v in T. pose proof (top_spec v) as [T1 _].
  assert (Hsv : sf v <= scale_fac r). { assert (sf v + 14 < scale_fac r + 15) by (apply p2_lt_inv; lra). lia. }
  split; [|split; [apply decoded_flags, L1|rewrite decoded_weights by exact L1; reflexivity]].
  assert (G : forall (l m : list (Q * Q)), List.length l = List.length m -> (forall i, (i < List.length m)%nat -> (fst (nth i l (0, 0)%Q) == fst (nth i m (0, 0)%Q))%Q /\ (snd (nth i l (0, 0)%Q) == snd (nth i m (0, 0)%Q))%Q) ->
     Forall2 (fun c d => (fst c == fst d)%Q /\ (snd c == snd d)%Q) l m).
  { induction l as [|x l IH]; intros [|y m] L H; try discriminate; constructor; [apply (H 0%nat); cbn; lia|]. apply IH; [injection L as L; exact L|]. intros i Hi. apply (H (S i)). cbn. lia. }
  apply G; [apply decoded_length, L1|]. intros i Hi. fold (ch (raw_to_vis (vis_to_raw v)) i). fold (ch v i). rewrite decoded_ch by assumption.
  destruct (comp_small v i Hi) as [A B]. apply scaled_small in A, B. pose proof (raw_vis_flag r i) as F. fold v in F. rewrite L2 in Hi. pose proof (raw_vis_ch r i Hi) as C. fold v in C.
  rewrite F. destruct (Z.eqb_spec (fst (nth i (pairs (values r)) (0, 0))) (-32768)) as [E|N]; [rewrite C; split; reflexivity|]. rewrite !int16_trunc by assumption.
  set (a := fst (nth i (pairs (values r)) (0, 0))) in *. set (b := snd (nth i (pairs (values r)) (0, 0))) in *. rewrite C. cbn [fst snd].
  assert (H : forall z, (p2 (sf v) * inject_Z (trunc (p2 (scale_fac r) * inject_Z z * p2 (- sf v))) == p2 (scale_fac r) * inject_Z z)%Q).
  { intros z. assert (E : (p2 (scale_fac r) * inject_Z z * p2 (- sf v) == inject_Z (2 ^ (scale_fac r - sf v) * z))%Q).
    { rewrite inject_Z_mult, <- p2_Z by lia. replace (scale_fac r - sf v) with (scale_fac r + - sf v) by lia. rewrite p2_plus. ring. }
    rewrite (trunc_Z _ _ E). rewrite <- E. transitivity (p2 (scale_fac r) * inject_Z z * (p2 (sf v) * p2 (- sf v)))%Q; [ring|]. rewrite p2_inv. ring. }
  split; apply H.
Qed.

Lemma pairs_inj a b : (exists n, List.length a = (2 * n)%nat) -> List.length a = List.length b -> pairs a = pairs b -> a = b.
Proof.
  intros [n Hn]. revert a b Hn. induction n as [|n IH]; intros a b Hn L E.
  - destruct a; [|cbn in Hn; lia]. destruct b; [reflexivity|discriminate].
  - destruct a as [|x [|y a]]; cbn in Hn; try lia. destruct b as [|x' [|y' b]]; try (cbn in L; lia). cbn [pairs] in E. injection E as <- <- E. do 2 f_equal.
    apply IH; [lia|cbn in L; lia|exact E].
Qed.
Lemma pairs_length l n : List.length l = (2 * n)%nat -> List.length (pairs l) = n.
Proof. revert l. induction n as [|n IH]; intros [|x [|y l]] H; cbn in H; try lia; [reflexivity|]. cbn [pairs List.length]. rewrite IH by lia. reflexivity. Qed.

Lemma raw_same r i : valid_raw r -> -66 <= scale_fac r -> (i < List.length (pairs (values r)))%nat ->
  fst (nth i (pairs (values r)) (0, 0)) <> -32768 ->
  16384 <= Z.abs (fst (nth i (pairs (values r)) (0, 0))) \/ 16384 <= Z.abs (snd (nth i (pairs (values r)) (0, 0))) ->
  vis_to_raw (raw_to_vis r) = r.
Proof.
  intros V Hs Hi Nf Hb. set (v := raw_to_vis r). destruct (raw_vis_len r) as [L1 L2]. fold v in L1, L2.
  pose proof (raw_top r V Hs) as T. fold v in T. pose proof (top_spec v) as [T1 T2]. pose proof (raw_vis_ch r i Hi) as C. fold v in C.
  rewrite (proj2 (Z.eqb_neq _ _) Nf) in C.
  assert (Tb : (p2 (scale_fac r + 14) <= top v)%Q).
  { assert (Hv : (i < List.length (data v))%nat) by lia. destruct (comp_In (data v) i Hv) as [A B]. destruct (largest_ge (components (data v)) (p2 (-52))) as [_ G]. fold (ch v i) in A, B. rewrite C in A, B.
    cbn [fst snd] in A, B. apply G in A, B. change (fold_left (fun m x => qmax m (Qabs x)) (components (data v)) (p2 (-52))) with (top v) in A, B. clear G.
    assert (K : forall z, 16384 <= Z.abs z -> (p2 (scale_fac r + 14) <= Qabs (p2 (scale_fac r) * inject_Z z))%Q).
    { intros z Hz. rewrite Qabs_Qmult, (Qabs_pos (p2 _)) by (apply Qlt_le_weak, p2_pos). rewrite p2_plus, !(Qmult_comm (p2 (scale_fac r))).
      apply Qmult_le_compat_r; [|apply Qlt_le_weak, p2_pos]. change (p2 14) with (inject_Z 16384). change (Qabs (inject_Z z)) with (inject_Z (Z.abs z)). rewrite <- Zle_Qle. exact Hz. }
    destruct Hb as [Hb|Hb]; apply K in Hb; lra. }
  assert (Es : sf v = scale_fac r).
  { assert (sf v + 14 < scale_fac r + 15) by (apply p2_lt_inv; lra). assert (scale_fac r + 14 < sf v + 15) by (apply p2_lt_inv; lra). lia. }
  destruct V as [V [n Hn]]. pose proof (pairs_length _ _ Hn) as Lp.
  destruct (raw_range v L1) as [Lr _].
  assert (Ev : values (vis_to_raw v) = values r).
  { apply pairs_inj; [exists n; rewrite Lr; lia|rewrite Lr; lia|]. rewrite raw_pairs. apply (nth_ext _ _ (0, 0) (0, 0)); [rewrite map_length, combine_length; lia|].
    intros j Hj. rewrite map_length, combine_length in Hj. rewrite code_nth by (exact L1 || lia). assert (Hj' : (j < List.length (pairs (values r)))%nat) by lia.
    pose proof (raw_vis_ch r j Hj') as Cj. fold v in Cj. pose proof (raw_vis_flag r j) as F. fold v in F. rewrite F.
    rewrite Forall_forall in V. specialize (V _ (nth_In _ (0, 0) Hj')). set (q := nth j (pairs (values r)) (0, 0)) in *. unfold code. cbn [fst snd].
    destruct (Z.eqb_spec (fst q) (-32768)) as [E|N]; [destruct V as [[V1 V2]|[V1 _]]; [rewrite (surjective_pairing q), V1, V2; reflexivity|lia]|].
    destruct V as [[V1 _]|[V1 V2]]; [contradiction|].
    assert (Hv : (j < List.length (data v))%nat) by lia. destruct (comp_small v j Hv) as [A B]. apply scaled_small in A, B. rewrite !int16_trunc by assumption. rewrite Cj. cbn [fst snd].
    assert (K : forall z, trunc (p2 (scale_fac r) * inject_Z z * p2 (- sf v)) = z).
    { intros z. apply trunc_Z. rewrite Es. transitivity (inject_Z z * (p2 (scale_fac r) * p2 (- scale_fac r)))%Q; [ring|]. rewrite p2_inv. ring. }
    rewrite !K. symmetry. apply surjective_pairing. }
  destruct (vis_to_raw v) as [s' vs'] eqn:Er. assert (E1 : s' = sf v) by (pose proof (raw_scale v) as E1; rewrite Er in E1; exact E1).
  cbn [values] in Ev. rewrite E1, Es, Ev. destruct r; reflexivity.
Qed.
