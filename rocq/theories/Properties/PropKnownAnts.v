(** C101: antennas of known telescopes. *)
From Coq Require Import List ZArith Bool Arith Lia.
From Verif Require Import Lib.Py Lib.Np Model.KnownAnts.
Import ListNotations.
Notation length := List.length.
Open Scope list_scope.
Open Scope Z_scope.

(** If nothing is known of the antennas, or with overwrite, they are those of the table. *)
Theorem C101_all : forall overwrite t a,
  overwrite = true \/ (a_n a = None /\ a_names a = None /\ a_nums a = None /\ a_pos a = None) ->
  update_ants overwrite t a = {| a_n := Some (length (k_names t)); a_names := Some (k_names t); a_nums := Some (k_nums t); a_pos := Some (k_pos t) |}.
Proof. intros overwrite t a [->|(E1 & E2 & E3 & E4)]; [reflexivity|]. unfold update_ants. rewrite E1, E2, E3, E4. destruct overwrite; reflexivity. Qed.
Print Assumptions C101_all.

(** Without overwrite, what is known is kept. *)
Theorem C101_kept : forall t a,
  (forall n, a_n a = Some n -> a_n (update_ants false t a) = Some n) /\
  (forall l, a_names a = Some l -> a_names (update_ants false t a) = Some l) /\
  (forall l, a_nums a = Some l -> a_nums (update_ants false t a) = Some l) /\
  (forall l, a_pos a = Some l -> a_pos (update_ants false t a) = Some l).
Proof.
  intros t a. unfold update_ants. destruct (_ || _ || _ || _ || _); [|auto]. cbn [orb].
  destruct (missing (a_n a) && missing (a_names a) && missing (a_nums a) && missing (a_pos a)) eqn:M.
  - repeat (apply andb_true_iff in M as [M ?]). destruct (a_n a), (a_names a), (a_nums a), (a_pos a); try discriminate. repeat split; discriminate.
  - destruct (_ || _); [|auto]. destruct (match a_n a with Some _ => _ | None => _ end); [auto|]. cbn.
    repeat split; intros l E; rewrite E; reflexivity.
Qed.
Print Assumptions C101_kept.

Lemma names_fold t names l acc :
  (forall i, In i l -> In (nth i names 0) (k_names t)) ->
  fold_left (fun acc index => match index_of Z.eqb (nth index names 0) (k_names t) with Some i => acc ++ [(index, i)] | None => acc end) l acc =
  acc ++ map (fun index => (index, match index_of Z.eqb (nth index names 0) (k_names t) with Some i => i | None => 0%nat end)) l.
Proof.
  revert acc. induction l as [|x l IH]; intros acc H; cbn [fold_left map]; [rewrite app_nil_r; reflexivity|].
  destruct (index_of Z.eqb (nth x names 0) (k_names t)) as [i|] eqn:E.
  - rewrite IH by (intros; apply H; right; assumption). rewrite <- app_assoc. reflexivity.
  - exfalso. apply (index_of_None _ Z.eqb_eq) in E. apply E, H. left. reflexivity.
Qed.

Lemma names_none t names l acc :
  (forall i, In i l -> ~ In (nth i names 0) (k_names t)) ->
  fold_left (fun acc index => match index_of Z.eqb (nth index names 0) (k_names t) with Some i => acc ++ [(index, i)] | None => acc end) l acc = acc.
Proof.
  revert acc. induction l as [|x l IH]; intros acc H; cbn [fold_left]; [reflexivity|].
  destruct (index_of Z.eqb (nth x names 0) (k_names t)) as [i|] eqn:E.
  - exfalso. destruct (index_of_Some _ Z.eqb_eq 0 _ _ _ E) as (L & N & _). apply (H x (or_introl eq_refl)). rewrite <- N. apply nth_In, L.
  - apply IH. intros; apply H; right; assumption.
Qed.

Definition row (l : list Z) (v : Z) : nat := match index_of Z.eqb v l with Some i => i | None => 0%nat end.
Lemma row_ok l v : In v l -> (row l v < length l)%nat /\ nth (row l v) l 0 = v.
Proof.
  intros I. unfold row. destruct (index_of Z.eqb v l) as [i|] eqn:E.
  - destruct (index_of_Some _ Z.eqb_eq 0 _ _ _ E) as (L & N & _). auto.
  - apply (index_of_None _ Z.eqb_eq) in E. contradiction.
Qed.

Lemma nums_fold t nums : NoDup nums -> (forall v, In v nums -> In v (k_nums t)) ->
  forall m n acc, (m + n = length nums)%nat -> acc = map (fun index => (index, row (k_nums t) (nth index nums 0))) (seq 0 m) ->
  fold_left (fun acc index =>
      if isinN index (map fst acc) then acc
      else match index_of Z.eqb (nth index nums 0) (k_nums t) with
           | Some i => if isinN i (map snd acc) then acc else acc ++ [(index, i)]
           | None => acc
           end) (seq m n) acc = map (fun index => (index, row (k_nums t) (nth index nums 0))) (seq 0 (length nums)).
Proof.
  intros ND H m n. revert m. induction n as [|n IH]; intros m acc L E; cbn [seq fold_left].
  - rewrite E. f_equal. f_equal. lia.
  - assert (F1 : isinN m (map fst acc) = false).
    { destruct (isinN m (map fst acc)) eqn:X; [|reflexivity]. exfalso. apply isinN_spec in X. rewrite E, map_map in X. cbn [fst] in X. rewrite map_id in X. apply in_seq in X. lia. }
    rewrite F1. assert (Im : In (nth m nums 0) (k_nums t)) by (apply H, nth_In; lia). destruct (row_ok _ _ Im) as [Rl Rn].
    assert (Ei : index_of Z.eqb (nth m nums 0) (k_nums t) = Some (row (k_nums t) (nth m nums 0))).
    { unfold row. destruct (index_of Z.eqb (nth m nums 0) (k_nums t)) eqn:X; [reflexivity|]. apply (index_of_None _ Z.eqb_eq) in X. contradiction. }
    rewrite Ei.
    assert (F2 : isinN (row (k_nums t) (nth m nums 0)) (map snd acc) = false).
    { destruct (isinN _ (map snd acc)) eqn:X; [|reflexivity]. exfalso. apply isinN_spec in X. rewrite E, map_map in X. cbn [snd] in X. apply in_map_iff in X as (j & Y & J). apply in_seq in J.
      assert (Ij : In (nth j nums 0) (k_nums t)) by (apply H, nth_In; lia). destruct (row_ok _ _ Ij) as [_ Rj]. rewrite Y, Rn in Rj.
      apply (proj1 (NoDup_nth nums 0) ND) in Rj; lia. }
    rewrite F2. apply IH; [lia|]. rewrite E. rewrite seq_S, map_app. reflexivity.
Qed.

(** If each antenna has a name of the table, missing positions and numbers are those of that name. *)
Theorem C101_names : forall t a names, length (k_nums t) = length (k_names t) -> length (k_pos t) = length (k_names t) ->
  a_names a = Some names -> a_n a = Some (length names) -> (forall v, In v names -> In v (k_names t)) -> a_pos a = None \/ a_nums a = None ->
  exists pos nums, a_pos (update_ants false t a) = Some pos /\ a_nums (update_ants false t a) = Some nums /\
  (a_pos a = None -> length pos = length names) /\ (a_nums a = None -> length nums = length names) /\
  forall k, (k < length names)%nat -> exists i, nth_error (k_names t) i = nth_error names k /\
    (a_pos a = None -> nth_error pos k = nth_error (k_pos t) i) /\ (a_nums a = None -> nth_error nums k = nth_error (k_nums t) i).
Proof.
  intros t a names L1 L2 EN En H D. unfold update_ants. rewrite EN, En. cbn [missing orb andb negb].
  assert (MM : missing (a_nums a) || missing (a_pos a) || false = true) by (destruct D as [-> | ->]; [destruct (a_nums a)|]; reflexivity).
  rewrite MM. clear MM.
  assert (ME : map snd (matches t a) = map (fun i => row (k_names t) (nth i names 0)) (seq 0 (length names))).
  { unfold matches. rewrite EN, En. unfold match_names. rewrite names_fold by (intros i I; apply in_seq in I; apply H, nth_In; lia). cbn [app].
    rewrite map_length, seq_length, Nat.eqb_refl. cbn [negb]. destruct (a_nums a); rewrite map_map; reflexivity. }
  rewrite ME. rewrite map_length, seq_length, Nat.eqb_refl. cbn [negb a_pos a_nums].
  set (inds := map (fun i => row (k_names t) (nth i names 0)) (seq 0 (length names))).
  assert (LI : length inds = length names) by (unfold inds; rewrite map_length, seq_length; reflexivity).
  assert (NI : forall k, (k < length names)%nat -> nth k inds 0%nat = row (k_names t) (nth k names 0)).
  { intros k K. unfold inds. rewrite (nth_map _ _ _ 0%nat 0%nat) by (rewrite seq_length; exact K). rewrite seq_nth by exact K. reflexivity. }
  exists (match a_pos a with Some x => x | None => take 0 (k_pos t) inds end), (match a_nums a with Some x => x | None => take 0 (k_nums t) inds end). split; [destruct (a_pos a); reflexivity|]. split; [destruct (a_nums a); reflexivity|].
  split; [intros ->; rewrite take_length; exact LI|]. split; [intros ->; rewrite take_length; exact LI|].
  intros k K. destruct (row_ok (k_names t) (nth k names 0)) as [R1 R2]; [apply H, nth_In, K|]. exists (row (k_names t) (nth k names 0)).
  split; [rewrite (nth_error_nth' _ 0 R1), (nth_error_nth' _ 0 K), R2; reflexivity|].
  split; intros ->; (rewrite (nth_error_nth' _ 0) by (rewrite take_length; lia)); rewrite (nth_take 0 0) by lia; rewrite NI by exact K; symmetry; apply nth_error_nth'; lia.
Qed.
Print Assumptions C101_names.

(** If no antenna has a name of the table but each has a number of it, missing positions and names
    are those of that number. *)
Theorem C101_numbers : forall t a nums, length (k_names t) = length (k_nums t) -> length (k_pos t) = length (k_nums t) -> NoDup nums ->
  a_nums a = Some nums -> a_n a = Some (length nums) -> (forall v, In v nums -> In v (k_nums t)) ->
  (forall names, a_names a = Some names -> forall v, In v names -> ~ In v (k_names t)) -> a_pos a = None \/ a_names a = None ->
  exists pos names, a_pos (update_ants false t a) = Some pos /\ a_names (update_ants false t a) = Some names /\
  (a_pos a = None -> length pos = length nums) /\ (a_names a = None -> length names = length nums) /\
  forall k, (k < length nums)%nat -> exists i, nth_error (k_nums t) i = nth_error nums k /\
    (a_pos a = None -> nth_error pos k = nth_error (k_pos t) i) /\ (a_names a = None -> nth_error names k = nth_error (k_names t) i).
Proof.
  intros t a nums L1 L2 ND EN En H HN D. unfold update_ants. rewrite EN, En. cbn [missing].
  assert (MM : false || missing (a_names a) || false || missing (a_pos a) || false = true) by (destruct D as [-> | ->]; [destruct (a_names a)|]; reflexivity).
  rewrite MM. clear MM. cbn [orb andb negb]. replace (negb (missing (a_names a)) || true) with true by (destruct (a_names a); reflexivity).
  assert (ME : map snd (matches t a) = map (fun i => row (k_nums t) (nth i nums 0)) (seq 0 (length nums))).
  { unfold matches. rewrite EN, En.
    assert (F : match a_names a with Some names => match_names t names | None => [] end = []).
    { destruct (a_names a) as [names|]; [|reflexivity]. unfold match_names. apply names_none. intros i I. apply in_seq in I. apply (HN names eq_refl), nth_In. lia. }
    rewrite F. cbn [length]. destruct nums as [|x nums']; [reflexivity|]. cbn [Nat.eqb length negb]. unfold match_nums.
    rewrite (nums_fold t (x :: nums') ND H 0 (length (x :: nums')) []) by reflexivity. rewrite map_map. reflexivity. }
  rewrite ME. rewrite map_length, seq_length, Nat.eqb_refl. cbn [negb a_pos a_names].
  set (inds := map (fun i => row (k_nums t) (nth i nums 0)) (seq 0 (length nums))).
  assert (LI : length inds = length nums) by (unfold inds; rewrite map_length, seq_length; reflexivity).
  assert (NI : forall k, (k < length nums)%nat -> nth k inds 0%nat = row (k_nums t) (nth k nums 0)).
  { intros k K. unfold inds. rewrite (nth_map _ _ _ 0%nat 0%nat) by (rewrite seq_length; exact K). rewrite seq_nth by exact K. reflexivity. }
  exists (match a_pos a with Some x => x | None => take 0 (k_pos t) inds end), (match a_names a with Some x => x | None => take 0 (k_names t) inds end). split; [destruct (a_pos a); reflexivity|]. split; [destruct (a_names a); reflexivity|].
  split; [intros ->; rewrite take_length; exact LI|]. split; [intros ->; rewrite take_length; exact LI|].
  intros k K. destruct (row_ok (k_nums t) (nth k nums 0)) as [R1 R2]; [apply H, nth_In, K|]. exists (row (k_nums t) (nth k nums 0)).
  split; [rewrite (nth_error_nth' _ 0 R1), (nth_error_nth' _ 0 K), R2; reflexivity|].
  split; intros ->; (rewrite (nth_error_nth' _ 0) by (rewrite take_length; lia)); rewrite (nth_take 0 0) by lia; rewrite NI by exact K; symmetry; apply nth_error_nth'; lia.
Qed.
Print Assumptions C101_numbers.

Lemma names_found t names k : ~ In (nth k names 0) (k_names t) -> forall l acc, NoDup l -> NoDup (map fst acc) -> (forall i, In i l -> ~ In i (map fst acc)) -> ~ In k (map fst acc) ->
  let r := fold_left (fun acc index => match index_of Z.eqb (nth index names 0) (k_names t) with Some i => acc ++ [(index, i)] | None => acc end) l acc in
  NoDup (map fst r) /\ ~ In k (map fst r) /\ forall i, In i (map fst r) -> In i (map fst acc) \/ In i l.
Proof.
  intros U l. induction l as [|x l IH]; intros acc N1 N2 S K; cbn [fold_left]; cbv zeta; [auto|]. inversion N1 as [|? ? Nx N1']; subst.
  destruct (index_of Z.eqb (nth x names 0) (k_names t)) as [j|] eqn:E.
  - destruct (IH (acc ++ [(x, j)]) N1') as (A & B & C).
    + rewrite map_app. cbn. apply (NoDup_Add (a := x) (l := map fst acc)); [rewrite <- (app_nil_r (map fst acc)) at 1; apply Add_app|]. split; [exact N2|apply S; left; reflexivity].
    + intros i I J. rewrite map_app in J. apply in_app_or in J as [J|[J|[]]]; [apply (S i); [right; exact I|exact J]|cbn in J; subst; contradiction].
    + rewrite map_app. intros J. apply in_app_or in J as [J|[J|[]]]; [contradiction|]. cbn in J. subst x.
      destruct (index_of_Some _ Z.eqb_eq 0 _ _ _ E) as (L & N & _). apply U. rewrite <- N. apply nth_In, L.
    + repeat split; [exact A|exact B|]. intros i I. apply C in I as [I|I]; [|right; right; exact I]. rewrite map_app in I. apply in_app_or in I as [I|[I|[]]]; [left; exact I|right; left; exact I].
  - destruct (IH acc N1' N2) as (A & B & C); [intros i I; apply S; right; exact I|exact K|]. repeat split; [exact A|exact B|]. intros i I. apply C in I as [I|I]; [left; exact I|right; right; exact I].
Qed.

Lemma nums_found t nums k : ~ In (nth k nums 0) (k_nums t) -> forall l acc, NoDup (map fst acc) -> ~ In k (map fst acc) ->
  let r := fold_left (fun acc index =>
      if isinN index (map fst acc) then acc
      else match index_of Z.eqb (nth index nums 0) (k_nums t) with
           | Some i => if isinN i (map snd acc) then acc else acc ++ [(index, i)]
           | None => acc
           end) l acc in
  NoDup (map fst r) /\ ~ In k (map fst r) /\ forall i, In i (map fst r) -> In i (map fst acc) \/ In i l.
Proof.
  intros U l. induction l as [|x l IH]; intros acc N2 K; cbn [fold_left]; cbv zeta; [auto|].
  assert (Skip : forall r : list (nat * nat), (NoDup (map fst r) /\ ~ In k (map fst r) /\ forall i, In i (map fst r) -> In i (map fst acc) \/ In i l) ->
    NoDup (map fst r) /\ ~ In k (map fst r) /\ forall i, In i (map fst r) -> In i (map fst acc) \/ In i (x :: l)).
  { intros r (A & B & C). repeat split; [exact A|exact B|]. intros i I. apply C in I as [I|I]; [left; exact I|right; right; exact I]. }
  destruct (isinN x (map fst acc)) eqn:X; [apply Skip, IH; assumption|].
  destruct (index_of Z.eqb (nth x nums 0) (k_nums t)) as [j|] eqn:E; [|apply Skip, IH; assumption].
  destruct (isinN j (map snd acc)); [apply Skip, IH; assumption|].
  destruct (IH (acc ++ [(x, j)])) as (A & B & C).
  - rewrite map_app. cbn. apply (NoDup_Add (a := x) (l := map fst acc)); [rewrite <- (app_nil_r (map fst acc)) at 1; apply Add_app|]. split; [exact N2|].
    intros I. apply isinN_spec in I. congruence.
  - rewrite map_app. intros J. apply in_app_or in J as [J|[J|[]]]; [contradiction|]. cbn in J. subst x.
    destruct (index_of_Some _ Z.eqb_eq 0 _ _ _ E) as (L & N & _). apply U. rewrite <- N. apply nth_In, L.
  - repeat split; [exact A|exact B|]. intros i I. apply C in I as [I|I]; [|right; right; exact I]. rewrite map_app in I. apply in_app_or in I as [I|[I|[]]]; [left; exact I|right; left; exact I].
Qed.

(** If an antenna has neither a name nor a number of the table, nothing is set. *)
Theorem C101_unknown : forall t a n k, a_n a = Some n -> (k < n)%nat ->
  (forall names, a_names a = Some names -> length names = n /\ ~ In (nth k names 0) (k_names t)) ->
  (forall nums, a_nums a = Some nums -> length nums = n /\ ~ In (nth k nums 0) (k_nums t)) -> update_ants false t a = a.
Proof.
  intros t a n k En K HN HM.
  assert (F : NoDup (map fst (matches t a)) /\ ~ In k (map fst (matches t a)) /\ forall i, In i (map fst (matches t a)) -> (i < n)%nat).
  { assert (G : let found := match a_names a with Some names => match_names t names | None => [] end in NoDup (map fst found) /\ ~ In k (map fst found) /\ forall i, In i (map fst found) -> (i < n)%nat).
    { cbv zeta. destruct (a_names a) as [names|]; [|cbn; repeat split; [constructor|tauto|tauto]]. destruct (HN names eq_refl) as [L U].
      destruct (names_found t names k U (seq 0 (length names)) []) as (A & B & C); [apply seq_NoDup|constructor|cbn; tauto|cbn; tauto|].
      repeat split; [exact A|exact B|]. intros i I. apply C in I as [[]|I]. apply in_seq in I. lia. }
    cbv zeta in G. unfold matches. destruct (a_nums a) as [nums|]; [|exact G]. rewrite En. destruct (negb _); [|exact G].
    destruct (HM nums eq_refl) as [L U]. destruct G as (G1 & G2 & G3).
    destruct (nums_found t nums k U (seq 0 (length nums)) _ G1 G2) as (A & B & C). repeat split; [exact A|exact B|].
    intros i I. apply C in I as [I|I]; [exact (G3 i I)|apply in_seq in I; lia]. }
  assert (Q : (length (map snd (matches t a)) =? n)%nat = false).
  { apply Nat.eqb_neq. rewrite map_length, <- (map_length fst). destruct F as (A & B & C).
    assert (I : incl (k :: map fst (matches t a)) (seq 0 n)) by (intros i [<-|I]; apply in_seq; [lia|specialize (C i I); lia]).
    apply NoDup_incl_length in I; [|constructor; assumption]. cbn in I. rewrite seq_length in I. lia. }
  unfold update_ants. rewrite En, Q. cbn [negb missing andb]. destruct (_ || _ || _ || _ || _); [|reflexivity]. cbn [orb]. destruct (_ || _); reflexivity.
Qed.
Print Assumptions C101_unknown.

Definition table1 : table := {| k_names := [101; 102; 103]; k_nums := [1; 2; 3]; k_pos := [10; 20; 30] |}.
Example C101_example :
  update_ants false table1 {| a_n := Some 2%nat; a_names := Some [103; 101]; a_nums := None; a_pos := None |} =
    {| a_n := Some 2%nat; a_names := Some [103; 101]; a_nums := Some [3; 1]; a_pos := Some [30; 10] |} /\
  update_ants false table1 {| a_n := Some 2%nat; a_names := Some [7; 8]; a_nums := Some [3; 2]; a_pos := None |} =
    {| a_n := Some 2%nat; a_names := Some [7; 8]; a_nums := Some [3; 2]; a_pos := Some [30; 20] |} /\
  update_ants false table1 {| a_n := Some 2%nat; a_names := Some [7; 8]; a_nums := Some [3; 4]; a_pos := None |} =
    {| a_n := Some 2%nat; a_names := Some [7; 8]; a_nums := Some [3; 4]; a_pos := None |} /\ NoDup [3; 2].
Proof. repeat split. repeat constructor; cbn; intuition lia. Qed.

(** If some antennas are found by name and others by number, positions come in the order in which
    they are found: an antenna gets the position of another. *)
Theorem C101_mixed_refuted : exists t a names nums pos,
  a_names a = Some names /\ a_nums a = Some nums /\ a_n a = Some 2%nat /\ a_pos a = None /\ a_pos (update_ants false t a) = Some pos /\
  nth_error names 1 = nth_error (k_names t) 0 /\ nth_error nums 1 = nth_error (k_nums t) 0 /\ nth_error nums 0 = nth_error (k_nums t) 1 /\ ~ In (nth 0 names 0) (k_names t) /\
  nth_error pos 0 = nth_error (k_pos t) 0 /\ nth_error pos 1 = nth_error (k_pos t) 1 /\ nth_error (k_pos t) 0 <> nth_error (k_pos t) 1.
Proof.
  exists table1, {| a_n := Some 2%nat; a_names := Some [7; 101]; a_nums := Some [2; 1]; a_pos := None |}. eexists _, _, _.
  repeat (split; [reflexivity|]). split; [cbn; intuition lia|]. split; [reflexivity|]. split; [reflexivity|discriminate].
Qed.
Print Assumptions C101_mixed_refuted.
