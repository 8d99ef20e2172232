(** C92: adding metadata tables of Mir data sets. *)
From Coq Require Import List ZArith Bool Arith String Lia Sorting.Sorted.
From Verif Require Import Lib.Py Lib.Np Lib.Dict Model.MirMeta Spec.MirMetaSpec Proofs.MirMetaProofs Proofs.MirMetaMain Model.MirAdd Spec.MirAddSpec Proofs.MirAddProofs.
Import ListNotations.
Notation length := List.length.
Open Scope list_scope.
Open Scope Z_scope.

(** Tables read with different keys can be added, and are in order if the keys increase. *)
Theorem C92_read key n data : NoDup (map fst data) -> Forall (fun p => length (snd p) = n) data -> incl key (map fst data) ->
  (forall t, t_key t = key -> t_data t = data -> forall i j, (i < n)%nat -> (j < n)%nat -> key_of t i = key_of t j -> i = j) ->
  exists t, load key n data = Ok t /\ good t /\ fields t = map fst data /\ t_key t = key /\
    ((forall i j, (i < j)%nat -> (j < n)%nat -> lex_leb (rev (key_of t i)) (rev (key_of t j)) = true) -> in_order t).
Proof.
  intros ND CO IN INJ. set (t1 := {| t_key := key; t_data := data; t_size := n; t_mask := repeat true n; t_index := []; t_stored := [] |}).
  assert (OK : table_ok t1) by (constructor; [exact ND | exact CO | apply repeat_length | exact IN]).
  destruct (set_index_good t1 OK) as (ix & E & G & O); [exact (INJ t1 eq_refl eq_refl)|]. eexists. split; [exact E|]. split; [exact G|]. split; [reflexivity|]. split; [reflexivity | exact O].
Qed.
Print Assumptions C92_read.

(** Two tables can be added exactly if no records with the same key are in conflict. *)
Theorem C92_allowed t o merge overwrite : good t -> good o -> alike t o -> (same_places t o -> in_order t) ->
  ((exists t', add t o merge overwrite false = Ok t') <-> allowed t o merge overwrite).
Proof. intros. apply add_exact; assumption. Qed.
Print Assumptions C92_allowed.
(** The sum has the records of both, those in both once, active if active in either. *)
Theorem C92_sum t o merge overwrite t' : good t -> good o -> alike t o -> (same_places t o -> in_order t) ->
  add t o merge overwrite false = Ok t' -> sum overwrite t o t'.
Proof. intros. eapply add_sum; eassumption. Qed.
Print Assumptions C92_sum.

Definition empty : table := {| t_key := []; t_data := []; t_size := 0; t_mask := []; t_index := []; t_stored := [] |}.
Definition get (r : result table) : table := match r with Ok t => t | Err _ => empty end.
Definition make (ks vs : list Z) (m : list bool) : table := with_mask (get (load ["blhid"%string] (length ks) [("blhid"%string, map (fun k => [k]) ks); ("u"%string, map (fun v => [v]) vs)])) m.
Lemma make_good ks vs m : NoDup ks -> length vs = length ks -> length m = length ks -> good (make ks vs m) /\ fields (make ks vs m) = ["blhid"; "u"]%string /\ t_key (make ks vs m) = ["blhid"%string] /\
  ((forall i j, (i < j)%nat -> (j < length ks)%nat -> nth i ks 0 <= nth j ks 0) -> in_order (make ks vs m)).
Proof.
  intros ND LV LM. assert (KO : forall t, t_key t = ["blhid"%string] -> t_data t = [("blhid"%string, map (fun k => [k]) ks); ("u"%string, map (fun v => [v]) vs)] -> forall i, (i < length ks)%nat -> key_of t i = [nth i ks 0]).
  { intros t EK ED i L. unfold key_of, names_of. rewrite EK. cbn [map]. unfold cell_at. rewrite ED. cbn [dget]. change (String.eqb "blhid" "blhid") with true. cbn iota. rewrite (nth_map (fun k => [k]) ks i 0 []) by exact L. reflexivity. }
  destruct (C92_read ["blhid"%string] (length ks) [("blhid"%string, map (fun k => [k]) ks); ("u"%string, map (fun v => [v]) vs)]) as (t & E & G & F & K & O).
  - repeat constructor; cbn; intuition discriminate.
  - repeat constructor; cbn [snd]; rewrite map_length; auto.
  - intros x [<- | []]. left. reflexivity.
  - intros t EK ED i j Li Lj X. rewrite !(KO t EK ED) in X by assumption. injection X as X. apply (proj1 (NoDup_nth ks 0) ND); assumption.
  - assert (SZ : t_size t = length ks /\ t_data t = [("blhid"%string, map (fun k => [k]) ks); ("u"%string, map (fun v => [v]) vs)]) by (destruct (load_form _ _ _ _ E) as (ix & ->); auto). destruct SZ as (SZ & D).
    assert (EM : make ks vs m = with_mask t m) by (unfold make; rewrite E; reflexivity). rewrite EM. split.
    + destruct G as [[G1 G2 G3 G4] GI GO]. constructor; [constructor; try assumption; cbn; lia | exact GI | exact GO].
    + split; [exact F|]. split; [exact K|]. intros SO. apply O. intros i j LT Lj. rewrite !(KO t K D) by lia. cbn. specialize (SO i j LT Lj). destruct (Z.ltb_spec (nth i ks 0) (nth j ks 0)); [reflexivity|]. cbn. rewrite andb_true_r. apply Z.eqb_eq. lia.
Qed.
Ltac nd := repeat constructor; cbn; intuition discriminate.
Definition t1 : table := make [1; 3; 5] [10; 30; 50] [true; false; true].
Definition t2 : table := make [3; 5; 2; 7] [31; 50; 20; 70] [true; true; true; false].
Lemma t1_good : good t1 /\ fields t1 = ["blhid"; "u"]%string /\ t_key t1 = ["blhid"%string].
Proof. destruct (make_good [1; 3; 5] [10; 30; 50] [true; false; true]) as (A & B & C & _); [nd | reflexivity | reflexivity | auto]. Qed.
Lemma t2_good : good t2 /\ fields t2 = ["blhid"; "u"]%string /\ t_key t2 = ["blhid"%string].
Proof. destruct (make_good [3; 5; 2; 7] [31; 50; 20; 70] [true; true; true; false]) as (A & B & C & _); [nd | reflexivity | reflexivity | auto]. Qed.
Example C92_case : exists t', add t1 t2 None None false = Ok t' /\ sum None t1 t2 t' /\ allowed t1 t2 None None /\
  t_data t' = [("blhid"%string, [[1]; [3]; [5]; [2]; [7]]); ("u"%string, [[10]; [31]; [50]; [20]; [70]])] /\ t_mask t' = [true; true; true; true; false] /\
  add t1 t2 None (Some false) false = Err MirMetaError /\ add t1 t2 (Some false) None false = Err MirMetaError.
Proof.
  destruct t1_good as (G1 & F1 & K1), t2_good as (G2 & F2 & K2). assert (AL : alike t1 t2) by (split; congruence). assert (SP : same_places t1 t2 -> in_order t1) by (intros (X & _); discriminate X).
  destruct (add t1 t2 None None false) as [t'|] eqn:E; [|vm_compute in E; discriminate]. exists t'. split; [reflexivity|]. split; [exact (C92_sum _ _ _ _ _ G1 G2 AL SP E)|]. split; [apply (C92_allowed t1 t2 None None G1 G2 AL SP); eauto|].
  assert (D : t_data (get (add t1 t2 None None false)) = [("blhid"%string, [[1]; [3]; [5]; [2]; [7]]); ("u"%string, [[10]; [31]; [50]; [20]; [70]])] /\ t_mask (get (add t1 t2 None None false)) = [true; true; true; true; false]) by (split; vm_compute; reflexivity).
  rewrite E in D. cbn [get] in D. destruct D as (D & M). split; [exact D|]. split; [exact M|]. split; vm_compute; reflexivity.
Qed.

(** Merging masks: two copies of a table in order with different masks are added to the copy
    with all that is active in either. *)
Definition c1 : table := make [1; 3; 5] [10; 30; 50] [true; false; false].
Definition c2 : table := make [1; 3; 5] [10; 30; 50] [false; false; true].
Example C92_merge_case : exists t', add c1 c2 (Some true) None false = Ok t' /\ sum None c1 c2 t' /\ t_mask t' = [true; false; true] /\ in_order c1.
Proof.
  destruct (make_good [1; 3; 5] [10; 30; 50] [true; false; false]) as (G1 & F1 & K1 & O1); [nd | reflexivity | reflexivity|]. destruct (make_good [1; 3; 5] [10; 30; 50] [false; false; true]) as (G2 & F2 & K2 & _); [nd | reflexivity | reflexivity|].
  fold c1 in *. fold c2 in *. assert (IO : in_order c1) by reflexivity.
  destruct (add c1 c2 (Some true) None false) as [t'|] eqn:E; [|vm_compute in E; discriminate]. exists t'. split; [reflexivity|]. split; [eapply C92_sum; [exact G1 | exact G2 | split; congruence | intros _; exact IO | exact E]|]. split; [|exact IO].
  assert (M : t_mask (get (add c1 c2 (Some true) None false)) = [true; false; true]) by (vm_compute; reflexivity). rewrite E in M. exact M.
Qed.

(** Leaving out inactive records uses the mask of the wrong table: active records are lost, or
    an error is raised if the second table is longer. *)
Theorem C92_discard_refuted : (exists t o t' k j, good t /\ good o /\ alike t o /\ add t o None None true = Ok t' /\ has o k j /\ active o j /\ forall p, ~ has t' k p) /\
  (exists t o, good t /\ good o /\ alike t o /\ (forall k i j, ~ (has t k i /\ has o k j)) /\ add t o None None true = Err IndexError).
Proof.
  split.
  - destruct (make_good [1; 3] [10; 30] [false; true]) as (G1 & F1 & K1 & _); [nd | reflexivity | reflexivity|]. destruct (make_good [5; 7] [50; 70] [true; true]) as (G2 & F2 & K2 & _); [nd | reflexivity | reflexivity|].
    destruct (add (make [1; 3] [10; 30] [false; true]) (make [5; 7] [50; 70] [true; true]) None None true) as [t'|] eqn:E; [|vm_compute in E; discriminate].
    exists (make [1; 3] [10; 30] [false; true]), (make [5; 7] [50; 70] [true; true]), t', [5], 0%nat. split; [exact G1|]. split; [exact G2|]. split; [split; congruence|]. split; [exact E|]. split; [split; [cbn; lia | reflexivity]|]. split; [reflexivity|].
    vm_compute in E. injection E as <-. intros p (L & K). cbn in L. do 2 (destruct p as [|p]; [vm_compute in K; discriminate K|]). lia.
  - destruct (make_good [1] [10] [false]) as (G1 & F1 & K1 & _); [nd | reflexivity | reflexivity|]. destruct (make_good [5; 7] [50; 70] [true; true]) as (G2 & F2 & K2 & _); [nd | reflexivity | reflexivity|].
    exists (make [1] [10] [false]), (make [5; 7] [50; 70] [true; true]). split; [exact G1|]. split; [exact G2|]. split; [split; congruence|]. split; [|vm_compute; reflexivity].
    intros k i j ((L & <-) & (L' & X)). cbn in L, L'. destruct i as [|i]; [|lia]. do 2 (destruct j as [|j]; [vm_compute in X; discriminate X|]). lia.
Qed.
Print Assumptions C92_discard_refuted.
(** If the keys are not in order (as in a sum), the masks of two copies are mixed up: an
    inactive record with old values is taken, and made active. *)
Theorem C92_order_refuted : exists t o t' k p i j, good t /\ good o /\ alike t o /\ same_places t o /\ add t o None None false = Ok t' /\
  has t' k p /\ has t k i /\ has o k j /\ ~ active t i /\ active o j /\ active t' p /\ ~ same_record t' p o j.
Proof.
  destruct (make_good [5; 3] [50; 30] [true; false]) as (G1 & F1 & K1 & _); [nd | reflexivity | reflexivity|]. destruct (make_good [5; 3] [51; 31] [false; true]) as (G2 & F2 & K2 & _); [nd | reflexivity | reflexivity|].
  destruct (add (make [5; 3] [50; 30] [true; false]) (make [5; 3] [51; 31] [false; true]) None None false) as [t'|] eqn:E; [|vm_compute in E; discriminate].
  exists (make [5; 3] [50; 30] [true; false]), (make [5; 3] [51; 31] [false; true]), t', [3], 0%nat, 1%nat, 1%nat. split; [exact G1|]. split; [exact G2|]. split; [split; congruence|]. split.
  - split; [reflexivity|]. intros i L. cbn in L. do 2 (destruct i as [|i]; [vm_compute; reflexivity|]). lia.
  - split; [exact E|]. vm_compute in E. injection E as <-. split; [split; [cbn; lia | vm_compute; reflexivity]|]. split; [split; [cbn; lia | vm_compute; reflexivity]|]. split; [split; [cbn; lia | vm_compute; reflexivity]|]. split; [vm_compute; discriminate|]. split; [vm_compute; reflexivity|]. split; [vm_compute; reflexivity|].
    intros H. specialize (H "u"%string (or_intror (or_introl eq_refl))). vm_compute in H. discriminate H.
Qed.
Print Assumptions C92_order_refuted.
