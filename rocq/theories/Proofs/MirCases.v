(** Mir files: concrete cases. *)
From Coq Require Import List ZArith Bool Arith Lia Permutation.
From Verif Require Import Lib.Py Lib.Np Lib.Dict Model.Mir Spec.MirSpec.
Import ListNotations.
Open Scope Z_scope.
Open Scope list_scope.

Ltac in_cases := repeat match goal with H : _ = _ \/ _ |- _ => destruct H as [H|H]; [subst|] | H : False |- _ => destruct H end.
Ltac nodup := vm_compute; repeat (apply NoDup_cons; [let H := fresh in intros H; vm_compute in H; repeat destruct H as [H|H]; try discriminate; try contradiction|]); apply NoDup_nil.
Ltac range := split; vm_compute; [discriminate|reflexivity].
Ltac storable_tac :=
  split; [nodup|]; intros s Hs; cbn in Hs; in_cases; (split; [range|]); (split; [vm_compute; repeat constructor|]); (split; [vm_compute; reflexivity|]);
  do 2 eexists; (split; [vm_compute; reflexivity|]); (split; [reflexivity|]); (split; [intros _; range|]); repeat (apply Forall_cons; [range|]); apply Forall_nil.

(** Two sidebands and two integrations, written in two goes *)
Definition some_parts : list (list spec) := [[mkSpec 3 10 2; mkSpec 2 11 1; mkSpec 3 12 1]; [mkSpec 5 20 2; mkSpec 5 21 3]].
Definition some_data : rdata := [(10, (3, [1; 2; 3; -4])); (11, (-5, [100; 200])); (12, (0, [-32768; -32768])); (20, (7, [9; 8; 7; 6])); (21, (1, [1; 1; 2; 3; 5; 8]))].
Definition no_junk (n : nat) : Z := 77.
Definition file_of (f : fmt) (parts : list (list spec)) (data : rdata) : list Z :=
  List.concat (map (fun p => match write_data f no_junk p data with Ok b => b | Err _ => [] end) parts).
Lemma some_storable : storable cross (List.concat some_parts) some_data.
Proof. storable_tac. Qed.
Lemma some_ordered : ordered some_parts.
Proof.
  intros p q a b L Ha Hb. cbn in L. destruct p as [|[|p]]; [|lia|lia]. destruct q as [|[|q]]; [lia| |lia]. cbn in Ha, Hb. in_cases; cbn; lia.
Qed.
Lemma some_written : written cross some_parts some_data (file_of cross some_parts some_data).
Proof. exists no_junk. do 2 eexists. split; [vm_compute; reflexivity|]. split; [|vm_compute; reflexivity]. exists no_junk. do 2 eexists. split; [vm_compute; reflexivity|]. split; reflexivity. Qed.

(** Four integrations of one size *)
Definition four : list spec := [mkSpec 1 10 1; mkSpec 2 11 1; mkSpec 3 12 1; mkSpec 4 13 1].
Definition four_data : rdata := [(10, (1, [11; 12])); (11, (2, [21; 22])); (12, (3, [31; 32])); (13, (4, [41; 42]))].
Lemma four_storable : storable cross (List.concat [four]) four_data.
Proof. storable_tac. Qed.
Lemma four_written : written cross [four] four_data (file_of cross [four] four_data).
Proof. exists no_junk. do 2 eexists. split; [vm_compute; reflexivity|]. split; [reflexivity|]. vm_compute; reflexivity. Qed.
Lemma one_ordered p : ordered [p].
Proof. intros i j a b L. cbn in L. lia. Qed.
Lemma four_uniform : uniform cross (List.concat [four]).
Proof. intros a b Ha Hb. cbn in Ha, Hb. in_cases; reflexivity. Qed.

Lemma not_stored f data (out : rdata) sel x : In x out -> forallb (fun s => negb (fst x =? s_hid s) || negb (fst (snd x) =? fst (snd (stored f data s)))) sel = true ->
  ~ Permutation out (map (stored f data) sel).
Proof.
  intros Hx H P. apply (Permutation_in _ P) in Hx. apply in_map_iff in Hx. destruct Hx as (s & <- & Hs). rewrite forallb_forall in H. specialize (H s Hs).
  cbn [stored fst] in H. rewrite !Z.eqb_refl in H. discriminate.
Qed.

Lemma gap_wrong : exists recs data file sel out, storable cross recs data /\ uniform cross recs /\ written cross [recs] data file /\ incl sel recs /\
  read_data cross false file recs (offsets cross [recs]) sel = Ok out /\ ~ Permutation out (map (stored cross data) sel).
Proof.
  exists four, four_data, (file_of cross [four] four_data), [mkSpec 1 10 1; mkSpec 3 12 1]. eexists.
  split; [exact four_storable|]. split; [exact four_uniform|]. split; [exact four_written|]. split; [intros s Hs; cbn in *; intuition|]. split; [vm_compute; reflexivity|].
  eapply not_stored; [right; left; reflexivity|]. vm_compute. reflexivity.
Qed.

(** Two integrations of different sizes *)
Definition two : list spec := [mkSpec 1 10 1; mkSpec 2 11 2].
Definition two_data : rdata := [(10, (1, [11; 12])); (11, (2, [21; 22; 23; 24]))].
Lemma sizes_wrong : exists recs data file, storable cross recs data /\ written cross [recs] data file /\
  read_data cross false file recs (offsets cross [recs]) recs = Err KeyError.
Proof.
  exists two, two_data, (file_of cross [two] two_data). split; [storable_tac|]. split; [|vm_compute; reflexivity].
  exists no_junk. do 2 eexists. split; [vm_compute; reflexivity|]. split; [reflexivity|]. vm_compute; reflexivity.
Qed.

(** The two sidebands of an integration, appended *)
Lemma split_wrong : exists lower upper data file out, storable cross (lower ++ upper) data /\ written cross [lower; upper] data file /\
  read_data cross true file (lower ++ upper) (offsets cross [lower; upper]) (lower ++ upper) = Ok out /\
  ~ Permutation out (map (stored cross data) (lower ++ upper)).
Proof.
  exists [mkSpec 1 10 1], [mkSpec 1 11 1], four_data, (file_of cross [[mkSpec 1 10 1]; [mkSpec 1 11 1]] four_data). eexists.
  split; [storable_tac|]. split; [|split; [vm_compute; reflexivity|eapply not_stored; [right; left; reflexivity|vm_compute; reflexivity]]].
  exists no_junk. do 2 eexists. split; [vm_compute; reflexivity|]. split; [|vm_compute; reflexivity]. exists no_junk. do 2 eexists. split; [vm_compute; reflexivity|]. split; reflexivity.
Qed.
