(** Concrete catalogs *)
From Coq Require Import List ZArith Bool Arith String QArith Qabs Lia.
From Verif Require Import Lib.Py Lib.Np Lib.Slice Lib.Dict Model.PhaseCenter
  Spec.PhaseSpec Proofs.PhaseProofs Proofs.PhaseOps Proofs.PhaseSplit Proofs.PhaseMerge Proofs.PhasePhase Proofs.PhaseConsolidate.
Import ListNotations.
Open Scope Z_scope.
Open Scope list_scope.
Notation length := List.length.

Definition first_of (l : list Z) : Z := hd 0 l.
Definition last_of (l : list Z) : Z := List.last l 0.
Lemma first_picks : picks first_of.
Proof. intros [|x l] H; [contradiction|left; reflexivity]. Qed.
Lemma last_picks : picks last_of.
Proof.
  intros l H. destruct (exists_last H) as (l' & a & ->). unfold last_of. rewrite last_last. apply in_or_app. right. left. reflexivity.
Qed.

Definition star (lon lat : Q) : coords :=
  mkcoords (Some "sidereal"%string) (Some (Num lon)) (Some (Num lat)) (Some "icrs"%string) (Some (2000 # 1)%Q) None None None None None.
Definition entry (nm : string) (c : coords) : pentry := mkentry nm "user"%string c.
Definition zenith : coords :=
  mkcoords (Some "unprojected"%string) (Some (Num 0%Q)) (Some (Num half_pi)) (Some "altaz"%string) None None None None None None.

(** Three entries; rows 0 and 2 look at "a", 1 and 4 at "b", 3 at the zenith *)
Definition sky : pcobj :=
  mkpc [(0, entry "a" (star 1 0)); (1, entry "b" (star 2 (1 # 2))); (2, entry "zen" zenith)] 3 [0; 1; 0; 2; 1].

Ltac in_list := unfold stored; cbn [pc_cat]; repeat (first [left; reflexivity|right]).
Ltac nodupZ := repeat constructor; simpl; intuition lia.
Ltac storables := repeat (constructor; [vm_compute; reflexivity|]); constructor.

Lemma sky_consistent : pc_consistent sky.
Proof.
  apply consistent_keys. split; [split; [nodupZ|]|split; [reflexivity|]].
  - unfold sky. cbn [pc_cat]. storables.
  - intros k Hk. simpl in *. intuition.
Qed.

(** The same entry under two ids *)
Definition twins : pcobj :=
  mkpc [(0, entry "a" (star 1 0)); (1, entry "b" (star 2 (1 # 2))); (5, entry "a" (star 1 0))] 3 [0; 1; 5; 0].
Lemma twins_consistent : pc_consistent twins.
Proof.
  apply consistent_keys. split; [split; [nodupZ|]|split; [reflexivity|]].
  - unfold twins. cbn [pc_cat]. storables.
  - intros k Hk. simpl in *. intuition.
Qed.

(** A reference catalog whose ids clash with those of [sky] *)
Definition atlas : catalog := [(1, entry "a" (star 1 0)); (0, entry "c" (star 3 0))].
Lemma atlas_ok : catalog_ok atlas.
Proof. split; [nodupZ|]. storables. Qed.

Lemma sky_atlas : distinguishable false sky atlas.
Proof.
  intros k1 r1 k2 r2 e H1 H2 _ [_ M1] [_ M2]. specialize (M1 eq_refl). specialize (M2 eq_refl). rewrite <- M1 in M2.
  simpl in H1, H2. destruct H1 as [H1|[H1|[]]], H2 as [H2|[H2|[]]]; injection H1 as <- <-; injection H2 as <- <-; auto; discriminate.
Qed.

(** * What goes wrong *)
Lemma merge_repeated : exists s', merge_phase_centers [ByName "a"; ByName "a"] false false sky = Ok s' /\
  pc_ids s' = [0; 1; 0; 2; 1] /\ ~ exists e, points s' 0 e.
Proof.
  eexists. split; [vm_compute; reflexivity|]. split; [reflexivity|].
  intros (e & k & Hk & He). simpl in Hk. injection Hk as <-. unfold stored in He. cbn [pc_cat In] in He.
  repeat (destruct He as [He|He]; [discriminate|]). destruct He.
Qed.

Lemma split_same_name : split_phase_center first_of (ByName "b") None (Rows [1]) None false sky = Ok sky.
Proof. vm_compute. reflexivity. Qed.

(** two entries of the reference at the same place under different names *)
Definition atlas2 : catalog := [(7, entry "a" (star 1 0)); (8, entry "other" (star 1 0))].
Lemma atlas2_ok : catalog_ok atlas2.
Proof. split; [nodupZ|]. storables. Qed.
Lemma consolidate_loses : exists s', consolidate first_of atlas2 true sky = Ok s' /\
  ~ (exists e, stored s' 7 e) /\ map fst (pc_cat s') = [1; 2; 8].
Proof.
  eexists. split; [vm_compute; reflexivity|]. split; [|reflexivity].
  intros (e & He). unfold stored in He. cbn [pc_cat In] in He.
  repeat (destruct He as [He|He]; [discriminate|]). destruct He.
Qed.

(** phasing row 1 to another position under the name in use by rows 0 and 2 *)
Lemma phase_overwrites : exists s', phase_catalog first_of "a" (star 3 0) (Some [false; true; false; false; false]) true sky = Ok s' /\
  pc_ids s' = [0; 0; 0; 2; 1] /\ points sky 0 (entry "a" (star 1 0)) /\ points s' 0 (entry "a" (star 3 0)) /\
  ~ points s' 0 (entry "a" (star 1 0)).
Proof.
  eexists. split; [vm_compute; reflexivity|]. split; [reflexivity|].
  split; [exists 0; split; [reflexivity|]; left; reflexivity|].
  split; [exists 0; split; [reflexivity|]; left; reflexivity|].
  intros (k & Hk & He). simpl in Hk. injection Hk as <-. unfold stored in He. cbn [pc_cat In] in He.
  repeat (destruct He as [He|He]; [discriminate|]). destruct He.
Qed.
