(** C41: sum_vis and diff_vis.  C65: equality of objects. *)
From Coq Require Import List ZArith Bool Arith QArith String Lia.
From Verif Require Import Lib.Py Lib.Cube Lib.Dict Model.Param Spec.PhaseSpec Spec.ParamSpec Proofs.ParamProofs.
Import ListNotations.
Open Scope Z_scope.
Open Scope list_scope.

(** C65: two objects compare equal exactly if they have parameters of the same
    names and every parameter not excused has the same value, numbers up to the
    parameter's tolerances. *)
Theorem C65_equality : forall allowed_failures a b, params_ok a -> params_ok b ->
  exists r, uvbase_eq true allowed_failures a b = Ok r /\
  (r = true <-> same_names a b /\
     forall n p q, ~ In n (map bare allowed_failures) -> has a n p -> has b n q -> same_param p q).
Proof. exact uvbase_eq_spec. Qed.
Print Assumptions C65_equality.

Theorem C65_every_object_equals_itself : forall allowed_failures a, params_ok a -> uvbase_eq true allowed_failures a a = Ok true.
Proof. exact uvbase_eq_refl. Qed.
Print Assumptions C65_every_object_equals_itself.

(** Integers of magnitude below 100000 are told apart by the default tolerances. *)
Theorem C65_small_integers_exact : forall x y, (forall v, In v y -> Z.abs v < 100000) ->
  Forall2 (near DEFAULT_TOLS) (map inject_Z x) (map inject_Z y) -> x = y.
Proof. exact near_ints. Qed.
Print Assumptions C65_small_integers_exact.

Definition ints (l : list Z) : uvparam := mkparam true (VArr [length l] (map inject_Z l)) DEFAULT_TOLS false.
Definition tiny (ants : list Z) (order : pval) (files : list string) : params :=
  [("ant_1_array"%string, ints ants); ("blt_order"%string, mkparam false order DEFAULT_TOLS true);
   ("filename"%string, mkparam false (VStrs files) DEFAULT_TOLS false)].
Lemma tiny_ok ants order files : params_ok (tiny ants order files).
Proof.
  split.
  - cbn. repeat constructor; cbn; intuition discriminate.
  - intros n p H. cbn in H. destruct H as [H|[H|[H|[]]]]; injection H as <- <-; cbn; split; discriminate.
Qed.

(** The order is known on one side only, file names are excused. *)
Example C65_case : let a := tiny [1; 2] (VStrs ["time"; "baseline"]%string) ["f"]%string in let b := tiny [1; 2] VNone ["g"]%string in
  params_ok a /\ params_ok b /\ uvbase_eq true ["filename"]%string a b = Ok true /\ uvbase_eq true [] a b = Ok false.
Proof. split; [apply tiny_ok|]. split; [apply tiny_ok|]. split; vm_compute; reflexivity. Qed.

(** Objects of different antennas may compare equal; *)
Theorem C65_large_antenna_numbers_refuted : exists x y a b, x <> y /\ params_ok a /\ params_ok b /\
  has a "ant_1_array" (ints x) /\ has b "ant_1_array" (ints y) /\ uvbase_eq true [] a b = Ok true /\ uvbase_eq true [] b a = Ok true.
Proof.
  exists [200000], [200001], (tiny [200000] VNone []), (tiny [200001] VNone []). split; [discriminate|].
  split; [apply tiny_ok|]. split; [apply tiny_ok|]. split; [left; reflexivity|]. split; [left; reflexivity|]. split; vm_compute; reflexivity.
Qed.
Print Assumptions C65_large_antenna_numbers_refuted.
(** equality is not symmetric. *)
Theorem C65_symmetry_refuted : exists a b, params_ok a /\ params_ok b /\
  uvbase_eq true [] a b = Ok true /\ uvbase_eq true [] b a = Ok false.
Proof.
  exists (tiny [99999] VNone []), (tiny [100000] VNone []). split; [apply tiny_ok|]. split; [apply tiny_ok|]. split; vm_compute; reflexivity.
Qed.
Print Assumptions C65_symmetry_refuted.

(** C41: the result of sum_vis (diff_vis) has the sums (differences) of the
    visibilities, all else is from the first object; keywords only the second has
    are added. *)
Theorem C41_sum_vis : forall difference override a b r,
  summable a b -> override_ok (v_params a) override -> sum_vis difference override a b = Ok r ->
  (forall i j k, let x := v_data a i j k in let y := v_data b i j k in
     v_data r i j k = if difference then (fst x - fst y, snd x - snd y) else (fst x + fst y, snd x + snd y)) /\
  (forall n p, n <> "filename"%string -> has (v_params r) n p <-> has (v_params a) n p) /\
  (forall k z, lookup (v_keywords r) k z <->
     lookup (v_keywords a) k z \/ (~ In k (map fst (v_keywords a)) /\ lookup (v_keywords b) k z)).
Proof.
  intros dif ov a b r S O E. destruct (sum_ok dif ov a b r S O E) as (D & P & K). split; [|split; assumption].
  intros i j k. cbv zeta. rewrite D. destruct dif; reflexivity.
Qed.
Print Assumptions C41_sum_vis.

(** diff_vis(sum_vis(a, b), b) has the visibilities of a. *)
Theorem C41_diff_of_sum : forall override a b s,
  summable a b -> override_ok (v_params a) override -> filenames_fine override (v_params a) (v_params b) ->
  sum_vis false override a b = Ok s ->
  exists d, diff_vis override s b = Ok d /\
  (forall i j k, v_data d i j k = v_data a i j k) /\
  (forall n p, n <> "filename"%string -> has (v_params d) n p <-> has (v_params a) n p).
Proof. exact diff_of_sum. Qed.
Print Assumptions C41_diff_of_sum.

(** Objects are summed if all parameters compared agree and refused if one does not. *)
Theorem C41_compatibility : forall difference override a b,
  summable a b -> override_ok (v_params a) override ->
  ((forall n p q, compared override n -> has (v_params a) n p -> has (v_params b) n q -> same_param p q) ->
     exists r, sum_vis difference override a b = Ok r) /\
  (forall n p q, compared override n -> has (v_params a) n p -> has (v_params b) n q -> ~ same_param p q ->
     sum_vis difference override a b = Err ValueError).
Proof. exact sum_decides. Qed.
Print Assumptions C41_compatibility.
Theorem C41_unknown_override : forall difference override a b s,
  In s override -> ~ In (bare s) (map fst (v_params a) ++ ["history"; "data_array"; "extra_keywords"]%string) ->
  exists e, sum_vis difference override a b = Err e.
Proof. exact sum_bad_name. Qed.
Print Assumptions C41_unknown_override.

Definition vis (ants : list Z) (files : list string) (x : Z) (kw : list (string * Z)) : visobj :=
  mkvis (tiny ants VNone files) (fun i j k => (x + Z.of_nat i, x - Z.of_nat j)) kw.
Lemma vis_summable ants ants' files files' x y kw kw' : NoDup (map fst kw) -> NoDup (map fst kw') ->
  summable (vis ants files x kw) (vis ants' files' y kw').
Proof.
  intros N N'. refine (conj (tiny_ok _ _ _) (conj (tiny_ok _ _ _) (conj _ (conj _ (conj N N'))))).
  - intros n r. unfold has, vis, tiny. cbn [v_params In]. split; intros (p & [H|[H|[H|[]]]] & R); injection H as <- <-; cbn in R; eexists;
      (split; [first [left; reflexivity|right; left; reflexivity|right; right; left; reflexivity]|exact R]).
  - eexists. unfold has. cbn. right. right. left. reflexivity.
Qed.
Example C41_case : let a := vis [1; 2] ["f"]%string 5 [("k", 1)]%string in let b := vis [1; 2] ["f"]%string 7 [("k", 2); ("l", 3)]%string in
  summable a b /\ override_ok (v_params a) ["_blt_order"]%string /\ filenames_fine ["_blt_order"]%string (v_params a) (v_params b) /\
  exists s, sum_vis false ["_blt_order"]%string a b = Ok s /\ v_data s 1%nat 2%nat 0%nat = (14, 8) /\ v_keywords s = [("k", 1); ("l", 3)]%string.
Proof.
  cbv zeta. split; [apply vis_summable; repeat constructor; cbn; intuition discriminate|]. split.
  - intros s [<-|[]]. split; [discriminate|]. cbn. auto.
  - split.
    + right. intros f g Hf Hg. right. cbn in Hf, Hg. destruct Hf as [H|[H|[H|[]]]]; try discriminate. injection H as <-.
      destruct Hg as [H|[H|[H|[]]]]; try discriminate. injection H as <-. exists ["f"]%string. split; [reflexivity|]. split; [reflexivity|].
      split; [repeat constructor; intros []|]. intros i j x y Hij Hi Hj. destruct j as [|[|j]]; cbn in Hj; try discriminate. lia.
    + eexists. split; [vm_compute; reflexivity|]. split; reflexivity.
Qed.

(** Visibilities of different baselines are summed if the antenna numbers are large; *)
Theorem C41_large_antenna_numbers_refuted : exists x y a b r, x <> y /\ summable a b /\
  has (v_params a) "ant_1_array" (ints x) /\ has (v_params b) "ant_1_array" (ints y) /\ sum_vis false [] a b = Ok r.
Proof.
  exists [200000], [200001], (vis [200000] ["f"]%string 1 []), (vis [200001] ["f"]%string 2 []). eexists. split; [discriminate|].
  split; [apply vis_summable; constructor|]. split; [left; reflexivity|]. split; [left; reflexivity|]. vm_compute. reflexivity.
Qed.
Print Assumptions C41_large_antenna_numbers_refuted.
(** what has been summed cannot be differenced again if the list of file names was
    not sorted. *)
Theorem C41_unsorted_filenames_refuted : exists a b s, summable a b /\ sum_vis false [] a b = Ok s /\ diff_vis [] s b = Err ValueError.
Proof.
  exists (vis [1] ["g"; "f"]%string 1 []), (vis [1] ["g"; "f"]%string 2 []). eexists.
  split; [apply vis_summable; constructor|]. split; vm_compute; reflexivity.
Qed.
Print Assumptions C41_unsorted_filenames_refuted.
