From Coq Require Import List ZArith QArith Qcanon Bool Arith Lia.
From Verif Require Import Lib.Py Lib.Np Lib.QSum Model.FreqAvg Spec.FreqAvgSpec Proofs.FreqAvgProofs.
Import ListNotations.

Lemma one_window_averaged : forall n summing propagate_flags respect_spws keep_ragged o,
  n <> O -> length (fa_spws o) = 1%nat ->
  exists o', frequency_average n summing propagate_flags respect_spws keep_ragged o = Ok o' /\
  frequency_averaged n summing propagate_flags keep_ragged (fa_flex o) (fa_spws o) o o'.
Proof.
  intros n s p r k o Hn L. assert (E : merge_windows r o = o) by (unfold merge_windows; rewrite L; reflexivity).
  pose proof (frequency_average_ok n s p r k o Hn) as H. cbn zeta in H. rewrite E in H. apply H.
  destruct (fa_spws o) as [|w [|]]; try discriminate L. intros v [].
Qed.

Lemma merged_windows_averaged : forall n summing propagate_flags keep_ragged o,
  n <> O -> (1 < length (fa_spws o))%nat ->
  exists o', frequency_average n summing propagate_flags false keep_ragged o = Ok o' /\
  frequency_averaged n summing propagate_flags keep_ragged (repeat 0%Z (length (fa_freq o))) [0%Z] o o'.
Proof.
  intros n s p k o Hn L. pose proof (frequency_average_ok n s p false k o Hn) as H. cbn zeta in H.
  unfold merge_windows in H. apply Nat.ltb_lt in L. rewrite L in H. simpl in H.
  destruct H as [o' [E H]]; [intros v []|]. exists o'. split; [exact E|]. exact H.
Qed.

Lemma windows_averaged : forall n summing propagate_flags keep_ragged o,
  n <> O -> favg_ok o -> flags_in_first_window o ->
  exists o', frequency_average n summing propagate_flags true keep_ragged o = Ok o' /\
  frequency_averaged n summing propagate_flags keep_ragged (fa_flex o) (fa_spws o) o o'.
Proof.
  intros n s p k o Hn [_ [_ [N _]]] F. assert (E : merge_windows true o = o) by (unfold merge_windows; rewrite andb_false_r; reflexivity).
  pose proof (frequency_average_ok n s p true k o Hn) as H. cbn zeta in H. rewrite E in H. apply H.
  intros w Hw i j kk Hi Hk Hj. destruct (fa_flag o i j kk) eqn:Fl; [|reflexivity]. exfalso.
  pose proof (nonzero_lt _ _ _ Hj) as L. apply (nonzero_spec 0%Z) in Hj. destruct Hj as [_ Hj]. apply Z.eqb_eq in Hj.
  pose proof (F i j kk Hi L Hk Fl) as G. destruct (fa_spws o) as [|v spws]; [destruct Hw|]. simpl in *.
  apply NoDup_cons_iff in N. destruct N as [N _]. apply N. rewrite <- G, <- Hj. exact Hw.
Qed.

Definition q (a : Z) : Qc := Q2Qc (inject_Z a).

Definition two_windows (flagged : nat) (flex : list Z) : favg :=
  {| fa_nblts := 1; fa_npols := 1; fa_freq := map q [10; 20; 30]%Z; fa_width := map q [10; 10; 10]%Z;
     fa_flex := flex; fa_spws := [0; 1]%Z;
     fa_data := fun _ j _ => (q (5 + Z.of_nat j), q 1); fa_flag := fun _ j _ => (j =? flagged)%nat;
     fa_ns := fun _ j _ => q 1; fa_eq := None |}.

Lemma two_windows_ok f flex : length flex = 3%nat -> (forall w, In w flex -> In w [0; 1]%Z) -> favg_ok (two_windows f flex).
Proof.
  intros L H. split; [reflexivity|]. split; [exact L|]. split; [repeat constructor; simpl; intuition discriminate|]. exact H.
Qed.

Lemma other_windows_flagged : exists o o',
  favg_ok o /\ frequency_average 1 false false true true o = Ok o' /\
  fa_freq o' = fa_freq o /\ fa_data o' 0%nat 1%nat 0%nat <> fa_data o 0%nat 1%nat 0%nat /\
  fa_data o' 0%nat 1%nat 0%nat = (q 0, q 0).
Proof.
  exists (two_windows 1 [0; 1; 1]%Z). eexists. split; [apply two_windows_ok; [reflexivity|simpl; intuition]|].
  split; [unfold frequency_average; vm_compute average_windows; cbn [bind]; reflexivity|].
  split; [|split].
  - cbn [fa_freq map oc_freq]. unfold two_windows. cbn [fa_freq map]. repeat (f_equal; try (apply Qc_is_canon; reflexivity)).
  - cbn [fa_data nth oc_data]. intros E. apply (f_equal fst) in E. apply (f_equal this) in E. vm_compute in E. discriminate.
  - cbn [fa_data nth oc_data]. vm_compute. f_equal; apply Qc_is_canon; reflexivity.
Qed.

Lemma other_windows_fail : exists o,
  favg_ok o /\ frequency_average 1 false false true true o = Err IndexError.
Proof.
  exists (two_windows 2 [0; 1; 1]%Z). split; [apply two_windows_ok; [reflexivity|simpl; intuition]|]. vm_compute. reflexivity.
Qed.

Lemma window_without_channels : exists n o o' w,
  favg_ok o /\ (forall v, In v (fa_spws o) -> In v (fa_flex o)) /\
  frequency_average n false false true false o = Ok o' /\ In w (fa_spws o') /\ ~ In w (fa_flex o').
Proof.
  exists 2%nat, (two_windows 9 [0; 0; 1]%Z). eexists. exists 1%Z. split; [apply two_windows_ok; [reflexivity|simpl; intuition]|].
  split; [simpl; intuition|].
  split; [unfold frequency_average; vm_compute average_windows; cbn [bind]; reflexivity|].
  split; [simpl; intuition|]. simpl. intuition discriminate.
Qed.
