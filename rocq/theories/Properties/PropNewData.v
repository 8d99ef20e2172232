(** C94: making new objects. *)
From Coq Require Import List ZArith Bool Arith String Lia Sorting.Sorted.
From Verif Require Import Lib.Py Lib.Np Lib.Dict Model.Pol Model.NewData Spec.NewDataSpec Proofs.NewDataProofs.
Import ListNotations.
Notation length := List.length.
Open Scope list_scope.
Open Scope Z_scope.

(** Which requests succeed *)
Theorem C94_refused lst ants times pairs outer rect fast integ :
  (exists o, new_blts lst ants times (Some pairs) outer rect fast integ = Ok o) <->
  usable times integ /\ (all_wanted outer times pairs \/ each_wanted outer rect times pairs).
Proof. apply blts_refused. Qed.
Print Assumptions C94_refused.
Definition lst0 (t : Z) : Z := 3 * t + 1.
Definition ps0 : list (Z * Z) := [(3, 4); (1, 2)].
Example C94_refused_case :
  all_wanted None [10; 20; 30] ps0 /\ usable [10; 20; 30] Unset /\
  (exists o, new_blts lst0 [] [10; 20; 30] (Some ps0) None None None Unset = Ok o) /\
  (forall o, new_blts lst0 [] [10; 20] (Some ps0) None None None Unset <> Ok o).
Proof.
  split; [split; [right; split; [reflexivity | discriminate] | split; repeat constructor; cbn; intuition discriminate]|]. split; [split; [discriminate | repeat constructor; cbn; intuition discriminate]|].
  split; [eexists; vm_compute; reflexivity | intros o X; vm_compute in X; discriminate X].
Qed.

(** Times for all pairs: each of both occurs together once, in the order asked for, with the
    sidereal time and the integration time of its time. *)
Theorem C94_all lst ants times pairs outer rect fast integ : all_wanted outer times pairs -> usable times integ -> (fast = Some true \/ integ = Unset -> StronglySorted Z.lt times) ->
  exists o ints, new_blts lst ants times (Some pairs) outer rect fast integ = Ok o /\ integrations times integ ints /\ filled o times pairs fast lst ints.
Proof. apply blts_all. Qed.
Print Assumptions C94_all.
Example C94_all_case :
  (exists o, new_blts lst0 [] [10; 20; 40] (Some ps0) None None None Unset = Ok o /\ n_time o = [10; 10; 20; 20; 40; 40] /\ n_pair o = [(3, 4); (1, 2); (3, 4); (1, 2); (3, 4); (1, 2)] /\ n_lst o = [31; 31; 61; 61; 121; 121] /\ n_int o = [864000; 864000; 1728000; 1728000; 1728000; 1728000]) /\
  (exists o, new_blts lst0 [] [10; 20] (Some ps0) (Some true) None (Some true) (Array [5; 6]) = Ok o /\ n_time o = [10; 20; 10; 20] /\ n_pair o = [(1, 2); (1, 2); (3, 4); (3, 4)] /\ n_lst o = [31; 61; 31; 61] /\ n_int o = [5; 6; 5; 6]).
Proof. split; eexists; (split; [vm_compute; reflexivity|]); cbn; auto. Qed.

(** A time for each pair: the records are those given. *)
Theorem C94_each lst ants times pairs outer rect fast integ : each_wanted outer rect times pairs -> usable times integ -> (integ = Unset -> StronglySorted Z.lt times) ->
  exists o ints, new_blts lst ants times (Some pairs) outer rect fast integ = Ok o /\ integrations times integ ints /\
  n_time o = times /\ n_pair o = pairs /\ n_lst o = map lst times /\ n_int o = ints /\ n_nbls o = distinct_pairs pairs /\ n_ntimes o = distinct_times times /\ n_order o = None.
Proof. apply blts_each. Qed.
Print Assumptions C94_each.
Example C94_each_case : each_wanted None None [10; 10; 20] [(1, 2); (3, 4); (1, 2)] /\ usable [10; 10; 20] (Scalar 7) /\
  exists o, new_blts lst0 [] [10; 10; 20] (Some [(1, 2); (3, 4); (1, 2)]) None None None (Scalar 7) = Ok o /\ n_nbls o = 2%nat /\ n_ntimes o = 2%nat /\ n_int o = [7; 7; 7].
Proof.
  split; [split; [right; split; [reflexivity|]; intros (X & _); inversion X as [|? ? NI _]; apply NI; left; reflexivity | split; [reflexivity | discriminate]]|].
  split; [exact I|]. eexists. split; [vm_compute; reflexivity|]. cbn. auto.
Qed.

(** Without pairs: every two antennas in one order, and each with itself; and the order of the
    records that is stated is theirs. *)
Theorem C94_default lst ants times outer rect fast integ : NoDup ants -> NoDup times -> usable times integ -> (fast = Some true \/ integ = Unset -> StronglySorted Z.lt times) ->
  exists o ints pairs, new_blts lst ants times None outer rect fast integ = Ok o /\ integrations times integ ints /\ filled o times pairs fast lst ints /\
  NoDup pairs /\ (forall a b, In (a, b) pairs -> In a ants /\ In b ants) /\ (forall a b, In a ants -> In b ants -> In (a, b) pairs \/ In (b, a) pairs) /\ (forall a b, In (a, b) pairs -> In (b, a) pairs -> a = b) /\
  n_order o = Some (if match fast with Some f => f | None => false end then ("ant1", "ant2") else ("time", "ant1"))%string /\
  (StronglySorted Z.lt times -> StronglySorted Z.lt ants -> forall k k', (k < k' < length (n_time o))%nat ->
    let t i := nth i (n_time o) 0 in let a i := fst (nth i (n_pair o) (0, 0)) in let b i := snd (nth i (n_pair o) (0, 0)) in
    (n_order o = Some ("time", "ant1")%string -> t k < t k' \/ t k = t k' /\ a k <= a k') /\
    (n_order o = Some ("ant1", "ant2")%string -> a k < a k' \/ a k = a k' /\ b k <= b k')).
Proof.
  intros NA NT US SO. destruct (C94_all lst ants times (combinations ants) (Some true) rect fast integ) as (o & ints & E & EI & F); [split; [auto | split; [exact NT | apply comb_NoDup, NA]] | exact US | exact SO|].
  rewrite blts_default, E. cbn [bind]. eexists. exists ints, (combinations ants). split; [reflexivity|]. split; [exact EI|]. split; [exact F|]. split; [apply comb_NoDup, NA|]. split; [intros a b; apply comb_in|]. split; [intros a b; apply comb_total|]. split; [intros a b; apply comb_antisym, NA|]. split; [reflexivity|].
  cbn [n_time n_pair n_order]. intros ST SA k k' L. assert (L' : (k < k' < length times * length (combinations ants))%nat) by (destruct F as (_ & _ & X & _); cbv zeta in X; lia).
  pose proof (rows_sorted o times (combinations ants) fast lst ints k k' F (comb_sorted ants SA) ST L') as H. destruct (match fast with Some f => f | None => false end); (split; [intros X | intros X]); try discriminate X; exact H.
Qed.
Print Assumptions C94_default.
Example C94_default_case : exists o, new_blts lst0 [5; 8] [10; 20] None None None None (Scalar 7) = Ok o /\ n_pair o = [(5, 5); (5, 8); (8, 8); (5, 5); (5, 8); (8, 8)] /\ n_time o = [10; 10; 10; 20; 20; 20] /\ n_order o = Some ("time", "ant1")%string.
Proof. eexists. split; [vm_compute; reflexivity|]. cbn. auto. Qed.

(** Channel widths left out are the distances to the next channel. *)
Theorem C94_freqs freqs width :
  ((exists r, get_freq_params freqs width = Ok r) <-> match width with Unset => freqs <> [] | Scalar _ => True | Array l => length l = length freqs end) /\
  forall r, get_freq_params freqs width = Ok r -> fst r = freqs /\ length (snd r) = length freqs /\
  match width with
  | Unset => (length freqs = 1%nat -> snd r = [1]) /\ (forall j, (S j < length freqs)%nat -> nth j (snd r) 0 = nth (S j) freqs 0 - nth j freqs 0) /\ ((2 <= length freqs)%nat -> nth (length freqs - 1) (snd r) 0 = nth (length freqs - 2) (snd r) 0)
  | Scalar z => forall j, (j < length freqs)%nat -> nth j (snd r) 0 = z
  | Array l => snd r = l
  end.
Proof. split; [apply freqs_exact | intros r; apply widths_exact]. Qed.
Print Assumptions C94_freqs.
Example C94_freqs_case : get_freq_params [100; 110; 130] Unset = Ok ([100; 110; 130], [10; 20; 20]) /\ get_freq_params [100; 110; 130] (Array [1; 2]) = Err ValueError.
Proof. split; reflexivity. Qed.

(** Each channel is in a window that is listed, and each window listed has a channel. *)
Theorem C94_windows n ids r : get_spw_params n ids None = Ok r -> (n <> 0)%nat -> (forall i, ids = Some i -> length i = n) ->
  length (fst r) = n /\ (forall i, ids = Some i -> fst r = i) /\ NoDup (snd r) /\ forall w, In w (fst r) <-> In w (snd r).
Proof.
  unfold get_spw_params. destruct ids as [i|]; intros [= <-] NZ L; cbn [fst snd].
  - split; [apply L; reflexivity|]. split; [intros ? [= <-]; reflexivity|]. split; [apply uniqueZ_NoDup|]. intros w. symmetry. apply uniqueZ_In.
  - split; [apply repeat_length|]. split; [discriminate|]. split; [repeat constructor; cbn; tauto|]. intros w. split; [intros I; apply repeat_spec in I; left; symmetry; exact I|]. intros [<- | []]. destruct n; [contradiction|]. left. reflexivity.
Qed.
Print Assumptions C94_windows.
(** With the windows listed (as UVCal.new does): one window holds all channels, several need the
    window of each channel, and as many windows as these have are required. *)
Theorem C94_windows_given n s : s <> [] ->
  (length s <> 1%nat -> get_spw_params n None (Some s) = Err ValueError) /\
  (forall w, s = [w] -> exists i, get_spw_params n None (Some s) = Ok (i, s) /\ length i = n /\ forall x, In x i -> x = w) /\
  (forall i, NoDup s -> (exists l, NoDup l /\ (forall w, In w l <-> In w i) /\ length l = length s) -> get_spw_params n (Some i) (Some s) = Ok (i, s)) /\
  (forall i, NoDup s -> (forall l, NoDup l -> (forall w, In w l <-> In w i) -> length l <> length s) -> get_spw_params n (Some i) (Some s) = Err ValueError).
Proof.
  assert (U : forall l i, NoDup l -> (forall w, In w l <-> In w i) -> length l = length (uniqueZ i)).
  { intros l i N H. apply Nat.le_antisymm; (apply NoDup_incl_length; [first [exact N | apply uniqueZ_NoDup]|]); intros w I; [apply uniqueZ_In, H, I|apply H; apply (proj1 (uniqueZ_In _ _)) in I; exact I]. }
  intros NE. unfold get_spw_params. split; [|split; [|split]].
  - intros L. destruct s as [|a [|b s]]; [contradiction|cbn in L; lia|reflexivity].
  - intros w ->. exists (repeat w n). split; [reflexivity|]. split; [apply repeat_length|]. intros x I. apply repeat_spec in I. exact I.
  - intros i N (l & Nl & H & L). rewrite <- (U s s N (fun w => iff_refl _)), <- (U l i Nl H), L, Nat.eqb_refl. reflexivity.
  - intros i N H. rewrite <- (U s s N (fun w => iff_refl _)). specialize (H (uniqueZ i) (uniqueZ_NoDup i) (fun w => uniqueZ_In w i)).
    rewrite (proj2 (Nat.eqb_neq _ _)) by congruence. reflexivity.
Qed.
Print Assumptions C94_windows_given.
Example C94_windows_given_case : get_spw_params 3 (Some [2; 2; 1]) (Some [1; 2]) = Ok ([2; 2; 1], [1; 2]) /\ get_spw_params 3 (Some [2; 2; 1]) (Some [1]) = Err ValueError /\ get_spw_params 3 None (Some [1; 2]) = Err ValueError.
Proof. repeat split. Qed.
Example C94_windows_case : get_spw_params 4 (Some [2; 2; 1; 1]) None = Ok ([2; 2; 1; 1], [1; 2]) /\ get_spw_params 2 None None = Ok ([0; 0], [0]).
Proof. split; reflexivity. Qed.

(** Data are taken with the shape of the object only, and flags and numbers of samples with them. *)
Theorem C94_arrays s data flags nsamples :
  (forall r, new_arrays s false data flags nsamples = Ok r -> match data with
    | None => r = None
    | Some d => exists f n, r = Some (d, f, n) /\ a_shape d = s /\ a_shape f = s /\ a_shape n = s /\
        match flags with Some f' => f = f' | None => forall i j k, a_at f i j k = 0 end /\ match nsamples with Some n' => n = n' | None => forall i j k, a_at n i j k = 1 end
    end) /\
  ((exists r, new_arrays s false data flags nsamples = Ok r) <-> forall d, data = Some d -> a_shape d = s /\ (forall f, flags = Some f -> a_shape f = s) /\ (forall n, nsamples = Some n -> a_shape n = s)) /\
  new_arrays s true None None None = Ok (Some (const s 0, const s 0, const s 1)).
Proof.
  split; [|split; [|reflexivity]].
  - intros r. unfold new_arrays. destruct data as [d|]; [|intros [= <-]; reflexivity]. destruct (shape_eqb (a_shape d) s) eqn:E; [|discriminate]. apply shape_eqb_eq in E. cbn [negb].
    destruct flags as [f|]; [destruct (shape_eqb (a_shape f) s) eqn:EF; [|discriminate]; apply shape_eqb_eq in EF|]; cbn [bind]; (destruct nsamples as [n|]; [destruct (shape_eqb (a_shape n) s) eqn:EN; [|discriminate]; apply shape_eqb_eq in EN|]; cbn [bind]); intros [= <-]; eexists; eexists; (split; [reflexivity|]); auto 8.
  - unfold new_arrays. destruct data as [d|]; [|split; [discriminate | eauto]]. destruct (shape_eqb (a_shape d) s) eqn:E; cbn [negb].
    + apply shape_eqb_eq in E. split.
      * intros (r & X) ? [= <-]. split; [exact E|]. split.
        -- intros f ->. destruct (shape_eqb (a_shape f) s) eqn:EF; [apply shape_eqb_eq, EF | discriminate X].
        -- intros n ->. destruct flags as [f|]; [destruct (shape_eqb (a_shape f) s); [|discriminate X]|]; cbn [bind] in X; (destruct (shape_eqb (a_shape n) s) eqn:EN; [apply shape_eqb_eq, EN | discriminate X]).
      * intros H. destruct (H d eq_refl) as (_ & HF & HN). destruct flags as [f|]; [rewrite (proj2 (shape_eqb_eq _ _) (HF f eq_refl))|]; cbn [bind]; (destruct nsamples as [n|]; [rewrite (proj2 (shape_eqb_eq _ _) (HN n eq_refl))|]; cbn [bind]; eauto).
    + split; [intros (r & X); discriminate X|]. intros H. destruct (H d eq_refl) as (X & _). apply shape_eqb_eq in X. congruence.
Qed.
Print Assumptions C94_arrays.
Example C94_arrays_case : exists d, new_arrays (2, 1, 1)%nat false (Some d) None None = Ok (Some (d, const (2, 1, 1)%nat 0, const (2, 1, 1)%nat 1)) /\ new_arrays (2, 1, 2)%nat false (Some d) None None = Err ValueError.
Proof. exists {| a_shape := (2, 1, 1)%nat; a_at := fun i _ _ => Z.of_nat i |}. split; reflexivity. Qed.

(** If times change faster and are not given in increasing order, sidereal and integration times
    are those of other times. *)
Theorem C94_fast_refuted : exists lst times pairs o k, all_wanted (Some true) times pairs /\ usable times (Array [5; 6]) /\ new_blts lst [] times (Some pairs) (Some true) None (Some true) (Array [5; 6]) = Ok o /\
  (k < length (n_time o))%nat /\ nth k (n_lst o) 0 <> lst (nth k (n_time o) 0) /\ nth k (n_time o) 0 = nth 1 times 0 /\ nth k (n_int o) 0 <> 6.
Proof.
  exists lst0, [20; 10], ps0. eexists. exists 0%nat. split; [split; [auto | split; repeat constructor; cbn; intuition discriminate]|]. split; [reflexivity|]. split; [vm_compute; reflexivity|]. cbn. split; [lia|]. split; [discriminate|]. split; [reflexivity | discriminate].
Qed.
Print Assumptions C94_fast_refuted.
(** Integration times left out, with times not in increasing order: they are in the order of the
    sorted times. *)
Theorem C94_integration_refuted : exists times pairs o, each_wanted (Some false) None times pairs /\ new_blts lst0 [] times (Some pairs) (Some false) None None Unset = Ok o /\
  n_time o = [50; 20; 10] /\ n_int o = [86400 * 10; 86400 * 30; 86400 * 30].
Proof.
  exists [50; 20; 10], [(1, 2); (1, 2); (1, 2)]. eexists. split; [split; [auto | split; [reflexivity | discriminate]]|]. split; [vm_compute; reflexivity|]. split; reflexivity.
Qed.
Print Assumptions C94_integration_refuted.
(** All pairs, with times not in increasing order: the order stated is by time. *)
Theorem C94_order_refuted : exists o, new_blts lst0 [5; 8] [20; 10] None None None None (Scalar 7) = Ok o /\ n_order o = Some ("time", "ant1")%string /\ ~ StronglySorted Z.le (n_time o).
Proof.
  eexists. split; [vm_compute; reflexivity|]. split; [reflexivity|]. intros X. apply (sorted_nth Z.le 0 _) with (i := 0%nat) (j := 3%nat) in X; cbn in *; lia.
Qed.
Print Assumptions C94_order_refuted.
(** One record that is said to be rectangular raises IndexError. *)
Theorem C94_single_refuted : exists t p, new_blts lst0 [] [t] (Some [p]) (Some false) (Some true) None Unset = Err IndexError.
Proof. exists 10, (1, 2). reflexivity. Qed.
Print Assumptions C94_single_refuted.
(** Names of polarizations by direction are not known from the telescope. *)
Theorem C94_pol_refuted : exists tel names ns, mapM (polstr2num (Some tel)) names = Ok ns /\ forall r, new_pols (Some tel) None names <> Ok r.
Proof. exists "east"%string, ["ee"; "nn"]%string, [-5; -6]. split; [vm_compute; reflexivity|]. intros r X. vm_compute in X. discriminate X. Qed.
Print Assumptions C94_pol_refuted.
(** Data given for an object asked to be empty are dropped, and so are flags without data. *)
Theorem C94_dropped_refuted : exists s d f, a_shape d = s /\ a_shape f = s /\ a_at f 0 0 0 <> 0 /\
  (exists r, new_arrays s true (Some d) (Some f) None = Ok (Some r) /\ a_at (fst (fst r)) 0 0 0 <> a_at d 0 0 0 /\ a_at (snd (fst r)) 0 0 0 <> a_at f 0 0 0) /\ new_arrays s false None (Some f) None = Ok None.
Proof.
  exists (1, 1, 1)%nat, {| a_shape := (1, 1, 1)%nat; a_at := fun _ _ _ => 5 |}, {| a_shape := (1, 1, 1)%nat; a_at := fun _ _ _ => 1 |}. split; [reflexivity|]. split; [reflexivity|]. split; [discriminate|]. split; [|reflexivity].
  eexists. split; [reflexivity|]. cbn. split; discriminate.
Qed.
Print Assumptions C94_dropped_refuted.
