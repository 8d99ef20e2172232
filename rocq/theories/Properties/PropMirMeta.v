(** C91: the metadata tables of Mir data sets. *)
From Coq Require Import List ZArith Bool Arith String Lia Sorting.Sorted.
From Verif Require Import Lib.Py Lib.Np Lib.Dict Model.MirMeta Spec.MirMetaSpec Proofs.MirMetaProofs Proofs.MirMetaMain.
Import ListNotations.
Notation length := List.length.
Open Scope list_scope.
Open Scope Z_scope.

(** A table of baselines: four records, with one entry of several values in each. *)
Definition data : list (string * list cell) :=
  [("blhid"%string, [[7]; [3]; [5]; [4]]); ("iant1"%string, [[1]; [2]; [1]; [1]]); ("iant2"%string, [[2]; [3]; [3]; [2]]); ("tsys"%string, [[10; 11]; [20; 21]; [30; 31]; [40; 41]])].
Definition tab : table :=
  match load ["blhid"%string] 4 data with Ok t => t | Err _ => {| t_key := []; t_data := []; t_size := 0; t_mask := []; t_index := []; t_stored := [] |} end.

(** A table read has all its records active, and finds them by their keys if these differ. *)
Theorem C91_read key n data : NoDup (map fst data) -> Forall (fun p => length (snd p) = n) data -> incl key (map fst data) ->
  exists t, load key n data = Ok t /\ table_ok t /\ t_key t = key /\ t_data t = data /\ t_size t = n /\ t_stored t = [] /\ (forall i, (i < n)%nat -> active t i) /\
  ((forall i j, (i < n)%nat -> (j < n)%nat -> key_of t i = key_of t j -> i = j) -> index_ok t).
Proof. apply load_exact. Qed.
Print Assumptions C91_read.
Lemma tab_ok : table_ok tab /\ index_ok tab.
Proof.
  destruct (C91_read ["blhid"%string] 4 data) as (t & E & OK & _ & _ & _ & _ & _ & IX).
  - repeat constructor; cbn; intuition discriminate.
  - repeat constructor.
  - intros x [<- | []]. left. reflexivity.
  - assert (ET : tab = t) by (unfold tab; rewrite E; reflexivity). rewrite ET. split; [exact OK|]. apply IX. rewrite <- ET.
    intros i j Li Lj. do 4 (destruct i as [|i]; [do 4 (destruct j as [|j]; [cbn; intros H; (reflexivity || discriminate H)|]); lia|]). lia.
Qed.
Example C91_read_case : load ["blhid"%string] 4 data = Ok tab /\ t_index tab = [([3], 1%nat); ([4], 3%nat); ([5], 2%nat); ([7], 0%nat)].
Proof. split; vm_compute; reflexivity. Qed.

(** Values are those of the records chosen, in order, and are refused for other fields. *)
Theorem C91_get t f um q vs : table_ok t -> index_ok t -> fair um q ->
  (get_value t f um q = Ok vs <-> In f (fields t) /\ exists ps, chosen t um q ps /\ vs = map (cell_at t f) ps).
Proof. apply get_exact. Qed.
Print Assumptions C91_get.
Definition q1 : query := QWhere [("iant1"%string, CEq, One 1); ("nothing"%string, CLt, One 0); ("tsys"%string, CBetween, Many [11; 30])] true.
Example C91_get_case : get_value tab "blhid" None q1 = Ok [[7]; [5]] /\ chosen tab None q1 [0; 2]%nat /\ get_value tab "tsys" None (QKeys [[4]; [7]]) = Ok [[40; 41]; [10; 11]].
Proof.
  split; [vm_compute; reflexivity|]. split; [|vm_compute; reflexivity].
  destruct tab_ok as (OK & IX). assert (G : get_value tab "blhid" None q1 = Ok [[7]; [5]]) by (vm_compute; reflexivity). apply (C91_get tab _ None q1 _ OK IX I) in G as (_ & ps & C & E).
  assert (ps = [0; 2]%nat) as <-; [|exact C]. destruct C as (_ & _ & C). assert (B : forall i, In i ps -> (i < 4)%nat) by (intros i J; apply C in J; exact (proj1 J)).
  destruct ps as [|a [|b [|c ps]]]; try discriminate E. injection E as E1 E2. pose proof (B a (or_introl eq_refl)). pose proof (B b (or_intror (or_introl eq_refl))).
  assert (a = 0%nat) as -> by (do 4 (destruct a as [|a]; [solve [reflexivity | vm_compute in E1; discriminate E1]|]); lia).
  assert (b = 2%nat) as -> by (do 4 (destruct b as [|b]; [solve [reflexivity | vm_compute in E2; discriminate E2]|]); lia). reflexivity.
Qed.

(** Setting changes the entries of that field at the records chosen, and nothing else. *)
Theorem C91_set t f v um q : table_ok t -> index_ok t -> fair um q ->
  ((exists t', set_value t f v um q = Ok t') <->
   In f (fields t) /\ exists ps, chosen t um q ps /\ match v with Same _ => True | Each xs => length xs = length ps end) /\
  forall t', set_value t f v um q = Ok t' -> table_ok t' /\ (~ In f (t_key t) -> index_ok t') /\ exists ps, chosen t um q ps /\ replaced t t' f v ps.
Proof.
  intros OK IX FA. destruct (set_exact t f v um q OK IX FA) as (A & B). split; [exact A|]. intros t' E. destruct (B t' E) as (OK' & ps & C & R). split; [exact OK'|]. split; [|eauto].
  intros N. exact (replaced_index t t' f v ps R N IX).
Qed.
Print Assumptions C91_set.
Example C91_set_case : exists t', set_value tab "tsys" (Each [[1]; [2]]) None q1 = Ok t' /\ get_value t' "tsys" None QAll = Ok [[1]; [20; 21]; [2]; [40; 41]] /\ index_ok t'.
Proof.
  destruct tab_ok as (OK & IX). destruct (set_value tab "tsys" (Each [[1]; [2]]) None q1) as [t'|] eqn:E; [|vm_compute in E; discriminate]. exists t'. split; [reflexivity|]. split.
  - vm_compute in E. injection E as <-. vm_compute. reflexivity.
  - destruct (C91_set tab "tsys" (Each [[1]; [2]]) None q1 OK IX I) as (_ & B). apply (B t' E). cbn. intros [X | []]. discriminate X.
Qed.

(** A mask is narrowed to, widened by or replaced by the records chosen; what is returned says
    whether it changed. *)
Theorem C91_mask t q reset am um b t' : table_ok t -> index_ok t -> set_mask t None um q reset am = Ok (b, t') ->
  table_ok t' /\ t' = with_mask t (t_mask t') /\ (b = true <-> t_mask t' <> t_mask t) /\
  exists ps, chosen t (Some false) q ps /\
    forall i, (i < t_size t)%nat -> (active t' i <->
      if reset || all_true (t_mask t) then In i ps else if am then active t i /\ In i ps else active t i \/ In i ps).
Proof. intros OK IX. apply mask_exact; assumption. Qed.
Print Assumptions C91_mask.
(** A mask for the active records leaves those of them active that it marks. *)
Theorem C91_mask_given t m b t' q : table_ok t -> length m = length (filter (fun b => b) (t_mask t)) -> set_mask t (Some m) true q false true = Ok (b, t') ->
  table_ok t' /\ t' = with_mask t (t_mask t') /\ (b = true <-> t_mask t' <> t_mask t) /\
  forall i, (i < t_size t)%nat -> (active t' i <-> active t i /\ nth (length (filter (fun b => b) (firstn i (t_mask t)))) m false = true).
Proof. apply mask_given. Qed.
Print Assumptions C91_mask_given.
Example C91_mask_case : exists t1 t2, set_mask tab None true q1 false true = Ok (true, t1) /\ t_mask t1 = [true; false; true; false] /\
  set_mask t1 (Some [false; true]) true QAll false true = Ok (true, t2) /\ t_mask t2 = [false; false; true; false] /\
  set_mask t2 None true q1 false true = Ok (false, t2) /\ option_map t_mask (match set_mask t2 None true (QKeys [[4]]) false false with Ok r => Some (snd r) | Err _ => None end) = Some [false; false; true; true].
Proof.
  exists (with_mask tab [true; false; true; false]), (with_mask tab [false; false; true; false]). repeat (split; [vm_compute; reflexivity|]). vm_compute. reflexivity.
Qed.

(** Header keys are those of the records chosen. *)
Theorem C91_keys t um q ks : table_ok t -> index_ok t -> fair um q -> t_key t <> [] ->
  (get_header_keys t um q = Ok ks <-> exists ps, chosen t um q ps /\ ks = map (key_of t) ps).
Proof. apply keys_exact. Qed.
Print Assumptions C91_keys.
(** Groups are the places of the records with the same values, each record in one group. *)
Theorem C91_groups t fs um q g : table_ok t -> index_ok t -> fair um q -> fs <> [] -> group_by t fs um q = Ok g ->
  exists ps, chosen t um q ps /\ grouping t fs ps g.
Proof. apply groups_exact. Qed.
Print Assumptions C91_groups.
Example C91_groups_case : group_by tab ["iant1"; "iant2"]%string None QAll = Ok [([1; 2], [0; 3]%nat); ([1; 3], [2]%nat); ([2; 3], [1]%nat)] /\
  get_header_keys tab None q1 = Ok [[7]; [5]] /\ t_key tab <> [].
Proof. split; [vm_compute; reflexivity|]. split; [vm_compute; reflexivity | vm_compute; discriminate]. Qed.

(** Whatever was set and masked, resetting gives the table read. *)
Theorem C91_back key n data ops t0 t : NoDup (map fst data) -> load key n data = Ok t0 -> run ops t0 = Ok t -> reset t = Ok t0.
Proof. apply back. Qed.
Print Assumptions C91_back.
Definition history : list op :=
  [OSet "tsys" (Same [12]) None q1; OMask None true q1 false true; OSet "iant1" (Each [[8]; [9]]) None QAll; OSet "tsys" (Same [5; 6]) (Some false) QAll; OResetValues (Some ["iant1"%string]); OSet "blhid" (Same [1]) None QAll].
Example C91_back_case : exists t, run history tab = Ok t /\ t <> tab /\ reset t = Ok tab.
Proof.
  destruct (run history tab) as [t|] eqn:E; [|vm_compute in E; discriminate]. exists t. split; [reflexivity|]. split.
  - intros X. apply (f_equal t_mask) in X. assert (M : option_map t_mask (match run history tab with Ok t => Some t | Err _ => None end) = Some [true; false; true; false]) by (vm_compute; reflexivity). rewrite E in M. cbn in M. rewrite X in M. vm_compute in M. discriminate M.
  - apply (C91_back ["blhid"%string] 4 data history); [repeat constructor; cbn; intuition discriminate | vm_compute; reflexivity | exact E].
Qed.

(** The values for any of several conditions are those of all the active records, if the mask
    is not switched off. *)
Theorem C91_any_refuted : exists t f ws vs, table_ok t /\ index_ok t /\ In f (fields t) /\ get_value t f None (QWhere ws false) = Ok vs /\
  ~ exists ps, chosen t None (QWhere ws false) ps /\ vs = map (cell_at t f) ps.
Proof.
  exists tab, "blhid"%string, [("iant1"%string, CEq, One 2)], [[7]; [3]; [5]; [4]]. destruct tab_ok as (OK & IX). split; [exact OK|]. split; [exact IX|]. split; [left; reflexivity|]. split; [vm_compute; reflexivity|].
  intros (ps & (_ & _ & C) & E). destruct ps as [|a ps]; [discriminate E|]. injection E as E1 _. destruct (C a) as (C1 & _). destruct (C1 (or_introl eq_refl)) as (L & _ & w & I & _ & z & Z & CZ). destruct I as [<- | []]. cbn [fst snd] in *. cbn in CZ. subst z.
  change (t_size tab) with 4%nat in L. do 4 (destruct a as [|a]; [solve [vm_compute in E1; discriminate E1 | cbn in Z; destruct Z as [Z | []]; discriminate Z]|]). lia.
Qed.
Print Assumptions C91_any_refuted.
(** Adding records to a full mask removes the others. *)
Theorem C91_or_mask_refuted : exists t q t' i, table_ok t /\ index_ok t /\ (i < t_size t)%nat /\ active t i /\ set_mask t None true q false false = Ok (true, t') /\ ~ active t' i.
Proof.
  exists tab, q1, (with_mask tab [true; false; true; false]), 1%nat. destruct tab_ok as (OK & IX). split; [exact OK|]. split; [exact IX|]. split; [cbn; lia|]. split; [reflexivity|]. split; [vm_compute; reflexivity|]. discriminate.
Qed.
Print Assumptions C91_or_mask_refuted.
(** The keys of groups cannot be had for a table whose key has several fields. *)
Theorem C91_group_keys_refuted : exists t fs g, table_ok t /\ index_ok t /\ group_by t fs None QAll = Ok g /\ group_keys t fs None QAll = Err TypeError.
Proof.
  destruct (C91_read ["blhid"; "iant1"]%string 4 data) as (t & E & OK & _ & _ & _ & _ & _ & IX).
  - repeat constructor; cbn; intuition discriminate.
  - repeat constructor.
  - intros x [<- | [<- | []]]; cbn; auto.
  - assert (X : load ["blhid"; "iant1"]%string 4 data = Ok t) by exact E. vm_compute in E. injection E as <-. eexists _, ["iant2"%string], _. split; [exact OK|]. split.
    + apply IX. intros i j Li Lj. do 4 (destruct i as [|i]; [do 4 (destruct j as [|j]; [cbn; intros H; (reflexivity || discriminate H)|]); lia|]). lia.
    + split; vm_compute; reflexivity.
Qed.
Print Assumptions C91_group_keys_refuted.
(** A mask of the wrong length is taken by a table with all records active. *)
Theorem C91_length_refuted : exists t m t', table_ok t /\ index_ok t /\ length m <> t_size t /\ set_mask t (Some m) true QAll false true = Ok (true, t') /\ ~ table_ok t'.
Proof.
  exists tab, [true], (with_mask tab [true]). destruct tab_ok as (OK & IX). split; [exact OK|]. split; [exact IX|]. split; [discriminate|]. split; [vm_compute; reflexivity|]. intros [_ _ H _]. discriminate H.
Qed.
Print Assumptions C91_length_refuted.
