(** C93: selecting records of a Mir data set. *)
From Coq Require Import List ZArith Bool Arith String Lia.
From Verif Require Import Lib.Py Lib.Np Lib.Dict Model.MirMeta Spec.MirMetaSpec Proofs.MirMetaProofs Proofs.MirMetaMain Model.MirSelect Spec.MirSelectSpec Proofs.MirSelectProofs.
Import ListNotations.
Notation length := List.length.
Open Scope list_scope.
Open Scope Z_scope.

(** Making the masks of the tables agree leaves a spectral record active just if it, its baseline,
    the integration, the weather and both antennas were; an autocorrelation, if it and its antenna
    were; and no record active that belongs to an inactive one. *)
Theorem C93_update p : parser_ok p -> exists p', update_filter p = Ok p' /\ remasked p p' /\ consistent p' /\
  (forall s, (s < t_size (p_sp p))%nat ->
    (active (p_sp p') s <-> selected p (active (p_in p)) (active (p_bl p)) (active (p_sp p)) (active (p_eng p)) (active (p_we p)) s)) /\
  (forall ac ac' a, p_ac p = Some ac -> p_ac p' = Some ac' -> (a < t_size ac)%nat ->
    (active ac' a <-> active ac a /\ exists e, of_eng p ac a e /\ active (p_eng p) e)).
Proof.
  intros PO. destruct (update_form p PO) as (p' & B1 & E & RM & ST). exists p'. split; [exact E|]. split; [exact RM|]. split; [exact (all_consistent p p' B1 RM ST)|]. split.
  - exact (sp_exact p p' B1 RM ST).
  - exact (ac_exact p p' B1 RM ST).
Qed.
Print Assumptions C93_update.

(** Two integrations of two sources, three antennas, one window and the autocorrelations *)
Definition col (f : string) (l : list Z) : string * list cell := (f, map (fun z => [z]) l).
Definition get (r : result table) : table := match r with Ok t => t | Err _ => {| t_key := []; t_data := []; t_size := 0; t_mask := []; t_index := []; t_stored := [] |} end.
Definition din : list (string * list cell) := [col "inhid" [1; 2]; col "ints" [10; 20]; col "isource" [7; 8]].
Definition dbl : list (string * list cell) := [col "blhid" [1; 2; 3; 4; 5; 6]; col "inhid" [1; 1; 1; 2; 2; 2]; col "iant1" [1; 1; 2; 1; 1; 2]; col "iant2" [2; 3; 3; 2; 3; 3]; col "u" [5; 6; 7; 8; 9; 4]].
Definition dsp : list (string * list cell) := [col "sphid" [1; 2; 3; 4; 5; 6]; col "blhid" [1; 2; 3; 4; 5; 6]; col "corrchunk" [1; 1; 1; 1; 1; 1]].
Definition deng : list (string * list cell) := [col "antenna" [1; 2; 3; 1; 2; 3]; col "inhid" [1; 1; 1; 2; 2; 2]; col "tsys" [50; 60; 70; 51; 61; 71]].
Definition dwe : list (string * list cell) := [col "ints" [10; 20]; col "temp" [3; 4]].
Definition dac : list (string * list cell) := [col "achid" [1; 2; 3; 4; 5; 6]; col "antenna" [1; 2; 3; 1; 2; 3]; col "inhid" [1; 1; 1; 2; 2; 2]].
Definition ac0 : table := get (load ["achid"%string] 6 dac).
Definition p0 : parser := {| p_in := get (load ["inhid"%string] 2 din); p_bl := get (load ["blhid"%string] 6 dbl); p_sp := get (load ["sphid"%string] 6 dsp); p_eng := get (load ["antenna"; "inhid"]%string 6 deng); p_we := get (load ["ints"%string] 2 dwe); p_ac := Some ac0; p_cross := Some [[1]; [2; 3]] |}.
Lemma loaded key n data fs : NoDup (map fst data) -> Forall (fun p => length (snd p) = n) data -> incl key (map fst data) -> incl fs (map fst data) -> linked (get (load key n data)) key fs.
Proof. intros A B C D. destruct (load_exact key n data A B C) as (t & E & OK & K & DA & _). rewrite E. cbn [get]. constructor; [exact OK | exact K | unfold fields; rewrite DA; exact D]. Qed.
Ltac nd := cbn; repeat (apply NoDup_cons; [cbn; intuition discriminate|]); apply NoDup_nil.
Ltac inc := let x := fresh "x" in let I := fresh "I" in intros x I; cbn in I; cbn; intuition congruence.
Lemma p0_ok : parser_ok p0.
Proof.
  constructor.
  - refine (loaded _ 2 din _ _ _ _ _); [nd | repeat constructor | inc | inc].
  - refine (loaded _ 6 dbl _ _ _ _ _); [nd | repeat constructor | inc | inc].
  - refine (loaded _ 6 dsp _ _ _ _ _); [nd | repeat constructor | inc | inc].
  - refine (loaded _ 6 deng _ _ _ _ _); [nd | repeat constructor | inc | inc].
  - refine (loaded _ 2 dwe _ _ _ _ _); [nd | repeat constructor | inc | inc].
  - intros ac [= <-]. refine (loaded _ 6 dac _ _ _ _ _); [nd | repeat constructor | inc | inc].
  - discriminate.
  - intros i L. do 6 (destruct i as [|i]; [vm_compute; split; [discriminate | reflexivity]|]). vm_compute in L. lia.
  - intros i L. do 6 (destruct i as [|i]; [vm_compute; split; [discriminate | reflexivity]|]). vm_compute in L. lia.
  - intros ac [= <-] i L. do 6 (destruct i as [|i]; [vm_compute; split; [discriminate | reflexivity]|]). vm_compute in L. lia.
Qed.
Definition masks (r : result parser) : list (list bool) :=
  match r with Ok p => [t_mask (p_in p); t_mask (p_we p); t_mask (p_eng p); t_mask (p_bl p); t_mask (p_sp p); match p_ac p with Some a => t_mask a | None => [] end] | Err _ => [] end.
Definition with_eng (p : parser) (m : list bool) : parser := {| p_in := p_in p; p_bl := p_bl p; p_sp := p_sp p; p_eng := with_mask (p_eng p) m; p_we := p_we p; p_ac := p_ac p; p_cross := p_cross p |}.
(** Without antenna 3 in the first integration *)
Example C93_update_case : masks (update_filter (with_eng p0 [true; true; false; true; true; true])) =
  [[true; true]; [true; true]; [true; true; false; true; true; true]; [true; false; false; true; true; true]; [true; false; false; true; true; true]; [true; true; false; true; true; true]].
Proof. vm_compute. reflexivity. Qed.

(** Selecting by conditions that are all to hold leaves a spectral record active just if it and
    the records it belongs to were active, or masks were dropped, and each meets the conditions on
    its fields; never is a record left that belongs to one that was not. *)
Theorem C93_select p wa reset : parser_ok p -> wa <> Some [] -> (forall w, In w (asked wa) -> sensible w) ->
  exists p', select p wa true true reset = Ok p' /\ remasked p p' /\ consistent p' /\
  (forall s, (s < t_size (p_sp p))%nat ->
    (active (p_sp p') s <-> selected p (kept_by reset wa (p_in p)) (kept_by reset wa (p_bl p)) (kept_by reset wa (p_sp p)) (kept_by reset wa (p_eng p)) (kept_by reset wa (p_we p)) s)) /\
  (forall ac ac' a, p_ac p = Some ac -> p_ac p' = Some ac' -> (a < t_size ac)%nat ->
    (active ac' a <-> kept_by reset wa ac a /\ exists e, of_eng p ac a e /\ kept_by reset wa (p_eng p) e)).
Proof.
  intros PO NE SN. destruct (select_form p wa reset PO NE SN) as (p1 & E & RM & H1 & H2 & H3 & H4 & H5 & H6). destruct (C93_update p1 (remasked_ok p p1 PO RM)) as (p' & E' & RM' & CO & HS & HA).
  exists p'. split; [rewrite E; exact E'|]. split; [exact (remasked_trans _ _ _ RM RM')|]. split; [exact CO|]. split.
  - intros s Ls. rewrite (HS s) by (rewrite (sz_sp p p1 RM); exact Ls). split; intros X.
    + exact (selected_same p p1 _ _ _ _ _ _ _ _ _ _ s RM Ls H1 H2 H3 H4 H5 X).
    + exact (selected_back p p1 _ _ _ _ _ _ _ _ _ _ s RM Ls H1 H2 H3 H4 H5 X).
  - intros ac ac' a EA EA' La. destruct (H6 ac EA) as (ac1 & E1 & A1). pose proof (rm_ac _ _ RM) as M. rewrite EA, E1 in M. rewrite (HA ac1 ac' a E1 EA') by (rewrite (mf_size _ _ M); exact La). rewrite (A1 a La).
    split; intros (X & e & O & Ae); (split; [exact X|]); exists e.
    + apply (of_eng_same p p1 RM ac ac1 a e M) in O. split; [exact O|]. apply (H4 e (proj1 O)). exact Ae.
    + split; [apply (of_eng_same p p1 RM ac ac1 a e M); exact O|]. apply (H4 e (proj1 O)). exact Ae.
Qed.
Print Assumptions C93_select.
Example C93_select_case :
  masks (select p0 (Some [("isource"%string, CEq, One 7); ("u"%string, CBetween, Many [6; 9])]) true true false) =
    [[true; false]; [true; false]; [true; true; true; true; true; true]; [false; true; true; false; false; false]; [false; true; true; false; false; false]; [true; true; true; true; true; true]].
Proof. vm_compute. reflexivity. Qed.

(** Making masks agree that agree already leaves the spectral and autocorrelation records alone,
    if each integration has weather. *)
Theorem C93_again p p1 : parser_ok p -> (forall i, (i < t_size (p_in p))%nat -> exists w, of_we p i w) -> update_filter p = Ok p1 ->
  exists p2, update_filter p1 = Ok p2 /\ (forall s, (s < t_size (p_sp p))%nat -> (active (p_sp p2) s <-> active (p_sp p1) s)) /\
  (forall a1 a2 a, p_ac p1 = Some a1 -> p_ac p2 = Some a2 -> (a < t_size a1)%nat -> (active a2 a <-> active a1 a)).
Proof.
  intros PO WE E. destruct (update_form p PO) as (q & B1 & E1 & RM & ST). rewrite E in E1. injection E1 as <-. destruct (C93_update p1 (remasked_ok p p1 PO RM)) as (p2 & E2 & RM2 & _ & HS & HA). exists p2. split; [exact E2|]. split.
  - intros s Ls. rewrite (HS s) by (rewrite (sz_sp p p1 RM); exact Ls). split; [intros (X & _); exact X|]. exact (stays p p1 B1 RM ST s WE Ls).
  - intros a1 a2 a EA1 EA2 La. rewrite (HA a1 a2 a EA1 EA2 La). split; [tauto|]. intros X. split; [exact X|]. exact (co_ac p1 (all_consistent p p1 B1 RM ST) a1 a EA1 La X).
Qed.
Print Assumptions C93_again.
Example C93_again_case : exists p1, update_filter (with_eng p0 [true; true; false; true; true; true]) = Ok p1 /\ masks (update_filter p1) = masks (Ok p1).
Proof. eexists. split; vm_compute; reflexivity. Qed.

(** Autocorrelations of an integration deselected by its source stay selected. *)
Theorem C93_autos_refuted : exists p ws p' ac ac' a i, parser_ok p /\ (forall w, In w ws -> sensible w) /\ select p (Some ws) true true false = Ok p' /\
  p_ac p = Some ac /\ p_ac p' = Some ac' /\ (a < t_size ac)%nat /\ (i < t_size (p_in p))%nat /\ val ac "inhid" a = val (p_in p) "inhid" i /\ ~ active (p_in p') i /\ active ac' a.
Proof.
  destruct (select p0 (Some [("isource"%string, CEq, One 7)]) true true false) as [p'|] eqn:E; [|vm_compute in E; discriminate]. exists p0, [("isource"%string, CEq, One 7)], p', ac0.
  vm_compute in E. injection E as <-. eexists. exists 4%nat, 1%nat. split; [exact p0_ok|]. split; [intros w [<- | []]; exact Logic.I|]. split; [vm_compute; reflexivity|]. split; [reflexivity|]. split; [reflexivity|]. split; [vm_compute; lia|]. split; [vm_compute; lia|]. split; [reflexivity|]. split; [intros X; vm_compute in X; discriminate X | vm_compute; reflexivity].
Qed.
Print Assumptions C93_autos_refuted.
(** Any of several conditions on fields of different tables: all are to hold. *)
Theorem C93_any_refuted : exists p w w' p' s b, parser_ok p /\ select p (Some [w; w']) false true false = Ok p' /\ of_bl p s b /\ active (p_sp p) s /\ active (p_bl p) b /\ known (p_bl p) w /\ holds (p_bl p) w b /\ ~ active (p_sp p') s.
Proof.
  destruct (select p0 (Some [("u"%string, CEq, One 8); ("isource"%string, CEq, One 7)]) false true false) as [p'|] eqn:E; [|vm_compute in E; discriminate]. exists p0, ("u"%string, CEq, One 8), ("isource"%string, CEq, One 7), p', 3%nat, 3%nat.
  vm_compute in E. injection E as <-. split; [exact p0_ok|]. split; [vm_compute; reflexivity|]. split; [split; [vm_compute; lia | reflexivity]|]. split; [reflexivity|]. split; [reflexivity|]. split; [vm_compute; tauto|]. split; [exists 8; split; [left; reflexivity | reflexivity]|]. intros X; vm_compute in X; discriminate X.
Qed.
Print Assumptions C93_any_refuted.
(** Records added to a selection by a condition on another table: selected ones are dropped. *)
Theorem C93_widen_refuted : exists p ws w p1 p' s, parser_ok p /\ select p (Some ws) true true false = Ok p1 /\ sensible w /\ select p1 (Some [w]) true false false = Ok p' /\
  (s < t_size (p_sp p))%nat /\ active (p_sp p1) s /\ ~ active (p_sp p') s.
Proof.
  destruct (select p0 (Some [("u"%string, CEq, One 5)]) true true false) as [p1|] eqn:E; [|vm_compute in E; discriminate]. destruct (select p1 (Some [("isource"%string, CEq, One 8)]) true false false) as [p'|] eqn:E'; [|vm_compute in E; injection E as <-; vm_compute in E'; discriminate].
  exists p0, [("u"%string, CEq, One 5)], ("isource"%string, CEq, One 8), p1, p', 0%nat. split; [exact p0_ok|]. split; [exact E|]. split; [exact Logic.I|]. split; [exact E'|].
  vm_compute in E. injection E as <-. vm_compute in E'. injection E' as <-. split; [vm_compute; lia|]. split; [reflexivity|]. intros X. vm_compute in X. discriminate X.
Qed.
Print Assumptions C93_widen_refuted.
