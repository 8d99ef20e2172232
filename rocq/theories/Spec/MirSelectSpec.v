(** What selecting records of a Mir data set is to do. *)
From Coq Require Import List ZArith Bool Arith String.
From Verif Require Import Lib.Py Lib.Dict Model.MirMeta Spec.MirMetaSpec Model.MirSelect.
Import ListNotations.
Notation length := List.length.
Open Scope list_scope.
Open Scope Z_scope.

Definition val (t : table) (f : string) (i : nat) : Z := hd 0 (cell_at t f i).
Definition all_active (t : table) : Prop := forall i, (i < t_size t)%nat -> active t i.
Record linked (t : table) (key : list string) (fs : list string) : Prop := {
  li_table : table_ok t;
  li_key : t_key t = key;
  li_fields : incl fs (fields t) }.
Definition in_range (t : table) : Prop := forall i, (i < t_size t)%nat -> 0 <= val t "inhid" i < 4294967296.
Record parser_ok (p : parser) : Prop := {
  po_in : linked (p_in p) ["inhid"%string] ["inhid"; "ints"]%string;
  po_bl : linked (p_bl p) ["blhid"%string] ["blhid"; "inhid"; "iant1"; "iant2"]%string;
  po_sp : linked (p_sp p) ["sphid"%string] ["sphid"; "blhid"]%string;
  po_eng : linked (p_eng p) ["antenna"; "inhid"]%string ["antenna"; "inhid"]%string;
  po_we : linked (p_we p) ["ints"%string] ["ints"%string];
  po_ac : forall ac, p_ac p = Some ac -> linked ac ["achid"%string] ["antenna"; "inhid"]%string;
  po_files : p_cross p <> Some [];
  po_bl_range : in_range (p_bl p);
  po_eng_range : in_range (p_eng p);
  po_ac_range : forall ac, p_ac p = Some ac -> in_range ac }.

(** Which record belongs to which *)
Definition of_bl (p : parser) (s b : nat) : Prop := (b < t_size (p_bl p))%nat /\ val (p_bl p) "blhid" b = val (p_sp p) "blhid" s.
Definition of_in (p : parser) (b i : nat) : Prop := (i < t_size (p_in p))%nat /\ val (p_in p) "inhid" i = val (p_bl p) "inhid" b.
Definition of_ant (p : parser) (f : string) (b e : nat) : Prop :=
  (e < t_size (p_eng p))%nat /\ val (p_eng p) "antenna" e = val (p_bl p) f b /\ val (p_eng p) "inhid" e = val (p_bl p) "inhid" b.
Definition of_we (p : parser) (i w : nat) : Prop := (w < t_size (p_we p))%nat /\ val (p_we p) "ints" w = val (p_in p) "ints" i.
Definition of_eng (p : parser) (ac : table) (a e : nat) : Prop :=
  (e < t_size (p_eng p))%nat /\ val (p_eng p) "antenna" e = val ac "antenna" a /\ val (p_eng p) "inhid" e = val ac "inhid" a.
(** The file has data for the integration of a baseline. *)
Definition in_file (p : parser) (b : nat) : Prop :=
  match p_cross p with Some files => exists l, In l files /\ exists z, In z (cell_at (p_bl p) "inhid" b) /\ In z l | None => True end.

(** The same data set with other masks *)
Definition masked_from (t t' : table) : Prop := t' = with_mask t (t_mask t') /\ table_ok t'.
Record remasked (p p' : parser) : Prop := {
  rm_in : masked_from (p_in p) (p_in p');
  rm_bl : masked_from (p_bl p) (p_bl p');
  rm_sp : masked_from (p_sp p) (p_sp p');
  rm_eng : masked_from (p_eng p) (p_eng p');
  rm_we : masked_from (p_we p) (p_we p');
  rm_ac : match p_ac p, p_ac p' with Some a, Some a' => masked_from a a' | None, None => True | _, _ => False end;
  rm_cross : p_cross p' = p_cross p }.
(** A spectral record for which the predicates hold of it, of its baseline, of the integration,
    of the weather and of both antennas *)
Definition selected (p : parser) (Pin Pbl Psp Peng Pwe : nat -> Prop) (s : nat) : Prop :=
  Psp s /\ exists b, of_bl p s b /\ Pbl b /\ in_file p b /\
  (exists i, of_in p b i /\ Pin i /\ ((forall w, (w < t_size (p_we p))%nat -> Pwe w) \/ exists w, of_we p i w /\ Pwe w)) /\
  (exists e, of_ant p "iant1" b e /\ Peng e) /\ (exists e, of_ant p "iant2" b e /\ Peng e).
(** No active record belongs to an inactive one. *)
Record consistent (p : parser) : Prop := {
  co_sp : forall s, (s < t_size (p_sp p))%nat -> active (p_sp p) s -> exists b, of_bl p s b /\ active (p_bl p) b;
  co_bl_in : forall b, (b < t_size (p_bl p))%nat -> active (p_bl p) b -> exists i, of_in p b i /\ active (p_in p) i;
  co_bl_1 : forall b, (b < t_size (p_bl p))%nat -> active (p_bl p) b -> exists e, of_ant p "iant1" b e /\ active (p_eng p) e;
  co_bl_2 : forall b, (b < t_size (p_bl p))%nat -> active (p_bl p) b -> exists e, of_ant p "iant2" b e /\ active (p_eng p) e;
  co_in : forall i w, (i < t_size (p_in p))%nat -> active (p_in p) i -> of_we p i w -> exists w', of_we p i w' /\ active (p_we p) w';
  co_we : forall w, (w < t_size (p_we p))%nat -> active (p_we p) w -> exists i, (i < t_size (p_in p))%nat /\ of_we p i w /\ active (p_in p) i;
  co_ac : forall ac a, p_ac p = Some ac -> (a < t_size ac)%nat -> active ac a -> exists e, of_eng p ac a e /\ active (p_eng p) e }.

(** Conditions given, all of which are to hold *)
Definition asked (wa : option (list condition)) : list condition := match wa with Some ws => ws | None => [] end.
(** A record active already, unless masks are dropped first, that meets the conditions on fields
    of its table *)
Definition kept_by (reset : bool) (wa : option (list condition)) (t : table) (i : nat) : Prop :=
  (reset = true \/ active t i) /\ forall w, In w (asked wa) -> known t w -> holds t w i.
