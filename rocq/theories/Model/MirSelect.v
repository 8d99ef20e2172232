(** Selecting records of a Mir data set: MirParser.select and _update_filter,
    src/pyuvdata/uvdata/mir_parser.py, and MirMetaData._make_key_mask. *)
From Coq Require Import List ZArith Bool Arith String.
From Verif Require Import Lib.Py Lib.Np Lib.Dict Model.MirMeta.
Import ListNotations.
Notation length := List.length.
Open Scope list_scope.
Open Scope Z_scope.

(** The tables of a data set that are linked: integrations, baselines, spectral windows,
    antennas (eng_data), weather and, if there are autocorrelations, ac_data; and, if there are
    visibilities, the integrations in each file (_file_dict[...]["cross"]["int_dict"]) *)
Record parser := mkParser {
  p_in : table; p_bl : table; p_sp : table; p_eng : table; p_we : table;
  p_ac : option table; p_cross : option (list (list Z)) }.

(** * _make_key_mask *)
(** mir_meta_data.py:2675-2691: two fields are joined to one number by a shift.  Numbers are not
    negative, and the first is small: conversions to unsigned do not change them. *)
Definition cipher (fs : list string) (r : list Z) : list Z :=
  if (length fs =? 2)%nat then match r with [a; b] => [a * 4294967296 + b] | _ => r end else r.
(** mir_meta_data.py:2652-2703, with set_mask=False and use_mask=True *)
Definition key_mask (this other : table) (reverse : bool) (check : list string) : result (list bool) :=
  do v1 <- values this (if reverse then check else t_key this) (Some true) QAll;
  do v2 <- values other (if reverse then t_key other else check) (Some true) QAll;
  let v2 := map (cipher check) v2 in
  Ok (map (fun r => existsb (eqb_key (cipher check r)) v2) v1).
(** self.set_mask(mask=mask) *)
Definition narrow (t : table) (m : list bool) : result table :=
  do r <- set_mask t (Some m) true QAll false true; Ok (snd r).
(** mir_meta_data.py:2705 *)
Definition narrow_by (this other : table) (reverse : bool) (check : list string) : result table :=
  do m <- key_mask this other reverse check; narrow this m.

Definition ant1 : list string := ["iant1"; "inhid"]%string.
Definition ant2 : list string := ["iant2"; "inhid"]%string.
(** * _update_filter, mir_parser.py:1850-1923.  The data arrays are not modelled. *)
Definition update_filter (p : parser) : result parser :=
  do bl0 <- match p_cross p with
            | Some files => do r <- set_mask (p_bl p) None true (QWhere (map (fun l => ("inhid"%string, CEq, Many l)) files) false) false true; Ok (snd r)
            | None => Ok (p_bl p)
            end;
  do bl1 <- (if all_true (t_mask (p_sp p)) then Ok bl0 else narrow_by bl0 (p_sp p) false (t_key bl0));
  do eng1 <- (if (match p_ac p with Some _ => true | None => false end) || negb (all_true (t_mask bl1)) then
                do m1 <- key_mask (p_eng p) bl1 false ant1;
                do m2 <- key_mask (p_eng p) bl1 false ant2;
                do m <- match p_ac p with
                        | Some ac => do m3 <- key_mask (p_eng p) ac false (t_key (p_eng p)); Ok (zip_with orb (zip_with orb m1 m2) m3)
                        | None => Ok (zip_with orb m1 m2)
                        end;
                narrow (p_eng p) m
              else Ok (p_eng p));
  do in1 <- (if all_true (t_mask eng1) then Ok (p_in p) else narrow_by (p_in p) eng1 false (t_key (p_in p)));
  do in2 <- (if all_true (t_mask (p_we p)) then Ok in1 else narrow_by in1 (p_we p) true (t_key (p_we p)));
  do we1 <- narrow_by (p_we p) in2 false (t_key (p_we p));
  do bl2 <- narrow_by bl1 in2 true (t_key in2);
  do m1 <- key_mask bl2 eng1 true ant1;
  do m2 <- key_mask bl2 eng1 true ant2;
  do bl3 <- narrow bl2 (zip_with andb m1 m2);
  do sp1 <- narrow_by (p_sp p) bl3 true (t_key bl3);
  do ac1 <- match p_ac p with Some ac => do a <- narrow_by ac eng1 true (t_key eng1); Ok (Some a) | None => Ok None end;
  Ok {| p_in := in2; p_bl := bl3; p_sp := sp1; p_eng := eng1; p_we := we1; p_ac := ac1; p_cross := p_cross p |}.

(** * select, mir_parser.py:3168-3213.  Aliases and codes (names of sources and so on) are not
    modelled: conditions are on the fields of the tables. *)
(** mir_parser.py:3195-3204 *)
Definition search (t : table) (q : query) : result (option (list bool)) :=
  match generate_mask t q with Ok m => Ok (Some m) | Err AssertionError => Ok None | Err e => Err e end.
(** mir_parser.py:3206-3209 *)
Definition put_mask (t : table) (m : option (list bool)) (reset and_mask : bool) : result table :=
  do r <- set_mask t m false QAll reset and_mask; Ok (snd r).
Definition select (p : parser) (where_args : option (list condition)) (and_where_args and_mask reset : bool) : result parser :=
  let q := match where_args with Some ws => QWhere ws and_where_args | None => QAll end in
  do m_in <- search (p_in p) q;
  do m_bl <- search (p_bl p) q;
  do m_sp <- search (p_sp p) q;
  do m_eng <- search (p_eng p) q;
  do m_we <- search (p_we p) q;
  do m_ac <- match p_ac p with Some ac => search ac q | None => Ok None end;
  do t_in <- put_mask (p_in p) m_in reset and_mask;
  do t_bl <- put_mask (p_bl p) m_bl reset and_mask;
  do t_sp <- put_mask (p_sp p) m_sp reset and_mask;
  do t_eng <- put_mask (p_eng p) m_eng reset and_mask;
  do t_we <- put_mask (p_we p) m_we reset and_mask;
  do t_ac <- match p_ac p with Some ac => do a <- put_mask ac m_ac reset and_mask; Ok (Some a) | None => Ok None end;
  update_filter {| p_in := t_in; p_bl := t_bl; p_sp := t_sp; p_eng := t_eng; p_we := t_we; p_ac := t_ac; p_cross := p_cross p |}.
