(** Filling in the antennas of a telescope from the table of a known telescope:
    Telescope.update_params_from_known_telescopes, /repo/src/pyuvdata/telescopes.py:577-659, for a
    telescope whose entry names a file of antenna positions. Names, numbers and positions are
    integers. Not modelled: location, diameters, x_orientation, warnings and the check. *)
From Coq Require Import List ZArith Bool Arith.
From Verif Require Import Lib.Py Lib.Np.
Import ListNotations.
Notation length := List.length.
Open Scope list_scope.
Open Scope Z_scope.

(** ant_info *)
Record table := { k_names : list Z; k_nums : list Z; k_pos : list Z }.
(** The antenna parameters of the object, None if missing *)
Record ants := { a_n : option nat; a_names : option (list Z); a_nums : option (list Z); a_pos : option (list Z) }.

Definition missing {A} (x : option A) : bool := match x with None => true | Some _ => false end.

(** telescopes.py:609-616: ant_inds and telescope_ant_inds, as pairs *)
Definition match_names (t : table) (names : list Z) : list (nat * nat) :=
  fold_left (fun acc index => match index_of Z.eqb (nth index names 0) (k_names t) with Some i => acc ++ [(index, i)] | None => acc end)
    (seq 0 (length names)) [].

(** telescopes.py:617-635 *)
Definition match_nums (t : table) (nums : list Z) (found : list (nat * nat)) : list (nat * nat) :=
  fold_left (fun acc index =>
      if isinN index (map fst acc) then acc
      else match index_of Z.eqb (nth index nums 0) (k_nums t) with
           | Some i => if isinN i (map snd acc) then acc else acc ++ [(index, i)]
           | None => acc
           end)
    (seq 0 (length nums)) found.

Definition matches (t : table) (a : ants) : list (nat * nat) :=
  let found := match a_names a with Some names => match_names t names | None => [] end in
  match a_nums a with
  | Some nums => if match a_n a with Some n => negb (length found =? n)%nat | None => true end then match_nums t nums found else found
  | None => found
  end.

(** telescopes.py:577-659 *)
Definition update_ants (overwrite : bool) (t : table) (a : ants) : ants :=
  if overwrite || missing (a_names a) || missing (a_nums a) || missing (a_pos a) || missing (a_n a) then
    if overwrite || (missing (a_n a) && missing (a_names a) && missing (a_nums a) && missing (a_pos a)) then
      {| a_n := Some (length (k_names t)); a_names := Some (k_names t); a_nums := Some (k_nums t); a_pos := Some (k_pos t) |}
    else if negb (missing (a_names a)) || negb (missing (a_nums a)) then
      let inds := map snd (matches t a) in
      if match a_n a with Some n => negb (length inds =? n)%nat | None => true end then a
      else {| a_n := a_n a;
              a_names := match a_names a with Some x => Some x | None => Some (take 0 (k_names t) inds) end;
              a_nums := match a_nums a with Some x => Some x | None => Some (take 0 (k_nums t) inds) end;
              a_pos := match a_pos a with Some x => Some x | None => Some (take 0 (k_pos t) inds) end |}
    else a
  else a.
