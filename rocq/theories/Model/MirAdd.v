(** Adding metadata tables of Mir data sets:
    MirMetaData.__add__ and _add_check, src/pyuvdata/uvdata/mir_meta_data.py. *)
From Coq Require Import List ZArith Bool Arith String.
From Verif Require Import Lib.Py Lib.Np Lib.Dict Lib.Sorting Model.MirMeta.
Import ListNotations.
Notation length := List.length.
Open Scope list_scope.
Open Scope Z_scope.

(** Dictionaries from header keys to positions *)
Notation dict := (list (list Z * nat)).
(** Equality of dictionaries, mir_meta_data.py:2086: the order does not count *)
Definition dict_eqb (a b : dict) : bool :=
  (length a =? length b)%nat && forallb (fun p => match dget eqb_key (fst p) b with Ok v => (v =? snd p)%nat | Err _ => false end) a.
(** mask[idx] = values *)
Definition assign (m : list bool) (idx : list nat) (vs : list bool) : list bool :=
  fold_left (fun m p => set_nth (fst p) (snd p) m) (combine idx vs) m.
(** mir_meta_data.py:2151-2152: drop the key from the other object if this one's record is
    good, and from this one if not *)
Fixpoint pop_masked (l : list (list Z * bool)) (d1 d2 : dict) : dict * dict :=
  match l with
  | [] => (d1, d2)
  | (k, good) :: l => if good then pop_masked l d1 (ddel eqb_key k d2) else pop_masked l (ddel eqb_key k d1) d2
  end.
(** mir_meta_data.py:2174-2186; each record: key, equal, mask of this object, mask of the other *)
Fixpoint pop_compared (l : list (list Z * (bool * (bool * bool)))) (d1 d2 : dict) : dict * dict :=
  match l with
  | [] => (d1, d2)
  | (k, (comp, (mask1, mask2))) :: l =>
      if comp || negb mask1 then pop_compared l (ddel eqb_key k d1) d2
      else if negb mask2 then pop_compared l d1 (ddel eqb_key k d2)
      else (d1, d2)
  end.
(** Whether two records are the same in all fields (elements of structured arrays) *)
Definition cell_eqb (a b : cell) : bool := if list_eq_dec Z.eq_dec a b then true else false.
Definition same_cells (t o : table) (i j : nat) : bool :=
  forallb (fun p => match dget String.eqb (fst p) (t_data o) with Ok c => cell_eqb (nth i (snd p) []) (nth j c []) | Err _ => false end) (t_data t).
Definition is_true (b : option bool) : bool := match b with Some true => true | _ => false end.
Definition is_false (b : option bool) : bool := match b with Some false => true | _ => false end.

(** mir_meta_data.py:2072-2199 *)
Definition add_check (t o : table) (merge overwrite : option bool) (discard : bool) : result (list nat * list nat * list bool * list bool) :=
  if is_true merge && discard then Err ValueError else
  let same := dict_eqb (t_index t) (t_index o) in
  if is_true merge && negb same then Err ValueError else
  let drop := discard && negb (all_true (t_mask t) && all_true (t_mask o)) in
  let same := same && negb drop in
  do ds <- (if drop
            then if forallb (fun p => (snd p <? length (t_mask t))%nat) (t_index o)
                 then Ok (filter (fun p => nth (snd p) (t_mask t) false) (t_index t), filter (fun p => nth (snd p) (t_mask t) false) (t_index o))
                 else Err IndexError
            else Ok (t_index t, t_index o));
  let (d1, d2) := (ds : dict * dict) in
  let overlap := if same then dkeys d1 else filter (fun k => dmem eqb_key k d2) (dkeys d1) in
  if negb (length overlap =? 0)%nat && is_false merge then Err MirMetaError else
  do idx1 <- mapM (fun k => dget eqb_key k d1) overlap;
  do idx2 <- mapM (fun k => dget eqb_key k d2) overlap;
  let this_mask := assign (t_mask t) idx1 (zip_with orb (take false (t_mask t) idx1) (take false (t_mask o) idx2)) in
  let other_mask := assign (t_mask o) idx2 (take false this_mask idx1) in
  let final :=
    if (length overlap =? 0)%nat then (d1, d2)
    else if is_true overwrite then pop_masked (map (fun k => (k, false)) overlap) d1 d2
    else
      let arr1 := if same then seq 0 (t_size t) else idx1 in
      let arr2 := if same then seq 0 (t_size o) else idx2 in
      let mask1 := take false (t_mask t) arr1 in
      let mask2 := take false (t_mask o) arr2 in
      if negb (is_false overwrite) && negb (existsb (fun b => b) (zip_with andb mask1 mask2)) then pop_masked (combine overlap mask1) d1 d2
      else
        let comp := map (fun p => same_cells t o (fst p) (snd p)) (combine arr1 arr2) in
        if all_true comp then pop_masked (map (fun k => (k, false)) overlap) d1 d2
        else if is_false overwrite then (d1, d2)
        else pop_compared (combine overlap (combine comp (combine mask1 mask2))) d1 d2 in
  if negb (length d1 + length d2 =? length (fst final) + length (snd final) + length overlap)%nat then Err MirMetaError
  else
    let this_idx := isort Nat.leb (map snd (fst final)) in
    let other_idx := isort Nat.leb (map snd (snd final)) in
    Ok (this_idx, other_idx, take false this_mask this_idx, take false other_mask other_idx).

(** mir_meta_data.py:823-853, for two tables with data and of the same type (same fields) *)
Definition add (t o : table) (merge overwrite : option bool) (discard : bool) : result table :=
  do r <- add_check t o merge overwrite discard;
  let '(this_idx, other_idx, mask1, mask2) := r in
  do cols <- mapM (fun p => do c <- dget String.eqb (fst p) (t_data o); Ok (fst p, take [] (snd p) this_idx ++ take [] c other_idx)) (t_data t);
  set_index {| t_key := t_key t; t_data := cols; t_size := (length this_idx + length other_idx)%nat; t_mask := mask1 ++ mask2; t_index := []; t_stored := [] |}.
