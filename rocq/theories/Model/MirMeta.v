(** The metadata tables of Mir data sets: mir_meta_data.py, class MirMetaData.

    A table is a structured array: here a list of named columns.  A cell is a list of
    numbers, with one element for all fields but those of the weather table (and the like)
    that have one value per antenna.  Numbers are only compared and copied: they are written
    as integers, and so are strings.  MirMetaError is an exception class of its own.
    Index positions are not negative. *)
From Coq Require Import List ZArith Bool Arith String.
From Verif Require Import Lib.Py Lib.Np Lib.Dict Lib.Sorting.
Import ListNotations.
Notation length := List.length.
Open Scope list_scope.
Open Scope Z_scope.

(** mir_meta_data.py:505-516.  No other AssertionError is raised by what is modelled here. *)
Definition MirMetaError : exn := AssertionError.

Notation cell := (list Z).
(** mir_meta_data.py:568-594: the attributes _identifier, _data (its columns and its size),
    _mask, _header_key_index_dict and _stored_values *)
Record table := mkTable {
  t_key : list string;
  t_data : list (string * list cell);
  t_size : nat;
  t_mask : list bool;
  t_index : list (list Z * nat);
  t_stored : list (string * list cell) }.

(** self._data[field]: numpy raises ValueError for other names *)
Definition column (t : table) (f : string) : result (list cell) :=
  match dget String.eqb f (t_data t) with Ok c => Ok c | Err _ => Err ValueError end.

(** * where, mir_meta_data.py:996-1042 *)
Inductive comp := CEq | CNe | CLt | CLe | CGt | CGe | CBetween | COutside.
Inductive sel := One (x : Z) | Many (l : list Z).
(** mir_meta_data.py:1002-1022.  Comparing a list by < is broadcasting: not modelled. *)
Definition test (c : comp) (v : sel) : result (Z -> bool) :=
  match c, v with
  | CEq, One x => Ok (fun z => z =? x)
  | CNe, One x => Ok (fun z => negb (z =? x))
  | CLt, One x => Ok (fun z => z <? x)
  | CLe, One x => Ok (fun z => z <=? x)
  | CGt, One x => Ok (fun z => x <? z)
  | CGe, One x => Ok (fun z => x <=? z)
  | CEq, Many l => Ok (fun z => isinZ z l)
  | CNe, Many l => Ok (fun z => negb (isinZ z l))
  | CBetween, Many (a :: b :: _) => Ok (fun z => (a <=? z) && (z <=? b))
  | COutside, Many (a :: b :: _) => Ok (fun z => (z <? a) || (b <? z))
  | CBetween, Many _ | COutside, Many _ => Err IndexError
  | CBetween, One _ | COutside, One _ => Err TypeError
  | _, Many _ => Err Undefined
  end.
Definition condition : Type := string * comp * sel.
(** mir_meta_data.py:996-1042, with the any over the values of a cell (1029-1032) *)
Definition where_ (t : table) (w : condition) : result (list bool) :=
  let '(f, c, v) := w in
  match dget String.eqb f (t_data t) with
  | Err _ => Err MirMetaError
  | Ok col => do p <- test c v; Ok (map (existsb p) col)
  end.

(** * _index_query, mir_meta_data.py:1102-1183 *)
Inductive query := QAll | QWhere (ws : list condition) (both : bool) | QKeys (ks : list (list Z)) | QIndex (l : list nat).
Inductive index := Everything | Mask (m : list bool) | At (l : list nat).

Fixpoint zip_with (f : bool -> bool -> bool) (a b : list bool) : list bool :=
  match a, b with x :: a, y :: b => f x y :: zip_with f a b | _, _ => [] end.
(** mir_meta_data.py:1164-1174 *)
Fixpoint where_all (t : table) (both : bool) (ws : list condition) (m : list bool) (ok : bool) : result (list bool * bool) :=
  match ws with
  | [] => Ok (m, ok)
  | w :: ws =>
      match where_ t w with
      | Ok b => where_all t both ws (zip_with (if both then andb else orb) m b) true
      | Err AssertionError => where_all t both ws m ok
      | Err e => Err e
      end
  end.
Definition eqb_key (a b : list Z) : bool := (length a =? length b)%nat && forallb (fun p => fst p =? snd p) (combine a b).
Definition index_query (t : table) (use_mask : option bool) (q : query) : result index :=
  match q with
  | QAll => Ok (match use_mask with Some false => Everything | _ => Mask (t_mask t) end)
  | QIndex l => match use_mask with Some true => Err ValueError | _ => Ok (At l) end
  | QKeys ks =>
      match use_mask with
      | Some true => Err ValueError
      | _ => do l <- mapM (fun k => dget eqb_key k (t_index t)) ks; Ok (At l)
      end
  | QWhere [] _ => Err IndexError
  | QWhere ws both =>
      do r <- where_all t both ws (match use_mask with Some false => repeat both (t_size t) | _ => t_mask t end) false;
      if snd r then Ok (Mask (fst r)) else Err MirMetaError
  end.
(** The positions of an index in an array of this size *)
Definition positions (n : nat) (i : index) : result (list nat) :=
  match i with
  | Everything => Ok (seq 0 n)
  | Mask m => Ok (nonzero (fun b => b) m)
  | At l => if forallb (fun k => (k <? n)%nat) l then Ok l else Err IndexError
  end.

(** * get_value, set_value *)
(** mir_meta_data.py:1258-1275, for one field *)
Definition get_value (t : table) (f : string) (use_mask : option bool) (q : query) : result (list cell) :=
  do i <- index_query t use_mask q;
  do c <- column t f;
  do ps <- positions (t_size t) i;
  Ok (take [] c ps).
(** One value for all positions, or one for each of several *)
Inductive value := Same (c : cell) | Each (l : list cell).
Definition put (c : list cell) (ps : list nat) (v : value) : result (list cell) :=
  match v with
  | Same x => Ok (fold_left (fun c p => set_nth p x c) ps c)
  | Each xs => if (length xs =? length ps)%nat then Ok (fold_left (fun c px => set_nth (fst px) (snd px) c) (combine ps xs) c) else Err ValueError
  end.
(** mir_meta_data.py:1379-1388 *)
Definition set_value (t : table) (f : string) (v : value) (use_mask : option bool) (q : query) : result table :=
  do i <- index_query t use_mask q;
  do c <- column t f;
  do ps <- positions (t_size t) i;
  do c' <- put c ps v;
  Ok {| t_key := t_key t; t_data := dset String.eqb f c' (t_data t); t_size := t_size t; t_mask := t_mask t; t_index := t_index t;
        t_stored := if dmem String.eqb f (t_stored t) then t_stored t else dset String.eqb f c (t_stored t) |}.

(** * Masks *)
(** mir_meta_data.py:1456-1468, with inverse=False *)
Definition generate_mask (t : table) (q : query) : result (list bool) :=
  do i <- index_query t (Some false) q;
  do ps <- positions (t_size t) i;
  Ok (map (fun k => isinN k ps) (seq 0 (t_size t))).
(** mir_meta_data.py:1510-1511 *)
Definition get_mask (t : table) (q : query) : result (list bool) :=
  do i <- index_query t (Some false) q;
  do ps <- positions (t_size t) i;
  Ok (take false (t_mask t) ps).
Definition all_true (m : list bool) : bool := forallb (fun b => b) m.
(** temp_mask[self._mask] = mask, mir_meta_data.py:1583-1585 *)
Fixpoint scatter (mask m : list bool) : list bool :=
  match mask with
  | [] => []
  | true :: mask => match m with [] => false :: scatter mask [] | b :: m => b :: scatter mask m end
  | false :: mask => false :: scatter mask m
  end.
Definition with_mask (t : table) (m : list bool) : table :=
  {| t_key := t_key t; t_data := t_data t; t_size := t_size t; t_mask := m; t_index := t_index t; t_stored := t_stored t |}.
(** mir_meta_data.py:1575-1597; the boolean is what is returned *)
Definition set_mask (t : table) (mask : option (list bool)) (use_mask : bool) (q : query) (reset and_mask : bool) : result (bool * table) :=
  do m <- match mask with
          | None => generate_mask t q
          | Some m => if use_mask && negb (all_true (t_mask t))
                      then (if (length m =? length (filter (fun b => b) (t_mask t)))%nat then Ok (scatter (t_mask t) m) else Err ValueError)
                      else Ok m
          end;
  do m <- (if negb (reset || all_true (t_mask t))
           then (if (length m =? length (t_mask t))%nat then Ok (zip_with (if and_mask then andb else orb) (t_mask t) m) else Err ValueError)
           else Ok m);
  if list_eq_dec Bool.bool_dec (t_mask t) m then Ok (false, t) else Ok (true, with_mask t m).

(** * Header keys and groups *)
Definition scalar (c : cell) : Z := hd 0 c.
Fixpoint lex_leb (a b : list Z) : bool :=
  match a, b with
  | [], _ => true
  | _ :: _, [] => false
  | x :: a, y :: b => (x <? y) || (x =? y) && lex_leb a b
  end.
(** np.lexsort: by the last array, then by the one before, and so on *)
Definition lexsort (rows : list (list Z)) : list nat :=
  argsort_by (fun i j => lex_leb (rev (nth i rows [])) (rev (nth j rows []))) (length rows).
(** The values of some fields, in rows *)
Definition values (t : table) (fields : list string) (use_mask : option bool) (q : query) : result (list (list Z)) :=
  do cols <- mapM (fun f => get_value t f use_mask q) fields;
  do i <- index_query t use_mask q;
  do ps <- positions (t_size t) i;
  Ok (map (fun k => map (fun c => scalar (nth k c [])) cols) (seq 0 (length ps))).
(** mir_meta_data.py:1657-1665: the values of the fields of the (pseudo) header key *)
Definition get_header_keys (t : table) (use_mask : option bool) (q : query) : result (list (list Z)) :=
  values t (t_key t) use_mask q.
(** mir_meta_data.py:1846-1876: slices between the places where some value differs from the
    one before *)
Fixpoint runs {A} (l : list (list Z * A)) : list (list Z * list A) :=
  match l with
  | [] => []
  | (k, x) :: l =>
      match runs l with
      | (k', xs) :: r => if eqb_key k k' then (k, x :: xs) :: r else (k, [x]) :: (k', xs) :: r
      | [] => [(k, [x])]
      end
  end.
Definition sorted_rows (rows : list (list Z)) : list (list Z * nat) :=
  map (fun i => (nth i rows [], i)) (lexsort rows).
(** mir_meta_data.py:1812-1876, with return_index=True *)
Definition group_by (t : table) (fields : list string) (use_mask : option bool) (q : query) : result (list (list Z * list nat)) :=
  do rows <- values t fields use_mask q; Ok (runs (sorted_rows rows)).
(** mir_meta_data.py:1830-1833, with return_index=False: a list cannot be indexed by an array *)
Definition group_keys (t : table) (fields : list string) (use_mask : option bool) (q : query) : result (list (list Z * list (list Z))) :=
  do rows <- values t fields use_mask q;
  do keys <- get_header_keys t use_mask q;
  if (length rows =? 0)%nat then Ok []
  else if (length (t_key t) =? 1)%nat
  then Ok (map (fun g => (fst g, map (fun i => nth i keys []) (snd g))) (runs (sorted_rows rows)))
  else Err TypeError.
(** mir_meta_data.py:1667-1677, 1835-1839 *)
Definition set_index (t : table) : result table :=
  do rows <- values t (t_key t) (Some false) QAll;
  Ok {| t_key := t_key t; t_data := t_data t; t_size := t_size t; t_mask := t_mask t;
        t_index := dict_of eqb_key (sorted_rows rows); t_stored := t_stored t |}.

(** mir_meta_data.py:582-594, 2284-2285: a table as it is when read *)
Definition load (key : list string) (n : nat) (data : list (string * list cell)) : result table :=
  set_index {| t_key := key; t_data := data; t_size := n; t_mask := repeat true n; t_index := []; t_stored := [] |}.

(** * Going back *)
(** mir_meta_data.py:1896-1908 *)
Fixpoint put_back (t : table) (fs : list string) : result table :=
  match fs with
  | [] => Ok t
  | f :: fs =>
      do c <- dget String.eqb f (t_stored t);
      put_back {| t_key := t_key t; t_data := dset String.eqb f c (t_data t); t_size := t_size t; t_mask := t_mask t; t_index := t_index t;
                  t_stored := ddel String.eqb f (t_stored t) |} fs
  end.
Definition reset_values (t : table) (fs : option (list string)) : result table :=
  match fs with
  | None => put_back t (dkeys (t_stored t))
  | Some fs => if forallb (fun f => dmem String.eqb f (t_stored t)) fs then put_back t fs else Err ValueError
  end.
(** mir_meta_data.py:1918-1920 *)
Definition reset (t : table) : result table :=
  do t <- reset_values t None;
  do r <- set_mask t None true QAll true true;
  set_index (snd r).
