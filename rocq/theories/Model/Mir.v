(** Mir files: /repo/src/pyuvdata/uvdata/mir_parser.py and mir_meta_data.py.
    Bytes are integers below 256.  Spectral records of the current format
    (little-endian, no padding); floats of the auto-correlations are their bit
    patterns.  Warnings, masks, channel averaging, COMPASS solutions and objects
    that combine several files are not modelled. *)
From Coq Require Import List ZArith Bool Arith.
From Verif Require Import Lib.Py Lib.Np Lib.Dict Model.Hdf5.
Import ListNotations.
Open Scope Z_scope.
Open Scope list_scope.

(** Little-endian integers of [n] bytes; reading gives a signed number. *)
Fixpoint enc (n : nat) (z : Z) : list Z :=
  match n with O => [] | S n => z mod 256 :: enc n (z / 256) end.
Fixpoint dec_u (l : list Z) : Z := match l with [] => 0 | b :: t => b + 256 * dec_u t end.
Definition dec (l : list Z) : Z :=
  let u := dec_u l in
  let h := 256 ^ Z.of_nat (length l) in
  if 2 * u <? h then u else u - h.
(** [.view(dtype)] of [k] values *)
Fixpoint view (vs k : nat) (l : list Z) : list Z :=
  match k with O => [] | S k => dec (firstn vs l) :: view vs k (skipn vs l) end.

(** An entry of the spectral metadata: integration, header key, number of channels *)
Record spec := mkSpec { s_inhid : Z; s_hid : Z; s_nch : nat }.
Definition spec0 : spec := mkSpec 0 0 0.
(** mir_meta_data.py:36-57, mir_parser.py:1275-1282, 1342-1349: bytes per value, values
    per channel, common exponent *)
Record fmt := mkFmt { val_size : nat; data_nvals : nat; scaled : bool }.
Definition cross : fmt := mkFmt 2 2 true.
Definition auto_ : fmt := mkFmt 4 1 false.
Definition header_size : nat := 8.

(** mir_meta_data.py:2376-2417, in values instead of bytes *)
Definition rec_size (f : fmt) (s : spec) : nat := (if scaled f then 1 else 0) + data_nvals f * s_nch s.

(** mir_meta_data.py:1747-1875 with group_fields="inhid", return_index=True: the
    stable sort groups the positions in increasing order of inhid *)
Definition group_by (recs : list spec) : list (Z * list nat) :=
  map (fun h => (h, nonzero (fun s => s_inhid s =? h) recs)) (uniqueZ (map s_inhid recs)).

(** [np.cumsum(l)], from [a] *)
Fixpoint cumsum (a : nat) (l : list nat) : list nat := match l with [] => [] | n :: t => (a + n)%nat :: cumsum (a + n) t end.
Definition minus_each (l m : list nat) : list nat := map (fun p => (fst p - snd p)%nat) (combine l m).
(** [a[idx] = vals] *)
Definition scatter (idx vals a : list nat) : list nat := fold_left (fun a p => set_nth (fst p) (snd p) a) (combine idx vals) a.

(** mir_meta_data.py:2419-2470: offsets in bytes *)
Definition recalc_dataoff (f : fmt) (recs : list spec) : list nat :=
  let sizes := map (fun s => (val_size f * rec_size f s)%nat) recs in
  fold_left (fun a g => let t := take 0%nat sizes (snd g) in scatter (snd g) (minus_each (cumsum 0 t) t) a)
            (group_by recs) (map (fun _ => 0%nat) recs).

(** int_dict: header key on disk, size and start in bytes; recpos_dict: start and end in
    values *)
Record ipos := mkI { i_inhid : Z; i_size : nat; i_start : nat }.
Definition idict := list (Z * ipos).
Definition rdict := list (Z * list (Z * (nat * nat))).

(** mir_meta_data.py:2551-2596; [off] is None for reindex=True *)
Fixpoint place (f : fmt) (recs : list spec) (off : option (list nat)) (gs : list (Z * list nat)) (start : nat)
  : result (idict * rdict) :=
  match gs with
  | [] => Ok ([], [])
  | (h, idx) :: gs =>
      let g := take spec0 recs idx in
      let sizes := map (rec_size f) g in
      let '(sidx, eidx) :=
        match off with
        | None => let e := cumsum 0 sizes in (minus_each e sizes, e)
        | Some off =>
            let s := map (fun o => (o / val_size f)%nat) (take 0%nat off idx) in
            (s, map (fun p => (fst p + snd p)%nat) (combine s sizes))
        end in
      let size := (list_max eidx * val_size f)%nat in
      if (size =? 0)%nat then Err AssertionError
      else
        do r <- place f recs off gs (start + (size + header_size));
        Ok ((h, mkI h size start) :: fst r, (h, combine (map s_hid g) (combine sidx eidx)) :: snd r)
  end.
(** mir_meta_data.py:2472-2597 *)
Definition generate_recpos (f : fmt) (recs : list spec) (off : option (list nat)) : result (idict * rdict) :=
  place f recs off (group_by recs) 0.

(** raw_data, auto_data: scale factor (unused for autos) and values by header key *)
Definition rdata := list (Z * (Z * list Z)).

(** [l[a:b] = v], for a slice within [l] *)
Definition put_slice {A} (l : list A) (a b : nat) (v : list A) : result (list A) :=
  if (length v =? b - a)%nat then Ok (firstn a l ++ v ++ skipn b l)
  else match v with [x] => Ok (firstn a l ++ repeat x (b - a) ++ skipn b l) | _ => Err ValueError end.

(** mir_parser.py:916-930, one spectral record *)
Definition pack_one (f : fmt) (data : rdata) (p : list Z) (r : Z * (nat * nat)) : result (list Z) :=
  let '(hid, (s, e)) := r in
  do d <- dget Z.eqb hid data;
  if scaled f then put_slice (set_nth s (fst d) p) (s + 1) e (snd d) else put_slice p s e (snd d).
(** mir_parser.py:903-930: one integration; [junk] is what np.empty contains *)
Definition make_packdata (f : fmt) (junk : nat -> Z) (data : rdata) (i : ipos) (rp : list (Z * (nat * nat))) : result (list Z) :=
  do p <- foldM (pack_one f data) rp (map junk (seq 0 (i_size i / val_size f)));
  Ok (enc 4 (i_inhid i) ++ enc 4 (Z.of_nat (i_size i)) ++ flat_map (enc (val_size f)) p).

(** mir_parser.py:1275-1302, 1342-1362: what is written to the file *)
Definition write_data (f : fmt) (junk : nat -> Z) (recs : list spec) (data : rdata) : result (list Z) :=
  do g <- generate_recpos f recs None;
  do blocks <- mapM (fun e => do rp <- dget Z.eqb (fst e) (snd g); make_packdata f junk data (snd e) rp) (fst g);
  Ok (List.concat blocks).

(** mir_parser.py:683-747: consecutive integrations of one size are read together *)
Record batch := mkB { b_keys : list Z; b_size : nat; b_del : Z; b_start : nat }.
Record bstate := mkBS { keys_in : list Z; last_off : nat; last_size : nat; del_off : Z; done : list batch }.
Definition batch_step (ints : idict) (s : bstate) (key : option Z) : bstate :=
  match match key with None => Some (0%nat, 0%nat) | Some k => match dget Z.eqb k ints with Ok i => Some (i_size i, i_start i) | Err _ => None end end with
  | None => s
  | Some (size, start) =>
      let num := length (keys_in s) in
      let add := match key with Some k => [k] | None => [] end in
      if negb (size =? last_size s)%nat || negb (last_off s + (header_size + last_size s) * num =? start)%nat then
        mkBS add start size (Z.of_nat start - Z.of_nat (last_off s + num * last_size s))
             (if negb (num =? 0)%nat && negb (last_size s =? 0)%nat
              then done s ++ [mkB (keys_in s) (last_size s) (del_off s) (last_off s)] else done s)
      else mkBS (keys_in s ++ add) (last_off s) (last_size s) (del_off s) (done s)
  end.
Definition batches (ints : idict) (keys : list Z) : list batch :=
  done (fold_left (batch_step ints) (map Some keys ++ [None]) (mkBS [] 0 0 0 [])).

Definition at_ (file : list Z) (off n : nat) : list Z := firstn n (skipn off file).
(** mir_parser.py:748-773: np.memmap needs all the bytes *)
Definition read_mmap (file : list Z) (b : batch) : result (list (Z * list Z)) :=
  let n := (header_size + b_size b)%nat in
  if (b_start b + n * length (b_keys b) <=? length file)%nat
  then Ok (combine (b_keys b) (map (fun k => at_ file (b_start b + n * k) n) (seq 0 (length (b_keys b)))))
  else Err ValueError.
(** mir_parser.py:774-795: np.fromfile reads as many records as there are *)
Fixpoint read_file (file : list Z) (pos : Z) (bs : list batch) : result (list (Z * list Z)) :=
  match bs with
  | [] => Ok []
  | b :: bs =>
      let n := (header_size + b_size b)%nat in
      let p := pos + b_del b in
      if p <? 0 then Err ValueError
      else
        let k := Nat.min (length (b_keys b)) ((length file - Z.to_nat p) / n) in
        do r <- read_file file (p + Z.of_nat (n * k)) bs;
        Ok (combine (b_keys b) (map (fun j => at_ file (Z.to_nat p + n * j) n) (seq 0 k)) ++ r)
  end.

Definition head_id (b : list Z) : Z := dec (firstn 4 b).
Definition head_size (b : list Z) : Z := dec (firstn 4 (skipn 4 b)).
(** mir_parser.py:797-815: the headers are those expected *)
Definition headers_good (ints : idict) (r : list (Z * list Z)) : bool :=
  forallb (fun e => match dget Z.eqb (fst e) ints with
                    | Ok i => (i_inhid i =? head_id (snd e)) && (Z.of_nat (i_size i) =? head_size (snd e))
                    | Err _ => true
                    end) r.
(** mir_parser.py:619-829: the records, and whether their headers are good *)
Definition read_packdata (mmap : bool) (file : list Z) (ints : idict) (keys : list Z) : result (list (Z * list Z) * bool) :=
  do r <- if mmap then rmap (@List.concat _) (mapM (read_mmap file) (batches ints keys)) else read_file file 0 (batches ints keys);
  Ok (r, headers_good ints r).

(** mir_parser.py:443-562 without old_int_dict: every record by its header.  None: a
    negative size, MirPackdataError. *)
Fixpoint scan (fuel : nat) (file : list Z) (start : nat) (d : idict) : option idict :=
  match fuel with
  | O => Some d
  | S fuel =>
      if (start <? length file - header_size)%nat then
        let h := at_ file start header_size in
        let size := head_size h in
        if size <? 0 then None
        else
          let stop := (start + header_size + Z.to_nat size)%nat in
          scan fuel file stop
            (if (stop <=? length file)%nat then dset Z.eqb (head_id h) (mkI (head_id h) (Z.to_nat size) start) d else d)
      else Some d
  end.
(** The same with old_int_dict: the entries confirmed by the file *)
Definition confirm (file : list Z) (ints : idict) : idict :=
  flat_map (fun e =>
    let i := snd e in
    let h := at_ file (i_start i) header_size in
    if (i_start i <? length file - header_size)%nat && (Z.of_nat (i_size i) =? head_size h) && (i_inhid i =? head_id h) &&
       (i_start i + header_size + i_size i <=? length file)%nat
    then [(i_inhid i, i)] else []) ints.
(** mir_parser.py:564-617 *)
Definition fix_int_dict (file : list Z) (ints : idict) : idict :=
  let found := match scan (length file) file 0 [] with Some d => d | None => confirm file ints end in
  flat_map (fun e => match dget Z.eqb (i_inhid (snd e)) found with Ok i => [(fst e, i)] | Err _ => [] end) ints.

(** mir_parser.py:1190-1207: one spectral record out of an integration *)
Definition cut (f : fmt) (p : list Z) (r : nat * nat) : result (Z * list Z) :=
  let '(s, e) := r in
  if scaled f then
    match nth_error p s with
    | Some x => Ok (x, firstn (e - (s + 1)) (skipn (s + 1) p))
    | None => Err IndexError
    end
  else Ok (0, firstn (e - s) (skipn s p)).

(** mir_parser.py:1056-1224 with scale_data=False: the records [sel] of a file with
    metadata [recs], [off] *)
Definition read_data (f : fmt) (mmap : bool) (file : list Z) (recs : list spec) (off : list nat) (sel : list spec) : result rdata :=
  do g <- generate_recpos f recs (Some off);
  let keys := map fst (group_by sel) in
  do r <- read_packdata mmap file (fst g) keys;
  do packs <-
    if snd r then (if forallb (fun k => dmem Z.eqb k (fst g)) keys then Ok (fst r) else Err ValueError)
    else rmap fst (read_packdata mmap file (fix_int_dict file (fst g)) keys);
  rmap (@List.concat _) (mapM (fun e =>
    do b <- dget Z.eqb (fst e) packs;
    let body := skipn header_size b in
    let p := view (val_size f) (length body / val_size f) body in
    mapM (fun s => do rp <- dget Z.eqb (fst e) (snd g); do x <- dget Z.eqb (s_hid s) rp; do y <- cut f p x; Ok (s_hid s, y))
         (take spec0 sel (snd e))) (group_by sel)).
