(** Averaging along the frequency axis: UVData.frequency_average,
    /repo/src/pyuvdata/uvdata/uvdata.py:8212-8522.  Floats are exact rationals.
    Warnings and eq_coeffs_convention are not modelled. *)
From Coq Require Import List ZArith QArith Qcanon Bool Arith.
From Verif Require Import Lib.Py Lib.Np Lib.Cube Lib.QSum.
Import ListNotations.
Open Scope Qc_scope.

Definition cqc := (Qc * Qc)%type.

Record favg := mkFavg {
  fa_nblts : nat; fa_npols : nat;
  fa_freq : list Qc; fa_width : list Qc; fa_flex : list Z; fa_spws : list Z;
  fa_data : cube cqc; fa_flag : cube bool; fa_ns : cube Qc;
  fa_eq : option (nat -> nat -> Qc) (* Nants, Nfreqs *) }.

Definition csum (l : list cqc) : cqc := (qsum (map fst l), qsum (map snd l)).
Definition cscale (w : Qc) (c : cqc) : cqc := (w * fst c, w * snd c).
(** Division of masked arrays: where the divisor is 0 the numerator is kept
    (numpy.ma core, _DomainedOperation). *)
Definition cdiv (c : cqc) (w : Qc) : cqc := if Qc_eq_dec w 0 then c else (fst c / w, snd c / w).

(** uvdata.py:8344, 8355-8359: [inds[0 : nreg * n].reshape((nreg, n))] *)
Fixpoint chunks (n nreg : nat) (inds : list nat) : list (list nat) :=
  match nreg with
  | O => []
  | S r => firstn n inds :: chunks n r (skipn n inds)
  end.

(** uvdata.py:8335-8352: the input channels of each regular output channel of a
    window, and those of its ragged one *)
Definition regular_bins (n : nat) (these_inds : list nat) : list (list nat) :=
  chunks n (length these_inds / n) these_inds.
Definition ragged_bin (n : nat) (keep_ragged : bool) (these_inds : list nat) : option (list nat) :=
  if (length these_inds mod n =? 0)%nat || negb keep_ragged then None
  else Some (skipn (length these_inds / n * n) these_inds).

(** uvdata.py:8395-8413 *)
Definition final_flag (propagate_flags : bool) (flag : cube bool) (bin : list nat) (i k : nat) : bool :=
  if propagate_flags then existsb (fun j => flag i j k) bin else forallb (fun j => flag i j k) bin.

(** uvdata.py:8421-8436.  [reg_mask] is indexed by the position [m] of a channel
    inside the window, but with the number [this_chan] of the output channel
    over all windows, [off] of which precede this window.  So the entries of
    position [m] are cleared because of the output channel [m - off] of this window. *)
Definition cleared (propagate_flags : bool) (flag : cube bool) (off : nat) (bins : list (list nat)) (m i k : nat) : bool :=
  (off <=? m)%nat && final_flag propagate_flags flag (nth (m - off) bins []) i k
  && forallb (fun j => flag i j k) (nth m bins []).
(** An out of range [this_chan] raises IndexError. *)
Definition clearing_fails (propagate_flags : bool) (flag : cube bool) (off : nat) (bins : list (list nat)) (nblts npols : nat) : bool :=
  existsb (fun c => (length bins <=? off + c)%nat &&
    existsb (fun i => existsb (fun k => final_flag propagate_flags flag (nth c bins []) i k) (seq 0 npols)) (seq 0 nblts))
    (seq 0 (length bins)).

(** The members of a bin that are not masked. *)
Definition unmasked (flag : cube bool) (clear : bool) (bin : list nat) (i k : nat) : list nat :=
  filter (fun j => negb (flag i j k && negb clear)) bin.

(** uvdata.py:8475-8494 *)
Definition avg_data (summing : bool) (o : favg) (used : list nat) (i k : nat) : cqc :=
  if summing then csum (map (fun j => fa_data o i j k) used)
  else cdiv (csum (map (fun j => cscale (fa_ns o i j k) (fa_data o i j k)) used))
            (qsum (map (fun j => fa_ns o i j k) used)).
(** uvdata.py:8501-8507 *)
Definition avg_ns (o : favg) (bin used : list nat) (i k : nat) : Qc :=
  qsum (map (fun j => fa_ns o i j k) used) / qnat (length bin).

(** One output channel. *)
Record outchan := mkOut {
  oc_freq : Qc; oc_width : Qc; oc_spw : Z; oc_eq : option (nat -> Qc);
  oc_flag : nat -> nat -> bool; oc_data : nat -> nat -> cqc; oc_ns : nat -> nat -> Qc }.

Definition make_out (summing propagate_flags : bool) (o : favg) (spw : Z) (bin : list nat)
    (clear : nat -> nat -> bool) : outchan :=
  {| oc_freq := qmean (take 0 (fa_freq o) bin);
     oc_width := qsum (take 0 (fa_width o) bin);
     oc_spw := spw;
     oc_eq := match fa_eq o with None => None | Some e => Some (fun a => qmean (map (e a) bin)) end;
     oc_flag := final_flag propagate_flags (fa_flag o) bin;
     oc_data := fun i k => avg_data summing o (unmasked (fa_flag o) (clear i k) bin i k) i k;
     oc_ns := fun i k => avg_ns o bin (unmasked (fa_flag o) (clear i k) bin i k) i k |}.

(** uvdata.py:8327-8507, one window; [off] output channels precede it *)
Definition average_window (n : nat) (summing propagate_flags keep_ragged : bool) (o : favg) (off : nat) (spw : Z)
    : result (list outchan) :=
  let these_inds := nonzero (Z.eqb spw) (fa_flex o) in
  let bins := regular_bins n these_inds in
  if clearing_fails propagate_flags (fa_flag o) off bins (fa_nblts o) (fa_npols o) then Err IndexError
  else
    let regular := map (fun m => make_out summing propagate_flags o spw (nth m bins [])
                                   (cleared propagate_flags (fa_flag o) off bins m)) (seq 0 (length bins)) in
    let ragged := match ragged_bin n keep_ragged these_inds with
                  | None => []
                  | Some bin => (* uvdata.py:8437-8443 *)
                      [make_out summing propagate_flags o spw bin
                        (fun i k => final_flag propagate_flags (fa_flag o) bin i k && forallb (fun j => fa_flag o i j k) bin)]
                  end in
    Ok (regular ++ ragged).

Fixpoint average_windows (n : nat) (summing propagate_flags keep_ragged : bool) (o : favg) (off : nat) (spws : list Z)
    : result (list outchan) :=
  match spws with
  | [] => Ok []
  | spw :: spws =>
      do here <- average_window n summing propagate_flags keep_ragged o off spw;
      do rest <- average_windows n summing propagate_flags keep_ragged o (off + length here) spws;
      Ok (here ++ rest)
  end.

Definition out0 : outchan := mkOut 0 0 0%Z None (fun _ _ => false) (fun _ _ => (0, 0)) (fun _ _ => 0).

(** uvdata.py:8258-8263 *)
Definition merge_windows (respect_spws : bool) (o : favg) : favg :=
  if (1 <? length (fa_spws o))%nat && negb respect_spws
  then {| fa_nblts := fa_nblts o; fa_npols := fa_npols o; fa_freq := fa_freq o; fa_width := fa_width o;
          fa_flex := repeat 0%Z (length (fa_freq o)); fa_spws := [0%Z];
          fa_data := fa_data o; fa_flag := fa_flag o; fa_ns := fa_ns o; fa_eq := fa_eq o |}
  else o.

(** uvdata.py:8212-8522.  The output arrays are filled window by window at
    consecutive positions (uvdata.py:8304-8307), that is, concatenated; the
    window numbers in spw_array are taken to be distinct (they are used as
    dictionary keys).  [n_chan_to_avg = 0] fails in numpy's int(inf). *)
Definition frequency_average (n : nat) (summing propagate_flags respect_spws keep_ragged : bool) (o : favg) : result favg :=
  let o := merge_windows respect_spws o in
  if (n =? 0)%nat then Err ZeroDivisionError
  else
    do outs <- average_windows n summing propagate_flags keep_ragged o 0 (fa_spws o);
    Ok {| fa_nblts := fa_nblts o; fa_npols := fa_npols o;
          fa_freq := map oc_freq outs; fa_width := map oc_width outs;
          fa_flex := map oc_spw outs; fa_spws := fa_spws o;
          fa_data := fun i c k => oc_data (nth c outs out0) i k;
          fa_flag := fun i c k => oc_flag (nth c outs out0) i k;
          fa_ns := fun i c k => oc_ns (nth c outs out0) i k;
          fa_eq := match fa_eq o with
                   | None => None
                   | Some _ => Some (fun a c => match oc_eq (nth c outs out0) with Some e => e a | None => 0 end)
                   end |}.
