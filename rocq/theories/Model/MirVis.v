(** Scaled integers of Mir files: /repo/src/pyuvdata/uvdata/mir_parser.py.
    Values are rationals.  Multiplying a float32 by a power of two is exact unless it
    underflows, and then the integer part is zero in either case.  NaN, infinities and
    scale factors beyond the exponents of float32 are not modelled. *)
From Coq Require Import List ZArith QArith Qabs Bool Arith.
Import ListNotations.
Open Scope Z_scope.
Open Scope list_scope.

(** vis_data: visibilities, flags and weights; raw_data: scale factor and integers *)
Record vis := mkVis { data : list (Q * Q); flags : list bool; weights : list Q }.
Record raw := mkRaw { scale_fac : Z; values : list Z }.

(** [np.frexp(m)[1]] for m > 0: the e with 2^(e-1) <= m < 2^e *)
Definition frexp (m : Q) : Z :=
  let k := Z.log2 (Qnum m) - Z.log2 (Zpos (Qden m)) in
  if Qle_bool (Qpower 2 k) m then k + 1 else k.

Definition qmax (a b : Q) : Q := if Qle_bool a b then b else a.
(** [.view(dtype=np.float32)] *)
Definition components (d : list (Q * Q)) : list Q := flat_map (fun c => [fst c; snd c]) d.
(** [np.abs(a).max(initial=2.22e-16)] *)
Definition largest (l : list Q) : Q := fold_left (fun m x => qmax m (Qabs x)) l (Qpower 2 (-52)).

(** [.astype(np.int16)]: towards zero; the conversion wraps *)
Definition int16 (x : Q) : Z := (Z.quot (Qnum x) (Zpos (Qden x)) + 32768) mod 65536 - 32768.

(** mir_parser.py:985-1054 *)
Definition vis_to_raw (v : vis) : raw :=
  let s := frexp (largest (components (data v))) - 15 in
  mkRaw s (flat_map (fun p : (Q * Q) * bool => let c := if snd p then (inject_Z (-32768), inject_Z (-32768)) else (fst (fst p) * Qpower 2 (- s), snd (fst p) * Qpower 2 (- s))%Q in
                              [int16 (fst c); int16 (snd c)]) (combine (data v) (flags v))).

(** Pairs of consecutive values (there is an even number of them) *)
Fixpoint pairs (l : list Z) : list (Z * Z) := match l with a :: b :: t => (a, b) :: pairs t | _ => [] end.
(** mir_parser.py:934-983 *)
Definition raw_to_vis (r : raw) : vis :=
  let ps := pairs (values r) in
  let fl := map (fun p => fst p =? -32768) ps in
  mkVis (map (fun p => if fst p =? -32768 then (0, 0)%Q else (Qpower 2 (scale_fac r) * inject_Z (fst p), Qpower 2 (scale_fac r) * inject_Z (snd p))%Q) ps)
        fl (map (fun b : bool => if b then 0%Q else 1%Q) fl).
