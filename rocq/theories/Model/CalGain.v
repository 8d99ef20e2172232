(** Turning delays into gains: /repo/src/pyuvdata/uvcal/uvcal.py:2467-2582. *)
From Coq Require Import List ZArith Reals Bool Arith String.
From Verif Require Import Lib.Py Lib.Cube Model.Phase Model.UVCal.
Import ListNotations.
Notation length := List.length.
Open Scope list_scope.
Open Scope Z_scope.

(** The arguments: a one-dimensional array or one of more dimensions; an array or
    something else. *)
Inductive freq_arg := Freqs (l : list Z) | ManyDims.
Inductive width_arg := Widths (l : list Z) | NotArray.

(** uvcal.py:2512-2517 *)
Definition delay_sign (convention : string) : result R :=
  if String.eqb convention "minus" then Ok (-1)%R else if String.eqb convention "plus" then Ok 1%R else Err ValueError.

(** [np.repeat(array, n, axis=1)], [np.repeat(array, n, axis=0)] *)
Definition repeat1 {A} (n : nat) (c : arr4 A) : arr4 A := fun a f t j => c a (Nat.div f n) t j.
Definition repeat0 {A} (n : nat) (c : cube A) : cube A := fun f t j => c (Nat.div f n) t j.

(** uvcal.py:2529-2535: the frequencies must lie in the range of the window, if it is set *)
Definition outside (r : list (Z * Z)) (fs : list Z) : bool :=
  match r with
  | (lo, hi) :: _ => existsb (fun v => v <? lo) fs || existsb (fun v => v >? hi) fs
  | [] => false
  end.

(** uvcal.py:2467-2582.  Delays and frequencies are known by integers: [secs] and
    [hz] give their values.  The gains are returned beside the object, whose own
    solutions ([delay_array]) are then none: zeros here. *)
Definition convert_to_gain (secs hz : Z -> R) (freq_array : freq_arg) (channel_width : width_arg) (convention : string) (u : ucal)
    : result (ucal * arr4 cx) :=
  if c_gain u then Err ValueError
  else if (1 <? length (c_spws u))%nat then Err ValueError
  else do conv <- delay_sign convention;
  match freq_array, channel_width with
  | Freqs fs, Widths ws =>
      if negb (length ws =? length fs)%nat then Err ValueError
      else if outside (c_freq_range u) fs then Err ValueError
      else match c_spws u with
      | [] => Err IndexError
      | w :: _ =>
        let n := length fs in
        Ok ({| c_gain := true; c_wide := false; c_compat := c_compat u; c_ants := c_ants u; c_spws := c_spws u;
               c_freq_range := []; c_freqs := fs; c_widths := ws; c_flex := repeat w n;
               c_flex_jones := c_flex_jones u; c_time_array := c_time_array u; c_time_range := c_time_range u;
               c_lst_array := c_lst_array u; c_lst_range := c_lst_range u; c_ref_ant := c_ref_ant u;
               c_int_time := c_int_time u; c_jones := c_jones u; c_sol := fun _ _ _ _ => (0, 0);
               c_flags := repeat1 n (c_flags u); c_qual := option_map (repeat1 n) (c_qual u);
               c_tqual := option_map (repeat0 n) (c_tqual u) |},
            fun a f t j => exp_i (conv * 2 * PI * (secs (fst (c_sol u a 0%nat t j)) * hz (nth f fs 0%Z)))%R)
      end
  | _, _ => Err ValueError
  end.
