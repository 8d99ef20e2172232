(** Polarization numbers and names: /repo/src/pyuvdata/utils/pol.py *)
From Coq Require Import List ZArith Bool String Ascii.
From Verif Require Import Lib.Py Lib.Np Lib.Sorting Lib.Dict.
Import ListNotations.
Open Scope Z_scope.
Open Scope string_scope.

(** pol.py:34-38 *)
Definition POL_STR2NUM_DICT : list (string * Z) :=
  [("pI", 1); ("pQ", 2); ("pU", 3); ("pV", 4);
   ("I", 1); ("Q", 2); ("U", 3); ("V", 4);
   ("rr", -1); ("ll", -2); ("rl", -3); ("lr", -4);
   ("xx", -5); ("yy", -6); ("xy", -7); ("yx", -8);
   ("hh", -5); ("vv", -6); ("hv", -7); ("vh", -8)].

(** pol.py:41-43 *)
Definition POL_NUM2STR_DICT : list (Z * string) :=
  [(1, "pI"); (2, "pQ"); (3, "pU"); (4, "pV");
   (-1, "rr"); (-2, "ll"); (-3, "rl"); (-4, "lr");
   (-5, "xx"); (-6, "yy"); (-7, "xy"); (-8, "yx")].

(** pol.py:46-50 *)
Definition CONJ_POL_DICT : list (string * string) :=
  [("xx", "xx"); ("yy", "yy"); ("xy", "yx"); ("yx", "xy");
   ("ee", "ee"); ("nn", "nn"); ("en", "ne"); ("ne", "en");
   ("rr", "rr"); ("ll", "ll"); ("rl", "lr"); ("lr", "rl");
   ("I", "I"); ("Q", "Q"); ("U", "U"); ("V", "V");
   ("pI", "pI"); ("pQ", "pQ"); ("pU", "pU"); ("pV", "pV")].

(** pol.py:54-57 *)
Definition JONES_STR2NUM_DICT : list (string * Z) :=
  [("Jxx", -5); ("Jyy", -6); ("Jxy", -7); ("Jyx", -8);
   ("xx", -5); ("x", -5); ("yy", -6); ("y", -6); ("xy", -7); ("yx", -8);
   ("Jrr", -1); ("Jll", -2); ("Jrl", -3); ("Jlr", -4);
   ("rr", -1); ("r", -1); ("ll", -2); ("l", -2); ("rl", -3); ("lr", -4)].

(** pol.py:59-60 *)
Definition JONES_NUM2STR_DICT : list (Z * string) :=
  [(-1, "Jrr"); (-2, "Jll"); (-3, "Jrl"); (-4, "Jlr");
   (-5, "Jxx"); (-6, "Jyy"); (-7, "Jxy"); (-8, "Jyx")].

(** pol.py:66-73 *)
Definition POL_TO_FEED_DICT : list (string * (string * string)) :=
  [("xx", ("x", "x")); ("yy", ("y", "y")); ("xy", ("x", "y")); ("yx", ("y", "x"));
   ("ee", ("e", "e")); ("nn", ("n", "n")); ("en", ("e", "n")); ("ne", ("n", "e"));
   ("rr", ("r", "r")); ("ll", ("l", "l")); ("rl", ("r", "l")); ("lr", ("l", "r"));
   ("pI", ("I", "I")); ("pQ", ("Q", "Q")); ("pU", ("U", "U")); ("pV", ("V", "V"))].

(** pol.py:77-84 *)
Definition XORIENTMAP : list (string * string) :=
  [("east", "east"); ("north", "north"); ("e", "east"); ("n", "north");
   ("ew", "east"); ("ns", "north")].

(** pol.py:103-124: the pair (replacement of "x", replacement of "y") *)
Definition x_orientation_pol_map (xo : string) : result (ascii * ascii) :=
  match dget String.eqb (lower xo) XORIENTMAP with
  | Ok v => if v =? "east" then Ok ("e"%char, "n"%char)
            else if v =? "north" then Ok ("n"%char, "e"%char)
            else Err TypeError (* falls through: None; unreachable *)
  | Err _ => Err ValueError
  end%string.

Definition rep (m : ascii * ascii) (s : string) : string :=
  replace_char "y"%char (snd m) (replace_char "x"%char (fst m) s).

(** pol.py:181-191 and 286-296: extend a name->number dict by renamed keys, then
    lower-case all keys.  An unrecognised orientation only warns. *)
Definition str2num_dict (base : list (string * Z)) (xo : option string) : list (string * Z) :=
  let d := match xo with
           | None => base
           | Some x => match x_orientation_pol_map x with
                       | Ok m => fold_left (fun d p => dset String.eqb (rep m (fst p)) (snd p) d) base base
                       | Err _ => base
                       end
           end in
  dict_of String.eqb (map (fun p => (lower (fst p), snd p)) d).

(** pol.py:236-244 and 337-345 *)
Definition num2str_dict (base : list (Z * string)) (xo : option string) : list (Z * string) :=
  match xo with
  | None => base
  | Some x => match x_orientation_pol_map x with
              | Ok m => fold_left (fun d p => dset Z.eqb (fst p) (rep m (snd p)) d) base base
              | Err _ => base
              end
  end.

(** pol.py:148-201, 204-252, 256-304, 307-353 (scalar argument; the iterable
    argument maps the same lookup, [mapM]) *)
Definition polstr2num (xo : option string) (s : string) : result Z :=
  dget String.eqb (lower s) (str2num_dict POL_STR2NUM_DICT xo).
Definition polnum2str (xo : option string) (n : Z) : result string :=
  dget Z.eqb n (num2str_dict POL_NUM2STR_DICT xo).
Definition jstr2num (xo : option string) (s : string) : result Z :=
  dget String.eqb (lower s) (str2num_dict JONES_STR2NUM_DICT xo).
Definition jnum2str (xo : option string) (n : Z) : result string :=
  dget Z.eqb n (num2str_dict JONES_NUM2STR_DICT xo).

(** pol.py:357-391 and 395-424 *)
Definition parse_polstr (xo : option string) (s : string) : result string :=
  do n <- polstr2num xo s; polnum2str xo n.
Definition parse_jpolstr (xo : option string) (s : string) : result string :=
  do n <- jstr2num xo s; jnum2str xo n.

(** pol.py:427-459 *)
Definition cpol_dict : list (string * string) :=
  dict_of String.eqb (map (fun p => (lower (fst p), snd p)) CONJ_POL_DICT).
Definition conj_pol_str (s : string) : result string := dget String.eqb (lower s) cpol_dict.
Definition conj_pol (n : Z) : result Z :=
  do s <- polnum2str None n;
  do c <- dget String.eqb (lower s) cpol_dict;
  polstr2num None c.

(** pol.py:462-493 for integer polarizations.  Element [p] gets the first position
    where [cpols == p], or -1. *)
Definition reorder_conj_pols (pols : list Z) : result (list nat) :=
  do cpols <- mapM conj_pol pols;
  let conj_order := map (fun p => index_of Z.eqb p cpols) pols in
  if existsb (fun o => match o with None => true | Some _ => false end) conj_order
  then Err ValueError
  else Ok (map (fun o => match o with Some i => i | None => 0%nat end) conj_order).

Inductive pol_order := AIPS | CASA | OtherOrder.

(** pol.py:521 *)
Definition casa_order : list Z := [1; 2; 3; 4; -1; -3; -4; -2; -5; -7; -8; -6; 0].

(** pol.py:496-529; [np.where(casa_order == pol)[0][0]] raises IndexError if absent *)
Definition determine_pol_order (pols : list Z) (order : pol_order) : result (list nat) :=
  match order with
  | AIPS => Ok (argsortZ (map Z.abs pols))
  | CASA =>
      do inds <- mapM (fun p => match index_of Z.eqb p casa_order with
                                | Some i => Ok (Z.of_nat i) | None => Err IndexError end) pols;
      Ok (argsortZ inds)
  | OtherOrder => Err ValueError
  end.
