(** What CPython does with the texts of numbers: [str(x)] of a float, [float(text)]
    and [int(text)].  marshmallow (Schema.v) and json (Json.v) call these; they are
    not code of /repo.  Like Py.v and PyFloat.v this file models built-in functions. *)
From Verif Require Export PyFloat.
From Verif Require Import ParamLang Schema.
Open Scope list_scope.
Open Scope Z_scope.

(** ** reading *)
(** characters that are not ASCII: [float] and [int] first turn Unicode digits and
    spaces into ASCII (_PyUnicode_TransformDecimalAndSpaceToASCII).  Which these are is
    left open: [uni]. *)
Definition to_ascii (uni : Z -> Z) (c : Z) : Z := if c <? 127 then c else uni c.
Definition is_space (c : Z) : bool := (c =? 32) || ((9 <=? c) && (c <=? 13)).
Definition digit_char (c : Z) : bool := (48 <=? c) && (c <=? 57).
Fixpoint drop_spaces (s : str) : str :=
  match s with c :: s' => if is_space c then drop_spaces s' else s | [] => [] end.
Definition strip (s : str) : str := rev (drop_spaces (rev (drop_spaces s))).
(** a leading sign: is it a minus, and the rest *)
Definition take_sign (s : str) : bool * str :=
  match s with 45 :: s' => (true, s') | 43 :: s' => (false, s') | _ => (false, s) end.
(** the digits at the start, and the rest *)
Fixpoint take_digits (s : str) : str * str :=
  match s with
  | c :: s' => if digit_char c then let (d, r) := take_digits s' in (c :: d, r) else ([], s)
  | [] => ([], [])
  end.
(** the number of a text of digits *)
Definition numeral (d : str) : Z := fold_left (fun n c => 10 * n + (c - 48)) d 0.
(** underscores must have a digit on both sides; they are then left out *)
Fixpoint without_underscores (before : bool) (s : str) : option str :=
  match s with
  | [] => Some []
  | c :: s' =>
      if c =? 95
      then if before && match s' with c :: _ => digit_char c | [] => false end then without_underscores false s' else None
      else match without_underscores (digit_char c) s' with Some r => Some (c :: r) | None => None end
  end.

(** the double nearest to D * 10^k *)
Definition decimal_float (neg : bool) (D k : Z) : pyfloat :=
  if 0 <=? k then nearest_double neg (D * 10 ^ k) 1 else nearest_double neg D (10 ^ (- k)).

Definition lower (c : Z) : Z := if (65 <=? c) && (c <=? 90) then c + 32 else c.
Definition inf_text : str := [105; 110; 102].
Definition infinity_text : str := [105; 110; 102; 105; 110; 105; 116; 121].
Definition nan_text : str := [110; 97; 110].
(** the exponent part: e, a sign, digits, and nothing else *)
Definition read_exponent (s : str) : option Z :=
  match s with
  | [] => Some 0
  | c :: s' =>
      if (c =? 101) || (c =? 69) then
        let (neg, s') := take_sign s' in
        match take_digits s' with
        | ((_ :: _) as d, []) => Some (if neg then - numeral d else numeral d)
        | _ => None
        end
      else None
  end.
(** a point and the digits after it, if there is one *)
Definition take_fraction (s : str) : str * str := match s with 46 :: s' => take_digits s' | _ => ([], s) end.
(** _Py_dg_strtod: digits with at most one point, at least one digit, an exponent *)
Definition read_decimal (neg : bool) (s : str) : res pyfloat :=
  let (whole, s) := take_digits s in
  let (fraction, s) := take_fraction s in
  match whole ++ fraction with
  | [] => Err ValueError
  | d => match read_exponent s with
         | Some k => Ok (decimal_float neg (numeral d) (k - len fraction))
         | None => Err ValueError
         end
  end.
Definition py_read_float (uni : Z -> Z) (s : str) : res pyfloat :=
  match without_underscores false (strip (map (to_ascii uni) s)) with
  | None => Err ValueError
  | Some s =>
      let (neg, s) := take_sign s in
      if list_eqb (map lower s) inf_text || list_eqb (map lower s) infinity_text then Ok (Inf neg)
      else if list_eqb (map lower s) nan_text then Ok NaN
      else read_decimal neg s
  end.
(** [int(text)]: a sign and digits.  The limit of 4300 digits is not modelled. *)
Definition py_read_int (uni : Z -> Z) (s : str) : res Z :=
  match without_underscores false (strip (map (to_ascii uni) s)) with
  | None => Err ValueError
  | Some s =>
      let (neg, s) := take_sign s in
      match take_digits s with
      | ((_ :: _) as d, []) => Ok (if neg then - numeral d else numeral d)
      | _ => Err ValueError
      end
  end.

(** ** writing: the shortest decimal number that is read back as the same float
    (float_repr_style 'short', David Gay's dtoa in mode 0) *)
(** m * 2^e as a fraction a/b, for m > 0 *)
Definition numerator (m e : Z) : Z := if 0 <=? e then m * 2 ^ e else m.
Definition denominator (e : Z) : Z := if 0 <=? e then 1 else 2 ^ (- e).
(** a/b >= 10^p *)
Definition reaches (a b p : Z) : bool := if 0 <=? p then b * 10 ^ p <=? a else b <=? a * 10 ^ (- p).
(** the number p with 10^p <= a/b < 10^(p+1), found from the binary logarithm *)
Definition floor_log10 (a b : Z) : Z :=
  let p := (Z.log2 a - Z.log2 b - 1) * 30103 / 100000 in
  if reaches a b (p + 1) then if reaches a b (p + 2) then p + 2 else p + 1 else p.
Definition float_eqb (x y : pyfloat) : bool :=
  match x, y with
  | NaN, NaN => true
  | Inf s, Inf s' => Bool.eqb s s'
  | Fin s m e, Fin s' m' e' => Bool.eqb s s' && (m =? m') && (e =? e')
  | _, _ => false
  end.
(** the two numbers with n digits around a/b, the nearer one first *)
Definition neighbours (a b k : Z) : list Z :=
  let num := if 0 <=? k then a else a * 10 ^ (- k) in
  let den := if 0 <=? k then b * 10 ^ k else b in
  let lo := num / den in
  match 2 * (num mod den) ?= den with
  | Lt => [lo; lo + 1]
  | Gt => [lo + 1; lo]
  | Eq => if Z.even lo then [lo; lo + 1] else [lo + 1; lo]
  end.
(** the first of the lengths n, n+1, .. for which one of them is read back as x *)
Fixpoint search_digits (x : pyfloat) (a b p : Z) (n : Z) (fuel : nat) : option (Z * Z) :=
  match fuel with
  | O => None
  | S fuel =>
      let k := p + 1 - n in
      match find (fun D => float_eqb (decimal_float false D k) x) (neighbours a b k) with
      | Some D => Some (D, k)
      | None => search_digits x a b p (n + 1) fuel
      end
  end.
(** D * 10^k without trailing zeros of D *)
Fixpoint strip_tens (fuel : nat) (D k : Z) : Z * Z :=
  match fuel with
  | O => (D, k)
  | S fuel => if (D mod 10 =? 0) && (0 <? D) then strip_tens fuel (D / 10) (k + 1) else (D, k)
  end.
(** 17 digits are enough for every double, so the last case, the exact value, is never used *)
Definition shortest_decimal (m e : Z) : Z * Z :=
  let x := make_float false m e in
  let a := numerator m e in let b := denominator e in
  let p := floor_log10 a b in
  match search_digits x a b p 1 17 with
  | Some (D, k) => strip_tens 20 D k
  | None => if 0 <=? e then (m * 2 ^ e, 0) else (m * 5 ^ (- e), e)
  end.
Definition zeros (n : Z) : str := repeat 48 (Z.to_nat n).
(** the exponent has a sign and at least two digits *)
Definition exponent_text (x : Z) : str :=
  (if x <? 0 then 45 else 43) :: (if Z.abs x <? 10 then [48] else []) ++ str_int (Z.abs x).
(** format_float_short (Python/pystrtod.c) for format 'r' *)
Definition float_digits (D k : Z) : str :=
  let d := str_int D in
  let nd := len d in
  let point := nd + k in
  if (-4 <? point) && (point <=? 16) then
    if point <=? 0 then [48; 46] ++ zeros (- point) ++ d
    else if nd <=? point then d ++ zeros (point - nd) ++ [46; 48]
    else firstn (Z.to_nat point) d ++ [46] ++ skipn (Z.to_nat point) d
  else
    match d with
    | [] => []
    | [c] => c :: 101 :: exponent_text (point - 1)
    | c :: rest => c :: 46 :: rest ++ 101 :: exponent_text (point - 1)
    end.
Definition py_float_text (x : pyfloat) : str :=
  match x with
  | NaN => nan_text
  | Inf neg => (if neg then [45] else []) ++ inf_text
  | Fin neg m e =>
      (if neg then [45] else []) ++
      (if m =? 0 then [48; 46; 48] else let (D, k) := shortest_decimal m e in float_digits D k)
  end.

(** the Python that marshmallow runs on.  What remains open: Unicode digits and spaces,
    and the texts of objects other than numbers. *)
Definition cpython (uni : Z -> Z) (text : value -> res str) : python :=
  mk_python py_float_text (py_read_float uni) (py_read_int uni) text.
