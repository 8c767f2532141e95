(** Python floats (IEEE-754 binary64 values), [struct.unpack] of "<f" and "<d",
    and [round(x, 7)].  Like Py.v, this file models the built-in operations the
    code of /repo calls, not a file of /repo itself. *)
From Verif Require Export Py.
Open Scope Z_scope.

(** A Python float.  [Fin neg m e] is (-1)^neg * m * 2^e; every value the model
    builds has [m] odd, or [m = 0] and [e = 0] (see [make_float]), so that equal
    values are equal terms, except that 0.0 and -0.0 stay distinct.  The payload
    of a NaN is not represented. *)
Inductive pyfloat :=
| NaN
| Inf (neg : bool)
| Fin (neg : bool) (m e : Z).

Fixpoint strip_twos (p : positive) (e : Z) : Z * Z :=
  match p with
  | xO q => strip_twos q (e + 1)
  | _ => (Zpos p, e)
  end.

Definition make_float (neg : bool) (m e : Z) : pyfloat :=
  match m with
  | Zpos p => let (m', e') := strip_twos p e in Fin neg m' e'
  | _ => Fin neg 0 0
  end.

(** the value of a bit pattern with [w] exponent bits and [f] fraction bits *)
Definition decode_float (w f : Z) (bits : Z) : pyfloat :=
  let neg := Z.odd (Z.shiftr bits (w + f)) in
  let expo := Z.land (Z.shiftr bits f) (2 ^ w - 1) in
  let frac := Z.land bits (2 ^ f - 1) in
  let bias := 2 ^ (w - 1) - 1 in
  if expo =? 2 ^ w - 1 then (if frac =? 0 then Inf neg else NaN)
  else if expo =? 0 then make_float neg frac (1 - bias - f)
  else make_float neg (frac + 2 ^ f) (expo - bias - f).

(** [struct.unpack("<f", data)[0]] and [struct.unpack("<d", data)[0]] *)
Definition unpack_single (data : bytes) : res pyfloat :=
  if len data =? 4 then Ok (decode_float 8 23 (from_le data)) else Err StructError.
Definition unpack_double (data : bytes) : res pyfloat :=
  if len data =? 8 then Ok (decode_float 11 52 (from_le data)) else Err StructError.

(** a/b rounded to the nearest integer, ties to even *)
Definition round_quotient (a b : Z) : Z :=
  let q := a / b in
  let r := a mod b in
  match 2 * r ?= b with
  | Lt => q
  | Gt => q + 1
  | Eq => if Z.even q then q else q + 1
  end.

(** [a * 2^k / b] rounded to an integer, for [k] of either sign *)
Definition round_scaled (a b k : Z) : Z :=
  if 0 <=? k then round_quotient (a * 2 ^ k) b else round_quotient a (b * 2 ^ (- k)).

(** the double nearest to a/b (a >= 0, b > 0), ties to even: what the C function
    strtod returns for the decimal numeral of a/b *)
Definition nearest_double (neg : bool) (a b : Z) : pyfloat :=
  if a <=? 0 then Fin neg 0 0 else
  let k := Z.log2 a - Z.log2 b in
  let low := if 0 <=? k then a <? b * 2 ^ k else a * 2 ^ (- k) <? b in
  let e := Z.max (-1074) ((if low then k - 1 else k) - 52) in
  let m := round_scaled a b (- e) in
  if (2 ^ 53 <=? m * 2 ^ (e - 971)) && (971 <=? e) then Inf neg else make_float neg m e.

(** [round(x, 7)] of CPython: the exact value is rounded to the nearest multiple
    of 1e-7, ties to even, and the decimal numeral found is read back as a double.
    Non-finite values are returned unchanged.  (CPython raises OverflowError when
    the result overflows; for the single-precision values it is applied to in
    /repo that cannot happen, see [C58_round_finite].) *)
Definition round7 (x : pyfloat) : pyfloat :=
  match x with
  | Fin neg m e => nearest_double neg (round_scaled (m * 10 ^ 7) 1 e) (10 ^ 7)
  | _ => x
  end.
