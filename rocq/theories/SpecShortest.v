(** How Python writes a float: the shortest decimal that is read back as the float (the
    documentation of [repr] and [sys.float_repr_style]), of several the nearest one, in the
    notation of the format 'r'.  It uses nothing of PyText.v. *)
From Coq Require Import QArith Qabs.
From Verif Require Import Py PyFloat ParamLang SpecParameters SpecNumeral SpecGrammar.
Open Scope list_scope.
Open Scope Z_scope.

(** D * 10^k *)
Definition decimal_number (D k : Z) : Q := ((D # 1) * (10 # 1) ^ k)%Q.
(** the double that [g] is rounded to is [v] *)
Definition read_back (v g : Q) : Prop := (g < too_large)%Q /\ nearest g v.
(** [g] is a decimal with at most [n] digits that is read back as [v]; no decimal with
    fewer digits is, and no other one with at most [n] digits that is read back is nearer;
    of two equally near ones [g] is the one with the even last digit *)
Definition shortest (v : Q) (n : Z) (g : Q) : Prop :=
  (exists D k, 0 < D < 10 ^ n /\ (g == decimal_number D k)%Q) /\ read_back v g /\
  (forall D k, 0 < D -> read_back v (decimal_number D k) -> 10 ^ (n - 1) <= D) /\
  (forall D k, 0 < D < 10 ^ n -> read_back v (decimal_number D k) ->
     (Qabs (g - v) <= Qabs (decimal_number D k - v))%Q /\
     (~ (decimal_number D k == g)%Q -> (Qabs (decimal_number D k - v) == Qabs (g - v))%Q ->
        exists j : Z, (g == (2 * j # 1) * Qabs (decimal_number D k - g))%Q)).

(** the exponent: a sign and at least two digits *)
Definition exponent_digits (t : str) (x : Z) : Prop :=
  exists ds s, t = (if x <? 0 then 45 else 43) :: s /\ digits s ds /\ decimal ds = Z.abs x /\ (len ds = 2 \/ (2 < len ds /\ hd 0 ds <> 0)).
(** the decimal number [g] > 0: from 0.0001 up to 10^16 with a point and at least one digit
    on both sides of it, otherwise with one digit before the point and an exponent; no
    zeros that are not needed *)
Inductive notation (g : Q) : str -> Prop :=
| positional w ws f fs : (decimal_number 1 (-4) <= g)%Q -> (g < decimal_number 1 16)%Q ->
    whole_part w ws -> digits f fs -> (fs = [0] \/ last fs 0 <> 0) ->
    (g == decimal_number (decimal (ws ++ fs)) (- len fs))%Q -> notation g (w ++ 46 :: f)
| scientific d f fs x t : (g < decimal_number 1 (-4))%Q \/ (decimal_number 1 16 <= g)%Q ->
    1 <= d <= 9 -> fraction_part f fs -> (fs = [] \/ last fs 0 <> 0) -> exponent_digits t x ->
    (g == decimal_number (decimal (d :: fs)) (x - len fs))%Q -> notation g (48 + d :: f ++ 101 :: t).
(** the text of the float with sign [neg] and absolute value [v] *)
Definition written_float (neg : bool) (v : Q) (t : str) : Prop :=
  exists n g t', t = minus neg ++ t' /\ 1 <= n <= 17 /\ shortest v n g /\ notation g t'.
