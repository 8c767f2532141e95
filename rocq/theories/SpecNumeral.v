(** Which texts Python's [int] and [float] read, and as which numbers.  Written after the
    grammars in the Python documentation of the two functions (Built-in Functions, [float]:
    sign, infinity, nan, digitpart, exponent); it uses nothing of PyText.v. *)
From Coq Require Import QArith Qabs.
From Verif Require Import Py PyFloat ParamLang SpecParameters.
Open Scope list_scope.
Open Scope Z_scope.

(** ** From a rational number to a float *)
(** [y] is the double nearest to x; of two equally near ones it is the one with an even last
    digit, that is, an even multiple of the distance between the two *)
Definition nearest (x y : Q) : Prop :=
  closest_double x y /\
  forall z, double_value z -> ~ (z == y)%Q -> (Qabs (z - x) == Qabs (y - x))%Q ->
    exists k : Z, (y == (2 * k # 1) * Qabs (z - y))%Q.
(** from here on a number is too large for a double *)
Definition too_large : Q := (2 ^ 1024 - 2 ^ 970 # 1).
(** the float for x >= 0 with the given sign *)
Definition rounds_to_float (neg : bool) (x : Q) (f : pyfloat) : Prop :=
  ((too_large <= x)%Q /\ f = Inf neg) \/
  ((x < too_large)%Q /\ negative f = Some neg /\ exists y, nearest x y /\ float_value f (if neg then - y else y)%Q).

(** ** The texts *)
(** one or more decimal digits, single underscores allowed between two of them *)
Inductive digit_run : str -> list Z -> Prop :=
| run_last d : 0 <= d <= 9 -> digit_run [48 + d] [d]
| run_digit d t ds : 0 <= d <= 9 -> digit_run t ds -> digit_run (48 + d :: t) (d :: ds)
| run_underscore d t ds : 0 <= d <= 9 -> digit_run t ds -> digit_run (48 + d :: 95 :: t) (d :: ds).
Fixpoint decimal (ds : list Z) : Z :=
  match ds with [] => 0 | d :: ds => d * 10 ^ len ds + decimal ds end.
Definition blank (t : str) : Prop := Forall (fun c => c = 32 \/ 9 <= c <= 13) t.
(** nothing, + or - *)
Inductive signed : str -> bool -> Prop :=
| no_sign : signed [] false
| plus_sign : signed [43] false
| minus_sign : signed [45] true.

(** an integer *)
Definition int_text (t : str) (n : Z) : Prop :=
  exists before sign neg body ds after, t = before ++ sign ++ body ++ after /\
    blank before /\ blank after /\ signed sign neg /\ digit_run body ds /\
    n = if neg then - decimal ds else decimal ds.

(** the letters of [t] are those of [w], whose letters are small, in either case *)
Definition spells (t w : str) : Prop := Forall2 (fun c a => c = a \/ (97 <= a <= 122 /\ c = a - 32)) t w.
Inductive digits_or_none : str -> list Z -> Prop :=
| none : digits_or_none [] []
| some t ds : digit_run t ds -> digits_or_none t ds.
(** a point and digits, or neither *)
Inductive fraction_text : str -> list Z -> Prop :=
| no_point : fraction_text [] []
| point t ds : digits_or_none t ds -> fraction_text (46 :: t) ds.
Inductive exponent_part : str -> Z -> Prop :=
| no_exponent : exponent_part [] 0
| exponent (c : Z) sign (neg : bool) t ds : c = 101 \/ c = 69 -> signed sign neg -> digit_run t ds ->
    exponent_part (c :: sign ++ t) (if neg then - decimal ds else decimal ds).
(** what may follow the sign *)
Inductive number_text (neg : bool) : str -> pyfloat -> Prop :=
| the_inf t : spells t [105; 110; 102] -> number_text neg t (Inf neg)
| the_infinity t : spells t [105; 110; 102; 105; 110; 105; 116; 121] -> number_text neg t (Inf neg)
| the_nan t : spells t [110; 97; 110] -> number_text neg t NaN
| a_number w whole f fraction x k r : digits_or_none w whole -> fraction_text f fraction -> whole ++ fraction <> [] ->
    exponent_part x k ->
    rounds_to_float neg ((decimal (whole ++ fraction) # 1) * (10 # 1) ^ (k - len fraction))%Q r ->
    number_text neg (w ++ f ++ x) r.
Definition float_text (t : str) (r : pyfloat) : Prop :=
  exists before sign neg body after, t = before ++ sign ++ body ++ after /\
    blank before /\ blank after /\ signed sign neg /\ number_text neg body r.

(** ** Characters that are not ASCII *)
(** digits and spaces of other scripts count as the ASCII ones; [uni] says which *)
Definition seen (uni : Z -> Z) (t : str) : str := map (fun c => if c <? 127 then c else uni c) t.
