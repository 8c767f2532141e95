(** Independent specifications: decimal text, BCD, calendar, text fields. *)
From Verif Require Import Py.
Open Scope Z_scope.

(** *** decimal numbers *)
(** value of a digit list, most significant digit first *)
Definition dec_value (ds : list Z) : Z := fold_left (fun a d => 10 * a + d) ds 0.
Definition is_digit (d : Z) : Prop := 0 <= d <= 9.
(** [ds] are the decimal digits of [n], without leading zeros *)
Definition decimal_digits (n : Z) (ds : list Z) : Prop :=
  Forall is_digit ds /\ dec_value ds = n /\ ds <> [] /\ (hd 0 ds = 0 -> ds = [0]).
(** [s] is the decimal text of [n] *)
Definition decimal_text (n : Z) (s : str) : Prop :=
  exists ds, decimal_digits n ds /\ s = map (fun d => 48 + d) ds.

(** *** BCD *)
Definition nibbles (l : bytes) : list Z := flat_map (fun b => [b / 16; b mod 16]) l.
(** a single BCD byte and the number it denotes *)
Definition bcd_byte (n : Z) : Z := 16 * (n / 10) + n mod 10.
Definition bcd_value (b : Z) : option Z :=
  if (b / 16 <=? 9) && (b mod 16 <=? 9) then Some (10 * (b / 16) + b mod 16) else None.

(** *** calendar *)
Definition leap_year (y : Z) : Prop := (4 | y) /\ (~ (100 | y) \/ (400 | y)).
Inductive month_days : Z -> Z -> Z -> Prop :=
| long_month y m : In m [1; 3; 5; 7; 8; 10; 12] -> month_days y m 31
| short_month y m : In m [4; 6; 9; 11] -> month_days y m 30
| february y : ~ leap_year y -> month_days y 2 28
| february_leap y : leap_year y -> month_days y 2 29.
(** a point of the proleptic Gregorian calendar, to the second *)
Definition calendar_time (t : datetime) : Prop :=
  1 <= year t <= 9999 /\
  (exists n, month_days (year t) (month t) n /\ 1 <= day t <= n) /\
  0 <= hour t < 24 /\ 0 <= minute t < 60 /\ 0 <= second t < 60.

(** *** text *)
(** ASCII white space *)
Definition white (b : Z) : Prop := b = 32 \/ 9 <= b <= 13.
(** [s] is [l] without the white space at both ends *)
Definition trimmed (l s : str) : Prop :=
  exists a b, l = a ++ s ++ b /\ Forall white a /\ Forall white b /\
    (s = [] \/ (exists x r, s = x :: r /\ ~ white x) /\ (exists x r, s = r ++ [x] /\ ~ white x)).
(** ASCII letters and digits *)
Definition alphanumeric (c : Z) : Prop := 48 <= c <= 57 \/ 65 <= c <= 90 \/ 97 <= c <= 122.
(** the characters a password is padded with: all but the letter w *)
Definition padding_character (c : Z) : Prop := alphanumeric c /\ c <> 87 /\ c <> 119.
