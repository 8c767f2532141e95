(** Independent specification of the application data of requests, responses
    and the call registration, written from the protocol tables. *)
From Verif Require Import Py SpecFrames SpecText.
Open Scope Z_scope.

(** *** fields of a byte string *)
(** [width] bytes starting at offset [off], and the byte at [off] *)
Definition field (off width : Z) (l : bytes) : bytes := firstn (Z.to_nat width) (skipn (Z.to_nat off) l).
Definition byte_at (off : Z) (l : bytes) : Z := nth (Z.to_nat off) l 0.
(** the number denoted by bytes, least significant first *)
Definition le_value (l : bytes) : Z := fold_right (fun b n => b + 256 * n) 0 l.
Definition le4 (n : Z) : bytes := [n mod 256; n / 256 mod 256; n / 65536 mod 256; n / 16777216].
(** a text field: what precedes the last NUL (or all of it), with other NULs
    shown as spaces, without outer white space *)
Definition text_of (l : bytes) (s : str) : Prop :=
  (exists p q, l = p ++ 0 :: q /\ ~ In 0 q /\ trimmed (map (fun b => if b =? 0 then 32 else b) p) s) \/
  (~ In 0 l /\ trimmed l s).
(** four bytes as dotted decimal *)
Definition dotted (l : bytes) (s : str) : Prop :=
  exists a b c d sa sb sc sd, l = [a; b; c; d] /\
    decimal_text a sa /\ decimal_text b sb /\ decimal_text c sc /\ decimal_text d sd /\
    s = sa ++ [46] ++ sb ++ [46] ++ sc ++ [46] ++ sd.

(** *** the calendar clock *)
Inductive next_second : datetime -> datetime -> Prop :=
| tick_second y mo d h mi s : s < 59 ->
    next_second (mk_datetime y mo d h mi s) (mk_datetime y mo d h mi (s + 1))
| tick_minute y mo d h mi : mi < 59 ->
    next_second (mk_datetime y mo d h mi 59) (mk_datetime y mo d h (mi + 1) 0)
| tick_hour y mo d h : h < 23 ->
    next_second (mk_datetime y mo d h 59 59) (mk_datetime y mo d (h + 1) 0 0)
| tick_day y mo d n : month_days y mo n -> d < n ->
    next_second (mk_datetime y mo d 23 59 59) (mk_datetime y mo (d + 1) 0 0 0)
| tick_month y mo d : month_days y mo d -> mo < 12 ->
    next_second (mk_datetime y mo d 23 59 59) (mk_datetime y (mo + 1) 1 0 0 0)
| tick_year y :
    next_second (mk_datetime y 12 31 23 59 59) (mk_datetime (y + 1) 1 1 0 0 0).
Inductive seconds_later : Z -> datetime -> datetime -> Prop :=
| later_0 t : seconds_later 0 t t
| later_S n t t' t'' : seconds_later n t t' -> next_second t' t'' -> seconds_later (n + 1) t t''.
Definition year_2000 : datetime := mk_datetime 2000 1 1 0 0 0.
(** the time a four-byte field denotes *)
Definition time_of (l : bytes) (t : datetime) : Prop := seconds_later (le_value l) year_2000 t.

(** *** requests *)
(** what precedes the parameters of a request: the password, '!', ETX and two
    characters of the random alphabet *)
Definition password_field (pw : str) (f : bytes) : Prop :=
  exists c1 c2, alphanumeric c1 /\ alphanumeric c2 /\ f = pw ++ [33; 3; c1; c2].
Definition latin1 (pw : str) : Prop := Forall (fun c => 0 <= c <= 255) pw.
(** a point of time of this century in six BCD bytes *)
Definition bcd_time (t : datetime) : bytes :=
  [bcd_byte (second t); bcd_byte (minute t); bcd_byte (hour t);
   bcd_byte (day t); bcd_byte (month t); bcd_byte (year t - 2000)].
Definition encodable_time (t : datetime) : Prop := calendar_time t /\ 2000 <= year t <= 2099.
