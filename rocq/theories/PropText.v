(** C14-C18, C49, C50: BCD, timestamps, passwords, text and IP fields (elgas/utils.py). *)
From Verif Require Import PyFacts SpecText Utils TextProofs.
Open Scope Z_scope.

(** C14 *)
Theorem C14_bcd_roundtrip : forall n, 0 <= n -> exists out, to_bdc n = Ok out /\ from_bcd out = Ok n.
Proof. exact bcd_roundtrip. Qed.
Print Assumptions C14_bcd_roundtrip.
(** the nibbles of the encoding are the decimal digits, with one 0 in front
    when their number is odd *)
Theorem C14_to_bcd_digits : forall n, 0 <= n -> exists ds out,
  decimal_digits n ds /\ to_bdc n = Ok out /\ is_bytes out /\
  nibbles out = (if Nat.odd (length ds) then 0 :: ds else ds).
Proof. exact to_bcd_digits. Qed.
Print Assumptions C14_to_bcd_digits.
Theorem C14_to_bcd_negative : forall n, n < 0 -> to_bdc n = Err ValueError.
Proof. exact to_bdc_neg. Qed.
Print Assumptions C14_to_bcd_negative.
Theorem C14_from_bcd_value : forall l n, is_bytes l ->
  (from_bcd l = Ok n <-> l <> [] /\ Forall is_digit (nibbles l) /\ n = dec_value (nibbles l)).
Proof. exact from_bcd_ok_iff. Qed.
Print Assumptions C14_from_bcd_value.
Theorem C14_from_bcd_error : forall l e, is_bytes l -> from_bcd l = Err e ->
  e = ValueError /\ (l = [] \/ ~ Forall is_digit (nibbles l)).
Proof. exact from_bcd_err. Qed.
Print Assumptions C14_from_bcd_error.
Theorem C14_decimal_digits_unique : forall n a b, decimal_digits n a -> decimal_digits n b -> a = b.
Proof. exact decimal_digits_unique. Qed.
Print Assumptions C14_decimal_digits_unique.
Example C14_ex : to_bdc 12345 = Ok [1; 35; 69] /\ from_bcd [1; 35; 69] = Ok 12345 /\ from_bcd [26] = Err ValueError.
Proof. repeat split; vm_compute; reflexivity. Qed.

(** C15 *)
Theorem C15_datetime_roundtrip : forall t, calendar_time t -> 2000 <= year t <= 2099 ->
  exists b, datetime_to_bytes t = Ok b /\ len b = 6 /\ is_bytes b /\ bytes_to_datetime b = Ok (t, false, false).
Proof. exact datetime_roundtrip. Qed.
Print Assumptions C15_datetime_roundtrip.
Theorem C15_datetime_layout : forall t, calendar_time t -> 2000 <= year t <= 2099 ->
  datetime_to_bytes t = Ok [bcd_byte (second t); bcd_byte (minute t); bcd_byte (hour t);
                            bcd_byte (day t); bcd_byte (month t); bcd_byte (year t - 2000)].
Proof. exact datetime_to_bytes_century. Qed.
Print Assumptions C15_datetime_layout.
Definition leap_day : datetime := mk_datetime 2024 2 29 23 59 58.
Example C15_ex : calendar_time leap_day /\ 2000 <= year leap_day <= 2099 /\
  datetime_to_bytes leap_day = Ok [88; 89; 35; 41; 2; 36].
Proof. split; [apply valid_datetime_spec; reflexivity|]. split; [cbn; lia|vm_compute; reflexivity]. Qed.

(** C16 *)
Theorem C16_before_2000_rejected : forall t, calendar_time t -> year t < 2000 -> datetime_to_bytes t = Err ValueError.
Proof. exact datetime_to_bytes_early. Qed.
Print Assumptions C16_before_2000_rejected.
Theorem C16_always_six_bytes_refuted : forall t, calendar_time t -> 2100 <= year t ->
  exists b, datetime_to_bytes t = Ok b /\ len b = 7.
Proof. exact datetime_to_bytes_late. Qed.
Print Assumptions C16_always_six_bytes_refuted.
Example C16_ex : calendar_time (mk_datetime 2100 1 1 0 0 0) /\ calendar_time (mk_datetime 1999 12 31 0 0 0) /\
  datetime_to_bytes (mk_datetime 2100 1 1 0 0 0) = Ok [0; 0; 0; 1; 1; 1; 0].
Proof. repeat split; try (apply valid_datetime_spec; reflexivity); vm_compute; reflexivity. Qed.

(** C17 *)
Theorem C17_decoding_accepts_exactly : forall l t dst sup, is_bytes l ->
  (bytes_to_datetime l = Ok (t, dst, sup) <->
   exists s mi h d mo y vs vmi vh vd vmo vy,
     l = [s; mi; h; d; mo; y] /\
     bcd_value s = Some vs /\ bcd_value mi = Some vmi /\ bcd_value (h mod 64) = Some vh /\
     bcd_value d = Some vd /\ bcd_value mo = Some vmo /\ bcd_value y = Some vy /\
     t = mk_datetime (2000 + vy) vmo vd vh vmi vs /\ calendar_time t /\
     dst = Z.testbit h 7 /\ sup = Z.testbit h 6).
Proof. exact decoding_exact. Qed.
Print Assumptions C17_decoding_accepts_exactly.
Theorem C17_decoding_error : forall l e, is_bytes l -> bytes_to_datetime l = Err e -> e = ValueError.
Proof. exact bytes_to_datetime_err. Qed.
Print Assumptions C17_decoding_error.
(** what is decoded is a time of the century, and encoding it gives back the
    input up to the two flag bits *)
Theorem C17_decoding_canonical : forall l t dst sup, is_bytes l -> bytes_to_datetime l = Ok (t, dst, sup) ->
  calendar_time t /\ 2000 <= year t <= 2099 /\
  exists s mi h d mo y, l = [s; mi; h; d; mo; y] /\ datetime_to_bytes t = Ok [s; mi; h mod 64; d; mo; y].
Proof. exact decoding_canonical. Qed.
Print Assumptions C17_decoding_canonical.
Example C17_ex : bytes_to_datetime [88; 89; 35 + 128 + 64; 41; 2; 36] = Ok (leap_day, true, true) /\
  bytes_to_datetime [88; 89; 35; 41; 2; 35] = Err ValueError.
Proof. split; vm_compute; reflexivity. Qed.

(** C18 *)
Theorem C18_padded_password : forall rnd pw, exists c1 c2, alphanumeric c1 /\ alphanumeric c2 /\
  pad_password rnd pw = pw ++ [33; 3; c1; c2].
Proof. exact pad_password_spec. Qed.
Print Assumptions C18_padded_password.
(** exactly these: two characters of the alphabet, each of them possible *)
Theorem C18_all_paddings : forall pw out, (exists rnd, pad_password rnd pw = out) <->
  exists c1 c2, padding_character c1 /\ padding_character c2 /\ out = pw ++ [33; 3; c1; c2].
Proof. exact paddings. Qed.
Print Assumptions C18_all_paddings.
Theorem C18_password_field_length : forall rnd pw, len (pad_password rnd pw) = len pw + 4.
Proof. exact pad_password_len. Qed.
Print Assumptions C18_password_field_length.
Theorem C18_always_ten_bytes_refuted : forall rnd pw, len pw < 6 -> len (pad_password rnd pw) < 10.
Proof. exact pad_password_short. Qed.
Print Assumptions C18_always_ten_bytes_refuted.
Example C18_ex : len [49; 50; 51] < 6 /\ pad_password (fun i => Z.of_nat i * 100 - 7) [49; 50; 51] = [49; 50; 51; 33; 3; 51; 73].
Proof. split; vm_compute; reflexivity. Qed.

(** C49 *)
Theorem C49_pretty_text_with_nul : forall p s, ~ In 0 s ->
  trimmed (map (fun b => if b =? 0 then 32 else b) p) (pretty_text (p ++ 0 :: s)).
Proof. exact pretty_text_with_nul. Qed.
Print Assumptions C49_pretty_text_with_nul.
Theorem C49_pretty_text_without_nul : forall l, ~ In 0 l -> trimmed l (pretty_text l).
Proof. exact (fun l => proj2 (pretty_text_spec l)). Qed.
Print Assumptions C49_pretty_text_without_nul.
Theorem C49_trimmed_unique : forall l a b, trimmed l a -> trimmed l b -> a = b.
Proof. exact trimmed_unique. Qed.
Print Assumptions C49_trimmed_unique.
Theorem C49_no_nul_and_not_longer : forall l, ~ In 0 (pretty_text l) /\ len (pretty_text l) <= len l.
Proof. exact (fun l => conj (pretty_text_no_nul l) (pretty_text_len l)). Qed.
Print Assumptions C49_no_nul_and_not_longer.
Theorem C49_clean_text_unchanged : forall t n, t <> [] -> Forall (fun b => b <> 0) t -> trimmed t t ->
  pretty_text (t ++ repeat 0 n) = t.
Proof. exact pretty_text_clean. Qed.
Print Assumptions C49_clean_text_unchanged.
Example C49_ex : pretty_text [32; 65; 32; 66; 9; 0; 67; 0; 68] = [65; 32; 66; 9; 32; 67] /\ trimmed [65; 32; 66] [65; 32; 66].
Proof.
  split; [reflexivity|]. exists [], []. split; [reflexivity|]. split; [constructor|]. split; [constructor|].
  right. split; [exists 65, [32; 66]|exists 66, [65; 32]]; (split; [reflexivity|unfold white; lia]).
Qed.

(** C50 *)
Theorem C50_dotted_decimal : forall a b c d, is_bytes [a; b; c; d] -> exists sa sb sc sd,
  decimal_text a sa /\ decimal_text b sb /\ decimal_text c sc /\ decimal_text d sd /\
  parse_ip_address [a; b; c; d] = Ok (sa ++ [46] ++ sb ++ [46] ++ sc ++ [46] ++ sd).
Proof. exact parse_ip_4. Qed.
Print Assumptions C50_dotted_decimal.
Theorem C50_other_lengths_rejected : forall l, len l <> 4 -> parse_ip_address l = Err ValueError.
Proof. exact parse_ip_other. Qed.
Print Assumptions C50_other_lengths_rejected.
Theorem C50_injective : forall l l' s, is_bytes l -> is_bytes l' ->
  parse_ip_address l = Ok s -> parse_ip_address l' = Ok s -> l = l'.
Proof. exact parse_ip_inj. Qed.
Print Assumptions C50_injective.
Example C50_ex : is_bytes [10; 0; 200; 7] /\
  parse_ip_address [10; 0; 200; 7] = Ok [49; 48; 46; 48; 46; 50; 48; 48; 46; 55].
Proof. split; [repeat constructor; unfold is_byte; lia|vm_compute; reflexivity]. Qed.
