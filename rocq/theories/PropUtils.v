(** C01-C06: escaping and redundancy codes (elgas/utils.py). *)
From Verif Require Import PyFacts SpecUtils Utils UtilsProofs CrcProofs.
Open Scope Z_scope.

(** C01 *)
Theorem C01_escape_unescape_identity : forall body,
  exists out, escape_characters (body ++ [13]) = Ok out /\ return_characters out = Ok (body ++ [13]).
Proof. exact (fun body => ex_intro _ _ (conj (escape_app body) (return_escape_ok body))). Qed.
Print Assumptions C01_escape_unescape_identity.
Theorem C01_escape_error_iff : forall data,
  (exists e, escape_characters data = Err e) <-> ~ exists body, data = body ++ [13].
Proof. exact escape_err_iff. Qed.
Print Assumptions C01_escape_error_iff.
Theorem C01_escape_error_kind : forall data e, escape_characters data = Err e -> e = ValueError.
Proof. exact escape_err. Qed.
Print Assumptions C01_escape_error_kind.
Theorem C01_escape_injective : forall d1 d2 out,
  escape_characters d1 = Ok out -> escape_characters d2 = Ok out -> d1 = d2.
Proof. exact escape_injective. Qed.
Print Assumptions C01_escape_injective.
(** every byte is escaped by the documented table and nothing else changes *)
Theorem C01_escape_table : forall body,
  escape_characters (body ++ [13]) = Ok (flat_map esc_byte body ++ [13]).
Proof. exact escape_app. Qed.
Print Assumptions C01_escape_table.
Example C01_ex : escape_characters ([27; 14; 13; 141; 7] ++ [13]) = Ok [27; 27; 14; 27; 14; 27; 15; 7; 13].
Proof. reflexivity. Qed.

(** C02 *)
Theorem C02_escaped_shape : forall data out, escape_characters data = Ok out ->
  exists body, out = body ++ [13] /\ ~ In 13 body /\ ~ In 141 out /\
               len data <= len out <= 2 * len data - 1.
Proof. exact escape_shape. Qed.
Print Assumptions C02_escaped_shape.
Theorem C02_stream_splits_uniquely : forall datas telegrams tail,
  Forall2 (fun d t => escape_characters d = Ok t) datas telegrams -> ~ In 13 tail ->
  cut [] (concat telegrams ++ tail) = (telegrams, tail) /\
  Forall2 (fun t d => return_characters t = Ok d) telegrams datas.
Proof. exact escaped_stream_cut. Qed.
Print Assumptions C02_stream_splits_uniquely.
Example C02_ex : Forall2 (fun d t => escape_characters d = Ok t)
    [[2; 13; 13]; [141; 13]] [[2; 27; 14; 13]; [27; 15; 13]] /\ ~ In 13 [2; 254].
Proof. split; [repeat constructor|]. cbn; lia. Qed.

(** C03 *)
Theorem C03_unescape_reads : forall d o, return_characters d = Ok o <-> unesc d o.
Proof. exact return_unesc. Qed.
Print Assumptions C03_unescape_reads.
Theorem C03_unescape_error_iff : forall d e,
  return_characters d = Err e <-> e = IndexError /\ dangling d.
Proof. exact return_dangling. Qed.
Print Assumptions C03_unescape_error_iff.
Theorem C03_unescape_total_on_cut_telegrams : forall p, ~ In 13 p ->
  exists o, return_characters (p ++ [13]) = Ok (o ++ [13]).
Proof. exact return_cut. Qed.
Print Assumptions C03_unescape_total_on_cut_telegrams.
Theorem C03_unescape_never_grows : forall d o, return_characters d = Ok o -> len o <= len d.
Proof. exact return_length. Qed.
Print Assumptions C03_unescape_never_grows.
Example C03_ex : dangling [2; 27; 14; 27] /\ ~ In 13 [2; 27; 99; 27].
Proof. split; [|cbn; lia]. apply dangling_lit; [lia|]. apply dangling_pair, dangling_end. Qed.

(** C04 *)
Theorem C04_lrc_is_xor : forall l, is_bytes l -> calculate_lrc l = xor_all l.
Proof. exact lrc_closed. Qed.
Print Assumptions C04_lrc_is_xor.
Theorem C04_checksum_is_sum_mod_256 : forall l, calculate_checksum l = sum_all l mod 256.
Proof. exact checksum_closed. Qed.
Print Assumptions C04_checksum_is_sum_mod_256.
Theorem C04_drc_is_xor_of_rotations : forall l, is_bytes l -> calculate_drc l = drc_spec l.
Proof. exact drc_closed. Qed.
Print Assumptions C04_drc_is_xor_of_rotations.
Theorem C04_codes_are_bytes : forall l,
  is_byte (calculate_lrc l) /\ is_byte (calculate_checksum l) /\ is_byte (calculate_drc l).
Proof. exact (fun l => conj (lrc_byte l) (conj (checksum_byte l) (drc_byte l))). Qed.
Print Assumptions C04_codes_are_bytes.
Example C04_ex : is_bytes [254; 1; 129; 200] /\ calculate_drc [254; 1; 129; 200] = drc_spec [254; 1; 129; 200]
  /\ drc_spec [254; 1; 129; 200] <> 0.
Proof. split; [repeat constructor; lia|]. split; [reflexivity|]. vm_compute. discriminate. Qed.

(** C05 *)
Theorem C05_crc_is_modbus_swapped : forall l, is_bytes l -> calculate_crc l = swap16 (crc16_modbus l).
Proof. exact crc_closed. Qed.
Print Assumptions C05_crc_is_modbus_swapped.
Theorem C05_crc_fits_two_bytes : forall l, is_bytes l -> 0 <= calculate_crc l <= 65535.
Proof. exact crc_two_byte_range. Qed.
Print Assumptions C05_crc_fits_two_bytes.
(** the published check value of CRC-16/MODBUS: "123456789" gives 0x4B37 *)
Example C05_check_value : crc16_modbus [49; 50; 51; 52; 53; 54; 55; 56; 57] = 19255 /\
  is_bytes [49; 50; 51; 52; 53; 54; 55; 56; 57].
Proof. split; [reflexivity|]. repeat constructor; lia. Qed.

(** C06 *)
Theorem C06_crc_detects_16_bit_bursts : forall a b s, is_bytes a -> is_bytes b -> length a = length b ->
  burst16 s (bits_of a) (bits_of b) -> calculate_crc a = calculate_crc b -> a = b.
Proof. exact crc_burst. Qed.
Print Assumptions C06_crc_detects_16_bit_bursts.
Theorem C06_crc_detects_two_adjacent_bytes : forall p q x y,
  is_bytes p -> is_bytes q -> is_bytes x -> is_bytes y ->
  length x = length y -> (length x <= 2)%nat ->
  calculate_crc (p ++ x ++ q) = calculate_crc (p ++ y ++ q) -> x = y.
Proof. exact crc_two_bytes. Qed.
Print Assumptions C06_crc_detects_two_adjacent_bytes.
(** two messages that differ in a 16 bit burst across three bytes *)
Example C06_ex : burst16 12 (bits_of [1; 16; 255; 9; 7]) (bits_of [1; 240; 0; 0; 7]).
Proof.
  intros i Hi. do 40 (destruct i as [|i]; [try reflexivity; exfalso; lia|]).
  rewrite !nth_overflow by (cbn; lia). reflexivity.
Qed.
(** the window cannot be widened by one bit: a 17 bit burst (the generator
    polynomial itself) goes undetected *)
Theorem C06_window_is_tight : exists a b, is_bytes a /\ is_bytes b /\ length a = length b /\ a <> b /\
  (forall i, (17 <= i)%nat -> nth i (bits_of a) false = nth i (bits_of b) false) /\
  calculate_crc a = calculate_crc b.
Proof. exact crc_17_bit_burst. Qed.
Print Assumptions C06_window_is_tight.
