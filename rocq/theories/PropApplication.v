(** C19-C24: application data (elgas/application.py). *)
From Verif Require Import PyFacts SpecFrames SpecText SpecApplication SpecPdu Application TextProofs ApplicationProofs SpecNumbers NumberProofs.
Open Scope Z_scope.

(** C19: where each request puts its fields *)
Theorem C19_read_values_layout : forall rnd pw, latin1 pw ->
  exists p, pdu_to_bytes rnd (ReadInstantaneousValuesRequest pw) = Ok p /\ password_field pw p.
Proof. exact instantaneous_layout. Qed.
Print Assumptions C19_read_values_layout.
Theorem C19_read_time_layout : forall rnd, pdu_to_bytes rnd ReadTimeRequest = Ok [].
Proof. exact (fun _ => eq_refl). Qed.
Print Assumptions C19_read_time_layout.
Theorem C19_write_time_layout : forall rnd pw t c, latin1 pw -> encodable_time t ->
  exists p, pdu_to_bytes rnd (WriteTimeRequest pw t c) = Ok (p ++ bcd_time t ++ [4]) /\ password_field pw p.
Proof. exact write_time_layout. Qed.
Print Assumptions C19_write_time_layout.
Theorem C19_read_parameters_layout : forall rnd pw count size, latin1 pw -> 0 <= count <= 65535 -> 0 <= size <= 65535 ->
  exists p, pdu_to_bytes rnd (ReadDeviceParametersRequest pw count size) = Ok (p ++ le2 count ++ le2 size) /\ password_field pw p.
Proof. exact device_parameters_layout. Qed.
Print Assumptions C19_read_parameters_layout.
Theorem C19_read_archive_by_time_layout : forall rnd pw a n t, latin1 pw -> 0 <= a <= 255 -> 0 <= n <= 65535 -> encodable_time t ->
  exists p, pdu_to_bytes rnd (ReadArchiveByTimeRequest pw a n t) = Ok (p ++ [a] ++ le2 n ++ bcd_time t) /\ password_field pw p.
Proof. exact archive_by_time_layout. Qed.
Print Assumptions C19_read_archive_by_time_layout.
Theorem C19_read_archive_layout : forall rnd pw a n i, latin1 pw -> 0 <= a <= 255 -> 0 <= n <= 65535 -> 0 <= i <= 4294967295 ->
  exists p, pdu_to_bytes rnd (ReadArchiveRequest pw a n i) = Ok (p ++ [a] ++ le4 i ++ le2 n) /\ password_field pw p.
Proof. exact archive_layout. Qed.
Print Assumptions C19_read_archive_layout.
(** the number of the service each request is sent with *)
Theorem C19_services : forall r n, service_number (request_service r) = n <-> wants r n.
Proof. exact wants_iff. Qed.
Print Assumptions C19_services.
(** a request is refused exactly when a field does not fit, with the exception
    of the first such field *)
Theorem C19_errors : forall rnd r, request_times_valid r ->
  match request_misfit r with
  | Some e => pdu_to_bytes rnd r = Err e
  | None => exists b, pdu_to_bytes rnd r = Ok b
  end.
Proof. exact pdu_to_bytes_error. Qed.
Print Assumptions C19_errors.
(** the service and the application data determine the request *)
Theorem C19_unique : forall rnd rnd' r r' b, request_times_valid r -> request_times_valid r' ->
  request_service r = request_service r' ->
  pdu_to_bytes rnd r = Ok b -> pdu_to_bytes rnd' r' = Ok b -> same_request r r'.
Proof. exact pdu_unique. Qed.
Print Assumptions C19_unique.
Definition pw123456 : str := [49; 50; 51; 52; 53; 54].
Example C19_ex : latin1 pw123456 /\ encodable_time (mk_datetime 2024 4 14 13 34 36) /\
  pdu_to_bytes (fun i => Z.of_nat i) (ReadArchiveByTimeRequest pw123456 3 258 (mk_datetime 2024 4 14 13 34 36)) =
    Ok [49; 50; 51; 52; 53; 54; 33; 3; 97; 98; 3; 2; 1; 54; 52; 19; 20; 4; 36] /\
  request_misfit (ReadArchiveRequest pw123456 3 70000 5) = Some OverflowError.
Proof.
  split; [repeat constructor; lia|]. split; [split; [apply valid_datetime_spec; reflexivity|cbn; lia]|].
  split; vm_compute; reflexivity.
Qed.

(** C20 *)
Theorem C20_cryout_distinguishable_refuted : forall rnd pw t,
  pdu_to_bytes rnd (WriteTimeRequest pw t true) = pdu_to_bytes rnd (WriteTimeRequest pw t false).
Proof. exact (fun _ _ _ => eq_refl). Qed.
Print Assumptions C20_cryout_distinguishable_refuted.
Example C20_ex : pdu_to_bytes (fun i => Z.of_nat i) (WriteTimeRequest pw123456 (mk_datetime 2024 4 14 13 34 36) true) =
  Ok [49; 50; 51; 52; 53; 54; 33; 3; 97; 98; 54; 52; 19; 20; 4; 36; 4].
Proof. vm_compute; reflexivity. Qed.

(** C21 *)
Theorem C21_archive_response_exact_below_2_24 : forall a i data, 0 <= a <= 10 -> 0 <= i < 2 ^ 24 ->
  archive_from_bytes ([a] ++ le4 i ++ data) = Ok (ReadArchiveResponse a i data) /\
  archive_by_time_from_bytes ([a] ++ le4 i ++ data) = Ok (ReadArchiveByTimeResponse a i data).
Proof. exact archive_id_small. Qed.
Print Assumptions C21_archive_response_exact_below_2_24.
(** for every larger id, archive and data are right and the id is wrong *)
Theorem C21_record_id_refuted : forall a i data, 0 <= a <= 10 -> 2 ^ 24 <= i < 2 ^ 32 ->
  exists i', i' <> i /\ archive_from_bytes ([a] ++ le4 i ++ data) = Ok (ReadArchiveResponse a i' data) /\
    archive_by_time_from_bytes ([a] ++ le4 i ++ data) = Ok (ReadArchiveByTimeResponse a i' data).
Proof. exact archive_id_large_wrong. Qed.
Print Assumptions C21_record_id_refuted.
Theorem C21_unknown_archive_rejected : forall a l, ~ 0 <= a <= 10 ->
  archive_from_bytes (a :: l) = Err ValueError /\ archive_by_time_from_bytes (a :: l) = Err ValueError.
Proof. exact archive_unknown. Qed.
Print Assumptions C21_unknown_archive_rejected.
(** a response that ends inside the record id yields a PDU all the same *)
Theorem C21_truncated_response_rejected_refuted : forall a l, 0 <= a <= 10 -> len l < 4 ->
  archive_from_bytes (a :: l) = Ok (ReadArchiveResponse a (le_value (firstn 3 l)) []) /\
  archive_by_time_from_bytes (a :: l) = Ok (ReadArchiveByTimeResponse a (le_value (firstn 3 l)) []).
Proof. exact archive_truncated_accepted. Qed.
Print Assumptions C21_truncated_response_rejected_refuted.
Theorem C21_empty_response_rejected :
  archive_from_bytes [] = Err IndexError /\ archive_by_time_from_bytes [] = Err IndexError.
Proof. exact archive_empty. Qed.
Print Assumptions C21_empty_response_rejected.
Example C21_ex : 0 <= 3 <= 10 /\ 2 ^ 24 <= 16909060 < 2 ^ 32 /\
  archive_from_bytes [3; 4; 3; 2; 1; 99] = Ok (ReadArchiveResponse 3 131844 [99]).
Proof. repeat split; try lia; vm_compute; reflexivity. Qed.

(** C22 *)
Theorem C22_values_split : forall time t dst sup data access status summary crc,
  bytes_to_datetime time = Ok (t, dst, sup) -> len time = 6 ->
  len status = 8 -> len summary = 8 -> len crc = 2 ->
  instantaneous_values_from_bytes (time ++ data ++ [access] ++ status ++ summary ++ crc) =
  Ok (ReadInstantaneousValuesResponse t dst sup data access status summary crc).
Proof. exact instantaneous_split. Qed.
Print Assumptions C22_values_split.
Theorem C22_values_short_rejected : forall l, is_bytes l -> len l < 25 ->
  instantaneous_values_from_bytes l = Err ValueError \/ instantaneous_values_from_bytes l = Err IndexError.
Proof. exact instantaneous_short. Qed.
Print Assumptions C22_values_short_rejected.
Theorem C22_values_bad_time_rejected : forall l, is_bytes l -> (forall r, bytes_to_datetime (firstn 6 l) <> Ok r) ->
  instantaneous_values_from_bytes l = Err ValueError.
Proof. exact instantaneous_bad_time. Qed.
Print Assumptions C22_values_bad_time_rejected.
Theorem C22_time_split : forall time t dst sup result extra crc,
  bytes_to_datetime time = Ok (t, dst, sup) -> len time = 6 -> len crc = 2 ->
  read_time_from_bytes (time ++ [result] ++ extra ++ crc) = Ok (ReadTimeResponse t [result] dst sup extra).
Proof. exact read_time_split. Qed.
Print Assumptions C22_time_split.
Theorem C22_time_short_rejected : forall l, len l < 6 -> read_time_from_bytes l = Err ValueError.
Proof. exact read_time_shorter. Qed.
Print Assumptions C22_time_short_rejected.
(** a time response without access result or CRC yields a PDU all the same *)
Theorem C22_time_truncated_rejected_refuted : forall time t dst sup tail,
  bytes_to_datetime time = Ok (t, dst, sup) -> len time = 6 -> len tail <= 2 ->
  read_time_from_bytes (time ++ tail) = Ok (ReadTimeResponse t (firstn 1 tail) dst sup []).
Proof. exact read_time_short_accepted. Qed.
Print Assumptions C22_time_truncated_rejected_refuted.
Theorem C22_parameters_split : forall n a e data, 0 <= n <= 65535 -> 0 <= a <= 65535 ->
  device_parameters_from_bytes (le2 n ++ le2 a ++ [e] ++ data) =
  Ok (ReadDeviceParametersResponse data n a (negb (e =? 0))).
Proof. exact device_parameters_split. Qed.
Print Assumptions C22_parameters_split.
Theorem C22_parameters_short_rejected : forall l, len l < 5 -> device_parameters_from_bytes l = Err IndexError.
Proof. exact device_parameters_short. Qed.
Print Assumptions C22_parameters_short_rejected.
Example C22_ex : bytes_to_datetime [88; 89; 35 + 64; 41; 2; 36] = Ok (mk_datetime 2024 2 29 23 59 58, false, true) /\
  instantaneous_values_from_bytes ([88; 89; 99; 41; 2; 36] ++ [1; 2; 3] ++ [7] ++ [0;1;2;3;4;5;6;7] ++ [8;9;10;11;12;13;14;15] ++ [16; 17]) =
  Ok (ReadInstantaneousValuesResponse (mk_datetime 2024 2 29 23 59 58) false true [1; 2; 3] 7
       [0;1;2;3;4;5;6;7] [8;9;10;11;12;13;14;15] [16; 17]).
Proof. split; vm_compute; reflexivity. Qed.

(** C23 *)
Theorem C23_readable_registration_accepted : forall l, is_bytes l -> call_readable l ->
  exists c, call_from_bytes l = Ok c /\ call_fields l c /\
    calendar_time (last_connection_time c) /\ calendar_time (last_connection_error_time c) /\
    calendar_time (last_reset_time c) /\ calendar_time (last_modem_error_time c).
Proof. exact call_accepts. Qed.
Print Assumptions C23_readable_registration_accepted.
Theorem C23_accepted_is_readable : forall l c, is_bytes l -> call_from_bytes l = Ok c -> call_readable l /\ call_fields l c /\
    calendar_time (last_connection_time c) /\ calendar_time (last_connection_error_time c) /\
    calendar_time (last_reset_time c) /\ calendar_time (last_modem_error_time c).
Proof. exact call_exact. Qed.
Print Assumptions C23_accepted_is_readable.
Theorem C23_other_rejected : forall l, is_bytes l -> ~ call_readable l ->
  call_from_bytes l = Err IndexError \/ call_from_bytes l = Err ValueError.
Proof. exact call_rejects. Qed.
Print Assumptions C23_other_rejected.
(** the clock reading after n seconds is unique *)
Theorem C23_time_unique : forall n a b, n < 2 ^ 32 -> seconds_later n year_2000 a -> seconds_later n year_2000 b -> a = b.
Proof. exact TimeProofs.seconds_later_unique. Qed.
Print Assumptions C23_time_unique.
(** the sample of tests/test_call_to_dispatch.py *)
Definition call_sample : bytes :=
  [141; 0; 2; 64; 164; 148; 221; 150; 206; 27; 183; 25; 65; 100; 213; 106; 111; 128; 164; 48; 48; 48; 48; 48; 48; 48; 48; 48; 48; 48; 48; 48; 48; 48; 49; 0; 35; 130; 8; 112; 16; 99; 67; 120; 0; 0; 3; 89; 7; 115; 32; 103; 6; 81; 0; 1; 0; 0; 31; 6; 0; 0; 0; 158; 43; 98; 45; 0; 0; 0; 0; 0; 0; 0; 0; 1; 0; 0; 0; 145; 202; 175; 44; 152; 0; 0; 0; 0; 0; 0; 0; 44; 64; 140; 140; 10; 71; 74; 75; 29; 42; 98; 45; 1; 122; 254; 205; 1; 48; 49; 46; 48; 48; 48; 0; 0; 0; 0; 0; 0; 0; 0; 0; 0; 0; 0; 0; 0; 0; 0; 0; 0; 0; 0; 0; 0; 0; 0; 0; 0; 0].
Example C23_ex : is_bytes call_sample /\ call_readable call_sample /\
  match call_from_bytes call_sample with
  | Ok c => station_id c = [48; 48; 48; 48; 48; 48; 48; 48; 48; 48; 48; 48; 48; 48; 48; 49] /\
            sim_card_id c = [50; 51; 56; 50; 48; 56; 55; 48; 49; 48; 54; 51; 52; 51; 55; 56; 48; 48; 48; 48] /\
            modem_id c = [51; 53; 57; 48; 55; 55; 51; 50; 48; 54; 55; 48; 54; 53; 49] /\ protocol c = 0 /\
            address_1 c = 1 /\ address_2 c = 0 /\ signal_strength c = 31 /\ connections c = 6 /\
            last_connection_time c = mk_datetime 2024 2 16 14 20 14 /\ connection_errors c = 0 /\
            last_connection_error_time c = mk_datetime 2000 1 1 0 0 0 /\ resets c = 1 /\
            last_reset_time c = mk_datetime 2023 10 4 7 2 41 /\ tcp_data c = 152 /\ all_data c = 0 /\
            serial_number c = [50; 51; 53; 56; 48; 48; 49; 55; 48; 56] /\ ip_address c = [49; 48; 46; 55; 49; 46; 55; 52; 46; 55; 53] /\
            last_modem_error_time c = mk_datetime 2024 2 16 14 13 49 /\ last_modem_error c = 1 /\
            modem_battery_capacity c = 65146 /\ modem_battery_voltage c = 461 /\
            firmware_version c = [48; 49; 46; 48; 48; 48]
  | Err _ => False
  end.
Proof.
  split; [unfold call_sample; bytes_tac|].
  split; [|vm_compute; repeat split; reflexivity].
  split; [vm_compute; discriminate|].
  split; [vm_compute; repeat (constructor; [split; discriminate|]); constructor|].
  split; [vm_compute; repeat (constructor; [split; discriminate|]); constructor|vm_compute; discriminate].
Qed.

(** C24: the ids are right exactly when they do not start with a zero *)
Theorem C24_ids_exact_iff_no_leading_zero : forall l c, is_bytes l -> call_from_bytes l = Ok c ->
  let sim := nibbles (field 36 10 l) in let modem := nibbles (field 46 8 l) in
  (hd 0 sim <> 0 <-> sim_card_id c = map (fun d => 48 + d) sim) /\
  (hd 0 modem <> 0 <-> modem_id c = map (fun d => 48 + d) modem).
Proof. exact call_ids. Qed.
Print Assumptions C24_ids_exact_iff_no_leading_zero.
(** the modem of the sample telegram is reported without its leading zero *)
Theorem C24_ids_exact_refuted : exists l c, is_bytes l /\ call_from_bytes l = Ok c /\
  modem_id c <> map (fun d => 48 + d) (nibbles (field 46 8 l)).
Proof. exact call_ids_refuted. Qed.
Print Assumptions C24_ids_exact_refuted.
Example C24_ex : match call_from_bytes call_sample with
  | Ok c => len (modem_id c) = 15 /\ len (nibbles (field 46 8 call_sample)) = 16 /\
            sim_card_id c = map (fun d => 48 + d) (nibbles (field 36 10 call_sample))
  | Err _ => False end.
Proof. vm_compute. repeat split. Qed.
