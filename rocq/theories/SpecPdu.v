(** Independent specification of requests and of the call registration, in
    terms of the PDU classes. *)
From Verif Require Import Py SpecFrames SpecText SpecApplication Application.
Open Scope Z_scope.

(** The first field, in wire order, that cannot be sent, and the exception the
    caller gets. *)
Definition request_misfit (r : request) : option exn :=
  let pw p := if forallb (fun c => (0 <=? c) && (c <=? 255)) p then None else Some UnicodeEncodeError in
  let one n := if (0 <=? n) && (n <=? 255) then None else Some ValueError in
  let two n := if (0 <=? n) && (n <=? 65535) then None else Some OverflowError in
  let four n := if (0 <=? n) && (n <=? 4294967295) then None else Some OverflowError in
  let time t := if 2000 <=? year t then None else Some ValueError in
  let orelse (a b : option exn) := match a with Some e => Some e | None => b end in
  match r with
  | ReadInstantaneousValuesRequest p => pw p
  | ReadTimeRequest => None
  | WriteTimeRequest p t _ => orelse (pw p) (time t)
  | ReadDeviceParametersRequest p c b => orelse (pw p) (orelse (two c) (two b))
  | ReadArchiveByTimeRequest p a n t => orelse (pw p) (orelse (one a) (orelse (two n) (time t)))
  | ReadArchiveRequest p a n i => orelse (pw p) (orelse (one a) (orelse (four i) (two n)))
  end.
(** the datetime arguments are datetime objects *)
Definition request_times_valid (r : request) : Prop :=
  match r with
  | WriteTimeRequest _ t _ => calendar_time t
  | ReadArchiveByTimeRequest _ _ _ t => calendar_time t
  | _ => True
  end.
(** equal up to the cryout argument *)
Definition same_request (r r' : request) : Prop :=
  match r, r' with
  | WriteTimeRequest p t _, WriteTimeRequest p' t' _ => p = p' /\ t = t'
  | _, _ => r = r'
  end.

(** The registration structure of the call-to-dispatching message: offsets and
    widths from the annotated sample telegram in tests/test_call_to_dispatch.py *)
Definition call_fields (l : bytes) (c : call_request) : Prop :=
  version c = byte_at 2 l /\
  guid c = field 3 16 l /\
  text_of (field 19 17 l) (station_id c) /\
  decimal_text (dec_value (nibbles (field 36 10 l))) (sim_card_id c) /\
  decimal_text (dec_value (nibbles (field 46 8 l))) (modem_id c) /\
  protocol c = byte_at 54 l /\
  address_1 c = le_value (field 55 2 l) /\
  address_2 c = byte_at 57 l /\
  signal_strength c = byte_at 58 l /\
  connections c = le_value (field 59 4 l) /\
  time_of (field 63 4 l) (last_connection_time c) /\
  connection_errors c = le_value (field 67 4 l) /\
  time_of (field 71 4 l) (last_connection_error_time c) /\
  resets c = le_value (field 75 4 l) /\
  time_of (field 79 4 l) (last_reset_time c) /\
  tcp_data c = le_value (field 83 4 l) /\
  all_data c = le_value (field 87 4 l) /\
  decimal_text (le_value (field 91 4 l)) (serial_number c) /\
  dotted (field 95 4 l) (ip_address c) /\
  time_of (field 99 4 l) (last_modem_error_time c) /\
  last_modem_error c = byte_at 103 l /\
  modem_battery_capacity c = le_value (field 104 2 l) /\
  modem_battery_voltage c = le_value (field 106 2 l) /\
  text_of (field 108 33 l) (firmware_version c).
(** what a registration must satisfy to be readable *)
Definition call_readable (l : bytes) : Prop :=
  141 <= len l /\
  Forall is_digit (nibbles (field 36 10 l)) /\ Forall is_digit (nibbles (field 46 8 l)) /\
  byte_at 54 l <= 3.

(** the service number of each request on the wire *)
Definition function_code (r : request) : Z :=
  match r with
  | ReadInstantaneousValuesRequest _ => 0x64
  | ReadTimeRequest => 0x6C
  | WriteTimeRequest _ _ _ => 0x71
  | ReadDeviceParametersRequest _ _ _ => 0x70
  | ReadArchiveByTimeRequest _ _ _ _ => 0x7D
  | ReadArchiveRequest _ _ _ _ => 0x7C
  end.

(** *** the application data of the requests *)
(** a time in BCD digits, two to a byte; a year from 2100 on has more than two digits,
    and one byte more (C16) *)
Definition time_digits (t : datetime) : bytes :=
  [bcd_byte (second t); bcd_byte (minute t); bcd_byte (hour t); bcd_byte (day t); bcd_byte (month t)] ++
  (if year t <=? 2099 then [bcd_byte (year t - 2000)]
   else [bcd_byte ((year t - 2000) / 100); bcd_byte ((year t - 2000) mod 100)]).
(** [request_data r app]: [app] is the data of the request [r]. Nothing is said of the
    field of a time that is none. *)
Inductive request_data : request -> bytes -> Prop :=
| data_of_values pw p : password_field pw p -> request_data (ReadInstantaneousValuesRequest pw) p
| data_of_time : request_data ReadTimeRequest []
| data_of_set_time pw t cryout p f : password_field pw p -> (calendar_time t -> f = time_digits t) ->
    request_data (WriteTimeRequest pw t cryout) (p ++ f ++ [4])
| data_of_parameters pw n size p : password_field pw p -> 0 <= n <= 65535 -> 0 <= size <= 65535 ->
    request_data (ReadDeviceParametersRequest pw n size) (p ++ le2 n ++ le2 size)
| data_of_archive_by_time pw a n t p f : password_field pw p -> 0 <= a <= 255 -> 0 <= n <= 65535 ->
    (calendar_time t -> f = time_digits t) ->
    request_data (ReadArchiveByTimeRequest pw a n t) (p ++ [a] ++ le2 n ++ f)
| data_of_archive_by_id pw a n i p : password_field pw p -> 0 <= a <= 255 -> 0 <= n <= 65535 -> 0 <= i <= 4294967295 ->
    request_data (ReadArchiveRequest pw a n i) (p ++ [a] ++ le4 i ++ le2 n).
