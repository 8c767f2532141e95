(** Model of /repo/elgas/application.py. *)
From Verif Require Export Frames PyTime.
Open Scope Z_scope.

Notation "'let*' p := e 'in' k" := (bind e (fun p => k))
  (at level 61, p strict pattern, e at next level, right associativity, only parsing).

(** The request PDUs. ReadInstantaneousValuesRequest application.py:25-31,
    ReadTimeRequest :81-88, WriteTimeRequest :129-141,
    ReadDeviceParametersRequest :171-180, ReadArchiveByTimeRequest :219-229,
    ReadArchiveRequest :266-274. [archive] is any int, as in Python, where the
    annotation constants.Archive is not enforced. *)
Inductive request :=
| ReadInstantaneousValuesRequest (password : str)
| ReadTimeRequest
| WriteTimeRequest (password : str) (device_time : datetime) (cryout : bool)
| ReadDeviceParametersRequest (password : str) (object_count buffer_length : Z)
| ReadArchiveByTimeRequest (password : str) (archive amount : Z) (oldest_timestamp : datetime)
| ReadArchiveRequest (password : str) (archive amount oldest_record_id : Z).

(** class attribute [service] of each request: application.py:30, 86-88,
    134-136, 174-176, 222-224, 269 *)
Definition request_service (r : request) : service :=
  match r with
  | ReadInstantaneousValuesRequest _ => READ_VALUES
  | ReadTimeRequest => READ_DEVICE_TIME
  | WriteTimeRequest _ _ _ => WRITE_DEVICE_TIME
  | ReadDeviceParametersRequest _ _ _ => READ_SCADA_PARAMETERS
  | ReadArchiveByTimeRequest _ _ _ _ => READ_ARCHIVES_BY_DATE
  | ReadArchiveRequest _ _ _ _ => READ_ARCHIVES
  end.

(** utils.pad_password(self.password).encode("latin-1"), the expression common
    to application.py:34, 145, 184, 233, 278 *)
Definition password_bytes (rnd : nat -> Z) (password : str) : res bytes :=
  encode_latin1 (pad_password rnd password).

(** to_bytes of each request: application.py:33-34, 90-91, 143-151, 182-188,
    231-238, 276-283. [rnd] is the source of random.choices. *)
Definition pdu_to_bytes (rnd : nat -> Z) (r : request) : res bytes :=
  match r with
  | ReadInstantaneousValuesRequest password => password_bytes rnd password
  | ReadTimeRequest => Ok []
  | WriteTimeRequest password device_time cryout =>
      p <- password_bytes rnd password ;;
      let out := p in
      t <- datetime_to_bytes device_time ;;
      let out := out ++ t in
      let flags := 4 in
      append out (Z.land flags 255)
  | ReadDeviceParametersRequest password object_count buffer_length =>
      p <- password_bytes rnd password ;;
      let out := p in
      c <- to_le 2 object_count ;;
      let out := out ++ c in
      b <- to_le 2 buffer_length ;;
      Ok (out ++ b)
  | ReadArchiveByTimeRequest password archive amount oldest_timestamp =>
      p <- password_bytes rnd password ;;
      let out := p in
      out <- append out archive ;;
      a <- to_le 2 amount ;;
      let out := out ++ a in
      t <- datetime_to_bytes oldest_timestamp ;;
      Ok (out ++ t)
  | ReadArchiveRequest password archive amount oldest_record_id =>
      p <- password_bytes rnd password ;;
      let out := p in
      out <- append out archive ;;
      i <- to_le 4 oldest_record_id ;;
      let out := out ++ i in
      a <- to_le 2 amount ;;
      Ok (out ++ a)
  end.

(** The response PDUs. ReadInstantaneousValuesResponse application.py:38-53,
    ReadTimeResponse :95-109, WriteTimeResponse :155-164,
    ReadDeviceParametersResponse :192-202, ReadArchiveByTimeResponse :242-251,
    ReadArchiveResponse :287-294. *)
Inductive response_pdu :=
| ReadInstantaneousValuesResponse (current_time : datetime) (is_dst supports_dst : bool)
    (data : bytes) (data_access : Z) (status summary_status parameter_crc : bytes)
| ReadTimeResponse (time : datetime) (data_access_result : bytes)
    (is_dst device_supports_dst : bool) (extra_data : bytes)
| WriteTimeResponse
| ReadDeviceParametersResponse (data : bytes) (object_number object_amount : Z) (is_end : bool)
| ReadArchiveByTimeResponse (archive oldest_record_id : Z) (data : bytes)
| ReadArchiveResponse (archive oldest_record_id : Z) (data : bytes).

(** application.py:55-77 ReadInstantaneousValuesResponse.from_bytes *)
Definition instantaneous_values_from_bytes (in_bytes : bytes) : res response_pdu :=
  let data := in_bytes in
  let* (current_time, is_dst, supports_dst) := bytes_to_datetime (slice_to 6 data) in
  let data := slice_from 6 data in
  let parameter_crc := slice_from (-2) data in
  let data := slice_to (-2) data in
  let summary_status := slice_from (-8) data in
  let data := slice_to (-8) data in
  let status := slice_from (-8) data in
  let data := slice_to (-8) data in
  data_access <- getitem (-1) data ;;
  let data := slice_to (-1) data in
  Ok (ReadInstantaneousValuesResponse current_time is_dst supports_dst data data_access
        status summary_status parameter_crc).

(** application.py:111-125 ReadTimeResponse.from_bytes *)
Definition read_time_from_bytes (in_bytes : bytes) : res response_pdu :=
  let time_data := slice_to 6 in_bytes in
  let data_access_result := slice 6 7 in_bytes in
  let extra_data := slice 7 (-2) in_bytes in
  let* (device_time, is_dst, supports_dst) := bytes_to_datetime time_data in
  Ok (ReadTimeResponse device_time data_access_result is_dst supports_dst extra_data).

(** application.py:165-167 WriteTimeResponse.from_bytes *)
Definition write_time_from_bytes (in_bytes : bytes) : res response_pdu := Ok WriteTimeResponse.

(** application.py:204-215 ReadDeviceParametersResponse.from_bytes *)
Definition device_parameters_from_bytes (in_bytes : bytes) : res response_pdu :=
  let object_number := from_le (slice_to 2 in_bytes) in
  let object_amount := from_le (slice 2 4 in_bytes) in
  end_byte <- getitem 4 in_bytes ;;
  let is_end := negb (end_byte =? 0) in
  let data := slice_from 5 in_bytes in
  Ok (ReadDeviceParametersResponse data object_number object_amount is_end).

(** application.py:253-262 ReadArchiveByTimeResponse.from_bytes *)
Definition archive_by_time_from_bytes (in_bytes : bytes) : res response_pdu :=
  a <- getitem 0 in_bytes ;;
  archive <- archive_of_number a ;;
  let oldest_record_id := from_le (slice 1 4 in_bytes) in
  let data := slice_from 5 in_bytes in
  Ok (ReadArchiveByTimeResponse archive oldest_record_id data).

(** application.py:296-305 ReadArchiveResponse.from_bytes *)
Definition archive_from_bytes (in_bytes : bytes) : res response_pdu :=
  a <- getitem 0 in_bytes ;;
  archive <- archive_of_number a ;;
  let oldest_record_id := from_le (slice 1 4 in_bytes) in
  let data := slice_from 5 in_bytes in
  Ok (ReadArchiveResponse archive oldest_record_id data).

(** application.py:309-342 CallRequest *)
Record call_request := mk_call {
  guid : bytes; station_id : str; sim_card_id : str; modem_id : str;
  address_1 : Z; address_2 : Z; signal_strength : Z; connections : Z;
  last_connection_time : datetime; connection_errors : Z; last_connection_error_time : datetime;
  resets : Z; last_reset_time : datetime; tcp_data : Z; all_data : Z;
  serial_number : str; ip_address : str; last_modem_error : Z; last_modem_error_time : datetime;
  modem_battery_capacity : Z; modem_battery_voltage : Z; firmware_version : str;
  version : Z; protocol : Z }.

(** application.py:349 base_date *)
Definition base_date : datetime := mk_datetime 2000 1 1 0 0 0.

(** application.py:344-409 CallRequest.from_bytes *)
Definition call_from_bytes (in_bytes : bytes) : res call_request :=
  let data := in_bytes in
  let* (x, data) := pop_many data 2 in let length := from_le x in
  let* (version, data) := pop0 data in
  let* (guid, data) := pop_many data 16 in
  let* (x, data) := pop_many data 17 in let station_id := pretty_text x in
  let* (x, data) := pop_many data 10 in n <- from_bcd x ;; let sim_id := str_int n in
  let* (x, data) := pop_many data 8 in n <- from_bcd x ;; let modem_id := str_int n in
  let* (x, data) := pop0 data in protocol <- protocol_of_number x ;;
  let* (x, data) := pop_many data 2 in let address_1 := from_le x in
  let* (address_2, data) := pop0 data in
  let* (signal_strength, data) := pop0 data in
  let* (x, data) := pop_many data 4 in let connections := from_le x in
  let* (x, data) := pop_many data 4 in last_connection <- add_seconds base_date (from_le x) ;;
  let* (x, data) := pop_many data 4 in let connection_errors := from_le x in
  let* (x, data) := pop_many data 4 in last_connection_error_time <- add_seconds base_date (from_le x) ;;
  let* (x, data) := pop_many data 4 in let resets := from_le x in
  let* (x, data) := pop_many data 4 in last_reset_time <- add_seconds base_date (from_le x) ;;
  let* (x, data) := pop_many data 4 in let tcp_data := from_le x in
  let* (x, data) := pop_many data 4 in let all_data := from_le x in
  let* (x, data) := pop_many data 4 in let serial_number := str_int (from_le x) in
  let* (x, data) := pop_many data 4 in ip_address <- parse_ip_address x ;;
  let* (x, data) := pop_many data 4 in last_modem_error_time <- add_seconds base_date (from_le x) ;;
  let* (last_modem_error, data) := pop0 data in
  let* (x, data) := pop_many data 2 in let modem_battery_capacity := from_le x in
  let* (x, data) := pop_many data 2 in let modem_battery_voltage := from_le x in
  let* (x, data) := pop_many data 33 in let firmware_version := pretty_text x in
  Ok {| guid := guid; station_id := station_id; sim_card_id := sim_id; modem_id := modem_id;
        address_1 := address_1; address_2 := address_2; signal_strength := signal_strength;
        connections := connections; last_connection_time := last_connection;
        connection_errors := connection_errors;
        last_connection_error_time := last_connection_error_time;
        resets := resets; last_reset_time := last_reset_time; tcp_data := tcp_data;
        all_data := all_data; serial_number := serial_number; ip_address := ip_address;
        last_modem_error := last_modem_error; last_modem_error_time := last_modem_error_time;
        modem_battery_capacity := modem_battery_capacity;
        modem_battery_voltage := modem_battery_voltage; firmware_version := firmware_version;
        version := version; protocol := protocol |}.

(** application.py:418-419 CallResponse.to_bytes *)
Definition call_response_to_bytes : bytes := [].
