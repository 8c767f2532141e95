(** Model of /repo/elgas/constants.py and /repo/elgas/frames.py. *)
From Verif Require Export Utils.
Open Scope Z_scope.

(** elgas/constants.py:4-18 ServiceNumber *)
Inductive service :=
| READ_VALUES | WRITE_VALUES | SEARCH_ARCHIVE_POINTERS_OLD | SEARCH_ARCHIVE_POINTERS
| READ_ARCHIVES_OLD | READ_ARCHIVES | READ_DEVICE_TIME | READ_SCADA_PARAMETERS
| WRITE_DEVICE_TIME | GROUP_WRITE_VALUES | GROUP_READ_VALUES | CALL
| READ_ARCHIVES_BY_DATE_OLD | READ_ARCHIVES_BY_DATE.

(** elgas/constants.py:5-18, the enum values *)
Definition service_number (s : service) : Z :=
  match s with
  | READ_VALUES => 100 (* 0x64 *)
  | WRITE_VALUES => 101 (* 0x65 *)
  | SEARCH_ARCHIVE_POINTERS_OLD => 103 (* 0x67 *)
  | SEARCH_ARCHIVE_POINTERS => 123 (* 0x7B *)
  | READ_ARCHIVES_OLD => 104 (* 0x68 *)
  | READ_ARCHIVES => 124 (* 0x7C *)
  | READ_DEVICE_TIME => 108 (* 0x6C *)
  | READ_SCADA_PARAMETERS => 112 (* 0x70 *)
  | WRITE_DEVICE_TIME => 113 (* 0x71 *)
  | GROUP_WRITE_VALUES => 119 (* 0x77 *)
  | GROUP_READ_VALUES => 121 (* 0x79 *)
  | CALL => 135 (* 0x87 *)
  | READ_ARCHIVES_BY_DATE_OLD => 145 (* 0x91 *)
  | READ_ARCHIVES_BY_DATE => 125 (* 0x7D *)
  end.

(** elgas/constants.py:4-18, the members in order *)
Definition all_services : list service :=
  [READ_VALUES; WRITE_VALUES; SEARCH_ARCHIVE_POINTERS_OLD; SEARCH_ARCHIVE_POINTERS;
   READ_ARCHIVES_OLD; READ_ARCHIVES; READ_DEVICE_TIME; READ_SCADA_PARAMETERS;
   WRITE_DEVICE_TIME; GROUP_WRITE_VALUES; GROUP_READ_VALUES; CALL;
   READ_ARCHIVES_BY_DATE_OLD; READ_ARCHIVES_BY_DATE].

(** elgas/constants.py:4 ServiceNumber(n): look a member up by value *)
Definition service_of_number (n : Z) : res service :=
  match find (fun s => service_number s =? n) all_services with
  | Some s => Ok s
  | None => Err ValueError
  end.

(** elgas/constants.py:21-32 Archive: the values are 0..10 *)
Definition archive_of_number (n : Z) : res Z :=
  if (0 <=? n) && (n <=? 10) then Ok n else Err ValueError.

(** elgas/constants.py:35-39 Protocol: the values are 0..3 *)
Definition protocol_of_number (n : Z) : res Z :=
  if (0 <=? n) && (n <=? 3) then Ok n else Err ValueError.

(** The attributes of elgas/frames.py:10-18 Request and :94-102 Response.
    [data] is the payload. *)
Record frame := mk_frame {
  f_service : service;
  destination_address_1 : Z;
  destination_address_2 : Z;
  source_address_1 : Z;
  source_address_2 : Z;
  f_data : bytes }.

(** elgas/frames.py:12,178 TYPE of Request and EncryptedRequest;
    elgas/frames.py:96,183 TYPE of Response and EncryptedResponse *)
Definition REQUEST_TYPE : Z := 132.             (* 0x84 *)
Definition ENCRYPTED_REQUEST_TYPE : Z := 133.   (* 0x85 *)
Definition RESPONSE_TYPE : Z := 134.            (* 0x86 *)
Definition ENCRYPTED_RESPONSE_TYPE : Z := 135.  (* 0x87 *)

(** elgas/frames.py:22-27 and 104-109, property length *)
Definition frame_length (f : frame) : Z := len (f_data f) + 15.

(** elgas/frames.py:29-47 Request.to_bytes (addresses big-endian) *)
Definition request_to_bytes (TYPE : Z) (f : frame) : res bytes :=
  out <- append [] 2 ;;
  out <- append out 254 ;;
  out <- append out TYPE ;;
  out <- append out (service_number (f_service f)) ;;
  l <- to_le 2 (frame_length f) ;;
  let out := out ++ l in
  d1 <- to_be 2 (destination_address_1 f) ;;
  let out := out ++ d1 in
  out <- append out (destination_address_2 f) ;;
  s1 <- to_be 2 (source_address_1 f) ;;
  let out := out ++ s1 in
  out <- append out (source_address_2 f) ;;
  let out := out ++ f_data f in
  let redundancy_source := slice_from 1 out in
  out <- append out (calculate_lrc redundancy_source) ;;
  out <- append out (calculate_checksum redundancy_source) ;;
  out <- append out (calculate_drc redundancy_source) ;;
  append out 13.

(** elgas/frames.py:111-129 Response.to_bytes (addresses little-endian) *)
Definition response_to_bytes (TYPE : Z) (f : frame) : res bytes :=
  out <- append [] 2 ;;
  out <- append out 254 ;;
  out <- append out TYPE ;;
  out <- append out (service_number (f_service f)) ;;
  l <- to_le 2 (frame_length f) ;;
  let out := out ++ l in
  d1 <- to_le 2 (destination_address_1 f) ;;
  let out := out ++ d1 in
  out <- append out (destination_address_2 f) ;;
  s1 <- to_le 2 (source_address_1 f) ;;
  let out := out ++ s1 in
  out <- append out (source_address_2 f) ;;
  let out := out ++ f_data f in
  let redundancy_source := slice_from 1 out in
  out <- append out (calculate_lrc redundancy_source) ;;
  out <- append out (calculate_checksum redundancy_source) ;;
  out <- append out (calculate_drc redundancy_source) ;;
  append out 13.

(** elgas/frames.py:49-91 Request.from_bytes. [TYPE.to_bytes(1, "little")] is
    [[TYPE]] for the four class constants. *)
Definition request_from_bytes (TYPE : Z) (in_bytes : bytes) : res frame :=
  guard startswith in_bytes [2; 254; TYPE] else ValueError ;;
  guard endswith in_bytes [13] else ValueError ;;
  srv <- service_of_number (from_le (slice 3 4 in_bytes)) ;;
  let length := from_le (slice 4 6 in_bytes) in
  guard length =? len in_bytes - 1 else ValueError ;;
  let d1 := from_le (slice 6 8 in_bytes) in
  let d2 := from_le (slice 8 9 in_bytes) in
  let s1 := from_le (slice 9 11 in_bytes) in
  let s2 := from_le (slice 11 12 in_bytes) in
  let data := slice 12 (-4) in_bytes in
  let redundancy_source := slice 1 (-4) in_bytes in
  lrc <- getitem (-4) in_bytes ;;
  guard lrc =? calculate_lrc redundancy_source else ValueError ;;
  checksum <- getitem (-3) in_bytes ;;
  guard checksum =? calculate_checksum redundancy_source else ValueError ;;
  drc <- getitem (-2) in_bytes ;;
  guard drc =? calculate_drc redundancy_source else ValueError ;;
  Ok (mk_frame srv d1 d2 s1 s2 data).

(** elgas/frames.py:131-173 Response.from_bytes *)
Definition response_from_bytes (TYPE : Z) (in_bytes : bytes) : res frame :=
  guard startswith in_bytes [2; 254; TYPE] else ValueError ;;
  guard endswith in_bytes [13] else ValueError ;;
  srv <- service_of_number (from_le (slice 3 4 in_bytes)) ;;
  let length := from_le (slice 4 6 in_bytes) in
  guard length =? len in_bytes - 1 else ValueError ;;
  let d1 := from_le (slice 6 8 in_bytes) in
  let d2 := from_le (slice 8 9 in_bytes) in
  let s1 := from_le (slice 9 11 in_bytes) in
  let s2 := from_le (slice 11 12 in_bytes) in
  let data := slice 12 (-4) in_bytes in
  let redundancy_source := slice 1 (-4) in_bytes in
  lrc <- getitem (-4) in_bytes ;;
  guard lrc =? calculate_lrc redundancy_source else ValueError ;;
  checksum <- getitem (-3) in_bytes ;;
  guard checksum =? calculate_checksum redundancy_source else ValueError ;;
  drc <- getitem (-2) in_bytes ;;
  guard drc =? calculate_drc redundancy_source else ValueError ;;
  Ok (mk_frame srv d1 d2 s1 s2 data).

(** The object returned by elgas/frames.py:188-195 ResponseFactory.from_bytes;
    its class is what connection.py:180 tests with isinstance. *)
Inductive response :=
| PlainResponse (f : frame)
| EncryptedResponse (f : frame).

(** elgas/frames.py:188-195 ResponseFactory.from_bytes *)
Definition response_factory (in_data : bytes) : res response :=
  if startswith in_data [2; 254; 134] then
    f <- response_from_bytes RESPONSE_TYPE in_data ;; Ok (PlainResponse f)
  else if startswith in_data [2; 254; 135] then
    f <- response_from_bytes ENCRYPTED_RESPONSE_TYPE in_data ;; Ok (EncryptedResponse f)
  else Err ValueError.
