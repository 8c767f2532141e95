(** Independent specification of the connection: telegrams as a device writes
    and reads them, and call histories. *)
From Verif Require Import Py SpecUtils SpecFrames SpecSecurity Connection.
Open Scope Z_scope.

(** *** telegrams on the line *)
(** [t] is one line telegram (0x0D at its end only) that reads as [w] *)
Definition on_line (w t : bytes) : Prop :=
  exists p, t = p ++ [13] /\ ~ In 13 p /\ unesc t w.
Definition addresses (d1 d2 s1 s2 : Z) : Prop :=
  0 <= d1 <= 65535 /\ 0 <= d2 <= 255 /\ 0 <= s1 <= 65535 /\ 0 <= s2 <= 255.
(** [p] is the data [d] sealed under key [k] and key id [id], with any padding *)
Definition seals (k : bytes) (id : Z) (d p : bytes) : Prop :=
  exists pad, is_bytes pad /\ payload k id (len d) (d ++ pad) p.
(** [t] is a response telegram of service [srv] with data [d]: plain, or
    encrypted under the key of the context *)
Inductive answers (ctx : option cipher_context) (srv : service) (d t : bytes) : Prop :=
| plain_answer d1 d2 s1 s2 : addresses d1 d2 s1 s2 -> is_bytes d -> len d <= 65520 ->
    on_line (response_wire 134 (service_number srv) d1 d2 s1 s2 d) t -> answers ctx srv d t
| encrypted_answer d1 d2 s1 s2 k id p : addresses d1 d2 s1 s2 -> is_bytes d -> len d <= 65520 ->
    ctx = Some (mk_context id k) -> key16 k -> 0 <= id <= 255 -> seals k id d p -> len p <= 65520 ->
    on_line (response_wire 135 (service_number srv) d1 d2 s1 s2 p) t -> answers ctx srv d t.

(** which PDU class of the code reads the data of which service; what the data means
    is [means] of SpecMeaning, and C93 proves the two the same *)
Inductive decodes : service -> bytes -> response_pdu -> Prop :=
| dec_values d p : instantaneous_values_from_bytes d = Ok p -> decodes READ_VALUES d p
| dec_time d p : read_time_from_bytes d = Ok p -> decodes READ_DEVICE_TIME d p
| dec_parameters d p : device_parameters_from_bytes d = Ok p -> decodes READ_SCADA_PARAMETERS d p
| dec_by_date d p : archive_by_time_from_bytes d = Ok p -> decodes READ_ARCHIVES_BY_DATE d p
| dec_archives d p : archive_from_bytes d = Ok p -> decodes READ_ARCHIVES d p
| dec_write_time d p : write_time_from_bytes d = Ok p -> decodes WRITE_DEVICE_TIME d p.
Definition pdu_service (p : response_pdu) : service :=
  match p with
  | ReadInstantaneousValuesResponse _ _ _ _ _ _ _ _ => READ_VALUES
  | ReadTimeResponse _ _ _ _ _ => READ_DEVICE_TIME
  | WriteTimeResponse => WRITE_DEVICE_TIME
  | ReadDeviceParametersResponse _ _ _ _ => READ_SCADA_PARAMETERS
  | ReadArchiveByTimeResponse _ _ _ => READ_ARCHIVES_BY_DATE
  | ReadArchiveResponse _ _ _ => READ_ARCHIVES
  end.

(** [b] starts with the line telegram [t] *)
Definition first_telegram (t b : bytes) : Prop := exists rest, b = t ++ rest.
(** keys have 16 bytes *)
Definition sound_context (ctx : option cipher_context) : Prop :=
  match ctx with Some (mk_context _ k) => key16 k | None => True end.
(** complete response telegrams *)
Definition telegram (w : bytes) : Prop :=
  exists T srv d1 d2 s1 s2 d, (T = 134 \/ T = 135) /\ addresses d1 d2 s1 s2 /\ is_bytes d /\ len d <= 65520 /\
    w = response_wire T (service_number srv) d1 d2 s1 s2 d.
(** [w] is a complete response telegram of service [srv] whose data, decrypted
    if it is encrypted, is [d] *)
Inductive accepted (ctx : option cipher_context) (srv : service) (d w : bytes) : Prop :=
| accepted_plain d1 d2 s1 s2 : addresses d1 d2 s1 s2 -> is_bytes d -> len d <= 65520 ->
    w = response_wire 134 (service_number srv) d1 d2 s1 s2 d -> accepted ctx srv d w
| accepted_encrypted d1 d2 s1 s2 id k p : addresses d1 d2 s1 s2 -> is_bytes p -> len p <= 65520 ->
    w = response_wire 135 (service_number srv) d1 d2 s1 s2 p -> ctx = Some (mk_context id k) -> key16 k ->
    0 <= id <= 255 -> unseals id k p d -> accepted ctx srv d w.

(** the password a request carries *)
Definition request_password (r : request) : option str :=
  match r with
  | ReadInstantaneousValuesRequest p | WriteTimeRequest p _ _ | ReadDeviceParametersRequest p _ _
  | ReadArchiveByTimeRequest p _ _ _ | ReadArchiveRequest p _ _ _ => Some p
  | ReadTimeRequest => None
  end.

(** the service whose response a protocol state waits for *)
Definition outstanding (s : protocol_state) : option service :=
  match s with
  | IDLE => None
  | AWAITING_READ_ACTUAL_VALUES_RESPONSE => Some READ_VALUES
  | AWAITING_READ_DEVICE_PARAMETERS_RESPONSE => Some READ_SCADA_PARAMETERS
  | AWAITING_READ_TIME_RESPONSE => Some READ_DEVICE_TIME
  | AWAITING_READ_ARCHIVE_BY_TIME_RESPONSE => Some READ_ARCHIVES_BY_DATE
  | AWAITING_READ_ARCHIVE_RESPONSE => Some READ_ARCHIVES
  | AWAITING_WRITE_TIME_RESPONSE => Some WRITE_DEVICE_TIME
  end.
(** keys are bytes objects *)
Definition key_bytes (k : option bytes) : Prop := match k with Some k => is_bytes k | None => True end.

(** *** one-byte responses *)
(** the exception documented for bit i (elgas/exceptions.py) *)
Inductive device_error : Z -> exn -> Prop :=
| bit_0 : device_error 0 WrongPasswordError
| bit_1 : device_error 1 SettingArchiveFull
| bit_2 : device_error 2 SwitchOff
| bit_3 : device_error 3 BlockedBuffer
| bit_4 : device_error 4 DataError
| bit_5 : device_error 5 CipherKeyError
| bit_6 : device_error 6 WrongEncryptionKeysError
| bit_7 : device_error 7 WriteError.
(** the data is not a lone error flag *)
Definition no_flag (d : bytes) : Prop := forall i, 0 <= i <= 7 -> d <> [2 ^ i].

(** *** histories *)
Inductive call :=
| CSend (rnd pad : nat -> Z) (e : event)
| CReceive (data : bytes)
| CNext.
Inductive outcome :=
| OSend (r : res bytes)
| OReceive
| ONext (r : res (option response_pdu)).
Definition step (c : connection) (k : call) : outcome * connection :=
  match k with
  | CSend rnd pad e => let '(r, c') := send rnd pad c e in (OSend r, c')
  | CReceive data => (OReceive, receive_data c data)
  | CNext => let '(r, c') := next_event c in (ONext r, c')
  end.
Fixpoint run (c : connection) (ks : list call) : list (call * outcome) * connection :=
  match ks with
  | [] => ([], c)
  | k :: ks' => let '(o, c1) := step c k in
                let '(os, c2) := run c1 ks' in ((k, o) :: os, c2)
  end.
(** only PDUs of the request classes are sent *)
Definition only_requests (ks : list call) : Prop :=
  Forall (fun k => match k with CSend _ _ e => exists r, e = Request r | _ => True end) ks.

(** What a history may look like: [obeys out h] where [out] is the service of
    the outstanding request. A refusal is LocalElgasProtocolError. *)
Inductive obeys : option service -> list (call * outcome) -> Prop :=
| obeys_nil out : obeys out []
| obeys_receive out data h : obeys out h -> obeys out ((CReceive data, OReceive) :: h)
| obeys_accept rnd pad r res h : res <> Err LocalElgasProtocolError ->
    obeys (Some (request_service r)) h -> obeys None ((CSend rnd pad (Request r), OSend res) :: h)
| obeys_refuse s rnd pad r h :
    obeys (Some s) h -> obeys (Some s) ((CSend rnd pad (Request r), OSend (Err LocalElgasProtocolError)) :: h)
| obeys_deliver p h :
    obeys None h -> obeys (Some (pdu_service p)) ((CNext, ONext (Ok (Some p))) :: h)
| obeys_need out h : obeys out h -> obeys out ((CNext, ONext (Ok None)) :: h)
| obeys_raise out e h : obeys out h -> obeys out ((CNext, ONext (Err e)) :: h).

(** accepted requests and delivered responses of a history, in order *)
Inductive item := Accepted (s : service) | Delivered (s : service).
Definition items_of (x : call * outcome) : list item :=
  match x with
  | (CSend _ _ (Request r), OSend (Err LocalElgasProtocolError)) => []
  | (CSend _ _ (Request r), _) => [Accepted (request_service r)]
  | (_, ONext (Ok (Some p))) => [Delivered (pdu_service p)]
  | _ => []
  end.
Definition items (h : list (call * outcome)) : list item := flat_map items_of h.
(** requests and responses alternate, each response being of the service of
    the request before it *)
Inductive alternate : list item -> Prop :=
| alt_nil : alternate []
| alt_open s : alternate [Accepted s]
| alt_pair s l : alternate l -> alternate (Accepted s :: Delivered s :: l).

(** *** arrival of bytes in chunks: next_event after each chunk *)
Fixpoint feed (c : connection) (chunks : list bytes) : list (res (option response_pdu)) * connection :=
  match chunks with
  | [] => ([], c)
  | ch :: chs => let '(r, c1) := next_event (receive_data c ch) in
                 let '(rs, c2) := feed c1 chs in (r :: rs, c2)
  end.

(** *** what a history shows when the connection is stuck *)
(** every request is refused and every look for an event raises [x] *)
Definition stuck_on (x : exn) (h : list (call * outcome)) : Prop :=
  Forall (fun ko => match ko with
    | (CSend _ _ _, o) => o = OSend (Err LocalElgasProtocolError)
    | (CNext, o) => o = ONext (Err x)
    | (CReceive _, _) => True
    end) h.
(** no event is ever reported, not even an error *)
Definition never_delivers (h : list (call * outcome)) : Prop :=
  Forall (fun ko => match ko with (CNext, o) => o = ONext (Ok None) | _ => True end) h.
(** *** errors *)
(** AttributeError: an encrypted answer without a key; AssertionError: an answer
    encrypted with another key id *)
Definition next_event_exn (ctx : option cipher_context) (e : exn) : Prop :=
  (exists i, device_error i e) \/ e = LocalElgasProtocolError \/ e = KeyError \/ e = IndexError \/
  e = ValueError \/ (e = AssertionError /\ ctx <> None) \/ (e = AttributeError /\ ctx = None).
(** a ten-byte telegram: type 0x86, service WRITE_DEVICE_TIME, length 9 and the
    three redundancy bytes; no addresses, no data *)
Definition runt : bytes := [2; 254; 134; 113; 9; 0; 0; 254; 12; 13].
