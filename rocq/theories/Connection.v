(** Model of /repo/elgas/connection.py. *)
From Verif Require Export State Security.
Open Scope Z_scope.

(** elgas/connection.py:69-106, the attributes of ElgasConnection *)
Record connection := mk_connection {
  c_source_1 : Z; c_source_2 : Z; c_destination_1 : Z; c_destination_2 : Z;
  c_password : str; c_password_id : Z;
  encryption_key : option bytes; encryption_key_id : option Z;
  buffer : bytes; elgas_state : protocol_state; context : option cipher_context }.

(** elgas/connection.py:34-45 create_cipher_context *)
Definition create_cipher_context (k : option bytes) (id : option Z) : option cipher_context :=
  match k, id with
  | Some k, Some id => Some (mk_context id k)
  | _, _ => None
  end.

(** elgas/connection.py:80-96, the validators, run in this order by __init__.
    attrs' ge / le / max_len raise ValueError. *)
Definition validate (s1 s2 d1 d2 : Z) (password : str) (password_id : Z) : bool :=
  (0 <=? s1) && (s1 <=? 65535) && (0 <=? s2) && (s2 <=? 255) &&
  (0 <=? d1) && (d1 <=? 65535) && (0 <=? d2) && (d2 <=? 255) &&
  (len password <=? 6) && (801 <=? password_id) && (password_id <=? 849).
(** elgas/connection.py:69-106, the constructor, with the two arguments
    elgas_state and cipher_context, which no caller in elgas passes, left at their
    defaults. *)
Definition make_connection (s1 s2 d1 d2 : Z) (password : str) (password_id : Z)
    (k : option bytes) (id : option Z) : res connection :=
  guard validate s1 s2 d1 d2 password password_id else ValueError ;;
  Ok (mk_connection s1 s2 d1 d2 password password_id k id [] IDLE (create_cipher_context k id)).
(** elgas/connection.py:69-106, the constructor with these two arguments; [state]
    is the current_state of the ElgasState object given (state.py:74-80),
    [given] the cipher_context given (None is a value it can have) *)
Definition make_connection_with (s1 s2 d1 d2 : Z) (password : str) (password_id : Z)
    (k : option bytes) (id : option Z) (state : option protocol_state) (given : option (option cipher_context)) : res connection :=
  guard validate s1 s2 d1 d2 password password_id else ValueError ;;
  Ok (mk_connection s1 s2 d1 d2 password password_id k id []
        (match state with Some s => s | None => IDLE end)
        (match given with Some ctx => ctx | None => create_cipher_context k id end)).

(** assignment to self.elgas_state.current_state (state.py:93) and to
    self.buffer (connection.py:155, 195) *)
Definition set_state (c : connection) (s : protocol_state) : connection :=
  mk_connection (c_source_1 c) (c_source_2 c) (c_destination_1 c) (c_destination_2 c)
    (c_password c) (c_password_id c) (encryption_key c) (encryption_key_id c) (buffer c) s (context c).
Definition set_buffer (c : connection) (b : bytes) : connection :=
  mk_connection (c_source_1 c) (c_source_2 c) (c_destination_1 c) (c_destination_2 c)
    (c_password c) (c_password_id c) (encryption_key c) (encryption_key_id c) b (elgas_state c) (context c).

(** elgas/connection.py:119-126 and 130-137: the arguments of the two frame
    constructors *)
Definition frame_of (c : connection) (srv : service) (data : bytes) : frame :=
  mk_frame srv (c_destination_1 c) (c_destination_2 c) (c_source_1 c) (c_source_2 c) data.

(** elgas/connection.py:108-139 ElgasConnection.send. A context is always
    truthy (connection.py:114). [rnd] feeds random.choices in to_bytes, [pad]
    random.randint in encrypt. Only the request classes have a to_bytes method
    (application.py); for other objects that pass the state check the attribute
    lookup fails. The connection is returned also when an exception is raised. *)
Definition send (rnd pad : nat -> Z) (c : connection) (e : event) : res bytes * connection :=
  match process_event (elgas_state c) e with
  | Err x => (Err x, c)
  | Ok s =>
      let c := set_state c s in
      (match e with
       | Request r =>
           application_data <- pdu_to_bytes rnd r ;;
           frame_data <-
             match context c with
             | Some ctx =>
                 d <- context_encrypt pad ctx application_data ;;
                 request_to_bytes ENCRYPTED_REQUEST_TYPE (frame_of c (request_service r) d)
             | None =>
                 request_to_bytes REQUEST_TYPE (frame_of c (request_service r) application_data)
             end ;;
           escape_characters frame_data
       | _ => Err AttributeError
       end, c)
  end.

(** elgas/connection.py:141-158 ElgasConnection.receive_data *)
Definition receive_data (c : connection) (data : bytes) : connection :=
  match data with
  | [] => c
  | _ => if list_eqb data [13] && (len (buffer c) =? 0) then c
         else set_buffer c (buffer c ++ data)
  end.

(** elgas/connection.py:48-65 raise_error *)
Definition raise_error (data : bytes) : res unit :=
  error <- getitem 0 data ;;
  if error =? 1 then Err WrongPasswordError
  else if error =? 2 then Err SettingArchiveFull
  else if error =? 4 then Err SwitchOff
  else if error =? 8 then Err BlockedBuffer
  else if error =? 16 then Err DataError
  else if error =? 32 then Err CipherKeyError
  else if error =? 64 then Err WrongEncryptionKeysError
  else if error =? 128 then Err WriteError
  else Ok tt.

(** elgas/connection.py:19-31 ResponsePduFactory *)
Definition pdu_from_response (f : frame) : res response_pdu :=
  match f_service f with
  | READ_VALUES => instantaneous_values_from_bytes (f_data f)
  | READ_DEVICE_TIME => read_time_from_bytes (f_data f)
  | READ_SCADA_PARAMETERS => device_parameters_from_bytes (f_data f)
  | READ_ARCHIVES_BY_DATE => archive_by_time_from_bytes (f_data f)
  | READ_ARCHIVES => archive_from_bytes (f_data f)
  | WRITE_DEVICE_TIME => write_time_from_bytes (f_data f)
  | _ => Err KeyError
  end.

(** elgas/connection.py:181, assignment to response.data *)
Definition set_data (f : frame) (d : bytes) : frame :=
  mk_frame (f_service f) (destination_address_1 f) (destination_address_2 f)
    (source_address_1 f) (source_address_2 f) d.

(** elgas/connection.py:176-185, the body of the try statement *)
Definition interpret (ctx : option cipher_context) (data : bytes) : res frame :=
  raw <- return_characters data ;;
  response <- response_factory raw ;;
  f <- match response with
       | PlainResponse f => Ok f
       | EncryptedResponse f =>
           match ctx with
           | None => Err AttributeError
           | Some ctx => d <- context_decrypt ctx (f_data f) ;; Ok (set_data f d)
           end
       end ;;
  if len (f_data f) =? 1 then u <- raise_error (f_data f) ;; Ok f else Ok f.

(** elgas/connection.py:160-197 ElgasConnection.next_event; [Ok None] is
    NEED_DATA *)
Definition next_event (c : connection) : res (option response_pdu) * connection :=
  match buffer c with
  | [] => (Ok None, c)
  | _ =>
      match index_of 13 (buffer c) with
      | None => (Ok None, c)
      | Some i =>
          let end_char_index := i + 1 in
          let data := slice_to end_char_index (buffer c) in
          match interpret (context c) data with
          | Err x => if is_value_error x then (Ok None, c) else (Err x, c)
          | Ok f =>
              match pdu_from_response f with
              | Err x => (Err x, c)
              | Ok pdu =>
                  match process_event (elgas_state c) (Response pdu) with
                  | Err x => (Err x, c)
                  | Ok s => (Ok (Some pdu), set_buffer (set_state c s) [])
                  end
              end
          end
      end
  end.
