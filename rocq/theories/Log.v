(** Model of the log of elgas: the calls of LOG in /repo/elgas/connection.py, state.py,
    client.py and transport.py.  The functions of this file give the entries that
    the functions of Stack.v, Connection.v and Transport.v write, in order. *)
From Coq Require Import String.
From Verif Require Export Stack Secret.
From Verif Require Import ParamLang Parameters.
Open Scope string_scope.
Open Scope list_scope.
Open Scope Z_scope.

(** structlog: LOG.debug(event, key=value, ...), LOG.info(event, key=value, ...) *)
Inductive level := Debug | Info.
Record entry := mk_entry { severity : level; message : str; values : list (str * object) }.
(** An entry as it is written: the renderers of structlog show a value by its repr;
    [stack] are the functions that call repr (see [object_repr] in Secret.v). *)
Definition rendered (str_repr : str -> str) (bytes_repr : bytes -> str) (stack : list string) (e : entry)
    : level * str * list (str * str) :=
  (severity e, message e, map (fun x => (fst x, object_repr str_repr bytes_repr stack (snd x))) (values e)).

(** The representations of the other values in the log, on top of [shown] in
    Secret.v: bytes, members of ServiceNumber, response PDUs, objects that are
    no PDU, datetime.isoformat(), the address or port in an f-string, a protocol
    state in an f-string.  [show_socket n]: the transport, after [n] calls of its
    socket or port. *)
Record log_shown := mk_log_shown {
  base :> shown; show_bytes : bytes -> str; show_service : service -> str; show_response : response_pdu -> str; show_other : str;
  show_isoformat : datetime -> str; show_address : str; show_state_name : protocol_state -> str;
  show_socket : nat -> str }.

Section Log.
Variable sh : log_shown.

(** connection.py:110, the value of pdu *)
Definition event_object (e : event) : object :=
  match e with
  | Request r => request_object sh r
  | Response p => Plain (show_response sh p)
  | OtherObject => Plain (show_other sh)
  end.
(** frames.py:10-18, 94-102, 176-178, 181-183, attrs classes *)
Definition frame_object (cls : string) (f : frame) : object :=
  Instance (text cls)
    [(text "service", Plain (show_service sh (f_service f)));
     (text "destination_address_1", Plain (show_int sh (destination_address_1 f)));
     (text "destination_address_2", Plain (show_int sh (destination_address_2 f)));
     (text "source_address_1", Plain (show_int sh (source_address_1 f)));
     (text "source_address_2", Plain (show_int sh (source_address_2 f)));
     (text "data", Plain (show_bytes sh (f_data f)))].

(** state.py:82-94 *)
Definition process_event_log (s : protocol_state) (e : event) : list entry :=
  match process_event s e with
  | Err _ => []
  | Ok s' => [mk_entry Debug (text "Elgas state transitioned from " ++ show_state_name sh s ++ text " to " ++ show_state_name sh s') []]
  end.
(** connection.py:108-139 *)
Definition send_log (rnd pad : nat -> Z) (c : connection) (e : event) : list entry :=
  mk_entry Debug (text "Sending request PDU") [(text "pdu", event_object e)] ::
  process_event_log (elgas_state c) e ++
  match process_event (elgas_state c) e, e with
  | Ok _, Request r =>
      match pdu_to_bytes rnd r with
      | Err _ => []
      | Ok application_data =>
          match context c with
          | Some ctx =>
              match context_encrypt pad ctx application_data with
              | Err _ => []
              | Ok d => [mk_entry Debug (text "Sending ELGAS request")
                           [(text "request", frame_object "EncryptedRequest" (frame_of c (request_service r) d))]]
              end
          | None => [mk_entry Debug (text "Sending ELGAS request")
                       [(text "request", frame_object "Request" (frame_of c (request_service r) application_data))]]
          end
      end
  | _, _ => []
  end.
(** connection.py:141-158 *)
Definition receive_data_log (c : connection) (data : bytes) : list entry :=
  match data with
  | [] => []
  | _ => if list_eqb data [13] && (len (buffer c) =? 0)
         then [mk_entry Info (text "Received an end char when read buffer was empty. This is a known issue and data is ignored.") []]
         else [mk_entry Debug (text "Added data to connection buffer")
                 [(text "data", Plain (show_bytes sh data)); (text "total_buffer", Plain (show_buffer sh (buffer c ++ data)))]]
  end.
(** connection.py:176-190, the body of the try statement and its except clause *)
Definition interpret_log (ctx : option cipher_context) (data : bytes) : list entry :=
  let unreadable := [mk_entry Debug (text "Cannot interpret data as frame. Need more data") []] in
  let caught (x : exn) := if is_value_error x then unreadable else [] in
  match return_characters data with
  | Err x => caught x
  | Ok raw =>
      match response_factory raw with
      | Err x => caught x
      | Ok response =>
          match response with
          | PlainResponse f =>
              mk_entry Debug (text "Received ELGAS response") [(text "response", frame_object "Response" f)] ::
              match interpret ctx data with Err x => caught x | Ok _ => [] end
          | EncryptedResponse f =>
              mk_entry Debug (text "Received ELGAS response") [(text "response", frame_object "EncryptedResponse" f)] ::
              match ctx with
              | None => []
              | Some ctx' =>
                  match context_decrypt ctx' (f_data f) with
                  | Err x => caught x
                  | Ok d =>
                      mk_entry Debug (text "Decrypted ELGAS response") [(text "decrypted", frame_object "EncryptedResponse" (set_data f d))] ::
                      match interpret ctx data with Err x => caught x | Ok _ => [] end
                  end
              end
          end
      end
  end.
(** connection.py:160-197 *)
Definition next_event_log (c : connection) : list entry :=
  match buffer c with
  | [] => [mk_entry Debug (text "Buffer empty. Need more data") []]
  | _ =>
      match index_of 13 (buffer c) with
      | None => [mk_entry Debug (text "No end char in data. Need more data") []]
      | Some i =>
          let data := slice_to (i + 1) (buffer c) in
          interpret_log (context c) data ++
          match interpret (context c) data with
          | Err _ => []
          | Ok f =>
              match pdu_from_response f with
              | Err _ => []
              | Ok pdu =>
                  mk_entry Info (text "Received PDU") [(text "pdu", Plain (show_response sh pdu))] ::
                  process_event_log (elgas_state c) (Response pdu)
              end
          end
      end
  end.

(** the transport, in its own log entries *)
Definition transport_value (t : transport) : str * object :=
  (text "transport", Plain (show_socket sh (length (log (env t))))).
(** transport.py:84-103, 188-207 *)
Definition transport_connect_log (t : transport) : list entry :=
  match transport_connect t with
  | (Done (Ok _), _) => [mk_entry Info (text "Connected to " ++ show_address sh) []]
  | _ => []
  end.
(** transport.py:105-119, 209-222; nothing without a socket *)
Definition transport_disconnect_log (t : transport) : list entry :=
  if is_open t then
    match transport_disconnect t with
    | (Done (Ok _), _) => [mk_entry Info (text "Connection to " ++ show_address sh ++ text " is closed") []]
    | _ => []
    end
  else [].
(** transport.py:121-129, 224-232 *)
Definition transport_write_log (t : transport) (data : bytes) : list entry :=
  match transport_write t data with
  | (Done (Ok _), t') => [mk_entry Debug (text "Sent data") [(text "data", Plain (show_bytes sh data)); transport_value t']]
  | _ => []
  end.
(** transport.py:131-138, 234-241 *)
Definition transport_read_log (t : transport) : list entry :=
  match transport_read t with
  | (Done (Ok data), t') => [mk_entry Debug (text "Received data") [(text "data", Plain (show_bytes sh data)); transport_value t']]
  | _ => []
  end.

(** client.py:48-51 *)
Definition stack_send_one_log (s : stack) (event : event) : list entry :=
  let '(rnd, pad) := st_draws s (st_requests s) in
  send_log rnd pad (st_connection s) event ++
  match send rnd pad (st_connection s) event with
  | (Err _, _) => []
  | (Ok data, c) =>
      transport_write_log (st_transport s) data ++
      match transport_write (st_transport s) data with
      | (Done (Ok _), t) =>
          transport_read_log t ++
          match transport_read t with
          | (Done (Ok response_data), _) => receive_data_log c response_data
          | _ => []
          end
      | _ => []
      end
  end.
(** client.py:53-59; [fuel] as in [stack_next_event_loop] *)
Fixpoint stack_next_event_loop_log (fuel : nat) (s : stack) : list entry :=
  next_event_log (st_connection s) ++
  match next_event (st_connection s) with
  | (Ok None, c) =>
      match fuel with
      | O => []
      | S fuel' =>
          transport_read_log (st_transport s) ++
          match transport_read (st_transport s) with
          | (Done (Ok data), t) =>
              receive_data_log c data ++
              stack_next_event_loop_log fuel' (st_set_connection (st_set_transport s t) (receive_data c data))
          | _ => []
          end
      end
  | _ => []
  end.
Definition stack_next_event_log (s : stack) : list entry :=
  stack_next_event_loop_log (S (available (incoming (env (st_transport s))))) s.
(** self.send(request); response = self.next_event(), as in client.py:64-65,
    72-73, 82-83, 97-98, 118-119, 131-132 *)
Definition stack_exchange_log (s : stack) (r : request) : list entry :=
  stack_send_one_log s (Request r) ++
  match stack_send_one s (Request r) with
  | (Done (Ok _), s') => stack_next_event_log s'
  | _ => []
  end.
(** client.py:61-67 *)
Definition stack_read_instantaneous_values_log (s : stack) : list entry :=
  let request := ReadInstantaneousValuesRequest (st_password s) in
  mk_entry Info (text "Reading instantaneous values") [] :: stack_exchange_log s request ++
  match stack_exchange s request with
  | (Done (Ok _), _) => [mk_entry Info (text "Received instantaneous values") []]
  | _ => []
  end.
(** client.py:69-75; evaluating response.time raises for other classes *)
Definition stack_read_time_log (s : stack) : list entry :=
  mk_entry Info (text "Reading device time") [] :: stack_exchange_log s ReadTimeRequest ++
  match stack_exchange s ReadTimeRequest with
  | (Done (Ok (ReadTimeResponse time _ _ _ _)), _) =>
      [mk_entry Info (text "Got device time") [(text "time", Plain (show_isoformat sh time))]]
  | _ => []
  end.
(** client.py:77-84 *)
Definition stack_write_time_log (s : stack) (device_time : datetime) (cryout : bool) : list entry :=
  let request := WriteTimeRequest (st_password s) device_time cryout in
  mk_entry Info (text "Writing time to device") [(text "time", Plain (show_isoformat sh device_time))] ::
  stack_exchange_log s request ++
  match stack_exchange s request with
  | (Done (Ok _), _) => [mk_entry Info (text "Finished writing time to device") []]
  | _ => []
  end.
(** client.py:91-106, the loop and the debug entry after it *)
Fixpoint stack_read_parameters_loop_log (fuel : nat) (s : stack) (object_count : Z) (total_parameter_data : bytes) : list entry :=
  match fuel with
  | O => []
  | S fuel' =>
      let request := ReadDeviceParametersRequest (st_password s) object_count 1024 in
      mk_entry Info (text "Requesting device parameters") [(text "object_count", Plain (show_int sh object_count))] ::
      stack_exchange_log s request ++
      match stack_exchange s request with
      | (Done (Ok (ReadDeviceParametersResponse data _ object_amount is_end)), s') =>
          mk_entry Info (text "Received device parameters") [(text "object_amount", Plain (show_int sh object_amount))] ::
          if is_end
          then [mk_entry Debug (text "Received total parameters data") [(text "data", Plain (show_bytes sh (total_parameter_data ++ data)))]]
          else mk_entry Info (text "More parameters available") [(text "next_object_count", Plain (show_int sh (object_count + object_amount)))] ::
               stack_read_parameters_loop_log fuel' s' (object_count + object_amount) (total_parameter_data ++ data)
      | _ => []
      end
  end.
(** client.py:86-107 *)
Definition stack_read_parameters_log (s : stack) (read_from : Z) : list entry :=
  mk_entry Info (text "Reading device parameters") [(text "read_from", Plain (show_int sh read_from))] ::
  stack_read_parameters_loop_log (S (available (incoming (env (st_transport s))))) s read_from [].

(** the entries of one call of the client (client.py:41-133) *)
Definition operate_log (s : stack) (o : operation) : list entry :=
  match o with
  | OpConnect => transport_connect_log (st_transport s)
  | OpDisconnect => transport_disconnect_log (st_transport s)
  | OpReadValues => stack_read_instantaneous_values_log s
  | OpReadTime => stack_read_time_log s
  | OpWriteTime t cryout => stack_write_time_log s t cryout
  | OpReadParameters n => stack_read_parameters_log s n
  | OpReadArchive a n i => stack_exchange_log s (ReadArchiveRequest (st_password s) a n i)
  | OpReadArchiveByTime a n t => stack_exchange_log s (ReadArchiveByTimeRequest (st_password s) a n t)
  end.
(** the entries of a sequence of calls *)
Fixpoint session_log (s : stack) (os : list operation) : list entry :=
  match os with
  | [] => []
  | o :: os' =>
      operate_log s o ++
      match stack_operate s o with
      | (Waiting, _) => []
      | (_, s') => session_log s' os'
      end
  end.
End Log.
