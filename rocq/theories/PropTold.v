(** C99: what the log tells (LOG in elgas/connection.py, state.py, client.py and transport.py). *)
From Coq Require Import String.
From Verif Require Import PyFacts SpecUtils SpecFrames SpecSecurity SpecConnection SpecApplication SpecPdu SpecText.
From Verif Require Import Connection PropConnection ParamLang Parameters PropParameters Client SpecClient PropClient.
From Verif Require Import Transport SpecTransport PropTransport Stack SpecErrors SpecSession PropStack.
From Verif Require Import Secret SpecSecret PropSecret Log SpecLog PropLog SpecTold ToldProofs.
Open Scope string_scope.
Open Scope list_scope.
Open Scope Z_scope.

(** C99 *)
(** the log of any sequence of calls shows all data that is sent and received, in
    order; the states the protocol went through, from the first to the last; and
    for each call what was asked, what came and what was returned *)
Theorem C99_session : forall sh s os vs s', stack_session s os = (vs, s') ->
  (exists h, happens (st_transport s) h (st_transport s') /\ data_told sh h (data_entries (session_log sh s os))) /\
  states_told sh (elgas_state (st_connection s)) (state_entries (session_log sh s os)) (elgas_state (st_connection s')) /\
  calls_told sh (st_password s) os vs (call_entries (session_log sh s os)).
Proof. intros sh s os vs s'. exact (session_tells sh os s vs s'). Qed.
Print Assumptions C99_session.
(** the same for one call, with the entries about the connection *)
Theorem C99_call : forall sh s o a s', stack_operate s o = (a, s') ->
  (exists h, happens (st_transport s) h (st_transport s') /\ data_told sh h (data_entries (operate_log sh s o))) /\
  states_told sh (elgas_state (st_connection s)) (state_entries (operate_log sh s o)) (elgas_state (st_connection s')) /\
  control_entries (operate_log sh s o) = control_told sh (is_open (st_transport s)) o a /\
  call_told sh (st_password s) o a (call_entries (operate_log sh s o)).
Proof. exact operate_told. Qed.
Print Assumptions C99_call.
(** data that is received: ignored, or added to the buffer *)
Theorem C99_buffer : forall sh c d,
  (d = [] -> receive_data_log sh c d = [] /\ receive_data c d = c) /\
  (d = [13] -> buffer c = [] ->
     receive_data_log sh c d = [inform "Received an end char when read buffer was empty. This is a known issue and data is ignored." []] /\
     receive_data c d = c) /\
  (d <> [] -> d <> [13] \/ buffer c <> [] ->
     receive_data_log sh c d = [debug "Added data to connection buffer" [item "data" (show_bytes sh d); item "total_buffer" (show_buffer sh (buffer c ++ d))]] /\
     buffer (receive_data c d) = buffer c ++ d).
Proof. exact receive_told. Qed.
Print Assumptions C99_buffer.
(** the frame that is logged is the one that is sent *)
Theorem C99_frame_sent : forall sh rnd pad c r line c',
  addresses (c_destination_1 c) (c_destination_2 c) (c_source_1 c) (c_source_2 c) ->
  (match context c with Some x => is_bytes (key x) | None => True end) ->
  send rnd pad c (Request r) = (Ok line, c') ->
  exists cls type f,
    send_log sh rnd pad c (Request r) =
      [asked sh r; transition_entry sh (elgas_state c) (elgas_state c'); debug "Sending ELGAS request" [(text "request", frame_object sh cls f)]] /\
    match context c with Some _ => cls = "EncryptedRequest" /\ type = 133 | None => cls = "Request" /\ type = 132 end /\
    on_line (request_wire type (service_number (f_service f)) (destination_address_1 f) (destination_address_2 f)
      (source_address_1 f) (source_address_2 f) (f_data f)) line.
Proof. exact frame_told. Qed.
Print Assumptions C99_frame_sent.
(** the frame that is logged is the one that came, and what it decrypts to *)
Theorem C99_plain_frame : forall sh c srv d1 d2 s1 s2 d t rest, addresses d1 d2 s1 s2 -> is_bytes d -> len d <= 65520 ->
  on_line (response_wire 134 (service_number srv) d1 d2 s1 s2 d) t -> buffer c = t ++ rest ->
  exists l, next_event_log sh c =
    debug "Received ELGAS response" [(text "response", frame_object sh "Response" (mk_frame srv d1 d2 s1 s2 d))] :: l.
Proof. exact response_told. Qed.
Print Assumptions C99_plain_frame.
Theorem C99_encrypted_frame : forall sh c srv d1 d2 s1 s2 p t rest, addresses d1 d2 s1 s2 -> is_bytes p -> len p <= 65520 ->
  on_line (response_wire 135 (service_number srv) d1 d2 s1 s2 p) t -> buffer c = t ++ rest ->
  exists l, next_event_log sh c =
    debug "Received ELGAS response" [(text "response", frame_object sh "EncryptedResponse" (mk_frame srv d1 d2 s1 s2 p))] :: l /\
    forall id k d, context c = Some (mk_context id k) -> key16 k -> 0 <= id <= 255 -> is_bytes d -> len d <= 65520 -> seals k id d p ->
      exists l', l = debug "Decrypted ELGAS response" [(text "decrypted", frame_object sh "EncryptedResponse" (mk_frame srv d1 d2 s1 s2 d))] :: l'.
Proof. exact encrypted_told. Qed.
Print Assumptions C99_encrypted_frame.
(** a read of the time after a stray line end, and a read of parameters in two pages *)
Example C99_ex :
  let e := mk_environment [] [Ok [13]; Ok time_line; Ok (page_line 1 0 [39; 0; 65]); Ok (page_line 1 1 timer1)] (fun i => Z.of_nat i) 0 [] in
  let dr := fun _ => (fun _ : nat => 48, fun _ : nat => 0) in
  match make_stack (make_transport Tcp (Some 50) e) [49; 50] 801 None None dr with
  | Ok s =>
      let l := session_log log_shown0 s [OpConnect; OpReadTime; OpReadParameters 3; OpDisconnect] in
      map (rendered quoted quoted ["_repr"]) (call_entries l) =
        [(Info, text "Reading device time", []);
         (Debug, text "Sending request PDU", [(text "pdu", text "ReadTimeRequest()")]);
         (Info, text "Received PDU", [(text "pdu", text "PDU")]);
         (Info, text "Got device time", [(text "time", text "2024")]);
         (Info, text "Reading device parameters", [(text "read_from", show_int log_shown0 3)]);
         (Info, text "Requesting device parameters", [(text "object_count", show_int log_shown0 3)]);
         (Debug, text "Sending request PDU", [(text "pdu", object_repr quoted quoted ["_repr"] (request_object log_shown0 (ReadDeviceParametersRequest [49; 50] 3 1024)))]);
         (Info, text "Received PDU", [(text "pdu", text "PDU")]);
         (Info, text "Received device parameters", [(text "object_amount", show_int log_shown0 1)]);
         (Info, text "More parameters available", [(text "next_object_count", show_int log_shown0 4)]);
         (Info, text "Requesting device parameters", [(text "object_count", show_int log_shown0 4)]);
         (Debug, text "Sending request PDU", [(text "pdu", object_repr quoted quoted ["_repr"] (request_object log_shown0 (ReadDeviceParametersRequest [49; 50] 4 1024)))]);
         (Info, text "Received PDU", [(text "pdu", text "PDU")]);
         (Info, text "Received device parameters", [(text "object_amount", show_int log_shown0 1)]);
         (Debug, text "Received total parameters data", [(text "data", quoted ([39; 0; 65] ++ timer1))])] /\
      map message (firstn 8 (data_entries l)) =
        map text ["Sent data"; "Received data"; "Received an end char when read buffer was empty. This is a known issue and data is ignored.";
          "Received data"; "Added data to connection buffer"; "Sent data"; "Received data"; "Added data to connection buffer"] /\
      length (state_entries l) = 6%nat /\ length (control_entries l) = 2%nat
  | Err _ => False
  end.
Proof. vm_compute. repeat split; reflexivity. Qed.
(** the hypotheses of the theorems on single frames *)
Example C99_ex_frames :
  let c := sealed_connection AWAITING_READ_TIME_RESPONSE sealed_time_line in
  addresses (c_destination_1 c) (c_destination_2 c) (c_source_1 c) (c_source_2 c) /\
  (exists line c', send (fun _ => 48) (fun _ => 0) (sealed_connection IDLE []) (Request ReadTimeRequest) = (Ok line, c')) /\
  map message (next_event_log log_shown0 c) =
    map text ["Received ELGAS response"; "Decrypted ELGAS response"; "Received PDU"; "Elgas state transitioned from STATE to STATE"].
Proof.
  split; [vm_compute; repeat split; discriminate|]. split; [|vm_compute; reflexivity].
  eexists _, _. vm_compute. reflexivity.
Qed.
