(** C79, C80: what is written to the log (LOG in elgas/connection.py, state.py, client.py
    and transport.py). *)
From Coq Require Import String.
From Verif Require Import PyFacts SpecUtils SpecFrames SpecSecurity SpecConnection SpecApplication SpecPdu SpecText.
From Verif Require Import Connection PropConnection ParamLang Parameters Client SpecClient PropClient.
From Verif Require Import Transport SpecTransport PropTransport Stack SpecErrors SpecSession PropStack.
From Verif Require Import Secret SpecSecret PropSecret Log SpecLog LogProofs.
Open Scope string_scope.
Open Scope list_scope.
Open Scope Z_scope.

(** C79 *)
(** two clients that differ in password, password id and random draws only, with the
    same device: all calls end the same way, and the logs are the same line by
    line, except for the data of requests; with a key these are ciphertexts *)
Theorem C79_requests_only : forall sh t pw pid dr s pw' pid' dr' s' k id os,
  make_stack t pw pid k id dr = Ok s -> make_stack t pw' pid' k id dr' = Ok s' -> key_bytes k ->
  latin1 pw -> latin1 pw' -> Forall operation_times_valid os ->
  fst (stack_session s os) = fst (stack_session s' os) /\
  Forall2 (same_but_requests sh (client_context k id) (client_context k id)) (session_log sh s os) (session_log sh s' os).
Proof. exact log_same. Qed.
Print Assumptions C79_requests_only.
(** the entries of level INFO do not depend on the password at all, with a key or without *)
Theorem C79_info_level : forall sh str_repr bytes_repr stack t pw pid dr s pw' pid' dr' s' k id os,
  make_stack t pw pid k id dr = Ok s -> make_stack t pw' pid' k id dr' = Ok s' -> key_bytes k ->
  latin1 pw -> latin1 pw' -> Forall operation_times_valid os ->
  map (rendered str_repr bytes_repr stack) (info (session_log sh s os)) =
  map (rendered str_repr bytes_repr stack) (info (session_log sh s' os)).
Proof. exact log_info. Qed.
Print Assumptions C79_info_level.
(** without a key, the password is in the log: every call that sends it, connected
    or not, logs the bytes of the request, which start with the password *)
Theorem C79_no_key_refuted : forall sh t pw pid k id dr s o r,
  make_stack t pw pid k id dr = Ok s -> client_context k id = None ->
  opens pw o = Some r -> request_password r <> None -> encodable r ->
  exists e rest, In e (operate_log sh s o) /\ entry_shows e (show_bytes sh (pw ++ rest)).
Proof. exact password_logged. Qed.
Print Assumptions C79_no_key_refuted.
Definition log_shown0 : log_shown :=
  mk_log_shown shown0 quoted (fun _ => text "S") (fun _ => text "PDU") (text "O") (fun _ => text "2024") (text "('h', 1)") (fun _ => text "STATE") (fun _ => text "T()").
Definition levels (l : list entry) : list (level * str) := map (fun e => (severity e, message e)) l.
(** a read of the time and a write, with key and without *)
Example C79_ex :
  let e := mk_environment [] [Ok time_line] (fun i => Z.of_nat i) 0 [] in
  let t := make_transport Tcp (Some 50) e in
  let dr := fun _ => (fun _ : nat => 48, fun _ : nat => 0) in
  let with_key pw := make_stack t pw 801 (Some key7) (Some 7) dr in
  let os := [OpConnect; OpReadTime; OpReadValues] in
  match with_key [49; 50], with_key [51; 52; 53], make_stack t [49; 50] 801 None None dr with
  | Ok s, Ok s', Ok p =>
      levels (session_log log_shown0 s os) = levels (session_log log_shown0 s' os) /\
      map (rendered quoted quoted ["_repr"]) (info (session_log log_shown0 s os)) =
        [(Info, text "Connected to ('h', 1)", []); (Info, text "Reading device time", []);
         (Info, text "Received PDU", [(text "pdu", text "PDU")]); (Info, text "Got device time", [(text "time", text "2024")]);
         (Info, text "Reading instantaneous values", [])] /\
      map (rendered quoted quoted ["_repr"]) (firstn 4 (operate_log log_shown0 p OpReadValues)) =
        [(Info, text "Reading instantaneous values", []);
         (Debug, text "Sending request PDU", [(text "pdu", text "ReadInstantaneousValuesRequest(password=<SECRET>)")]);
         (Debug, text "Elgas state transitioned from STATE to STATE", []);
         (Debug, text "Sending ELGAS request", [(text "request", text "Request(service=S, destination_address_1=0, destination_address_2=0, source_address_1=0, source_address_2=0, data='12!" ++ [3] ++ text "YY')")])]
  | _, _, _ => False
  end.
Proof. vm_compute. repeat split; reflexivity. Qed.

(** C80 *)
(** two connections that differ in key and password only: the entries of send differ
    in ciphertexts only *)
Theorem C80_key_send : forall sh rnd pad rnd' pad' c c' r r' x x',
  same_connection c c' -> context c = Some x -> context c' = Some x' -> key16 (key x) -> key16 (key x') ->
  addresses (c_destination_1 c) (c_destination_2 c) (c_source_1 c) (c_source_2 c) ->
  SpecSecret.same_request r r' -> request_times_valid r ->
  (forall p, request_password r = Some p -> latin1 p /\ len p <= 6) ->
  (forall p, request_password r' = Some p -> latin1 p /\ len p <= 6) ->
  Forall2 (same_but_requests sh (context c) (context c')) (send_log sh rnd pad c (Request r)) (send_log sh rnd' pad' c' (Request r')).
Proof. exact key_send. Qed.
Print Assumptions C80_key_send.
(** the entries of next_event depend on the key only through what the payload of the
    telegram in the buffer decrypts to *)
Theorem C80_key_next_event : forall sh c c', same_connection c c' ->
  (forall d, encrypted_payload (buffer c) d -> same_decryption c c' d) -> next_event_log sh c = next_event_log sh c'.
Proof. exact key_next_event. Qed.
Print Assumptions C80_key_next_event.
(** but the decrypted answer itself is logged *)
Theorem C80_answers_hidden_refuted : forall sh c srv d1 d2 s1 s2 d p k id t rest,
  addresses d1 d2 s1 s2 -> is_bytes d -> len d <= 65520 ->
  context c = Some (mk_context id k) -> key16 k -> 0 <= id <= 255 -> seals k id d p -> len p <= 65520 ->
  on_line (response_wire 135 (service_number srv) d1 d2 s1 s2 p) t -> buffer c = t ++ rest ->
  exists e, In e (next_event_log sh c) /\ entry_shows e (show_bytes sh d).
Proof. exact decryption_logged. Qed.
Print Assumptions C80_answers_hidden_refuted.
Definition key9 : bytes := [9; 2; 3; 4; 5; 6; 7; 8; 9; 10; 11; 12; 13; 14; 15; 16].
Definition other_connection (s : protocol_state) (b : bytes) : connection :=
  mk_connection 0 0 4660 5 [51] 801 (Some key9) (Some 7) b s (Some (mk_context 7 key9)).
(** a plain answer to two connections with different keys; an encrypted one *)
Example C80_ex :
  same_connection (sealed_connection AWAITING_READ_TIME_RESPONSE time_line) (other_connection AWAITING_READ_TIME_RESPONSE time_line) /\
  levels (send_log log_shown0 (fun _ => 48) (fun _ => 0) (sealed_connection IDLE []) (Request (ReadInstantaneousValuesRequest [49; 50]))) =
    [(Debug, text "Sending request PDU"); (Debug, text "Elgas state transitioned from STATE to STATE"); (Debug, text "Sending ELGAS request")] /\
  next_event_log log_shown0 (sealed_connection AWAITING_READ_TIME_RESPONSE time_line) =
  next_event_log log_shown0 (other_connection AWAITING_READ_TIME_RESPONSE time_line) /\
  levels (next_event_log log_shown0 (sealed_connection AWAITING_READ_TIME_RESPONSE time_line)) =
    [(Debug, text "Received ELGAS response"); (Info, text "Received PDU"); (Debug, text "Elgas state transitioned from STATE to STATE")] /\
  levels (next_event_log log_shown0 (sealed_connection AWAITING_READ_TIME_RESPONSE sealed_time_line)) =
    [(Debug, text "Received ELGAS response"); (Debug, text "Decrypted ELGAS response"); (Info, text "Received PDU");
     (Debug, text "Elgas state transitioned from STATE to STATE")] /\
  levels (next_event_log log_shown0 (other_connection AWAITING_READ_TIME_RESPONSE sealed_time_line)) =
    [(Debug, text "Received ELGAS response"); (Debug, text "Cannot interpret data as frame. Need more data")].
Proof.
  split; [repeat split; discriminate|]. split; [vm_compute; reflexivity|]. split; [vm_compute; reflexivity|].
  split; [vm_compute; reflexivity|]. split; vm_compute; reflexivity.
Qed.
