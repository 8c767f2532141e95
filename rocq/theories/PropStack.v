(** C69, C77, C78: a client over a socket or serial port, as one machine
    (elgas/client.py and elgas/transport.py together). *)
From Verif Require Import PyFacts SpecUtils SpecFrames SpecSecurity SpecConnection SpecApplication SpecPdu SpecText.
From Verif Require Import Connection PropConnection ParamLang Parameters Client SpecClient PropClient.
From Verif Require Import Transport SpecTransport SpecStack PropTransport Stack SpecErrors SpecSession SessionProofs SessionProofs2.
Open Scope list_scope.
Open Scope Z_scope.

(** *** a client for the examples: password "12", no random draws *)
Definition machine (t : transport) (key : option bytes) (id : option Z) : stack :=
  match make_stack t [49; 50] 801 key id (fun _ => (fun _ => 48, fun _ => 0)) with
  | Ok s => s
  | Err _ => mk_stack [] (plain_connection IDLE []) t 0 (fun _ => (fun _ => 48, fun _ => 0))
  end.

(** C69 *)
(** the connection is open, the device answers every request with a telegram; the
    bytes of the telegrams arrive cut anywhere, with any clock and timeout: the
    results are those of the conversation, and exactly the request telegrams are
    written, one for each request *)
Theorem C69_conversation : forall t pw pid k id dr s os lines rs vs rest later,
  make_stack t pw pid k id dr = Ok s ->
  usable_context (client_context k id) -> talks (client_context k id) pw os lines rs vs ->
  is_open t = true -> outcomes (env t) = [] -> arriving (incoming (env t)) (concat lines ++ rest) later ->
  exists ts s', stack_session s os = (vs, s') /\ Forall2 (request_line (client_context k id)) rs ts /\
    log (env (st_transport s')) = log (env t) ++ map SWrite ts /\
    arriving (incoming (env (st_transport s'))) rest later /\
    is_open (st_transport s') = true /\ outcomes (env (st_transport s')) = [] /\
    t_kind (st_transport s') = t_kind t.
Proof. exact stack_talks. Qed.
Print Assumptions C69_conversation.
(** the same from connect() to disconnect() *)
Theorem C69_whole_connection : forall kd to e pw pid k id dr s os lines rs vs rest later,
  make_stack (make_transport kd to e) pw pid k id dr = Ok s ->
  usable_context (client_context k id) -> talks (client_context k id) pw os lines rs vs ->
  outcomes e = [] -> arriving (incoming e) (concat lines ++ rest) later ->
  exists ts s', stack_session s (OpConnect :: os ++ [OpDisconnect]) = (Done (Ok RNothing) :: vs ++ [Done (Ok RNothing)], s') /\
    Forall2 (request_line (client_context k id)) rs ts /\
    log (env (st_transport s')) = log e ++ [SOpen] ++ map SWrite ts ++ closing kd /\
    arriving (incoming (env (st_transport s'))) rest later.
Proof. exact stack_whole. Qed.
Print Assumptions C69_whole_connection.
Definition in_pieces : list (res bytes) :=
  [Ok (firstn 5 time_line); Ok []; Ok (skipn 5 time_line ++ firstn 7 time_line); Ok (skipn 7 time_line ++ [1; 2])].
Example C69_whole_ex : forall kd,
  let e := mk_environment [] in_pieces (fun i => Z.of_nat i) 0 [] in
  arriving (incoming e) (concat [time_line; time_line] ++ [1; 2]) [] /\
  make_stack (make_transport kd (Some 3) e) [49; 50] 801 None None (fun _ => (fun _ => 48, fun _ => 0))
    = Ok (machine (make_transport kd (Some 3) e) None None) /\
  let '(vs, s) := stack_session (machine (make_transport kd (Some 3) e) None None) [OpConnect; OpReadTime; OpReadTime; OpDisconnect] in
  vs = [Done (Ok RNothing); Done (Ok (RTime (mk_datetime 2024 2 29 23 59 58))); Done (Ok (RTime (mk_datetime 2024 2 29 23 59 58)));
        Done (Ok RNothing)] /\
  length (log (env (st_transport s))) = (3 + length (closing kd))%nat /\ incoming (env (st_transport s)) = [Ok [1; 2]].
Proof.
  intros kd e. split; [|destruct kd; vm_compute; repeat split; reflexivity].
  exists [firstn 5 time_line; []; skipn 5 time_line ++ firstn 7 time_line; skipn 7 time_line ++ [1; 2]]. split; [reflexivity|vm_compute; reflexivity].
Qed.

(** C77 *)
(** whatever the socket, the clock, the user do: there is a history of transport
    calls such that the client gives what the client of Client.v gives with the
    results of these calls, and sends what it sends *)
Theorem C77_uses_transport_only : forall t pw pid k id dr s os vs s',
  make_stack t pw pid k id dr = Ok s -> stack_session s os = (vs, s') ->
  exists h cl cl', happens t h (st_transport s') /\
    make_client pw pid k id (mk_world (send_results h) (recv_results h) (control_results h) [] 0 dr) = Ok cl /\
    session cl os = (vs, cl') /\ sent (cl_world cl') = sends h /\ rx (cl_world cl') = [] /\
    cl_connection cl' = st_connection s'.
Proof. exact stack_refines. Qed.
Print Assumptions C77_uses_transport_only.
(** a call that does not return is in a call of recv that does not return *)
Theorem C77_waits_for_recv_only : forall t pw pid k id dr s os vs s',
  make_stack t pw pid k id dr = Ok s -> stack_session s os = (vs, s') ->
  In Waiting vs -> exists h, happens t (h ++ [(TRecv, Waiting)]) (st_transport s').
Proof. exact stack_waits. Qed.
Print Assumptions C77_waits_for_recv_only.
(** everything written to the socket or port is a request telegram, encrypted when
    there is a key *)
Theorem C77_writes_requests_only : forall t pw pid k id dr s os,
  make_stack t pw pid k id dr = Ok s -> key_bytes k ->
  exists calls, log (env (st_transport (snd (stack_session s os)))) = log (env t) ++ calls /\
  Forall (fun line => exists r, (forall p, request_password r = Some p -> p = pw) /\ request_line (client_context k id) r line) (written calls).
Proof. exact written_lines. Qed.
Print Assumptions C77_writes_requests_only.
(** a device that answers the first request, then stays silent *)
Example C77_ex :
  let e := mk_environment [] [Ok time_line; Ok [2]; Ok []; Ok []] (fun i => Z.of_nat i) 0 [] in
  let '(vs, s) := stack_session (machine (make_transport Tcp (Some 5) e) None None) [OpReadTime; OpConnect] in
  vs = [Done (Err RuntimeError); Done (Ok RNothing)] /\ written (log (env (st_transport s))) = [] /\
  let '(vs, s) := stack_session (machine (make_transport Tcp (Some 5) e) None None) [OpConnect; OpReadTime; OpReadValues; OpDisconnect] in
  vs = [Done (Ok RNothing); Done (Ok (RTime (mk_datetime 2024 2 29 23 59 58))); Waiting] /\ length (written (log (env (st_transport s)))) = 2%nat.
Proof. vm_compute. repeat split; reflexivity. Qed.

(** C78 *)
(** every exception: RuntimeError just for a missing or second connect(),
    CommunicationError just with a connection or when it is made, and nothing else
    of the transport *)
Theorem C78_exceptions : forall kd to e pw pid k id dr s os vs s1 o x s2,
  make_stack (make_transport kd to e) pw pid k id dr = Ok s ->
  key_bytes k -> only_os_errors e -> bytes_arrive e -> Forall operation_times_valid os -> operation_times_valid o ->
  stack_session s os = (vs, s1) -> stack_operate s1 o = (Done (Err x), s2) ->
  stack_explained pw (client_context k id) (is_connected os vs) o x.
Proof. exact stack_raises. Qed.
Print Assumptions C78_exceptions.
(** a call before connect() raises RuntimeError and writes nothing: but it makes the
    client unusable, also when connect() is called afterwards *)
Theorem C78_connect_later_refuted : forall kd to e pw pid k id dr s o r os,
  make_stack (make_transport kd to e) pw pid k id dr = Ok s ->
  usable_context (client_context k id) -> opens pw o = Some r -> encodable r ->
  exists s', stack_operate s o = (Done (Err RuntimeError), s') /\ log (env (st_transport s')) = log e /\
    all_refused os (fst (stack_session s' os)) /\
    exists calls, log (env (st_transport (snd (stack_session s' os)))) = log e ++ calls /\ written calls = [].
Proof. exact never_connected. Qed.
Print Assumptions C78_connect_later_refuted.
(** so does any exception but one of the parameter parser: a lost connection, a
    device error, an argument that does not fit; reconnecting does not help *)
Theorem C78_reconnect_refuted : forall s o x s' os,
  communicates o -> stack_operate s o = (Done (Err x), s') ->
  (forall n data, o = OpReadParameters n -> parse None (Some data) <> Some (Err x)) ->
  all_refused os (fst (stack_session s' os)) /\
  exists calls, log (env (st_transport (snd (stack_session s' os)))) = log (env (st_transport s')) ++ calls /\ written calls = [].
Proof. exact stack_no_recovery. Qed.
Print Assumptions C78_reconnect_refuted.
(** the peer resets the connection during the first request; the user reconnects *)
Example C78_ex :
  let e := mk_environment [None; Some OSError] [Ok time_line] (fun i => Z.of_nat i) 0 [] in
  let t := make_transport Serial (Some 50) e in
  only_os_errors e /\ bytes_arrive e /\
  let '(vs, s) := stack_session (machine t None None) [OpConnect; OpReadTime; OpDisconnect; OpConnect; OpReadTime; OpConnect; OpDisconnect] in
  vs = [Done (Ok RNothing); Done (Err CommunicationError); Done (Ok RNothing); Done (Ok RNothing); Done (Err LocalElgasProtocolError);
        Done (Err RuntimeError); Done (Ok RNothing)] /\
  is_connected [OpConnect; OpReadTime; OpDisconnect; OpConnect; OpReadTime; OpConnect; OpDisconnect] vs = false /\
  incoming (env (st_transport s)) = [Ok time_line].
Proof.
  split; [|split].
  - split; cbn; repeat constructor; auto; intros x H; discriminate.
  - repeat constructor; discriminate.
  - vm_compute. repeat split; reflexivity.
Qed.
