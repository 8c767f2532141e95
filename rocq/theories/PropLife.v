(** C92: the whole life of a client (elgas/client.py, elgas/transport.py,
    elgas/connection.py and what they use, together). *)
From Verif Require Import PyFacts SpecUtils SpecFrames SpecSecurity SpecConnection SpecApplication SpecPdu SpecText.
From Verif Require Import Connection PropConnection ParamLang Parameters Client SpecClient PropClient.
From Verif Require Import Transport SpecTransport SpecStack PropTransport Stack SpecErrors SpecSession PropStack SpecIndep SpecOutcome SpecLife LifeProofs.
Open Scope list_scope.
Open Scope Z_scope.

(** C92 *)
(** any calls, connect() and disconnect() among them; any key; any outcomes of the
    calls of the socket or port, any bytes and exceptions that arrive, in any pieces,
    with any clock and timeout: there is a life that tells the results, the calls of
    the socket or port and what is left *)
Theorem C92_every_life : forall t pw pid k id dr s os vs s',
  make_stack t pw pid k id dr = Ok s -> key_bytes k -> bytes_arrive (env t) ->
  Forall operation_times_valid os -> stack_session s os = (vs, s') ->
  exists i ds cs, lives (client_context k id) pw (t_kind t) os (life_of true t) vs ds (life_of i (st_transport s')) /\
    Forall2 (done (client_context k id)) ds cs /\ log (env (st_transport s')) = log (env t) ++ cs.
Proof. exact every_life. Qed.
Print Assumptions C92_every_life.
(** and only one *)
Theorem C92_one_life : forall ctx pw kd os l vs ds l' vs' ds' l'',
  stream_bytes (coming l) -> lives ctx pw kd os l vs ds l' -> lives ctx pw kd os l vs' ds' l'' ->
  vs = vs' /\ ds = ds' /\ l' = l''.
Proof. exact (fun ctx pw kd os l vs ds l' vs' ds' l'' B H H' => lives_once ctx pw kd os l vs ds l' H B vs' ds' l'' H'). Qed.
Print Assumptions C92_one_life.

(** the first connect() fails, the second does not; an answer; the write of the third
    request fails; then refusals, until and after a new connection *)
Example C92_ex : forall kd,
  let e := mk_environment [Some OSError; None; None; Some OSError; Some OSError] [Ok (13 :: time_line)] (fun i => Z.of_nat i) 0 [] in
  let t := make_transport kd (Some 3) e in
  make_stack t [49; 50] 801 None None (fun _ => (fun _ => 48, fun _ => 0)) = Ok (machine t None None) /\ bytes_arrive (env t) /\
  let '(vs, s) := stack_session (machine t None None)
    [OpConnect; OpConnect; OpConnect; OpReadTime; OpReadTime; OpReadTime; OpDisconnect; OpConnect; OpReadTime] in
  vs = [Done (Err CommunicationError); Done (Ok RNothing); Done (Err RuntimeError); Done (Ok (RTime (mk_datetime 2024 2 29 23 59 58)));
        Done (Err CommunicationError); Done (Err LocalElgasProtocolError); Done (Err CommunicationError); Done (Ok RNothing);
        Done (Err LocalElgasProtocolError)] /\
  length (log (env (st_transport s))) = 6%nat.
Proof. intros kd e t. subst t e. destruct kd; (split; [vm_compute; reflexivity|]; split; [vm_compute; repeat constructor; try discriminate|vm_compute; split; reflexivity]). Qed.
(** a key of 15 bytes; asking without a connection *)
Example C92_ex_key :
  let t := make_transport Tcp None (mk_environment [] [] (fun _ => 0) 0 []) in
  fst (stack_session (machine t (Some (removelast key7)) (Some 7)) [OpConnect; OpReadTime; OpReadTime])
    = [Done (Ok RNothing); Done (Err ValueError); Done (Err LocalElgasProtocolError)] /\
  fst (stack_session (machine t (Some key7) (Some 7)) [OpReadTime; OpConnect; OpReadTime])
    = [Done (Err RuntimeError); Done (Ok RNothing); Done (Err LocalElgasProtocolError)].
Proof. vm_compute. split; reflexivity. Qed.
