(** C91: every session on every line (elgas/client.py, elgas/transport.py,
    elgas/connection.py, elgas/security.py, elgas/frames.py together). *)
From Verif Require Import PyFacts SpecUtils SpecFrames SpecSecurity SpecConnection SpecApplication SpecPdu SpecText.
From Verif Require Import Connection PropConnection ParamLang Parameters Client SpecClient PropClient.
From Verif Require Import Transport SpecTransport SpecStack PropTransport Stack SpecErrors SpecSession PropStack SpecIndep SpecOutcome OutcomeProofs OutcomeProofs2.
Open Scope list_scope.
Open Scope Z_scope.

(** C91 *)
(** whatever bytes and exceptions arrive, in whatever pieces and at whatever times:
    the results, the requests that are written and the bytes that are left are the
    foretold ones *)
Theorem C91_every_session : forall t pw pid k id dr s os vs s',
  make_stack t pw pid k id dr = Ok s -> usable_context (client_context k id) ->
  is_open t = true -> outcomes (env t) = [] -> bytes_arrive (env t) ->
  Forall communicates os -> Forall operation_times_valid os -> stack_session s os = (vs, s') ->
  exists rs ts, foretold (client_context k id) pw os (stream (incoming (env t))) vs rs (stream (incoming (env (st_transport s')))) /\
    Forall2 (request_line (client_context k id)) rs ts /\ log (env (st_transport s')) = log (env t) ++ map SWrite ts.
Proof. exact every_session. Qed.
Print Assumptions C91_every_session.
(** only one outcome is foretold *)
Theorem C91_one_outcome : forall ctx pw os bs vs rs rest vs' rs' rest',
  usable_context ctx -> stream_bytes bs ->
  foretold ctx pw os bs vs rs rest -> foretold ctx pw os bs vs' rs' rest' -> vs = vs' /\ rs = rs' /\ rest = rest'.
Proof. exact (fun ctx pw os bs vs rs rest vs' rs' rest' U B H H' => foretold_once ctx pw os bs vs rs rest U B H vs' rs' rest' H'). Qed.
Print Assumptions C91_one_outcome.
(** every telegram is exactly one of: the answer, a reason for one exception, nothing *)
Theorem C91_one_verdict : forall ctx srv w t,
  on_line w t -> is_bytes t -> usable_context ctx ->
  exists j, verdict ctx srv w j /\ forall j', verdict ctx srv w j' -> j' = j.
Proof. exact one_verdict. Qed.
Print Assumptions C91_one_verdict.

(** stray ends of line, an answer in pieces, an error flag, then a refusal *)
Example C91_ex :
  let e := mk_environment [] [Ok [13; 13]; Ok (firstn 5 time_line); Ok []; Ok (skipn 5 time_line ++ [13] ++ flag_line 108 4); Ok time_line]
             (fun i => Z.of_nat i) 0 [] in
  let t := mk_transport Tcp (Some 3) true e in
  make_stack t [49; 50] 801 None None (fun _ => (fun _ => 48, fun _ => 0)) = Ok (machine t None None) /\
  usable_context (client_context None None) /\ bytes_arrive (env t) /\
  let '(vs, s) := stack_session (machine t None None) [OpReadTime; OpReadTime; OpReadTime] in
  (exists x, vs = [Done (Ok (RTime (mk_datetime 2024 2 29 23 59 58))); Done (Err x); Done (Err LocalElgasProtocolError)]) /\
  stream (incoming (env (st_transport s))) = map Ok time_line /\ length (log (env (st_transport s))) = 2%nat.
Proof.
  cbv zeta. split; [vm_compute; reflexivity|]. split; [exact I|]. split; [vm_compute; repeat constructor; try discriminate|].
  vm_compute. split; [eexists; reflexivity|]. split; reflexivity.
Qed.
(** verdicts: the answer, the answer to a request of another service, a sealed answer
    without the key, with the key, with another key id *)
Lemma verdict_of ctx srv w : w = removelast w ++ [13] -> byte_data (line_of w) = true -> usable_context ctx ->
  verdict ctx srv w (judge ctx srv (line_of w)).
Proof. intros E B U. apply judgement_is; [apply line_of_on_line; exact E|apply Forall_forall; intros b Hb; unfold byte_data in B; rewrite forallb_forall in B; specialize (B b Hb); unfold is_byte; lia|exact U]. Qed.
Example C91_ex_verdicts :
  let plain := response_wire 134 108 4660 5 0 0 time_data in
  let secret := response_wire 135 108 4660 5 0 0 (sealed_data time_data) in
  verdict None READ_DEVICE_TIME plain (Value time_pdu) /\
  verdict None READ_VALUES plain (Raises LocalElgasProtocolError) /\
  verdict None READ_DEVICE_TIME secret (Raises AttributeError) /\
  verdict (Some (mk_context 7 key7)) READ_DEVICE_TIME secret (Value time_pdu) /\
  verdict (Some (mk_context 8 key7)) READ_DEVICE_TIME secret (Raises AssertionError) /\
  verdict (Some (mk_context 7 (rev key7))) READ_DEVICE_TIME secret Nothing /\
  verdict None READ_DEVICE_TIME (response_wire 134 200 4660 5 0 0 time_data) Nothing.
Proof.
  assert (forall k id, k = key7 \/ k = rev key7 -> 0 <= id <= 255 -> usable_context (Some (mk_context id k))) as U.
  { intros k id [-> | ->] H; (split; [split; [repeat constructor; lia|reflexivity]|exact H]). }
  cbv zeta. repeat match goal with |- _ /\ _ => split end;
    match goal with |- verdict ?ctx ?srv ?w ?j => replace j with (judge ctx srv (line_of w)) by (vm_compute; reflexivity); apply verdict_of end;
    try (vm_compute; reflexivity); try exact I; apply U; auto; lia.
Qed.
(** the line of a broken telegram is not skipped: the right answer after it is not heard *)
Example C91_ex_deaf : forall more rest,
  let w := removelast (removelast (removelast (response_wire 134 108 4660 5 0 0 time_data))) ++ [0; 0; 13] in
  verdict None READ_DEVICE_TIME w Nothing /\
  heard None READ_DEVICE_TIME (map Ok (line_of w ++ time_line ++ more)) Waiting [] /\
  heard None READ_DEVICE_TIME (map Ok (line_of w ++ time_line ++ more) ++ Err OSError :: rest) (Done (Err CommunicationError)) rest.
Proof.
  intros more rest w. assert (verdict None READ_DEVICE_TIME w Nothing) as V.
  { replace Nothing with (judge None READ_DEVICE_TIME (line_of w)) by (vm_compute; reflexivity).
    apply verdict_of; [vm_compute; reflexivity|vm_compute; reflexivity|exact I]. }
  split; [exact V|]. assert (on_line w (line_of w)) as O by (apply line_of_on_line; vm_compute; reflexivity).
  unfold line_of in O |- *. rewrite <- app_assoc. split.
  - eapply deaf; [|exact O|exact V]. vm_compute. discriminate.
  - change CommunicationError with (relayed OSError). eapply deaf_broken; [|exact O|exact V]. vm_compute. discriminate.
Qed.
