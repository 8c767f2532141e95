(** C89: how long receiving takes (elgas/transport.py, elgas/client.py). *)
From Verif Require Import PyFacts SpecUtils SpecFrames SpecSecurity SpecConnection SpecApplication SpecPdu SpecText.
From Verif Require Import Connection PropConnection ParamLang Parameters Client SpecClient PropClient.
From Verif Require Import Transport SpecTransport SpecStack PropTransport Stack SpecErrors SpecSession PropStack SpecTimed TimedProofs.
Open Scope list_scope.
Open Scope Z_scope.

(** C89 *)
(** what recv reads, and when it stops: at 0x0D, at an exception, or at the first byte
    that comes when the time is over; not before *)
Theorem C89_recv_in_time : forall t timeout reads a t',
  is_open t = true -> t_timeout t = Some timeout -> 0 <= timeout -> forward reads ->
  incoming (env t) = map as_read reads -> shows (now (env t)) (ticks (env t)) reads ->
  transport_read t = (a, t') ->
  exists used rest, reads = used ++ rest /\ incoming (env t') = map as_read rest /\ in_time timeout used rest a.
Proof. exact recv_timed. Qed.
Print Assumptions C89_recv_in_time.
(** when no read takes longer than the timeout, recv takes less than two timeouts *)
Theorem C89_recv_duration : forall t timeout reads a t',
  is_open t = true -> t_timeout t = Some timeout -> 0 < timeout -> punctual timeout reads ->
  incoming (env t) = map as_read reads -> shows (now (env t)) (ticks (env t)) reads ->
  transport_read t = (a, t') ->
  exists used rest, reads = used ++ rest /\ incoming (env t') = map as_read rest /\
    match a with Done _ => spent used < 2 * timeout | Waiting => rest = [] /\ spent used < timeout end.
Proof. exact recv_duration. Qed.
Print Assumptions C89_recv_duration.
(** and it can take that long, not just the timeout *)
Theorem C89_recv_within_timeout_refuted : forall k timeout os l, 0 < timeout ->
  exists e reads t', let t := mk_transport k (Some timeout) true e in
    outcomes e = os /\ log e = l /\ punctual timeout reads /\ incoming e = map as_read reads /\ shows (now e) (ticks e) reads /\
    transport_read t = (Done (Ok [65; 65]), t') /\ incoming (env t') = [] /\ spent reads = 2 * timeout - 1.
Proof. exact duration_reached. Qed.
Print Assumptions C89_recv_within_timeout_refuted.
(** a call of the client: when the socket or port raises, in the middle of anything and
    with any clock, the call raises too (or has ended before); nothing is read afterwards *)
Theorem C89_failure_ends_call : forall s o a s' x more,
  breaks (incoming (env (st_transport s))) x more -> stack_operate s o = (a, s') ->
  (exists r, a = Done r /\ breaks (incoming (env (st_transport s'))) x more) \/
  (a = Done (Err (relayed x)) /\ incoming (env (st_transport s')) = more).
Proof. exact failure_ends. Qed.
Print Assumptions C89_failure_ends_call.
(** but there is no bound for a call: whatever the timeout and the clock, bytes without
    0x0D keep it waiting *)
Theorem C89_call_ends_refuted : forall t pw pid k id dr s o r data,
  make_stack t pw pid k id dr = Ok s ->
  usable_context (client_context k id) -> opens pw o = Some r -> encodable r -> is_open t = true -> outcomes (env t) = [] ->
  ~ In 13 data -> arriving (incoming (env t)) data [] ->
  exists s', stack_operate s o = (Waiting, s') /\ incoming (env (st_transport s')) = [].
Proof. exact endless_call. Qed.
Print Assumptions C89_call_ends_refuted.
(** such as one byte in every unit of time, for as long as one likes *)
Theorem C89_call_duration_refuted : forall t pw pid k id dr s o r n,
  make_stack t pw pid k id dr = Ok s ->
  usable_context (client_context k id) -> opens pw o = Some r -> encodable r -> is_open t = true -> outcomes (env t) = [] ->
  incoming (env t) = map as_read (repeat (1, Ok 65) n) ->
  punctual 1 (repeat (1, Ok 65) n) /\ spent (repeat (1, Ok 65) n) = Z.of_nat n /\
  exists s', stack_operate s o = (Waiting, s') /\ incoming (env (st_transport s')) = [].
Proof. exact slow_device. Qed.
Print Assumptions C89_call_duration_refuted.

(** three bytes, 4 units of time each, with a timeout of 10: all three are read, and
    the rest of the telegram is left *)
Example C89_ex_recv :
  let reads := [(4, Ok 1); (4, Ok 2); (4, Ok 3); (4, Ok 13)] in
  let e := mk_environment [] (map as_read reads) (fun n => 4 * Z.of_nat n) 0 [] in
  punctual 10 reads /\ (forall used rest, reads = used ++ rest -> now e (0 + length used)%nat = now e 0%nat + spent used) /\
  (let '(a, t') := transport_read (mk_transport Tcp (Some 10) true e) in a = Done (Ok [1; 2; 3]) /\ incoming (env t') = [Ok [13]]).
Proof.
  cbv zeta. split; [|split].
  - repeat constructor; cbn; discriminate.
  - intros used rest E. destruct used as [|a [|b [|c [|d [|f used]]]]]; cbn in E; try discriminate; [reflexivity|..].
    + injection E as <- _. reflexivity.
    + injection E as <- <- _. reflexivity.
    + injection E as <- <- <- _. reflexivity.
    + injection E as <- <- <- <- _. reflexivity.
  - vm_compute. split; reflexivity.
Qed.
(** the socket times out in the middle of the second telegram *)
Example C89_ex_failure :
  let e := mk_environment [] [Ok time_line; Ok [2; 3]; Err OSError; Ok time_line] (fun i => Z.of_nat i) 0 [] in
  let s := machine (mk_transport Tcp (Some 5) true e) None None in
  breaks (incoming (env (st_transport s))) OSError [Ok time_line] /\
  let '(a, s) := stack_operate s OpReadTime in
  a = Done (Ok (RTime (mk_datetime 2024 2 29 23 59 58))) /\ breaks (incoming (env (st_transport s))) OSError [Ok time_line] /\
  let '(a, s) := stack_operate s OpReadTime in
  a = Done (Err CommunicationError) /\ incoming (env (st_transport s)) = [Ok time_line].
Proof.
  vm_compute. split; [exists [time_line; [2; 3]]; reflexivity|]. split; [reflexivity|]. split; [exists [[2; 3]]; reflexivity|]. split; reflexivity.
Qed.
Example C89_ex_endless :
  let e := mk_environment [] (map as_read (repeat (1, Ok 65) 500)) (fun i => Z.of_nat i) 0 [] in
  make_stack (mk_transport Tcp (Some 5) true e) [49; 50] 801 None None (fun _ => (fun _ => 48, fun _ => 0)) = Ok (machine (mk_transport Tcp (Some 5) true e) None None) /\
  usable_context (client_context None None) /\ opens [49; 50] OpReadTime = Some ReadTimeRequest /\ encodable ReadTimeRequest /\
  fst (stack_operate (machine (mk_transport Tcp (Some 5) true e) None None) OpReadTime) = Waiting.
Proof. split; [vm_compute; reflexivity|]. split; [exact I|]. split; [reflexivity|]. split; [split; exact I || reflexivity|]. vm_compute. reflexivity. Qed.
