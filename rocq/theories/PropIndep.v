(** C90: what the results of a client depend on (elgas/client.py, elgas/transport.py,
    elgas/connection.py, elgas/security.py together). *)
From Verif Require Import PyFacts SpecUtils SpecFrames SpecSecurity SpecConnection SpecApplication SpecPdu SpecText.
From Verif Require Import Connection PropConnection ParamLang Parameters Client SpecClient PropClient.
From Verif Require Import Transport SpecTransport SpecStack PropTransport Stack SpecErrors SpecSession PropStack SpecIndep IndepProofs.
Open Scope list_scope.
Open Scope Z_scope.

(** C90 *)
(** two clients, made in the same way, for two sockets from which the same bytes
    arrive: whatever the clocks, the timeouts and the cutting into reads, all calls
    have the same results, the same calls are made of the sockets with the same data,
    and the same bytes are left *)
Theorem C90_timing_indifferent : forall t1 t2 pw pid k id dr s1 s2 os vs1 s1' vs2 s2',
  make_stack t1 pw pid k id dr = Ok s1 -> make_stack t2 pw pid k id dr = Ok s2 -> same_line true t1 t2 ->
  stack_session s1 os = (vs1, s1') -> stack_session s2 os = (vs2, s2') ->
  vs1 = vs2 /\ same_line true (st_transport s1') (st_transport s2').
Proof. exact timing_indifferent. Qed.
Print Assumptions C90_timing_indifferent.
(** when also the random numbers differ, only the data written may differ *)
Theorem C90_chance_indifferent : forall t1 t2 pw pid k id dr1 dr2 s1 s2 os vs1 s1' vs2 s2',
  make_stack t1 pw pid k id dr1 = Ok s1 -> make_stack t2 pw pid k id dr2 = Ok s2 -> key_bytes k -> same_line false t1 t2 ->
  stack_session s1 os = (vs1, s1') -> stack_session s2 os = (vs2, s2') ->
  vs1 = vs2 /\ same_line false (st_transport s1') (st_transport s2').
Proof. exact chance_indifferent. Qed.
Print Assumptions C90_chance_indifferent.

(** one telegram a read with a clock that stands, or byte by byte with empty reads in
    between, a clock that runs and a timeout that is over at once *)
Example C90_ex :
  let e1 := mk_environment [] [Ok time_line; Ok time_line; Ok [2; 13]; Err OSError] (fun _ => 7) 0 [] in
  let e2 := mk_environment [] (Ok [] :: map (fun b => Ok [b]) (time_line ++ time_line) ++ [Ok []; Ok [2]; Ok [13]; Err OSError]) (fun i => 3 * Z.of_nat i) 5 [] in
  let t1 := make_transport Tcp None e1 in let t2 := make_transport Tcp (Some 1) e2 in
  let os := [OpConnect; OpReadTime; OpReadTime; OpReadTime; OpReadTime; OpDisconnect] in
  same_line true t1 t2 /\
  fst (stack_session (machine t1 None None) os) = fst (stack_session (machine t2 None None) os) /\
  fst (stack_session (machine t1 None None) os)
    = [Done (Ok RNothing); Done (Ok (RTime (mk_datetime 2024 2 29 23 59 58))); Done (Ok (RTime (mk_datetime 2024 2 29 23 59 58)));
       Done (Err CommunicationError); Done (Err LocalElgasProtocolError); Done (Ok RNothing)] /\
  fst (transport_read (mk_transport Tcp None true e1)) <> fst (transport_read (mk_transport Tcp (Some 1) true e2)).
Proof.
  cbv zeta. split; [vm_compute; repeat split; constructor|]. split; [vm_compute; reflexivity|]. split; [vm_compute; reflexivity|].
  vm_compute. discriminate.
Qed.
(** with a key and other random numbers: other data is written *)
Example C90_ex_chance :
  let e := mk_environment [] [] (fun _ => 7) 0 [] in
  let t := make_transport Tcp None e in
  let dr1 := fun _ : nat => ((fun _ : nat => 48), (fun _ : nat => 0)) in let dr2 := fun _ : nat => ((fun _ : nat => 49), (fun _ : nat => 5)) in
  key_bytes (Some key7) /\ same_line false t t /\
  match make_stack t [49; 50] 801 (Some key7) (Some 3) dr1, make_stack t [49; 50] 801 (Some key7) (Some 3) dr2 with
  | Ok s1, Ok s2 =>
    fst (stack_session s1 [OpConnect; OpReadTime]) = [Done (Ok RNothing); Waiting] /\
    fst (stack_session s2 [OpConnect; OpReadTime]) = [Done (Ok RNothing); Waiting] /\
    log (env (st_transport (snd (stack_session s1 [OpConnect; OpReadTime])))) <> log (env (st_transport (snd (stack_session s2 [OpConnect; OpReadTime]))))
  | _, _ => False
  end.
Proof. cbv zeta. split; [repeat constructor; lia|]. split; [vm_compute; repeat split; constructor|]. vm_compute. repeat split; try reflexivity. discriminate. Qed.
