(** C84: calls that overlap in time (elgas/client.py, elgas/connection.py,
    elgas/state.py), for every interleaving of the accesses of any number of threads. *)
From Verif Require Import PyFacts SpecUtils SpecFrames SpecText SpecApplication SpecPdu SpecSecurity.
From Verif Require Import SpecConnection Connection ConnectionProofs PropConnection ParamLang Parameters Client SpecClient ClientProofs PropParameters PropClient.
From Verif Require Import Group SpecGroup GroupProofs PropGroup Threads SpecThreads ThreadsProofs.
Open Scope list_scope.
Open Scope Z_scope.

(** A call that is not interrupted is the call of the sequential client. *)
Theorem C84_uninterrupted : forall g ts i o os a g2, th_call (ts i) = None -> th_calls (ts i) = o :: os ->
  elgas_state (connections g (m_connection (th_member (ts i)))) = IDLE ->
  member_operate g (th_member (ts i)) o = (Done a, g2) ->
  exists n g' ts' h, interleave g ts (repeat i n) = (g', ts', h ++ [(i, Returned o (Done a))]) /\
    th_call (ts' i) = None /\ th_calls (ts' i) = os /\
    (forall j, connections g' j = connections g2 j) /\ (forall j, transports g' j = transports g2 j).
Proof. exact uninterrupted. Qed.
Print Assumptions C84_uninterrupted.

(** Threads whose clients share nothing do not influence each other: what is seen of
    a group of threads, in which order, and what their objects become, is the same
    without the accesses of the others. *)
Theorem C84_isolation : forall p schedule g ts g' ts' h,
  (forall i j, In i schedule -> In j schedule -> p i = true -> p j = false -> apart (th_member (ts i)) (th_member (ts j))) ->
  interleave g ts schedule = (g', ts', h) ->
  exists g2' ts2', interleave g ts (filter p schedule) = (g2', ts2', filter (fun x => p (fst x)) h) /\
    (forall i, p i = true -> ts' i = ts2' i) /\
    (forall i, In i schedule -> p i = true -> connections g' (m_connection (th_member (ts i))) = connections g2' (m_connection (th_member (ts i))) /\
      transports g' (m_transport (th_member (ts i))) = transports g2' (m_transport (th_member (ts i)))).
Proof. exact threads_apart. Qed.
Print Assumptions C84_isolation.

(** What a call returns is decided by the exchanges of its own thread: for every
    interleaving the labels of a thread are those of its calls, one after the other. *)
Theorem C84_own_exchanges : forall g ts schedule g' ts' h i, fresh (ts i) -> interleave g ts schedule = (g', ts', h) ->
  exists os rest css more, th_calls (ts i) = os ++ rest /\ Forall2 (whole_call (m_password (th_member (ts i)))) os css /\ seen_of i h ++ more = concat css /\
    (th_call (ts' i) = None -> more = [] /\ th_calls (ts' i) = rest).
Proof. exact own_answers. Qed.
Print Assumptions C84_own_exchanges.

(** Threads that share connection and transport, when no method of the connection is
    interrupted: one exchange at a time, the others are refused meanwhile and send
    nothing, and the exchanges give what they give one after the other. *)
Theorem C84_one_at_a_time : forall ci wi g ts schedule g' ts' h,
  Forall (sharing ci wi ts) schedule -> (forall i, fresh (ts i)) -> elgas_state (connections g ci) = IDLE ->
  undivided g ts schedule -> interleave g ts schedule = (g', ts', h) ->
  one_at_a_time None false h /\
  forall pw, exists cl', exchanges (mk_client pw (connections g ci) (transports g wi)) (map fst (served h)) = (map Done (map snd (served h)), cl') /\
    (still_open None h = None -> connections g' ci = cl_connection cl' /\ transports g' wi = cl_world cl').
Proof. exact serialised. Qed.
Print Assumptions C84_one_at_a_time.
(** if the device answers the requests in the order in which they were accepted,
    every thread gets the answer to its own request *)
Theorem C84_answers : forall ci wi g ts schedule g' ts' h answers rest,
  Forall (sharing ci wi ts) schedule -> (forall i, fresh (ts i)) ->
  usable (connections g ci) (transports g wi) -> undivided g ts schedule -> interleave g ts schedule = (g', ts', h) ->
  Forall2 (answers_request (context (connections g ci))) (map fst (served h)) answers -> rx (transports g wi) = concat (map snd answers) ++ rest ->
  map snd (served h) = map Ok (map fst answers) /\
  (still_open None h = None -> connections g' ci = connections g ci /\ rx (transports g' wi) = rest /\
     exists lines, sent (transports g' wi) = sent (transports g wi) ++ lines /\ Forall2 (request_from (connections g ci)) (map fst (served h)) lines).
Proof. exact answered_in_order. Qed.
Print Assumptions C84_answers.
(** the others cannot keep an accepted request from its end *)
Theorem C84_served_to_the_end : forall ci wi g ts s1 g1 ts1 h1 i r pw l cl1 a cl2,
  Forall (sharing ci wi ts) s1 -> (forall i, fresh (ts i)) -> elgas_state (connections g ci) = IDLE ->
  undivided g ts s1 -> interleave g ts s1 = (g1, ts1, h1) -> still_open None h1 = Some (i, r) ->
  exchanges (mk_client pw (connections g ci) (transports g wi)) (map fst (served h1)) = (l, cl1) -> exchange cl1 r = (Done a, cl2) ->
  exists n, forall s2, Forall (sharing ci wi ts) s2 -> undivided g1 ts1 s2 -> (n <= count_occ Nat.eq_dec s2 i)%nat ->
    In (i, Answered r a) (snd (interleave g1 ts1 s2)).
Proof. exact served_ends. Qed.
Print Assumptions C84_served_to_the_end.

(** Without that condition: two threads that look up the state before one of them
    changes it are both accepted, whatever they call. *)
Theorem C84_interrupted_send_refuted : forall g ts i j o1 o2 r1 r2 os1 os2 ci, i <> j -> fresh (ts i) -> fresh (ts j) ->
  m_connection (th_member (ts i)) = ci -> m_connection (th_member (ts j)) = ci -> elgas_state (connections g ci) = IDLE ->
  th_calls (ts i) = o1 :: os1 -> th_calls (ts j) = o2 :: os2 ->
  first_request (m_password (th_member (ts i))) o1 = Some r1 -> first_request (m_password (th_member (ts j))) o2 = Some r2 ->
  let h := snd (interleave g ts [i; j; i; j; i; j]) in In (i, Asked r1) h /\ In (j, Asked r2) h /\ ~ one_at_a_time None false h.
Proof. exact both_accepted. Qed.
Print Assumptions C84_interrupted_send_refuted.

(** *** two threads with one client (password "12", device 513/5), each reading the time *)
Definition two_threads (m0 m1 : member) (calls0 calls1 : list operation) (i : nat) : thread :=
  match i with
  | 0%nat => mk_thread m0 calls0 None
  | 1%nat => mk_thread m1 calls1 None
  | _ => mk_thread m0 [] None
  end.
Lemma two_fresh m0 m1 c0 c1 i : fresh (two_threads m0 m1 c0 c1 i).
Proof. destruct i as [|[|i]]; reflexivity. Qed.
(** thread 1 tries while thread 0 waits for its answer, and again after it *)
Definition overlapping : list nat := repeat 0%nat 5 ++ repeat 1%nat 3 ++ repeat 0%nat 20 ++ repeat 1%nat 20.
Definition the_time : returned := RTime (mk_datetime 2024 2 29 23 59 58).
Definition site2 := site (time_results ++ time_results) [].
Definition both_read := two_threads anna anna [OpReadTime] [OpReadTime; OpReadTime].
Example C84_hypotheses : Forall (sharing 0 0 both_read) overlapping /\
  (forall i, fresh (both_read i)) /\ usable (connections site2 0) (transports site2 0) /\ undivided site2 both_read overlapping /\
  Forall2 (answers_request (context (connections site2 0)))
    (map fst (served (snd (interleave site2 both_read overlapping)))) [(time_pdu, time_results); (time_pdu, time_results)] /\
  rx (transports site2 0) = concat (map snd [(time_pdu, time_results); (time_pdu, time_results)]) ++ [].
Proof.
  split; [|split; [|split; [|split; [|split]]]].
  - apply Forall_forall. intros i Hi. assert ((i = 0)%nat \/ (i = 1)%nat) as [E|E].
    { unfold overlapping in Hi. repeat (apply in_app_or in Hi as [Hi|Hi]; [apply repeat_spec in Hi; auto|]). apply repeat_spec in Hi. auto. }
    all: subst i; repeat split; repeat constructor; discriminate.
  - intros i. apply two_fresh.
  - vm_compute. repeat split; try discriminate; repeat constructor; discriminate.
  - apply undividedb_ok with (n := 2%nat); [intros j _; apply two_fresh|]. vm_compute. reflexivity.
  - replace (map fst (served (snd (interleave site2 both_read overlapping)))) with [ReadTimeRequest; ReadTimeRequest] by (vm_compute; reflexivity).
    assert (answers_request (context (connections site2 0)) ReadTimeRequest (time_pdu, time_results)) as A.
    { split; [split; [reflexivity|exact I]|]. split; [discriminate|]. apply time_delivered. }
    constructor; [exact A|]. constructor; [exact A|]. constructor.
  - vm_compute. reflexivity.
Qed.
Example C84_ex :
  let h := snd (interleave site2 both_read overlapping) in
  seen_of 0 h = [Asked ReadTimeRequest; Answered ReadTimeRequest (Ok time_pdu); Returned OpReadTime (Done (Ok the_time))] /\
  seen_of 1 h = [Refused ReadTimeRequest; Returned OpReadTime (Done (Err LocalElgasProtocolError));
                 Asked ReadTimeRequest; Answered ReadTimeRequest (Ok time_pdu); Returned OpReadTime (Done (Ok the_time))] /\
  still_open None h = None.
Proof. vm_compute. repeat split; reflexivity. Qed.

(** ... and an interruption inside next_event can lose an answer for good: thread 0 has
    assigned the state and not yet cleared the buffer, thread 1 asks and stores its
    answer, thread 0 clears it.  The device has answered both, and for no continuation
    does anything more happen to thread 1. *)
Definition site_once := site [Ok time_line; Ok time_line] [].
Definition each_once := two_threads anna anna [OpReadTime] [OpReadTime].
Definition lost : list nat := repeat 0%nat 8 ++ repeat 1%nat 6 ++ [0%nat] ++ [1%nat].
Lemma lost_stuck : let '(g, ts, h) := interleave site_once each_once lost in
  seen_of 1 h = [Asked ReadTimeRequest] /\ seen_of 0 h = [Asked ReadTimeRequest; Answered ReadTimeRequest (Ok time_pdu); Returned OpReadTime (Done (Ok the_time))] /\
  stuck g ts 1 0 ReadTimeRequest.
Proof.
  destruct (interleave site_once each_once lost) as [[g ts] h] eqn:E.
  vm_compute in E. injection E as <- <- <-. split; [vm_compute; reflexivity|]. split; [vm_compute; reflexivity|].
  split; [do 3 eexists; reflexivity|]. split; [reflexivity|]. split; [reflexivity|].
  intros j Hj. destruct j as [|[|j]]; [split; reflexivity|congruence|split; reflexivity].
Qed.
Lemma lost_for_good : forall later, seen_of 1 (snd (interleave site_once each_once (lost ++ later))) = [Asked ReadTimeRequest] /\
  seen_of 0 (snd (interleave site_once each_once (lost ++ later))) = [Asked ReadTimeRequest; Answered ReadTimeRequest (Ok time_pdu); Returned OpReadTime (Done (Ok the_time))].
Proof.
  intros later. rewrite interleave_app. pose proof lost_stuck as L. destruct (interleave site_once each_once lost) as [[g ts] h]. destruct L as (L1 & L0 & L2).
  pose proof (stuck_forever 1 0 ReadTimeRequest later g ts L2) as N. destruct (interleave g ts later) as [[g2 ts2] h2]. cbn [snd] in *. subst h2.
  rewrite app_nil_r. auto.
Qed.
Theorem C84_interrupted_next_event_refuted : exists g ts schedule, Forall (sharing 0 0 ts) schedule /\ (forall i, fresh (ts i)) /\
  usable (connections g 0) (transports g 0) /\ rx (transports g 0) = [Ok time_line; Ok time_line] /\
  forall later, seen_of 1 (snd (interleave g ts (schedule ++ later))) = [Asked ReadTimeRequest] /\
    seen_of 0 (snd (interleave g ts (schedule ++ later))) = [Asked ReadTimeRequest; Answered ReadTimeRequest (Ok time_pdu); Returned OpReadTime (Done (Ok the_time))].
Proof.
  exists site_once, each_once, lost. split; [|split; [|split; [|split]]].
  - unfold lost. repeat (apply Forall_app; split); repeat constructor; discriminate.
  - intros i. apply two_fresh.
  - vm_compute. repeat split; try discriminate; repeat constructor; discriminate.
  - reflexivity.
  - exact lost_for_good.
Qed.
Print Assumptions C84_interrupted_next_event_refuted.

(** Two connections over one transport: even if no method is interrupted and each
    device answers its own request, each thread may get the other device's answer. *)
Definition dora := mk_member [53; 54] 2 0.
Definition other_time_line : bytes := line_of (response_wire 134 108 515 7 0 0 [2; 3; 4; 5; 6; 37; 13; 27; 141]).
Definition crossed : list nat := repeat 0%nat 4 ++ repeat 1%nat 20 ++ repeat 0%nat 20.
Theorem C84_shared_transport_refuted : exists g ts schedule,
  (forall i, fresh (ts i)) /\ m_connection (th_member (ts 0%nat)) <> m_connection (th_member (ts 1%nat)) /\
  usable (connections g 0) (transports g 0) /\ usable (connections g 2) (transports g 0) /\
  undivided g ts schedule /\ rx (transports g 0) = [Ok time_line; Ok other_time_line] /\
  seen_of 1 (snd (interleave g ts schedule)) = [Asked ReadTimeRequest; Answered ReadTimeRequest (Ok time_pdu); Returned OpReadTime (Done (Ok the_time))] /\
  exists p t, t <> mk_datetime 2024 2 29 23 59 58 /\
    seen_of 0 (snd (interleave g ts schedule)) = [Asked ReadTimeRequest; Answered ReadTimeRequest (Ok p); Returned OpReadTime (Done (Ok (RTime t)))].
Proof.
  exists (site [Ok time_line; Ok other_time_line] []), (two_threads anna dora [OpReadTime] [OpReadTime]), crossed.
  split; [intros i; apply two_fresh|]. split; [discriminate|].
  split; [vm_compute; repeat split; try discriminate; repeat constructor; discriminate|].
  split; [vm_compute; repeat split; try discriminate; repeat constructor; discriminate|].
  split; [apply undividedb_ok with (n := 2%nat); [intros j _; apply two_fresh|]; vm_compute; reflexivity|].
  split; [reflexivity|]. split; [vm_compute; reflexivity|].
  eexists _, (mk_datetime 2025 6 5 4 3 2). split; [discriminate|]. vm_compute. reflexivity.
Qed.
Print Assumptions C84_shared_transport_refuted.

(** A read of parameters gives up the connection between its pages: another thread may
    get in, and the read raises though the device answers every request. *)
Definition got_in : list nat := repeat 0%nat 9 ++ repeat 1%nat 4 ++ repeat 0%nat 2 ++ repeat 1%nat 10.
Theorem C84_parameters_overlapped_refuted : exists g ts schedule,
  Forall (sharing 0 0 ts) schedule /\ (forall i, fresh (ts i)) /\ usable (connections g 0) (transports g 0) /\ undivided g ts schedule /\
  let h := snd (interleave g ts schedule) in
  In (0%nat, Returned (OpReadParameters 3) (Done (Err LocalElgasProtocolError))) h /\
  exists p, served h = [(ReadDeviceParametersRequest [49; 50] 3 1024, Ok p); (ReadTimeRequest, Ok time_pdu)].
Proof.
  exists (site (concat (map pg_results (firstn 1 two_pages)) ++ [Ok time_line]) []), (two_threads anna anna [OpReadParameters 3] [OpReadTime]), got_in.
  split; [unfold got_in; repeat (apply Forall_app; split); repeat constructor; discriminate|].
  split; [intros i; apply two_fresh|].
  split; [vm_compute; repeat split; try discriminate; repeat constructor; discriminate|].
  split; [apply undividedb_ok with (n := 2%nat); [intros j _; apply two_fresh|]; vm_compute; reflexivity|].
  cbv zeta. split; [vm_compute; tauto|]. eexists. vm_compute. reflexivity.
Qed.
Print Assumptions C84_parameters_overlapped_refuted.
