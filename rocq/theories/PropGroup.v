(** C83: several clients, sharing transports or connections (elgas/client.py). *)
From Verif Require Import SpecMeaning.
From Verif Require Import PyFacts SpecUtils SpecFrames SpecText SpecApplication SpecPdu SpecSecurity.
From Verif Require Import SpecConnection Connection ConnectionProofs PropConnection ParamLang Parameters Client SpecClient ClientProofs PropParameters PropClient.
From Verif Require Import Group SpecGroup GroupProofs.
Open Scope list_scope.
Open Scope Z_scope.

(** Whatever is shared, a schedule of calls that the devices answer in order works:
    every call returns the answer to its own request, and every transport carries
    the requests of its callers in order, each under the addresses and the key of
    the connection of its caller. *)
Theorem C83_schedule : forall turns g rest,
  Forall (fun t => idle_member g (who t) /\ answered g t) turns ->
  (forall j, rx (transports g j) = on_transport j turns (map arrivals turns) ++ rest j) ->
  exists g' tss, group_session g (map (fun t => (who t, what t)) turns) = (map outcome turns, g') /\
    Forall2 (telegrams_of g) turns tss /\
    (forall i, connections g' i = connections g i) /\
    (forall j, rx (transports g' j) = rest j /\ sent (transports g' j) = sent (transports g j) ++ on_transport j turns tss).
Proof. exact schedule. Qed.
Print Assumptions C83_schedule.

(** Clients that share nothing do not influence each other, whatever the calls,
    the devices and the transports do. *)
Theorem C83_isolation : forall p calls g rs g',
  (forall m o m' o', In (m, o) calls -> In (m', o') calls -> p m = true -> p m' = false -> apart m m') ->
  group_session g calls = (rs, g') -> ~ In Waiting rs ->
  exists g2', group_session g (filter (fun c => p (fst c)) calls) = (chosen p calls rs, g2') /\
    forall m o, In (m, o) calls -> p m = true -> connections g' (m_connection m) = connections g2' (m_connection m) /\
      transports g' (m_transport m) = transports g2' (m_transport m).
Proof. exact isolated. Qed.
Print Assumptions C83_isolation.

(** Sharing a connection: after an exception in a call of one client, every client of
    the connection is refused. *)
Theorem C83_shared_connection_refuted : forall g m o x g' calls, communicates o -> member_operate g m o = (Done (Err x), g') ->
  (forall n data, o = OpReadParameters n -> parse None (Some data) <> Some (Err x)) ->
  Forall (fun c => m_connection (fst c) = m_connection m) calls ->
  Forall2 (fun c r => communicates (snd c) -> r = Done (Err LocalElgasProtocolError)) calls (fst (group_session g' calls)) /\
  (forall j, sent (transports (snd (group_session g' calls)) j) = sent (transports g' j)).
Proof. exact shared_connection. Qed.
Print Assumptions C83_shared_connection_refuted.

(** Sharing a transport: an answer that comes after the call of one client has raised
    (a timeout, say) is returned to the next client ... *)
Theorem C83_late_answer_refuted : forall g m1 m2 x results rest time dar dst dev extra,
  idle_member g m1 -> idle_member g m2 -> m_connection m1 <> m_connection m2 -> m_transport m1 = m_transport m2 ->
  delivers (context (connections g (m_connection m2))) READ_DEVICE_TIME (ReadTimeResponse time dar dst dev extra) results ->
  rx (transports g (m_transport m1)) = Err x :: results ++ rest ->
  exists g', group_session g [(m1, OpReadTime); (m2, OpReadTime)] = ([Done (Err x); Done (Ok (RTime time))], g') /\
    rx (transports g' (m_transport m2)) = rest.
Proof. exact late_answer. Qed.
Print Assumptions C83_late_answer_refuted.
(** ... for the addresses in an answer are not looked at: those of any device do *)
Theorem C83_address_checked_refuted : forall g m d1 d2 s1 s2 d t time dar dst dev extra rest,
  idle_member g m -> addresses d1 d2 s1 s2 -> is_bytes d -> len d <= 65520 -> no_flag d ->
  means READ_DEVICE_TIME d (ReadTimeResponse time dar dst dev extra) ->
  on_line (response_wire 134 (service_number READ_DEVICE_TIME) d1 d2 s1 s2 d) t ->
  rx (transports g (m_transport m)) = Ok t :: rest ->
  fst (member_operate g m OpReadTime) = Done (Ok (RTime time)).
Proof. exact other_device. Qed.
Print Assumptions C83_address_checked_refuted.

(** *** three clients: connections to the devices 513/5, 514/6 (with a key) and 515/7;
    the first two share transport 0, the third uses transport 1 *)
Definition device_connection (d1 d2 : Z) (ctx : option cipher_context) : connection :=
  match make_connection_with 7 8 d1 d2 [49] 801 None None None (Some ctx) with Ok c => c | Err _ => plain_connection IDLE [] end.
Definition anna := mk_member [49; 50] 0 0.
Definition bert := mk_member [51; 52] 1 0.
Definition carl := mk_member [53; 54] 2 1.
Definition site (results0 results1 : list (res bytes)) : objects := mk_objects
  (fun i => match i with 0%nat => device_connection 513 5 None | 1%nat => device_connection 514 6 (Some (mk_context 7 key7)) | _ => device_connection 515 7 None end)
  (fun j => match j with 0%nat => world_of results0 | 1%nat => world_of results1 | _ => world_of [] end).
Definition three_turns : list turn :=
  map (fun m => mk_turn m OpReadTime time_results [ReadTimeRequest] (Done (Ok (RTime (mk_datetime 2024 2 29 23 59 58))))) [anna; carl; bert; anna].
Definition site3 := site (time_results ++ time_results ++ time_results) time_results.
Lemma site_idle r0 r1 m : In m [anna; bert; carl] -> idle_member (site r0 r1) m.
Proof.
  intros [<-|[<-|[<-|[]]]]; vm_compute; repeat split; try discriminate; repeat constructor; discriminate.
Qed.
Example C83_hypotheses : Forall (fun t => idle_member site3 (who t) /\ answered site3 t) three_turns /\
  (forall j, rx (transports site3 j) = on_transport j three_turns (map arrivals three_turns) ++ []).
Proof.
  split.
  - apply Forall_forall. intros t Ht. unfold three_turns in Ht. apply in_map_iff in Ht as (m & <- & Hm). split.
    + apply site_idle. cbn in *. tauto.
    + unfold answered. cbn [who what arrivals asked outcome]. rewrite <- (app_nil_r time_results).
      eapply conv_exchange; [reflexivity|split; [reflexivity|exact I]|apply time_delivered|constructor|constructor].
  - intros [|[|j]]; reflexivity.
Qed.
Example C83_ex :
  let '(rs, g') := group_session site3 (map (fun t => (who t, what t)) three_turns) in
  rs = map outcome three_turns /\
  map (firstn 12) (sent (transports g' 0)) =
    [[2; 254; 132; 108; 15; 0; 2; 1; 5; 0; 7; 8]; [2; 254; 133; 108; 34; 0; 2; 2; 6; 0; 7; 8]; [2; 254; 132; 108; 15; 0; 2; 1; 5; 0; 7; 8]] /\
  map (firstn 12) (sent (transports g' 1)) = [[2; 254; 132; 108; 15; 0; 2; 3; 7; 0; 7; 8]].
Proof. vm_compute. repeat split; reflexivity. Qed.
(** anna and carl share nothing; anna and bert share transport 0: the answer for anna goes to bert *)
Example C83_ex_sharing : apart anna carl /\ m_transport anna = m_transport bert /\ m_connection anna <> m_connection bert /\
  fst (group_session (site (Err CommunicationError :: time_results ++ time_results) time_results)
         [(anna, OpReadTime); (bert, OpReadTime); (carl, OpReadTime); (anna, OpReadTime)]) =
    [Done (Err CommunicationError); Done (Ok (RTime (mk_datetime 2024 2 29 23 59 58))); Done (Ok (RTime (mk_datetime 2024 2 29 23 59 58)));
     Done (Err LocalElgasProtocolError)].
Proof. split; [split; discriminate|]. split; [reflexivity|]. split; [discriminate|]. vm_compute. reflexivity. Qed.
