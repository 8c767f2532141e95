(** Independent specification of overlapping calls. *)
From Verif Require Import Py SpecUtils SpecText SpecApplication SpecPdu SpecSecurity SpecConnection ParamLang Parameters Connection Client SpecClient Group SpecGroup Threads.
Open Scope list_scope.
Open Scope Z_scope.

(** what was seen of one thread *)
Fixpoint seen_of (i : nat) (h : list (nat * label)) : list label :=
  match h with [] => [] | (j, l) :: h' => (if Nat.eqb j i then [l] else []) ++ seen_of i h' end.
(** a thread that has not made a call yet *)
Definition fresh (t : thread) : Prop := th_call t = None.

(** *** The methods of a connection are not interrupted: a thread inside one of them
    (between the look-up of a transition and the last change) makes the next access. *)
Definition inside (t : thread) : Prop :=
  match th_call t with
  | Some k => match ca_position k with Changing _ | Closing _ _ | Clearing _ => True | _ => False end
  | None => False
  end.
Fixpoint undivided (g : objects) (ts : nat -> thread) (schedule : list nat) : Prop :=
  match schedule with
  | [] => True
  | i :: schedule' =>
      (forall j, inside (ts j) -> j = i) /\
      let '(g1, t, _) := thread_step g (ts i) in undivided g1 (update ts i t) schedule'
  end.

(** *** One exchange at a time: a request is accepted only when no exchange is open
    and none has failed; an exchange is ended by the thread that opened it; a request
    is refused only while an exchange is open or after one has failed. *)
Definition failed {A} (a : res A) : bool := match a with Ok _ => false | Err _ => true end.
Fixpoint one_at_a_time (opened : option (nat * request)) (broken : bool) (h : list (nat * label)) : Prop :=
  match h with
  | [] => True
  | (i, Asked r) :: h' => opened = None /\ broken = false /\ one_at_a_time (Some (i, r)) broken h'
  | (i, Refused r) :: h' => ((exists j r', opened = Some (j, r') /\ j <> i) \/ broken = true) /\ one_at_a_time opened broken h'
  | (i, Answered r a) :: h' => opened = Some (i, r) /\ one_at_a_time None (failed a) h'
  | (i, Returned _ _) :: h' => one_at_a_time opened broken h'
  end.
(** the exchange that is open after a history *)
Fixpoint still_open (opened : option (nat * request)) (h : list (nat * label)) : option (nat * request) :=
  match h with
  | [] => opened
  | (i, Asked r) :: h' => still_open (Some (i, r)) h'
  | (i, Answered _ _) :: h' => still_open None h'
  | _ :: h' => still_open opened h'
  end.
(** the exchanges that have ended, in order *)
Fixpoint served (h : list (nat * label)) : list (request * res response_pdu) :=
  match h with
  | [] => []
  | (_, Answered r a) :: h' => (r, a) :: served h'
  | _ :: h' => served h'
  end.
(** exchanges made one after the other by one thread *)
Fixpoint exchanges (cl : client) (rs : list request) : list (answer response_pdu) * client :=
  match rs with
  | [] => ([], cl)
  | r :: rs' =>
      match exchange cl r with
      | (Waiting, cl) => ([Waiting], cl)
      | (a, cl) => let '(l, cl) := exchanges cl rs' in (a :: l, cl)
      end
  end.

(** *** What a call returns, by its own exchanges *)
(** the exchanges of a read of parameters whose pages arrive, up to some page:
    [n] objects and [data] came with them *)
Inductive pages_seen (pw : str) (from : Z) : Z -> bytes -> list label -> Prop :=
| no_page : pages_seen pw from from [] []
| next_page n data l d k amount r : pages_seen pw from n data l -> r = ReadDeviceParametersRequest pw n 1024 ->
    pages_seen pw from (n + amount) (data ++ d)
      (l ++ [Asked r; Answered r (Ok (ReadDeviceParametersResponse d k amount false))]).
(** the labels of a whole call *)
Inductive whole_call (pw : str) : operation -> list label -> Prop :=
| control o a : o = OpConnect \/ o = OpDisconnect -> whole_call pw o [Returned o (Done a)]
| single o r p v : asks pw o = Some r -> gives o p v ->
    whole_call pw o [Asked r; Answered r (Ok p); Returned o (Done (Ok v))]
| paged from n data l d k amount r a : pages_seen pw from n data l -> r = ReadDeviceParametersRequest pw n 1024 ->
    parse None (Some (data ++ d)) = Some a ->
    whole_call pw (OpReadParameters from)
      (l ++ [Asked r; Answered r (Ok (ReadDeviceParametersResponse d k amount true));
             Returned (OpReadParameters from) (Done (match a with Ok x => Ok (RObjects x) | Err x => Err x end))])
| other_class r p : (forall v, ~ gives OpReadTime p v) -> r = ReadTimeRequest ->
    whole_call pw OpReadTime [Asked r; Answered r (Ok p); Returned OpReadTime (Done (Err AttributeError))]
| paged_other_class from n data l r p : pages_seen pw from n data l -> r = ReadDeviceParametersRequest pw n 1024 ->
    (forall d k amount e, p <> ReadDeviceParametersResponse d k amount e) ->
    whole_call pw (OpReadParameters from)
      (l ++ [Asked r; Answered r (Ok p); Returned (OpReadParameters from) (Done (Err AttributeError))])
| raised o r x : asks pw o = Some r -> whole_call pw o [Asked r; Answered r (Err x); Returned o (Done (Err x))]
| not_accepted o r : asks pw o = Some r -> whole_call pw o [Refused r; Returned o (Done (Err LocalElgasProtocolError))]
| paged_raised from n data l r x : pages_seen pw from n data l -> r = ReadDeviceParametersRequest pw n 1024 ->
    whole_call pw (OpReadParameters from)
      (l ++ [Asked r; Answered r (Err x); Returned (OpReadParameters from) (Done (Err x))])
| paged_not_accepted from n data l r : pages_seen pw from n data l -> r = ReadDeviceParametersRequest pw n 1024 ->
    whole_call pw (OpReadParameters from)
      (l ++ [Refused r; Returned (OpReadParameters from) (Done (Err LocalElgasProtocolError))]).

(** *** Threads that use one connection and one transport *)
Definition sharing (ci wi : nat) (ts : nat -> thread) (i : nat) : Prop :=
  m_connection (th_member (ts i)) = ci /\ m_transport (th_member (ts i)) = wi /\ Forall communicates (th_calls (ts i)).
(** a connection that can be used, over a transport that does not fail to send *)
Definition usable (c : connection) (w : world) : Prop :=
  addresses (c_destination_1 c) (c_destination_2 c) (c_source_1 c) (c_source_2 c) /\ usable_context (context c) /\
  elgas_state c = IDLE /\ buffer c = [] /\ tx w = [].
(** the device answers the request [r] by the response and the results of recv in [x] *)
Definition answers_request (ctx : option cipher_context) (r : request) (x : response_pdu * list (res bytes)) : Prop :=
  encodable r /\ (forall p, request_password r = Some p -> len p <= 65000) /\ delivers ctx (request_service r) (fst x) (snd x).
(** [t] is a telegram for [r] from the connection [c] *)
Definition request_from (c : connection) (r : request) (t : bytes) : Prop :=
  request_line_at (c_destination_1 c) (c_destination_2 c) (c_source_1 c) (c_source_2 c) (context c) r t.
