(** Independent specification of the transports and of the Timeout class. *)
From Verif Require Import Py Transport.
Open Scope list_scope.
Open Scope Z_scope.

(** The bytes [stream] arrive, cut into reads anywhere (also with empty reads),
    and then [later]. *)
Definition arriving (reads : list (res bytes)) (stream : bytes) (later : list (res bytes)) : Prop :=
  exists chunks, reads = map Ok chunks ++ later /\ concat chunks = stream.

(** a place where reading may stop: after [expected], or when [size] bytes are there *)
Definition stops (expected : bytes) (size : option Z) (line : bytes) : Prop :=
  line <> [] /\
  ((exists front, line = front ++ expected) \/ (exists s, size = Some s /\ s <= len line)).
(** [line] is the shortest such beginning of [line ++ rest] *)
Definition frame (expected : bytes) (size : option Z) (line : bytes) : Prop :=
  stops expected size line /\ forall p q, line = p ++ q -> q <> [] -> ~ stops expected size p.
(** what comes out of an exception of the socket or port: an OSError (the class or a
    subclass) as CommunicationError, anything else as it is *)
Definition relayed (x : exn) : exn := match x with OSError => CommunicationError | _ => x end.
(** one telegram: everything up to the first 0x0D *)
Definition one_telegram (line : bytes) : Prop := exists front, line = front ++ [13] /\ ~ In 13 front.

(** the transport is the same except for what it has read and the clock *)
Definition same_but_reads (t t' : transport) : Prop :=
  t_kind t' = t_kind t /\ t_timeout t' = t_timeout t /\ is_open t' = is_open t /\
  outcomes (env t') = outcomes (env t) /\ now (env t') = now (env t) /\ log (env t') = log (env t) /\
  (ticks (env t) <= ticks (env t'))%nat.

(** no timeout is set, or less than the timeout passes between any two readings of
    the clock from now on *)
Definition patient (t : transport) : Prop :=
  match t_timeout t with
  | None => True
  | Some d => forall i j, (ticks (env t) <= i <= j)%nat -> now (env t) j < now (env t) i + d
  end.

(** [k] calls of recv, one after the other *)
Fixpoint receives (t : transport) (k : nat) : list (answer bytes) * transport :=
  match k with
  | O => ([], t)
  | S k' => let '(r, t) := transport_read t in let '(rs, t) := receives t k' in (r :: rs, t)
  end.

(** all failures of the socket or port are operating system errors *)
Definition only_os_errors (e : environment) : Prop :=
  Forall (fun o => o = None \/ o = Some OSError) (outcomes e) /\
  Forall (fun r => forall x, r = Err x -> x = OSError) (incoming e).

(** Is there a connection after this history of calls and their outcomes? *)
Definition connected_next (c : bool) (x : transport_call * answer transport_result) : bool :=
  match x with
  | (TConnect, Done (Ok _)) => true
  | (TDisconnect, Done _) => false
  | _ => c
  end.
Definition connected (history : list (transport_call * answer transport_result)) : bool :=
  fold_left connected_next history false.

(** what a call may do, depending on whether there is a connection *)
Definition succeeds_or_fails (r : answer transport_result) : Prop :=
  r = Done (Ok TNothing) \/ r = Done (Err CommunicationError).
Definition calls_made (t t' : transport) (cs : list socket_call) : Prop :=
  log (env t') = log (env t) ++ cs /\ incoming (env t') = incoming (env t).
Definition lawful_call (up : bool) (t : transport) (c : transport_call) (r : answer transport_result) (t' : transport) : Prop :=
  match c, up with
  | TConnect, true => r = Done (Err RuntimeError) /\ t' = t
  | TConnect, false => succeeds_or_fails r /\ calls_made t t' [SOpen]
  | TDisconnect, false => r = Done (Ok TNothing) /\ t' = t
  | TDisconnect, true => succeeds_or_fails r /\
      (calls_made t t' [SClose] \/ calls_made t t' [SShutdown] \/ calls_made t t' [SShutdown; SClose])
  | TSend data, true => succeeds_or_fails r /\ calls_made t t' [SWrite data]
  | TSend data, false => r = Done (Err RuntimeError) /\ t' = t
  | TRecv, true => (r = Waiting \/ (exists data, data <> [] /\ r = Done (Ok (TData data))) \/ r = Done (Err CommunicationError)) /\
      log (env t') = log (env t)
  | TRecv, false => r = Done (Err RuntimeError) /\ calls_made t t' []
  end.

(** [k] successive calls of time_left, of expired *)
Fixpoint times_left (now : clock) (n : nat) (t : timeout) (k : nat) : list (res (option Z)) :=
  match k with
  | O => []
  | S k' => let '(r, t, n) := time_left now n t in r :: times_left now n t k'
  end.
Fixpoint expirations (now : clock) (n : nat) (t : timeout) (k : nat) : list (res bool) :=
  match k with
  | O => []
  | S k' => let '(r, t, n) := expired now n t in r :: expirations now n t k'
  end.
(** a clock that does not go back *)
Definition steady (now : clock) : Prop := forall i j, (i <= j)%nat -> now i <= now j.
