(** Model of /repo/elgas/client.py over the transports of /repo/elgas/transport.py:
    the same methods as in Client.v, but self.transport is the model of
    Transport.v instead of arbitrary results. *)
From Verif Require Export Connection Client Transport.
From Verif Require Import ParamLang Parameters.
Open Scope list_scope.
Open Scope Z_scope.

(** client.py:13-39, the attributes of ElgasClient, next to the random draws
    (see [draws] in Client.v): the n-th request uses [st_draws n] *)
Record stack := mk_stack {
  st_password : str; st_connection : connection; st_transport : transport;
  st_requests : nat; st_draws : nat -> (nat -> Z) * (nat -> Z) }.

(** client.py:13-39, the constructor.  Simplification: the argument
    elgas_connection, which has a default, is not passed. *)
Definition make_stack (t : transport) (password : str) (password_id : Z) (encryption_key : option bytes)
    (encryption_key_id : option Z) (draws : nat -> (nat -> Z) * (nat -> Z)) : res stack :=
  c <- make_connection 0 0 0 0 password password_id (to_secret_byte encryption_key) encryption_key_id ;;
  Ok (mk_stack password c t 0 draws).

(** client.py:13-39, assignments *)
Definition st_set_connection (s : stack) (c : connection) : stack :=
  mk_stack (st_password s) c (st_transport s) (st_requests s) (st_draws s).
Definition st_set_transport (s : stack) (t : transport) : stack :=
  mk_stack (st_password s) (st_connection s) t (st_requests s) (st_draws s).

(** client.py:41-42 *)
Definition stack_connect (s : stack) : answer unit * stack :=
  let '(r, t) := transport_connect (st_transport s) in (r, st_set_transport s t).
(** client.py:44-45 *)
Definition stack_disconnect (s : stack) : answer unit * stack :=
  let '(r, t) := transport_disconnect (st_transport s) in (r, st_set_transport s t).

(** client.py:48-51, the body of the loop of send *)
Definition stack_send_one (s : stack) (event : event) : answer unit * stack :=
  let '(rnd, pad) := st_draws s (st_requests s) in
  let s := mk_stack (st_password s) (st_connection s) (st_transport s) (S (st_requests s)) (st_draws s) in
  match send rnd pad (st_connection s) event with
  | (Err e, c) => (Done (Err e), st_set_connection s c)
  | (Ok data, c) =>
      let s := st_set_connection s c in
      match transport_write (st_transport s) data with
      | (Waiting, t) => (Waiting, st_set_transport s t)
      | (Done (Err e), t) => (Done (Err e), st_set_transport s t)
      | (Done (Ok _), t) =>
          let s := st_set_transport s t in
          match transport_read (st_transport s) with
          | (Waiting, t) => (Waiting, st_set_transport s t)
          | (Done (Err e), t) => (Done (Err e), st_set_transport s t)
          | (Done (Ok response_data), t) =>
              let s := st_set_transport s t in
              (Done (Ok tt), st_set_connection s (receive_data (st_connection s) response_data))
          end
      end
  end.
(** client.py:46-51 send( *events) *)
Fixpoint stack_send (s : stack) (events : list event) : answer unit * stack :=
  match events with
  | [] => (Done (Ok tt), s)
  | event :: events' =>
      match stack_send_one s event with
      | (Done (Ok _), s) => stack_send s events'
      | (r, s) => (r, s)
      end
  end.

(** client.py:53-59 next_event, the loop.  Each iteration that does not end it takes
    at least one byte; [fuel] bounds their number and never runs out, see
    [C77_waits_for_recv_only] in PropStack.v. *)
Fixpoint stack_next_event_loop (fuel : nat) (s : stack) : answer response_pdu * stack :=
  match next_event (st_connection s) with
  | (Err e, c) => (Done (Err e), st_set_connection s c)
  | (Ok (Some event), c) => (Done (Ok event), st_set_connection s c)
  | (Ok None, c) =>
      let s := st_set_connection s c in
      match fuel with
      | O => (Waiting, s)
      | S fuel' =>
          match transport_read (st_transport s) with
          | (Waiting, t) => (Waiting, st_set_transport s t)
          | (Done (Err e), t) => (Done (Err e), st_set_transport s t)
          | (Done (Ok data), t) =>
              let s := st_set_transport s t in
              stack_next_event_loop fuel' (st_set_connection s (receive_data (st_connection s) data))
          end
      end
  end.
(** client.py:53-59 *)
Definition stack_next_event (s : stack) : answer response_pdu * stack :=
  stack_next_event_loop (S (available (incoming (env (st_transport s))))) s.

(** self.send(request); response = self.next_event(), as in client.py:64-65,
    72-73, 82-83, 97-98, 118-119, 131-132 *)
Definition stack_exchange (s : stack) (r : request) : answer response_pdu * stack :=
  match stack_send s [Request r] with
  | (Waiting, s) => (Waiting, s)
  | (Done (Err e), s) => (Done (Err e), s)
  | (Done (Ok _), s) => stack_next_event s
  end.

(** client.py:61-67 *)
Definition stack_read_instantaneous_values (s : stack) : answer response_pdu * stack :=
  stack_exchange s (ReadInstantaneousValuesRequest (st_password s)).
(** client.py:69-75; a response of another class has no attribute time *)
Definition stack_read_time (s : stack) : answer datetime * stack :=
  match stack_exchange s ReadTimeRequest with
  | (Waiting, s) => (Waiting, s)
  | (Done (Err e), s) => (Done (Err e), s)
  | (Done (Ok (ReadTimeResponse time _ _ _ _)), s) => (Done (Ok time), s)
  | (Done (Ok _), s) => (Done (Err AttributeError), s)
  end.
(** client.py:77-84 *)
Definition stack_write_time (s : stack) (device_time : datetime) (cryout : bool) : answer unit * stack :=
  match stack_exchange s (WriteTimeRequest (st_password s) device_time cryout) with
  | (Waiting, s) => (Waiting, s)
  | (Done (Err e), s) => (Done (Err e), s)
  | (Done (Ok _), s) => (Done (Ok tt), s)
  end.
(** client.py:91-104, the loop of read_parameters, and the return statement.
    Each iteration takes at least one byte; [fuel] bounds their number and never
    runs out, see [C77_waits_for_recv_only] in PropStack.v. *)
Fixpoint stack_read_parameters_loop (fuel : nat) (s : stack) (object_count : Z) (total_parameter_data : bytes)
    : answer (list value) * stack :=
  match fuel with
  | O => (Waiting, s)
  | S fuel' =>
      match stack_exchange s (ReadDeviceParametersRequest (st_password s) object_count 1024) with
      | (Waiting, s) => (Waiting, s)
      | (Done (Err e), s) => (Done (Err e), s)
      | (Done (Ok (ReadDeviceParametersResponse data _ object_amount is_end)), s) =>
          let total_parameter_data := total_parameter_data ++ data in
          let should_stop := is_end in
          let object_count := object_count + object_amount in
          if should_stop
          then (match parse None (Some total_parameter_data) with Some r => Done r | None => Waiting end, s)
          else stack_read_parameters_loop fuel' s object_count total_parameter_data
      | (Done (Ok _), s) => (Done (Err AttributeError), s)
      end
  end.
(** client.py:86-107 *)
Definition stack_read_parameters (s : stack) (read_from : Z) : answer (list value) * stack :=
  stack_read_parameters_loop (S (available (incoming (env (st_transport s))))) s read_from [].
(** client.py:109-120 *)
Definition stack_read_archive (s : stack) (archive amount oldest_record_id : Z) : answer response_pdu * stack :=
  stack_exchange s (ReadArchiveRequest (st_password s) archive amount oldest_record_id).
(** client.py:122-133 *)
Definition stack_read_archive_by_time (s : stack) (archive amount : Z) (oldest_timestamp : datetime) : answer response_pdu * stack :=
  stack_exchange s (ReadArchiveByTimeRequest (st_password s) archive amount oldest_timestamp).

(** client.py:41-133, the calls a user can make, and what they give back (see
    [operation] and [returned] in Client.v) *)
Definition stack_map {A B} (f : A -> B) (x : answer A * stack) : answer B * stack :=
  match x with
  | (Done (Ok a), s) => (Done (Ok (f a)), s)
  | (Done (Err e), s) => (Done (Err e), s)
  | (Waiting, s) => (Waiting, s)
  end.
Definition stack_operate (s : stack) (o : operation) : answer returned * stack :=
  match o with
  | OpConnect => stack_map (fun _ => RNothing) (stack_connect s)
  | OpDisconnect => stack_map (fun _ => RNothing) (stack_disconnect s)
  | OpReadValues => stack_map RPdu (stack_read_instantaneous_values s)
  | OpReadTime => stack_map RTime (stack_read_time s)
  | OpWriteTime t cryout => stack_map (fun _ => RNothing) (stack_write_time s t cryout)
  | OpReadParameters n => stack_map RObjects (stack_read_parameters s n)
  | OpReadArchive a n i => stack_map RPdu (stack_read_archive s a n i)
  | OpReadArchiveByTime a n t => stack_map RPdu (stack_read_archive_by_time s a n t)
  end.
(** a sequence of calls, as [session] in Client.v *)
Fixpoint stack_session (s : stack) (os : list operation) : list (answer returned) * stack :=
  match os with
  | [] => ([], s)
  | o :: os' =>
      match stack_operate s o with
      | (Waiting, s) => ([Waiting], s)
      | (r, s) => let '(rs, s) := stack_session s os' in (r :: rs, s)
      end
  end.
