(** Model of /repo/elgas/client.py, over an arbitrary transport. *)
From Verif Require Export Connection PyWait.
From Verif Require Import ParamLang Parameters.
Open Scope list_scope.
Open Scope Z_scope.

(** The environment of a client: what the calls of the transport object
    (client.py:17) will do, and what the calls made so far were.
    [tx], [rx], [ctl]: results of the next calls of send, recv, and of connect or
    disconnect ([None] is a normal return).  When [tx] or [ctl] runs out, further
    calls return normally; when [rx] runs out, recv has not returned (see
    [answer]).  [sent]: the arguments of the calls of transport.send, in order.
    [draws]: the random draws; the n-th request uses [draws n]. *)
Record world := mk_world {
  tx : list (option exn); rx : list (res bytes); ctl : list (option exn);
  sent : list bytes; requests : nat; draws : nat -> (nat -> Z) * (nat -> Z) }.

(** client.py:13-39, the attributes of ElgasClient, next to its environment *)
Record client := mk_client { cl_password : str; cl_connection : connection; cl_world : world }.

(** elgas/utils.py:51-53 to_secret_byte: the empty key becomes None.  The classes
    SecretStr and SecretByte (utils.py:7-48) differ from str and bytes in their
    repr only, see Secret.v. *)
Definition to_secret_byte (data : option bytes) : option bytes :=
  match data with Some (b :: l) => Some (b :: l) | _ => None end.

(** client.py:13-39, the constructor, when the argument elgas_connection, which has
    a default, is not passed *)
Definition make_client (password : str) (password_id : Z) (encryption_key : option bytes)
    (encryption_key_id : option Z) (w : world) : res client :=
  c <- make_connection 0 0 0 0 password password_id (to_secret_byte encryption_key) encryption_key_id ;;
  Ok (mk_client password c w).
(** client.py:13-39, the constructor with the argument elgas_connection: nothing
    checks password and password_id then, and the keys are attributes of the
    client only.  Simplification: the connection object belongs to this client. *)
Definition make_client_with (password : str) (password_id : Z) (encryption_key : option bytes)
    (encryption_key_id : option Z) (elgas_connection : option connection) (w : world) : res client :=
  match elgas_connection with
  | Some c => Ok (mk_client password c w)
  | None => make_client password password_id encryption_key encryption_key_id w
  end.

Definition set_connection (cl : client) (c : connection) : client := mk_client (cl_password cl) c (cl_world cl).
Definition set_world (cl : client) (w : world) : client := mk_client (cl_password cl) (cl_connection cl) w.

(** one call of self.transport.connect() or self.transport.disconnect() *)
Definition transport_control (w : world) : res unit * world :=
  match ctl w with
  | [] => (Ok tt, w)
  | r :: ctl' => (match r with None => Ok tt | Some e => Err e end,
                  mk_world (tx w) (rx w) ctl' (sent w) (requests w) (draws w))
  end.
(** one call of self.transport.send(data) *)
Definition transport_send (w : world) (data : bytes) : res unit * world :=
  match tx w with
  | [] => (Ok tt, mk_world [] (rx w) (ctl w) (sent w ++ [data]) (requests w) (draws w))
  | r :: tx' => (match r with None => Ok tt | Some e => Err e end,
                 mk_world tx' (rx w) (ctl w) (sent w ++ [data]) (requests w) (draws w))
  end.
(** one call of self.transport.recv() *)
Definition transport_recv (w : world) : answer bytes * world :=
  match rx w with
  | [] => (Waiting, w)
  | r :: rx' => (Done r, mk_world (tx w) rx' (ctl w) (sent w) (requests w) (draws w))
  end.
(** the next random draws (random.choices in pad_password, random.randint in encrypt) *)
Definition draw (w : world) : ((nat -> Z) * (nat -> Z)) * world :=
  (draws w (requests w), mk_world (tx w) (rx w) (ctl w) (sent w) (S (requests w)) (draws w)).

(** client.py:41-45 connect and disconnect *)
Definition client_connect (cl : client) : answer unit * client :=
  let '(r, w) := transport_control (cl_world cl) in (Done r, set_world cl w).
Definition client_disconnect (cl : client) : answer unit * client :=
  let '(r, w) := transport_control (cl_world cl) in (Done r, set_world cl w).

(** client.py:48-51, the body of the loop of send *)
Definition client_send_one (cl : client) (event : event) : answer unit * client :=
  let '((rnd, pad), w) := draw (cl_world cl) in
  let cl := set_world cl w in
  match send rnd pad (cl_connection cl) event with
  | (Err e, c) => (Done (Err e), set_connection cl c)
  | (Ok data, c) =>
      let cl := set_connection cl c in
      match transport_send (cl_world cl) data with
      | (Err e, w) => (Done (Err e), set_world cl w)
      | (Ok _, w) =>
          match transport_recv w with
          | (Waiting, w) => (Waiting, set_world cl w)
          | (Done (Err e), w) => (Done (Err e), set_world cl w)
          | (Done (Ok response_data), w) =>
              (Done (Ok tt), mk_client (cl_password cl) (receive_data (cl_connection cl) response_data) w)
          end
      end
  end.
(** client.py:46-51 send( *events) *)
Fixpoint client_send (cl : client) (events : list event) : answer unit * client :=
  match events with
  | [] => (Done (Ok tt), cl)
  | event :: events' =>
      match client_send_one cl event with
      | (Done (Ok _), cl) => client_send cl events'
      | (r, cl) => (r, cl)
      end
  end.

(** client.py:53-59 next_event, the loop; each iteration consumes one receive
    result, so the recursion is over [rx] *)
Fixpoint next_event_loop (rx : list (res bytes)) (c : connection) : answer response_pdu * connection * list (res bytes) :=
  match next_event c with
  | (Err e, c) => (Done (Err e), c, rx)
  | (Ok (Some event), c) => (Done (Ok event), c, rx)
  | (Ok None, c) =>
      match rx with
      | [] => (Waiting, c, [])
      | Err e :: rx' => (Done (Err e), c, rx')
      | Ok data :: rx' => next_event_loop rx' (receive_data c data)
      end
  end.
Definition client_next_event (cl : client) : answer response_pdu * client :=
  let w := cl_world cl in
  let '(r, c, rx') := next_event_loop (rx w) (cl_connection cl) in
  (r, mk_client (cl_password cl) c (mk_world (tx w) rx' (ctl w) (sent w) (requests w) (draws w))).

(** self.send(request); response = self.next_event(), as in client.py:64-65,
    72-73, 82-83, 97-98, 118-119, 131-132 *)
Definition exchange (cl : client) (r : request) : answer response_pdu * client :=
  match client_send cl [Request r] with
  | (Waiting, cl) => (Waiting, cl)
  | (Done (Err e), cl) => (Done (Err e), cl)
  | (Done (Ok _), cl) => client_next_event cl
  end.

(** client.py:61-67 *)
Definition client_read_instantaneous_values (cl : client) : answer response_pdu * client :=
  exchange cl (ReadInstantaneousValuesRequest (cl_password cl)).
(** client.py:69-75; a response of another class has no attribute time *)
Definition client_read_time (cl : client) : answer datetime * client :=
  match exchange cl ReadTimeRequest with
  | (Waiting, cl) => (Waiting, cl)
  | (Done (Err e), cl) => (Done (Err e), cl)
  | (Done (Ok (ReadTimeResponse time _ _ _ _)), cl) => (Done (Ok time), cl)
  | (Done (Ok _), cl) => (Done (Err AttributeError), cl)
  end.
(** client.py:77-84 *)
Definition client_write_time (cl : client) (device_time : datetime) (cryout : bool) : answer unit * client :=
  match exchange cl (WriteTimeRequest (cl_password cl) device_time cryout) with
  | (Waiting, cl) => (Waiting, cl)
  | (Done (Err e), cl) => (Done (Err e), cl)
  | (Done (Ok _), cl) => (Done (Ok tt), cl)
  end.
(** client.py:91-104, the loop of read_parameters, and the return statement.
    Each iteration consumes at least one receive result; [fuel] bounds their
    number and never runs out, see [enough_fuel] in ClientProofs.v. *)
Fixpoint read_parameters_loop (fuel : nat) (cl : client) (object_count : Z) (total_parameter_data : bytes)
    : answer (list value) * client :=
  match fuel with
  | O => (Waiting, cl)
  | S fuel' =>
      match exchange cl (ReadDeviceParametersRequest (cl_password cl) object_count 1024) with
      | (Waiting, cl) => (Waiting, cl)
      | (Done (Err e), cl) => (Done (Err e), cl)
      | (Done (Ok (ReadDeviceParametersResponse data _ object_amount is_end)), cl) =>
          let total_parameter_data := total_parameter_data ++ data in
          let should_stop := is_end in
          let object_count := object_count + object_amount in
          if should_stop
          then (match parse None (Some total_parameter_data) with Some r => Done r | None => Waiting end, cl)
          else read_parameters_loop fuel' cl object_count total_parameter_data
      | (Done (Ok _), cl) => (Done (Err AttributeError), cl)
      end
  end.
(** client.py:86-107 *)
Definition client_read_parameters (cl : client) (read_from : Z) : answer (list value) * client :=
  read_parameters_loop (S (length (rx (cl_world cl)))) cl read_from [].
(** client.py:109-120 *)
Definition client_read_archive (cl : client) (archive amount oldest_record_id : Z) : answer response_pdu * client :=
  exchange cl (ReadArchiveRequest (cl_password cl) archive amount oldest_record_id).
(** client.py:122-133 *)
Definition client_read_archive_by_time (cl : client) (archive amount : Z) (oldest_timestamp : datetime) : answer response_pdu * client :=
  exchange cl (ReadArchiveByTimeRequest (cl_password cl) archive amount oldest_timestamp).

(** The calls a user can make, and what they give back *)
Inductive operation :=
| OpConnect | OpDisconnect
| OpReadValues
| OpReadTime
| OpWriteTime (t : datetime) (cryout : bool)
| OpReadParameters (read_from : Z)
| OpReadArchive (archive amount oldest_record_id : Z)
| OpReadArchiveByTime (archive amount : Z) (t : datetime).
Inductive returned :=
| RNothing
| RPdu (p : response_pdu)
| RTime (t : datetime)
| RObjects (l : list value).
Definition answer_map {A B} (f : A -> B) (x : answer A * client) : answer B * client :=
  match x with
  | (Done (Ok a), cl) => (Done (Ok (f a)), cl)
  | (Done (Err e), cl) => (Done (Err e), cl)
  | (Waiting, cl) => (Waiting, cl)
  end.
Definition operate (cl : client) (o : operation) : answer returned * client :=
  match o with
  | OpConnect => answer_map (fun _ => RNothing) (client_connect cl)
  | OpDisconnect => answer_map (fun _ => RNothing) (client_disconnect cl)
  | OpReadValues => answer_map RPdu (client_read_instantaneous_values cl)
  | OpReadTime => answer_map RTime (client_read_time cl)
  | OpWriteTime t cryout => answer_map (fun _ => RNothing) (client_write_time cl t cryout)
  | OpReadParameters n => answer_map RObjects (client_read_parameters cl n)
  | OpReadArchive a n i => answer_map RPdu (client_read_archive cl a n i)
  | OpReadArchiveByTime a n t => answer_map RPdu (client_read_archive_by_time cl a n t)
  end.
(** a sequence of calls; it stops at the first call that does not return.  An
    exception does not stop it: the caller may catch it and go on. *)
Fixpoint session (cl : client) (os : list operation) : list (answer returned) * client :=
  match os with
  | [] => ([], cl)
  | o :: os' =>
      match operate cl o with
      | (Waiting, cl) => ([Waiting], cl)
      | (r, cl) => let '(rs, cl) := session cl os' in (r :: rs, cl)
      end
  end.
