(** Calls of client methods that overlap in time: several threads, each making
    calls on a client (elgas/client.py), with transport and connection objects that
    may be shared.  The library has no locks; a thread can be interrupted between
    any two accesses to a shared object.  The accesses of a call, in order, are the
    steps below.  Simplifications: one access is not divided further, [recv] and
    [send] of the transport are one access each, and what happens between accesses
    (encoding, decoding, logging) touches no shared object: to_bytes and from_bytes
    work on local data, addresses and cipher context of a connection do not change. *)
From Verif Require Import Py ParamLang Parameters Connection Client Group.
Open Scope list_scope.
Open Scope Z_scope.

(** where a thread is inside self.send(request); self.next_event() (client.py:46-59) *)
Inductive position :=
| Looking                                   (* about to look up the transition of the request (state.py:87) *)
| Changing (s : protocol_state)             (* about to assign the state and to encode (state.py:93, connection.py:112-139) *)
| Writing (data : bytes)                    (* about to call transport.send (client.py:49) *)
| Reading                                   (* about to call transport.recv (client.py:50, 57) *)
| Storing (data : bytes)                    (* about to call receive_data (client.py:51, 57) *)
| Checking                                  (* about to call next_event (client.py:55, connection.py:160-192, state.py:87) *)
| Closing (p : response_pdu) (s : protocol_state)  (* about to assign the state (connection.py:193, state.py:93) *)
| Clearing (p : response_pdu).              (* about to clear the buffer (connection.py:195) *)

(** one access: the exchange goes on, cannot go on yet (recv has not returned), or ends *)
Inductive access :=
| Goes (q : position) (c : connection) (w : world)
| Blocks
| Ends (a : res response_pdu) (c : connection) (w : world).

(** connection.py:112-139, what send does after the state check: as in Connection.v *)
Definition encode_request (rnd pad : nat -> Z) (c : connection) (r : request) : res bytes :=
  application_data <- pdu_to_bytes rnd r ;;
  frame_data <-
    match context c with
    | Some ctx =>
        d <- context_encrypt pad ctx application_data ;;
        request_to_bytes ENCRYPTED_REQUEST_TYPE (frame_of c (request_service r) d)
    | None => request_to_bytes REQUEST_TYPE (frame_of c (request_service r) application_data)
    end ;;
  escape_characters frame_data.

(** connection.py:160-192 and state.py:84-91: next_event up to the look-up of the
    transition of the response; [None] is NEED_DATA *)
Definition look_at_buffer (c : connection) : res (option (response_pdu * protocol_state)) :=
  match buffer c with
  | [] => Ok None
  | _ =>
      match index_of 13 (buffer c) with
      | None => Ok None
      | Some i =>
          match interpret (context c) (slice_to (i + 1) (buffer c)) with
          | Err x => if is_value_error x then Ok None else Err x
          | Ok f => p <- pdu_from_response f ;; s <- process_event (elgas_state c) (Response p) ;; Ok (Some (p, s))
          end
      end
  end.

(** client.py:46-59 for one request, one access at a time *)
Definition exchange_step (r : request) (q : position) (c : connection) (w : world) : access :=
  match q with
  | Looking =>
      match process_event (elgas_state c) (Request r) with
      | Err x => Ends (Err x) c w
      | Ok s => Goes (Changing s) c w
      end
  | Changing s =>
      let '((rnd, pad), w) := draw w in
      match encode_request rnd pad c r with
      | Err x => Ends (Err x) (set_state c s) w
      | Ok data => Goes (Writing data) (set_state c s) w
      end
  | Writing data =>
      match transport_send w data with
      | (Err x, w) => Ends (Err x) c w
      | (Ok _, w) => Goes Reading c w
      end
  | Reading =>
      match transport_recv w with
      | (Waiting, _) => Blocks
      | (Done (Err x), w) => Ends (Err x) c w
      | (Done (Ok data), w) => Goes (Storing data) c w
      end
  | Storing data => Goes Checking (receive_data c data) w
  | Checking =>
      match look_at_buffer c with
      | Err x => Ends (Err x) c w
      | Ok None => Goes Reading c w
      | Ok (Some (p, s)) => Goes (Closing p s) c w
      end
  | Closing p s => Goes (Clearing p) (set_state c s) w
  | Clearing p => Ends (Ok p) (set_buffer c []) w
  end.

(** a call in progress: the request of the current exchange, where it is, and the
    variables of read_parameters (client.py:88-90) *)
Record call := mk_call { ca_operation : operation; ca_request : request; ca_position : position;
                         object_count : Z; total_parameter_data : bytes }.
(** client.py:61-133, the first request of a call; None for connect and disconnect *)
Definition first_request (password : str) (o : operation) : option request :=
  match o with
  | OpConnect | OpDisconnect => None
  | OpReadValues => Some (ReadInstantaneousValuesRequest password)
  | OpReadTime => Some ReadTimeRequest
  | OpWriteTime t cryout => Some (WriteTimeRequest password t cryout)
  | OpReadParameters n => Some (ReadDeviceParametersRequest password n 1024)
  | OpReadArchive a n i => Some (ReadArchiveRequest password a n i)
  | OpReadArchiveByTime a n t => Some (ReadArchiveByTimeRequest password a n t)
  end.
(** the variables of read_parameters at the start (client.py:88-90) *)
Definition first_count (o : operation) : Z := match o with OpReadParameters n => n | _ => 0 end.
(** client.py:61-133, what a call does with a response: it returns, or asks again *)
Inductive continues := Again (count : Z) (data : bytes) | Returns (a : answer returned).
Definition after_response (o : operation) (count : Z) (data : bytes) (p : response_pdu) : continues :=
  match o with
  | OpReadTime => Returns (Done (match p with ReadTimeResponse time _ _ _ _ => Ok (RTime time) | _ => Err AttributeError end))
  | OpWriteTime _ _ => Returns (Done (Ok RNothing))
  | OpReadParameters _ =>
      match p with
      | ReadDeviceParametersResponse d _ object_amount is_end =>
          if is_end
          then Returns (match parse None (Some (data ++ d)) with
                        | Some (Ok l) => Done (Ok (RObjects l)) | Some (Err x) => Done (Err x) | None => Waiting end)
          else Again (count + object_amount) (data ++ d)
      | _ => Returns (Done (Err AttributeError))
      end
  | _ => Returns (Done (Ok (RPdu p)))
  end.

(** a thread: whose client it uses, the calls it will make, the call it is in *)
Record thread := mk_thread { th_member : member; th_calls : list operation; th_call : option call }.
(** what can be seen of a thread: connection.send accepted or refused a request,
    an exchange ended, a call returned *)
Inductive label :=
| Asked (r : request)
| Refused (r : request)
| Answered (r : request) (a : res response_pdu)
| Returned (o : operation) (a : answer returned).

(** one access of a thread inside a call (client.py:61-133) *)
Definition call_step (m : member) (k : call) (c : connection) (w : world) : (option call * connection * world * list label) :=
  let o := ca_operation k in let r := ca_request k in
  let asked := match ca_position k with Changing _ => [Asked r] | _ => [] end in
  match exchange_step r (ca_position k) c w with
  | Goes q c w => (Some (mk_call o r q (object_count k) (total_parameter_data k)), c, w, asked)
  | Blocks => (Some k, c, w, [])
  | Ends (Err x) c w =>
      (None, c, w, (match ca_position k with Looking => [Refused r] | _ => asked ++ [Answered r (Err x)] end)
                   ++ [Returned o (Done (Err x))])
  | Ends (Ok p) c w =>
      match after_response o (object_count k) (total_parameter_data k) p with
      | Again n d => (Some (mk_call o (ReadDeviceParametersRequest (m_password m) n 1024) Looking n d), c, w, [Answered r (Ok p)])
      | Returns a => (None, c, w, [Answered r (Ok p); Returned o a])
      end
  end.
(** the first access of the next call: connect and disconnect are one access, every
    other call enters its first exchange *)
Definition start_step (m : member) (o : operation) (w : world) : (option call * world * list label) :=
  match first_request (m_password m) o with
  | Some r => (Some (mk_call o r Looking (first_count o) []), w, [])
  | None => let '(a, w) := transport_control w in
            (None, w, [Returned o (Done (match a with Ok _ => Ok RNothing | Err x => Err x end))])
  end.
(** one access of a thread *)
Definition thread_step (g : objects) (t : thread) : objects * thread * list label :=
  let m := th_member t in
  let c := connections g (m_connection m) in let w := transports g (m_transport m) in
  match th_call t with
  | Some k =>
      let '(k', c', w', l) := call_step m k c w in
      (mk_objects (update (connections g) (m_connection m) c') (update (transports g) (m_transport m) w'),
       mk_thread m (th_calls t) k', l)
  | None =>
      match th_calls t with
      | [] => (g, t, [])
      | o :: os =>
          let '(k', w', l) := start_step m o w in
          (mk_objects (connections g) (update (transports g) (m_transport m) w'), mk_thread m os k', l)
      end
  end.
(** any interleaving: the schedule names the thread that makes the next access; the
    history says what was seen of which thread *)
Fixpoint interleave (g : objects) (ts : nat -> thread) (schedule : list nat)
    : objects * (nat -> thread) * list (nat * label) :=
  match schedule with
  | [] => (g, ts, [])
  | i :: schedule' =>
      let '(g1, t, l) := thread_step g (ts i) in
      let '(g2, ts', h) := interleave g1 (update ts i t) schedule' in
      (g2, ts', map (pair i) l ++ h)
  end.
