(** Model of /repo/elgas/transport.py. *)
From Verif Require Export PyWait.
Open Scope Z_scope.

(** time.monotonic: the i-th call gives [now i].  Simplification: times and
    durations are exact numbers (integers, in any unit), not floats. *)
Definition clock := nat -> Z.

(** transport.py:19-25, the attributes of Timeout *)
Record timeout := mk_timeout {
  is_infinite : bool; is_non_blocking : bool; duration : option Z; target_time : option Z }.

(** transport.py:17-25.  The functions on timeouts take the number [n] of calls of
    time.monotonic so far and give the new number. *)
Definition make_timeout (now : clock) (n : nat) (d : option Z) : timeout * nat :=
  let infinite := match d with None => true | Some _ => false end in
  let non_blocking := match d with Some 0 => true | _ => false end in
  match d with
  | Some d' => (mk_timeout infinite non_blocking d (Some (now n + d')), S n)
  | None => (mk_timeout infinite non_blocking d None, n)
  end.

(** transport.py:31-44.  [None - x] and [x > None] raise TypeError. *)
Definition time_left (now : clock) (n : nat) (t : timeout) : res (option Z) * timeout * nat :=
  if is_non_blocking t then (Ok (Some 0), t, n)
  else if is_infinite t then (Ok None, t, n)
  else match target_time t with
  | None => (Err TypeError, t, S n)
  | Some target =>
      let delta := target - now n in
      match duration t with
      | None => (Err TypeError, t, S n)
      | Some d =>
          if delta >? d
          then (Ok (Some d), mk_timeout (is_infinite t) (is_non_blocking t) (duration t) (Some (now (S n) + d)), S (S n))
          else (Ok (Some (Z.max 0 delta)), t, S n)
      end
  end.

(** transport.py:27-29.  [None <= 0] raises TypeError. *)
Definition expired (now : clock) (n : nat) (t : timeout) : res bool * timeout * nat :=
  match target_time t with
  | None => (Ok false, t, n)
  | Some _ =>
      match time_left now n t with
      | (Err e, t, n) => (Err e, t, n)
      | (Ok None, t, n) => (Err TypeError, t, n)
      | (Ok (Some remaining), t, n) => (Ok (remaining <=? 0), t, n)
      end
  end.

(** transport.py:46-52 *)
Definition restart (now : clock) (n : nat) (t : timeout) (d : option Z) : res unit * timeout * nat :=
  match d with
  | None => (Err TypeError, mk_timeout (is_infinite t) (is_non_blocking t) None (target_time t), S n)
  | Some d' => (Ok tt, mk_timeout (is_infinite t) (is_non_blocking t) d (Some (now n + d')), S n)
  end.

(** ** The two transports.
    Everything but disconnect is the same code twice, for a socket (BlockingTcpTransport,
    lines 69-174) and for a serial port (SerialTransport, lines 177-277). *)
Inductive kind := Tcp | Serial.

(** The calls of the socket or serial port object, without reads: the constructor
    (socket.create_connection, serial.Serial), shutdown, close, and
    sendall or write *)
Inductive socket_call :=
| SOpen | SShutdown | SClose | SWrite (data : bytes).

(** The environment. [outcomes]: the results of the next of these calls, [None] is
    a normal return (also when the list has run out); [incoming]: what the
    calls of recv(n) or read(n) will find, in order: data, of which at most
    n bytes are returned and the rest stays ([Ok []] is an empty result: the peer
    has closed the connection, or the serial timeout has passed), or an exception;
    when the list has run out the call has not returned; [now], [ticks]: the clock
    and the number of its readings so far; [log]: the calls made so far. *)
Record environment := mk_environment {
  outcomes : list (option exn); incoming : list (res bytes); now : clock; ticks : nat; log : list socket_call }.

(** transport.py:75-78 and 183-186, the attributes that matter; [is_open]: the
    attribute tcp_socket or serial_port is not None (both kinds of objects are
    always true). *)
Record transport := mk_transport { t_kind : kind; t_timeout : option Z; is_open : bool; env : environment }.
Definition set_open (t : transport) (b : bool) : transport := mk_transport (t_kind t) (t_timeout t) b (env t).
Definition set_env (t : transport) (e : environment) : transport := mk_transport (t_kind t) (t_timeout t) (is_open t) e.

(** one such call *)
Definition perform (e : environment) (c : socket_call) : res unit * environment :=
  match outcomes e with
  | [] => (Ok tt, mk_environment [] (incoming e) (now e) (ticks e) (log e ++ [c]))
  | o :: os => (match o with None => Ok tt | Some x => Err x end,
                mk_environment os (incoming e) (now e) (ticks e) (log e ++ [c]))
  end.

(** what the except clauses catch (95-101, 115, 128, 136, 201-205, 218, 231, 239):
    IOError and socket.error are OSError, socket.timeout, ConnectionRefusedError
    and serial.SerialException are subclasses of it.  [OSError] stands for the
    class and its subclasses. *)
Definition is_os_error (x : exn) : bool := match x with OSError => true | _ => false end.
Definition wrapped (x : exn) : exn := if is_os_error x then CommunicationError else x.

(** transport.py:84-103, 188-207 *)
Definition transport_connect (t : transport) : answer unit * transport :=
  if is_open t then (Done (Err RuntimeError), t)
  else match perform (env t) SOpen with
  | (Ok _, e) => (Done (Ok tt), set_open (set_env t e) true)
  | (Err x, e) => (Done (Err (wrapped x)), set_env t e)
  end.

(** transport.py:105-119, 209-222; the except clause drops the socket *)
Definition transport_disconnect (t : transport) : answer unit * transport :=
  if is_open t then
    let failed (x : exn) (e : environment) :=
      (Done (Err (wrapped x)), set_open (set_env t e) (negb (is_os_error x))) in
    let close (e : environment) :=
      match perform e SClose with
      | (Err x, e) => failed x e
      | (Ok _, e) => (Done (Ok tt), set_open (set_env t e) false)
      end in
    match t_kind t with
    | Tcp => match perform (env t) SShutdown with
             | (Err x, e) => failed x e
             | (Ok _, e) => close e
             end
    | Serial => close (env t)
    end
  else (Done (Ok tt), t).

(** transport.py:121-129, 224-232 *)
Definition transport_write (t : transport) (data : bytes) : answer unit * transport :=
  if is_open t then
    match perform (env t) (SWrite data) with
    | (Ok _, e) => (Done (Ok tt), set_env t e)
    | (Err x, e) => (Done (Err (wrapped x)), set_env t e)
    end
  else (Done (Err RuntimeError), t).

(** transport.py:148-152, 251-255, the loop of _recv_bytes; each iteration is one
    call of recv(amount - len(data)) or read(amount - len(data)) *)
Fixpoint recv_bytes_loop (amount : Z) (data : bytes) (incoming : list (res bytes)) : answer bytes * list (res bytes) :=
  if len data <? amount then
    match incoming with
    | [] => (Waiting, [])
    | Err x :: incoming' => (Done (Err x), incoming')
    | Ok chunk :: incoming' =>
        let needed := Z.to_nat (amount - len data) in
        match skipn needed chunk with
        | [] => recv_bytes_loop amount (data ++ firstn needed chunk) incoming'
        | rest => (Done (Ok (data ++ firstn needed chunk)), Ok rest :: incoming')
        end
    end
  else (Done (Ok data), incoming).
(** transport.py:140-152, 243-255 *)
Definition recv_bytes (is_open : bool) (amount : Z) (incoming : list (res bytes)) : answer bytes * list (res bytes) :=
  if is_open then recv_bytes_loop amount [] incoming else (Done (Err RuntimeError), incoming).

(** transport.py:162-174, 265-277, the loop of recv_until.  Each iteration that does
    not end it takes one byte, [fuel] bounds their number and never runs out, see
    [recv_fuel] in TransportProofs.v. *)
Fixpoint recv_until_loop (fuel : nat) (is_open : bool) (now : clock) (expected : bytes) (size : option Z)
    (line : bytes) (timer : timeout) (n : nat) (incoming : list (res bytes))
    : answer bytes * nat * list (res bytes) :=
  match fuel with
  | O => (Waiting, n, incoming)
  | S fuel' =>
      match recv_bytes is_open 1 incoming with
      | (Waiting, incoming) => (Waiting, n, incoming)
      | (Done (Err x), incoming) => (Done (Err x), n, incoming)
      | (Done (Ok []), incoming) => (Done (Ok line), n, incoming)
      | (Done (Ok c), incoming) =>
          let line := line ++ c in
          if list_eqb (slice_from (- len expected) line) expected then (Done (Ok line), n, incoming)
          else if match size with Some s => len line >=? s | None => false end then (Done (Ok line), n, incoming)
          else match expired now n timer with
          | (Err x, _, n) => (Done (Err x), n, incoming)
          | (Ok true, _, n) => (Done (Ok line), n, incoming)
          | (Ok false, timer, n) => recv_until_loop fuel' is_open now expected size line timer n incoming
          end
      end
  end.
(** the number of bytes still to come *)
Definition available (incoming : list (res bytes)) : nat :=
  fold_right (fun r n => match r with Ok d => length d | Err _ => O end + n)%nat O incoming.
(** transport.py:154-174, 257-277 *)
Definition recv_until (t : transport) (expected : bytes) (size : option Z) : answer bytes * transport :=
  let e := env t in
  let '(timer, n) := make_timeout (now e) (ticks e) (t_timeout t) in
  let '(r, n, inc) := recv_until_loop (S (available (incoming e))) (is_open t) (now e) expected size [] timer n (incoming e) in
  (r, set_env t (mk_environment (outcomes e) inc (now e) n (log e))).

(** transport.py:131-138, 234-241 *)
Definition transport_read (t : transport) : answer bytes * transport :=
  match recv_until t [13] None with
  | (Done (Err x), t) => (Done (Err (wrapped x)), t)
  | (r, t) => (r, t)
  end.

(** transport.py:69-78, 177-186, the constructors *)
Definition make_transport (k : kind) (timeout : option Z) (e : environment) : transport :=
  mk_transport k timeout false e.

(** The calls a user can make *)
Inductive transport_call := TConnect | TDisconnect | TSend (data : bytes) | TRecv.
Inductive transport_result := TNothing | TData (data : bytes).
Definition lift {A} (f : A -> transport_result) (x : answer A * transport) : answer transport_result * transport :=
  match x with
  | (Done (Ok a), t) => (Done (Ok (f a)), t)
  | (Done (Err e), t) => (Done (Err e), t)
  | (Waiting, t) => (Waiting, t)
  end.
Definition transport_step (t : transport) (c : transport_call) : answer transport_result * transport :=
  match c with
  | TConnect => lift (fun _ => TNothing) (transport_connect t)
  | TDisconnect => lift (fun _ => TNothing) (transport_disconnect t)
  | TSend data => lift (fun _ => TNothing) (transport_write t data)
  | TRecv => lift TData (transport_read t)
  end.
(** a sequence of calls, up to one that has not returned *)
Fixpoint transport_run (t : transport) (cs : list transport_call)
    : list (transport_call * answer transport_result) * transport :=
  match cs with
  | [] => ([], t)
  | c :: cs' =>
      match transport_step t c with
      | (Waiting, t') => ([(c, Waiting)], t')
      | (Done r, t') => let '(h, t'') := transport_run t' cs' in ((c, Done r) :: h, t'')
      end
  end.
