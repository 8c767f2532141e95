(** Independent specification of a client over a socket or serial port, as one
    machine (Stack.v): the history of the calls of the transport. *)
From Verif Require Import Py SpecUtils SpecFrames SpecSecurity SpecConnection SpecApplication SpecPdu SpecText.
From Verif Require Import Connection ParamLang Parameters Client SpecClient Transport SpecTransport SpecStack Stack SpecErrors.
Open Scope list_scope.
Open Scope Z_scope.

(** the calls of the transport, with how they ended *)
Definition history := list (transport_call * answer transport_result).
(** [h] is what happens when its calls are made one after the other *)
Definition happens (t : transport) (h : history) (t' : transport) : Prop := transport_run t (map fst h) = (h, t').

(** the arguments of the calls of send, and how they ended (None: normally) *)
Definition sends (h : history) : list bytes :=
  flat_map (fun x => match x with (TSend data, _) => [data] | _ => [] end) h.
Definition send_results (h : history) : list (option exn) :=
  flat_map (fun x => match x with
    | (TSend _, Done (Ok _)) => [None] | (TSend _, Done (Err e)) => [Some e] | _ => [] end) h.
(** the results of the calls of recv *)
Definition recv_results (h : history) : list (res bytes) :=
  flat_map (fun x => match x with
    | (TRecv, Done (Ok (TData data))) => [Ok data] | (TRecv, Done (Err e)) => [Err e] | _ => [] end) h.
(** how the calls of connect and disconnect ended *)
Definition control_results (h : history) : list (option exn) :=
  flat_map (fun x => match x with
    | (TConnect, Done (Ok _)) | (TDisconnect, Done (Ok _)) => [None]
    | (TConnect, Done (Err e)) | (TDisconnect, Done (Err e)) => [Some e] | _ => [] end) h.

(** what is written to the socket or port *)
Definition written (calls : list socket_call) : list bytes :=
  flat_map (fun c => match c with SWrite data => [data] | _ => [] end) calls.

(** is there a connection, after these calls of the client and their results? *)
Definition connected_after (c : bool) (x : operation * answer returned) : bool :=
  match x with
  | (OpConnect, Done (Ok _)) => true
  | (OpDisconnect, Done _) => false
  | _ => c
  end.
Definition is_connected (os : list operation) (vs : list (answer returned)) : bool :=
  fold_left connected_after (combine os vs) false.
(** the socket or port gives bytes objects *)
Definition bytes_arrive (e : environment) : Prop :=
  Forall (fun r => match r with Ok d => is_bytes d | Err _ => True end) (incoming e).
(** no exception of the transport *)
Definition no_trouble : world := mk_world [] [] [] [] 0 (fun _ => (fun _ => 0, fun _ => 0)).
(** why a call of a client over a socket or port raises *)
Inductive stack_explained (password : str) (ctx : option cipher_context) (up : bool) (o : operation) (x : exn) : Prop :=
| not_connected : up = false -> communicates o -> x = RuntimeError -> stack_explained password ctx up o x
| connected_twice : up = true -> o = OpConnect -> x = RuntimeError -> stack_explained password ctx up o x
| connection_failed : up = true \/ o = OpConnect -> x = CommunicationError -> stack_explained password ctx up o x
| not_the_transport : explained password ctx no_trouble o x -> stack_explained password ctx up o x.
(** how a connection of this kind is closed *)
Definition closing (k : kind) : list socket_call := match k with Tcp => [SShutdown; SClose] | Serial => [SClose] end.
