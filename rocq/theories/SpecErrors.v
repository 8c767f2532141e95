(** Independent specification: why a call of the client raises. *)
From Verif Require Import Py SpecUtils SpecFrames SpecText SpecApplication SpecPdu SpecSecurity SpecConnection SpecClient.
From Verif Require Import Connection ParamLang Parameters Client.
Open Scope list_scope.
Open Scope Z_scope.

(** the arguments of the operation are datetime objects *)
Definition operation_times_valid (o : operation) : Prop :=
  match o with
  | OpWriteTime t _ => calendar_time t
  | OpReadArchiveByTime _ _ t => calendar_time t
  | _ => True
  end.
(** the requests of an operation; a parameter read goes on with further offsets *)
Inductive asked (password : str) : operation -> request -> Prop :=
| asked_once o r : asks password o = Some r -> asked password o r
| asked_parameters n m : n <= m -> asked password (OpReadParameters n) (ReadDeviceParametersRequest password m 1024).

(** one of the calls of the transport raises [x] *)
Definition transport_raises (w : world) (x : exn) : Prop :=
  In (Some x) (tx w) \/ In (Some x) (ctl w) \/ In (Err x) (rx w).
(** recv returns bytes objects *)
Definition receives_bytes (w : world) : Prop :=
  Forall (fun r => match r with Ok d => is_bytes d | Err _ => True end) (rx w).

(** what a device can cause by what it sends *)
Inductive answer_raises (ctx : option cipher_context) : operation -> exn -> Prop :=
| error_flag o i x : device_error i x -> answer_raises ctx o x
| other_service o : answer_raises ctx o LocalElgasProtocolError
| unknown_service o : answer_raises ctx o KeyError
| short_answer o : answer_raises ctx o IndexError
| bad_value o : answer_raises ctx o ValueError
| other_key o : ctx <> None -> answer_raises ctx o AssertionError
| encrypted_without_key o : ctx = None -> answer_raises ctx o AttributeError
| object_too_long n : answer_raises ctx (OpReadParameters n) AssertionError
| unreadable_object n : answer_raises ctx (OpReadParameters n) TypeError
| unregistered_object n : answer_raises ctx (OpReadParameters n) AttributeError.

(** every reason for an exception *)
Inductive explained (password : str) (ctx : option cipher_context) (w : world) (o : operation) (x : exn) : Prop :=
| by_transport : transport_raises w x -> explained password ctx w o x
| by_refusal : communicates o -> x = LocalElgasProtocolError -> explained password ctx w o x
| by_arguments r : asked password o r -> request_misfit r = Some x -> explained password ctx w o x
| by_key : communicates o -> ~ usable_context ctx -> x = ValueError -> explained password ctx w o x
| by_device : communicates o -> answer_raises ctx o x -> explained password ctx w o x.

(** the calls that raise, with the operation *)
Definition raised (os : list operation) (rs : list (answer returned)) (o : operation) (x : exn) : Prop :=
  In (o, Done (Err x)) (combine os rs).

(** the services without a class for their responses *)
Definition unanswered (srv : service) : Prop :=
  ~ In srv [READ_VALUES; READ_DEVICE_TIME; READ_SCADA_PARAMETERS; READ_ARCHIVES_BY_DATE; READ_ARCHIVES; WRITE_DEVICE_TIME].
(** an encrypted response telegram, whatever the key *)
Definition encrypted_telegram (t : bytes) : Prop :=
  exists srv d1 d2 s1 s2 p, addresses d1 d2 s1 s2 /\ is_bytes p /\ len p <= 65520 /\
    on_line (response_wire 135 (service_number srv) d1 d2 s1 s2 p) t.
