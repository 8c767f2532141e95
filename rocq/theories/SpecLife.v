(** Independent specification: the whole life of a client, from connect() on, with
    every way the calls of the socket or port can end and any bytes that arrive. *)
From Verif Require Import Py SpecUtils SpecConnection SpecApplication SpecPdu SpecText.
From Verif Require Import Connection ParamLang Parameters Client SpecClient SpecErrors Transport SpecTransport SpecSession SpecIndep SpecBlock SpecOutcome.
Open Scope list_scope.
Open Scope Z_scope.

(** what is to be known about a client: may it ask ([idle])? is it connected ([up])?
    how will the next calls of the socket or port end ([fates]: None is a normal
    return, also when the list is empty)? what will arrive ([coming])? *)
Record life := mk_life { idle : bool; up : bool; fates : list (option exn); coming : list (res Z) }.
(** how the next call ends *)
Inductive fate : list (option exn) -> option exn -> list (option exn) -> Prop :=
| fate_good : fate [] None []
| fate_next f fs : fate (f :: fs) f fs.
(** what the client does with the socket or port *)
Inductive deed := Open | Shutdown | Close | Ask (r : request).
Inductive done (ctx : option cipher_context) : deed -> socket_call -> Prop :=
| done_open : done ctx Open SOpen
| done_shutdown : done ctx Shutdown SShutdown
| done_close : done ctx Close SClose
| done_ask r line : request_line ctx r line -> done ctx (Ask r) (SWrite line).

Definition succeeds {A} (a : answer A) : bool := match a with Done (Ok _) => true | _ => false end.

(** *** a request *)
Inductive asked (ctx : option cipher_context) (r : request) : life -> answer response_pdu -> list deed -> life -> Prop :=
| asked_again u fs bs : (* after an exception *)
    asked ctx r (mk_life false u fs bs) (Done (Err LocalElgasProtocolError)) [] (mk_life false u fs bs)
| asked_misfit u fs bs x : request_misfit r = Some x ->
    asked ctx r (mk_life true u fs bs) (Done (Err x)) [] (mk_life false u fs bs)
| asked_bad_key u fs bs : request_misfit r = None -> ~ usable_context ctx ->
    asked ctx r (mk_life true u fs bs) (Done (Err ValueError)) [] (mk_life false u fs bs)
| asked_offline fs bs : request_misfit r = None -> usable_context ctx ->
    asked ctx r (mk_life true false fs bs) (Done (Err RuntimeError)) [] (mk_life false false fs bs)
| asked_unwritten fs x fs' bs : request_misfit r = None -> usable_context ctx -> fate fs (Some x) fs' ->
    asked ctx r (mk_life true true fs bs) (Done (Err (relayed x))) [Ask r] (mk_life false true fs' bs)
| asked_heard fs fs' bs a rest : request_misfit r = None -> usable_context ctx -> fate fs None fs' ->
    heard ctx (request_service r) bs a rest ->
    asked ctx r (mk_life true true fs bs) a [Ask r] (mk_life (succeeds a) true fs' rest).

(** *** a parameter read: from object [n] on, [got] being read *)
Inductive read_on (ctx : option cipher_context) (password : str) : Z -> bytes -> life -> answer (list value) -> list deed -> life -> Prop :=
| read_fails n got l x ds l' : asked ctx (page_request password n) l (Done (Err x)) ds l' ->
    read_on ctx password n got l (Done (Err x)) ds l'
| read_waits n got l ds l' : asked ctx (page_request password n) l Waiting ds l' ->
    read_on ctx password n got l Waiting ds l'
| read_last n got l data number amount ds l' outcome :
    asked ctx (page_request password n) l (Done (Ok (ReadDeviceParametersResponse data number amount true))) ds l' ->
    reads (got ++ data) outcome ->
    read_on ctx password n got l (Done outcome) ds l'
| read_next n got l data number amount ds l' a ds' l'' :
    asked ctx (page_request password n) l (Done (Ok (ReadDeviceParametersResponse data number amount false))) ds l' ->
    read_on ctx password (n + amount) (got ++ data) l' a ds' l'' ->
    read_on ctx password n got l a (ds ++ ds') l''.

(** *** one call *)
(** the socket after an exception of shutdown or close: dropped if it is an OSError *)
Definition still_up (x : exn) : bool := match x with OSError => false | _ => true end.
Inductive does (ctx : option cipher_context) (password : str) (kd : kind) : operation -> life -> answer returned -> list deed -> life -> Prop :=
| connect_twice i fs bs : does ctx password kd OpConnect (mk_life i true fs bs) (Done (Err RuntimeError)) [] (mk_life i true fs bs)
| connect_good i fs fs' bs : fate fs None fs' ->
    does ctx password kd OpConnect (mk_life i false fs bs) (Done (Ok RNothing)) [Open] (mk_life i true fs' bs)
| connect_fails i fs x fs' bs : fate fs (Some x) fs' ->
    does ctx password kd OpConnect (mk_life i false fs bs) (Done (Err (relayed x))) [Open] (mk_life i false fs' bs)
| disconnect_idle i fs bs : does ctx password kd OpDisconnect (mk_life i false fs bs) (Done (Ok RNothing)) [] (mk_life i false fs bs)
| disconnect_tcp i fs fs' fs'' bs : kd = Tcp -> fate fs None fs' -> fate fs' None fs'' ->
    does ctx password kd OpDisconnect (mk_life i true fs bs) (Done (Ok RNothing)) [Shutdown; Close] (mk_life i false fs'' bs)
| disconnect_tcp_shutdown i fs x fs' bs : kd = Tcp -> fate fs (Some x) fs' ->
    does ctx password kd OpDisconnect (mk_life i true fs bs) (Done (Err (relayed x))) [Shutdown] (mk_life i (still_up x) fs' bs)
| disconnect_tcp_close i fs x fs' fs'' bs : kd = Tcp -> fate fs None fs' -> fate fs' (Some x) fs'' ->
    does ctx password kd OpDisconnect (mk_life i true fs bs) (Done (Err (relayed x))) [Shutdown; Close] (mk_life i (still_up x) fs'' bs)
| disconnect_serial i fs fs' bs : kd = Serial -> fate fs None fs' ->
    does ctx password kd OpDisconnect (mk_life i true fs bs) (Done (Ok RNothing)) [Close] (mk_life i false fs' bs)
| disconnect_serial_close i fs x fs' bs : kd = Serial -> fate fs (Some x) fs' ->
    does ctx password kd OpDisconnect (mk_life i true fs bs) (Done (Err (relayed x))) [Close] (mk_life i (still_up x) fs' bs)
| asks_fails o r l x ds l' : asks password o = Some r -> asked ctx r l (Done (Err x)) ds l' -> does ctx password kd o l (Done (Err x)) ds l'
| asks_waits o r l ds l' : asks password o = Some r -> asked ctx r l Waiting ds l' -> does ctx password kd o l Waiting ds l'
| asks_gives o r l p v ds l' : asks password o = Some r -> asked ctx r l (Done (Ok p)) ds l' -> gives o p v ->
    does ctx password kd o l (Done (Ok v)) ds l'
| reads_parameters n l a ds l' : read_on ctx password n [] l a ds l' ->
    does ctx password kd (OpReadParameters n) l
      (match a with Done (Ok values) => Done (Ok (RObjects values)) | Done (Err x) => Done (Err x) | Waiting => Waiting end) ds l'.

(** *** all calls; one that does not return is the last *)
Inductive lives (ctx : option cipher_context) (password : str) (kd : kind) :
  list operation -> life -> list (answer returned) -> list deed -> life -> Prop :=
| lives_end l : lives ctx password kd [] l [] [] l
| lives_waits o os l ds l' : does ctx password kd o l Waiting ds l' -> lives ctx password kd (o :: os) l [Waiting] ds l'
| lives_on o os l v ds l' vs ds' l'' : does ctx password kd o l (Done v) ds l' -> lives ctx password kd os l' vs ds' l'' ->
    lives ctx password kd (o :: os) l (Done v :: vs) (ds ++ ds') l''.
(** of a transport *)
Definition life_of (i : bool) (t : transport) : life := mk_life i (is_open t) (outcomes (env t)) (stream (incoming (env t))).
