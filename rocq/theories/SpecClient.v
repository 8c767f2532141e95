(** Independent specification of the client: what a device sends, what the
    client asks and gives back. *)
From Verif Require Import Py SpecUtils SpecFrames SpecText SpecApplication SpecPdu SpecSecurity SpecMeaning SpecConnection.
From Verif Require Import Connection ParamLang Parameters Client SpecBlock.
Open Scope list_scope.
Open Scope Z_scope.

(** the cipher context meant by the arguments of the client: a non-empty key with an id *)
Definition client_context (key : option bytes) (id : option Z) : option cipher_context :=
  match key, id with
  | Some (b :: k), Some i => Some (mk_context i (b :: k))
  | _, _ => None
  end.
(** keys that can encrypt *)
Definition usable_context (ctx : option cipher_context) : Prop :=
  match ctx with Some (mk_context i k) => key16 k /\ 0 <= i <= 255 | None => True end.

(** the request of an operation that is one exchange *)
Definition asks (password : str) (o : operation) : option request :=
  match o with
  | OpReadValues => Some (ReadInstantaneousValuesRequest password)
  | OpReadTime => Some ReadTimeRequest
  | OpWriteTime t cryout => Some (WriteTimeRequest password t cryout)
  | OpReadArchive a n i => Some (ReadArchiveRequest password a n i)
  | OpReadArchiveByTime a n t => Some (ReadArchiveByTimeRequest password a n t)
  | _ => None
  end.
(** what the operation returns for a response *)
Inductive gives : operation -> response_pdu -> returned -> Prop :=
| gives_values p : gives OpReadValues p (RPdu p)
| gives_time t dar dst dev extra : gives OpReadTime (ReadTimeResponse t dar dst dev extra) (RTime t)
| gives_written t cryout p : gives (OpWriteTime t cryout) p RNothing
| gives_archive a n i p : gives (OpReadArchive a n i) p (RPdu p)
| gives_archive_time a n t p : gives (OpReadArchiveByTime a n t) p (RPdu p).

(** the request can be put on the wire *)
Definition encodable (r : request) : Prop := request_misfit r = None /\ request_times_valid r.

(** [t] is a telegram for the request [r] to the addresses [d1], [d2] from the
    addresses [s1], [s2], encrypted when there is a context *)
Definition request_line_at (d1 d2 s1 s2 : Z) (ctx : option cipher_context) (r : request) (t : bytes) : Prop :=
  exists app, request_data r app /\
  match ctx with
  | Some (mk_context i k) => exists p, seals k i app p /\
      on_line (request_wire 133 (function_code r) d1 d2 s1 s2 p) t
  | None => on_line (request_wire 132 (function_code r) d1 d2 s1 s2 app) t
  end.
(** ... to and from address 0 *)
Definition request_line : option cipher_context -> request -> bytes -> Prop := request_line_at 0 0 0 0.

(** [results] are the results of recv when one response telegram with content [p]
    arrives, cut anywhere, possibly after empty reads and stray line ends *)
Definition delivers (ctx : option cipher_context) (srv : service) (p : response_pdu) (results : list (res bytes)) : Prop :=
  exists noise parts last d t,
    results = map Ok (noise ++ parts ++ [last]) /\ Forall (fun x => x = [] \/ x = [13]) noise /\
    concat parts ++ last = t /\ last <> [] /\
    answers ctx srv d t /\ no_flag d /\ means srv d p.

(** pages of a parameter read *)
Record page := mk_page { pg_data : bytes; pg_number : Z; pg_amount : Z; pg_end : bool; pg_results : list (res bytes) }.
Definition page_ok (ctx : option cipher_context) (pg : page) : Prop :=
  delivers ctx READ_SCADA_PARAMETERS
    (ReadDeviceParametersResponse (pg_data pg) (pg_number pg) (pg_amount pg) (pg_end pg)) (pg_results pg).
Definition total (l : list Z) : Z := fold_right Z.add 0 l.
Definition objects_before (pages : list page) (i : nat) : Z := total (map pg_amount (firstn i pages)).
(** the requests for the pages: each asks for the objects after those received *)
Definition page_requests (password : str) (read_from : Z) (pages : list page) : list request :=
  map (fun i => ReadDeviceParametersRequest password (read_from + objects_before pages i) 1024) (seq 0 (length pages)).
(** a complete set of pages: the last one, and no other, is flagged *)
Definition complete (pages : list page) : Prop :=
  exists front last, pages = front ++ [last] /\ Forall (fun pg => pg_end pg = false) front /\ pg_end last = true.

(** a conversation: [converses ctx password os results rs vs]: the operations [os]
    with a device whose answers arrive as [results] give [vs] and ask [rs] *)
Inductive converses (ctx : option cipher_context) (password : str) :
  list operation -> list (res bytes) -> list request -> list (answer returned) -> Prop :=
| conv_end : converses ctx password [] [] [] []
| conv_exchange o r p v results os results' rs vs :
    asks password o = Some r -> encodable r -> delivers ctx (request_service r) p results -> gives o p v ->
    converses ctx password os results' rs vs ->
    converses ctx password (o :: os) (results ++ results') (r :: rs) (Done (Ok v) :: vs)
| conv_parameters read_from pages outcome os results' rs vs :
    Forall (page_ok ctx) pages -> complete pages -> latin1 password ->
    0 <= read_from -> read_from + total (map pg_amount (removelast pages)) <= 65535 ->
    reads (concat (map pg_data pages)) outcome ->
    converses ctx password os results' rs vs ->
    converses ctx password (OpReadParameters read_from :: os) (concat (map pg_results pages) ++ results')
      (page_requests password read_from pages ++ rs)
      (Done (match outcome with Ok l => Ok (RObjects l) | Err e => Err e end) :: vs).

(** the first request of an operation *)
Definition opens (password : str) (o : operation) : option request :=
  match o with
  | OpReadParameters n => Some (ReadDeviceParametersRequest password n 1024)
  | _ => asks password o
  end.
(** the call has not returned, or recv raised one of the errors in [results] *)
Definition waits_or_fails {A} (a : answer A) (results : list (res bytes)) : Prop :=
  a = Waiting \/ exists x, a = Done (Err x) /\ In (Err x) results.

(** operations that talk to the device *)
Definition communicates (o : operation) : Prop := o <> OpConnect /\ o <> OpDisconnect.
(** every such operation is refused, nothing is sent *)
Definition all_refused (os : list operation) (rs : list (answer returned)) : Prop :=
  Forall2 (fun o r => communicates o -> r = Done (Err LocalElgasProtocolError)) os rs.
