(** Independent specification: what the calls of a client make of the bytes that
    arrive, whatever these bytes are. *)
From Verif Require Import Py SpecUtils SpecFrames SpecSecurity SpecConnection SpecApplication SpecPdu SpecText.
From Verif Require Import Connection ParamLang Parameters Client SpecClient SpecErrors Transport SpecTransport SpecIndep SpecDecode SpecBlock.
Open Scope list_scope.
Open Scope Z_scope.

(** *** one telegram *)
(** too short for addresses, but the length and the redundancy bytes are right (see C12) *)
Definition stunted (T : Z) (srv : service) (w : bytes) : Prop :=
  len w < 16 /\ (exists R, w = sealed R) /\ firstn 4 w = [2; 254; T; service_number srv] /\
  exists lo hi, nth_error w 4 = Some lo /\ nth_error w 5 = Some hi /\ lo + 256 * hi = len w - 1.
(** [w] is a response telegram of type [T] and service [srv] with the data [p] *)
Definition carries (T : Z) (srv : service) (p w : bytes) : Prop :=
  (exists d1 d2 s1 s2, addresses d1 d2 s1 s2 /\ is_bytes p /\ len p <= 65520 /\
    w = response_wire T (service_number srv) d1 d2 s1 s2 p) \/
  (p = [] /\ stunted T srv w).
(** [w] says [d], plain or sealed *)
Inductive says (ctx : option cipher_context) (w : bytes) (srv : service) (d : bytes) : Prop :=
| says_plain : carries 134 srv d w -> says ctx w srv d
| says_sealed id k p : ctx = Some (mk_context id k) -> carries 135 srv p w -> unseals id k p d -> says ctx w srv d.
Inductive judgement := Value (p : response_pdu) | Raises (x : exn) | Nothing.
(** what the telegram [w] is, as the answer to a request of service [srv] *)
Inductive verdict (ctx : option cipher_context) (srv : service) (w : bytes) : judgement -> Prop :=
| answer_value d p : says ctx w srv d -> no_flag d -> means srv d p -> verdict ctx srv w (Value p)
| answer_flag s i x : says ctx w s [2 ^ i] -> device_error i x -> verdict ctx srv w (Raises x)
| answer_meaningless s d x : says ctx w s d -> no_flag d -> means_nothing s d x -> verdict ctx srv w (Raises x)
| answer_to_other s d p : says ctx w s d -> no_flag d -> means s d p -> s <> srv -> verdict ctx srv w (Raises LocalElgasProtocolError)
| answer_without_key s p : ctx = None -> carries 135 s p w -> verdict ctx srv w (Raises AttributeError)
| answer_headless s p : ctx <> None -> carries 135 s p w -> len p < 3 -> verdict ctx srv w (Raises IndexError)
| answer_other_key id k s a b i ct : ctx = Some (mk_context id k) -> carries 135 s (a :: b :: i :: ct) w -> i <> id ->
    verdict ctx srv w (Raises AssertionError)
| not_a_telegram : (forall T s p, T = 134 \/ T = 135 -> ~ carries T s p w) -> verdict ctx srv w Nothing
| forged id k s a b ct : ctx = Some (mk_context id k) -> carries 135 s (a :: b :: id :: ct) w ->
    (forall d, ~ unseals id k (a :: b :: id :: ct) d) -> verdict ctx srv w Nothing.

(** *** one request *)
(** what arrives, without the exceptions, is bytes *)
Definition stream_bytes (bs : list (res Z)) : Prop := Forall (fun r => match r with Ok b => is_byte b | Err _ => True end) bs.
(** [heard ctx srv arriving a rest]: after a request of service [srv] the bytes and
    exceptions [arriving] end the call as [a] and leave [rest] *)
Inductive heard (ctx : option cipher_context) (srv : service) : list (res Z) -> answer response_pdu -> list (res Z) -> Prop :=
| stray_end bs a rest : heard ctx srv bs a rest -> heard ctx srv (Ok 13 :: bs) a rest
| silence d : ~ In 13 d -> heard ctx srv (map Ok d) Waiting []
| broken_off d x rest : ~ In 13 d -> heard ctx srv (map Ok d ++ Err x :: rest) (Done (Err (relayed x))) rest
| answered d w p rest : d <> [] -> on_line w (d ++ [13]) -> verdict ctx srv w (Value p) ->
    heard ctx srv (map Ok (d ++ [13]) ++ rest) (Done (Ok p)) rest
| objected d w x rest : d <> [] -> on_line w (d ++ [13]) -> verdict ctx srv w (Raises x) ->
    heard ctx srv (map Ok (d ++ [13]) ++ rest) (Done (Err x)) rest
| deaf d w more : d <> [] -> on_line w (d ++ [13]) -> verdict ctx srv w Nothing ->
    heard ctx srv (map Ok (d ++ [13] ++ more)) Waiting []
| deaf_broken d w more x rest : d <> [] -> on_line w (d ++ [13]) -> verdict ctx srv w Nothing ->
    heard ctx srv (map Ok (d ++ [13] ++ more) ++ Err x :: rest) (Done (Err (relayed x))) rest.

(** *** a parameter read *)
Definition page_request (password : str) (n : Z) : request := ReadDeviceParametersRequest password n 1024.
(** how it ends: with everything read and parsed, or before *)
Inductive pages_end := Parsed (r : res (list value)) | Failed (x : exn) | Hanging.
(** [paged ctx password n got arriving e rs rest]: from object [n] on, [got] being
    read; [rs] are the requests sent *)
Inductive paged (ctx : option cipher_context) (password : str) :
  Z -> bytes -> list (res Z) -> pages_end -> list request -> list (res Z) -> Prop :=
| page_misfit n got bs x : request_misfit (page_request password n) = Some x -> paged ctx password n got bs (Failed x) [] bs
| page_waits n got bs rest : request_misfit (page_request password n) = None ->
    heard ctx READ_SCADA_PARAMETERS bs Waiting rest -> paged ctx password n got bs Hanging [page_request password n] rest
| page_fails n got bs x rest : request_misfit (page_request password n) = None ->
    heard ctx READ_SCADA_PARAMETERS bs (Done (Err x)) rest -> paged ctx password n got bs (Failed x) [page_request password n] rest
| page_last n got bs data number amount rest outcome : request_misfit (page_request password n) = None ->
    heard ctx READ_SCADA_PARAMETERS bs (Done (Ok (ReadDeviceParametersResponse data number amount true))) rest ->
    reads (got ++ data) outcome -> paged ctx password n got bs (Parsed outcome) [page_request password n] rest
| page_next n got bs data number amount rest e rs rest' : request_misfit (page_request password n) = None ->
    heard ctx READ_SCADA_PARAMETERS bs (Done (Ok (ReadDeviceParametersResponse data number amount false))) rest ->
    paged ctx password (n + amount) (got ++ data) rest e rs rest' ->
    paged ctx password n got bs e (page_request password n :: rs) rest'.

(** *** a session *)
(** after an exception every further call is refused *)
Definition refused (os : list operation) : list (answer returned) := map (fun _ => Done (Err LocalElgasProtocolError)) os.
(** [foretold ctx password os arriving vs rs rest]: the calls [os] end as [vs], send
    the requests [rs] and leave [rest] *)
Inductive foretold (ctx : option cipher_context) (password : str) :
  list operation -> list (res Z) -> list (answer returned) -> list request -> list (res Z) -> Prop :=
| no_calls bs : foretold ctx password [] bs [] [] bs
| call_misfit o r x os bs : asks password o = Some r -> request_misfit r = Some x ->
    foretold ctx password (o :: os) bs (Done (Err x) :: refused os) [] bs
| call_waits o r os bs rest : asks password o = Some r -> request_misfit r = None ->
    heard ctx (request_service r) bs Waiting rest -> foretold ctx password (o :: os) bs [Waiting] [r] rest
| call_fails o r x os bs rest : asks password o = Some r -> request_misfit r = None ->
    heard ctx (request_service r) bs (Done (Err x)) rest ->
    foretold ctx password (o :: os) bs (Done (Err x) :: refused os) [r] rest
| call_gives o r p v os bs rest vs rs rest' : asks password o = Some r -> request_misfit r = None ->
    heard ctx (request_service r) bs (Done (Ok p)) rest -> gives o p v ->
    foretold ctx password os rest vs rs rest' -> foretold ctx password (o :: os) bs (Done (Ok v) :: vs) (r :: rs) rest'
| parameters_wait n os bs rs rest : paged ctx password n [] bs Hanging rs rest ->
    foretold ctx password (OpReadParameters n :: os) bs [Waiting] rs rest
| parameters_fail n x os bs rs rest : paged ctx password n [] bs (Failed x) rs rest ->
    foretold ctx password (OpReadParameters n :: os) bs (Done (Err x) :: refused os) rs rest
| parameters_parsed n outcome os bs rs rest vs rs' rest' : paged ctx password n [] bs (Parsed outcome) rs rest ->
    foretold ctx password os rest vs rs' rest' ->
    foretold ctx password (OpReadParameters n :: os) bs
      (Done (match outcome with Ok l => Ok (RObjects l) | Err x => Err x end) :: vs) (rs ++ rs') rest'.
