(** Independent specification of a client over a socket or serial port: the line
    telegrams of a device, as bytes. *)
From Verif Require Import Py SpecUtils SpecFrames SpecSecurity SpecMeaning SpecConnection SpecApplication SpecPdu SpecText.
From Verif Require Import Connection ParamLang Parameters SpecBlock Client SpecClient Transport SpecTransport.
Open Scope list_scope.
Open Scope Z_scope.

(** [line] is a telegram of the device with content [p] *)
Definition says (ctx : option cipher_context) (srv : service) (p : response_pdu) (line : bytes) : Prop :=
  exists d, answers ctx srv d line /\ no_flag d /\ means srv d p.
(** a page of parameters: data, object number, number of objects, end flag *)
Record content := mk_content { c_data : bytes; c_number : Z; c_amount : Z; c_end : bool }.
Definition says_page (ctx : option cipher_context) (c : content) (line : bytes) : Prop :=
  says ctx READ_SCADA_PARAMETERS (ReadDeviceParametersResponse (c_data c) (c_number c) (c_amount c) (c_end c)) line.
(** the requests for pages that hold these numbers of objects *)
Fixpoint page_calls (password : str) (n : Z) (amounts : list Z) : list request :=
  match amounts with
  | [] => []
  | a :: amounts' => ReadDeviceParametersRequest password n 1024 :: page_calls password (n + a) amounts'
  end.

(** [talks ctx password os lines rs vs]: with a device that answers the operations
    [os] with the telegrams [lines], the requests are [rs] and the results [vs] *)
Inductive talks (ctx : option cipher_context) (password : str) :
  list operation -> list bytes -> list request -> list (answer returned) -> Prop :=
| talks_end : talks ctx password [] [] [] []
| talks_exchange o r p v line os lines rs vs :
    asks password o = Some r -> encodable r -> says ctx (request_service r) p line -> gives o p v ->
    talks ctx password os lines rs vs ->
    talks ctx password (o :: os) (line :: lines) (r :: rs) (Done (Ok v) :: vs)
| talks_parameters read_from front last here outcome os lines rs vs :
    Forall2 (says_page ctx) (front ++ [last]) here ->
    Forall (fun c => c_end c = false) front -> c_end last = true -> latin1 password ->
    0 <= read_from -> read_from + total (map c_amount front) <= 65535 ->
    reads (concat (map c_data (front ++ [last]))) outcome ->
    talks ctx password os lines rs vs ->
    talks ctx password (OpReadParameters read_from :: os) (here ++ lines)
      (page_calls password read_from (map c_amount (front ++ [last])) ++ rs)
      (Done (match outcome with Ok l => Ok (RObjects l) | Err e => Err e end) :: vs).
