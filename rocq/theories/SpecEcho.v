(** Independent specification of telegrams that are heard again: requests on the line of
    the answers (an echo, or another client on a bus) and recorded answers. *)
From Verif Require Import Py SpecUtils SpecFrames SpecText SpecApplication SpecPdu SpecSecurity SpecMeaning SpecConnection.
From Verif Require Import Connection ParamLang Parameters Client SpecBlock SpecClient.
Open Scope list_scope.
Open Scope Z_scope.

(** [t] is a request telegram of some client: any addresses, any password, any key or none *)
Definition somebody_asks (t : bytes) : Prop :=
  exists d1 d2 s1 s2 ctx r, is_bytes t /\ request_line_at d1 d2 s1 s2 ctx r t.
(** an operation whose question has the service [srv], and what it returns for the answer [p] *)
Definition takes (pw : str) (srv : service) (p : response_pdu) (o : operation) (v : returned) : Prop :=
  exists r, asks pw o = Some r /\ encodable r /\ request_service r = srv /\ gives o p v.
