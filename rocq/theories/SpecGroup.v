(** Independent specification of several clients used in turn. *)
From Verif Require Import Py SpecUtils SpecText SpecApplication SpecPdu SpecSecurity SpecConnection Connection Client SpecClient Group.
Open Scope list_scope.
Open Scope Z_scope.

(** a client that can be used: its connection waits for nothing and has addresses in
    range and a usable key, its password can be sent *)
Definition idle_member (g : objects) (m : member) : Prop :=
  let c := connections g (m_connection m) in
  addresses (c_destination_1 c) (c_destination_2 c) (c_source_1 c) (c_source_2 c) /\ usable_context (context c) /\
  elgas_state c = IDLE /\ buffer c = [] /\ len (m_password m) <= 65000 /\ tx (transports g (m_transport m)) = [].

(** one call in a schedule: who calls what, how the answers of its device arrive, the
    requests it makes and what it returns *)
Record turn := mk_turn { who : member; what : operation; arrivals : list (res bytes); asked : list request; outcome : answer returned }.
(** the device answers this call *)
Definition answered (g : objects) (t : turn) : Prop :=
  converses (context (connections g (m_connection (who t)))) (m_password (who t)) [what t] (arrivals t) (asked t) [outcome t].
(** the telegrams [ts] carry the requests of the turn, under the addresses and the
    context of the connection of the caller *)
Definition telegrams_of (g : objects) (t : turn) (ts : list bytes) : Prop :=
  let c := connections g (m_connection (who t)) in
  Forall2 (request_line_at (c_destination_1 c) (c_destination_2 c) (c_source_1 c) (c_source_2 c) (context c)) (asked t) ts.
(** what concerns transport [j] *)
Fixpoint on_transport {A} (j : nat) (turns : list turn) (xs : list (list A)) : list A :=
  match turns, xs with
  | t :: turns', x :: xs' => (if Nat.eqb (m_transport (who t)) j then x else []) ++ on_transport j turns' xs'
  | _, _ => []
  end.

(** [m] uses neither the connection nor the transport of [m'] *)
Definition apart (m m' : member) : Prop := m_connection m <> m_connection m' /\ m_transport m <> m_transport m'.
(** the entries of [xs] that belong to calls of the chosen clients *)
Fixpoint chosen {A} (p : member -> bool) (calls : list (member * operation)) (xs : list A) : list A :=
  match calls, xs with
  | (m, _) :: calls', x :: xs' => (if p m then [x] else []) ++ chosen p calls' xs'
  | _, _ => []
  end.
