(** Several clients at once.  A client holds references to its transport and its
    connection (elgas/client.py:17 and 25-39, the attributes transport and
    elgas_connection), so two clients may share either.  Objects are numbered; a call
    of one client reads and writes the objects it refers to.  Calls do not overlap:
    there is one caller. *)
From Verif Require Import Connection Client.
Open Scope list_scope.
Open Scope Z_scope.

(** client.py:13-39, the attributes of one client that are references, and its password *)
Record member := mk_member { m_password : str; m_connection : nat; m_transport : nat }.
(** the connection and transport objects; with a transport comes its future, as in Client.v *)
Record objects := mk_objects { connections : nat -> connection; transports : nat -> world }.

(** assignment to one numbered object *)
Definition update {A} (f : nat -> A) (i : nat) (x : A) (j : nat) : A := if Nat.eqb j i then x else f j.
(** client.py:13-39, the client object with the objects it refers to *)
Definition member_client (g : objects) (m : member) : client :=
  mk_client (m_password m) (connections g (m_connection m)) (transports g (m_transport m)).
(** client.py:41-133, a method call on one of the clients *)
Definition member_operate (g : objects) (m : member) (o : operation) : answer returned * objects :=
  let '(r, cl) := operate (member_client g m) o in
  (r, mk_objects (update (connections g) (m_connection m) (cl_connection cl))
                 (update (transports g) (m_transport m) (cl_world cl))).
(** calls one after the other; a call that does not return is the last *)
Fixpoint group_session (g : objects) (calls : list (member * operation)) : list (answer returned) * objects :=
  match calls with
  | [] => ([], g)
  | (m, o) :: calls' =>
      match member_operate g m o with
      | (Waiting, g) => ([Waiting], g)
      | (r, g) => let '(rs, g) := group_session g calls' in (r :: rs, g)
      end
  end.
