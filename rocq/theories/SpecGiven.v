(** Independent specification of a client on a connection that its user made. *)
From Verif Require Import Py SpecUtils SpecSecurity Connection.
Open Scope list_scope.
Open Scope Z_scope.

(** the cipher context meant by the arguments of a connection: the one given, else
    that of key and key id *)
Definition connection_context (key : option bytes) (id : option Z) (given : option (option cipher_context)) : option cipher_context :=
  match given, key, id with
  | Some ctx, _, _ => ctx
  | None, Some k, Some i => Some (mk_context i k)
  | None, _, _ => None
  end.
(** the key of the context, if there is one, consists of bytes *)
Definition context_bytes (ctx : option cipher_context) : Prop :=
  match ctx with Some (mk_context _ k) => is_bytes k | None => True end.
