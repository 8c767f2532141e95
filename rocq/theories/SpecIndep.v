(** Independent specification: what the results of the calls of a client depend on. *)
From Verif Require Import Py Transport.
Open Scope list_scope.
Open Scope Z_scope.

(** the bytes and exceptions in the order in which they arrive *)
Definition stream (reads : list (res bytes)) : list (res Z) :=
  flat_map (fun r => match r with Ok data => map Ok data | Err x => [Err x] end) reads.
(** two calls of the socket or port; [exactly]: also with the same data *)
Definition same_call (exactly : bool) (a b : socket_call) : Prop :=
  match a, b with
  | SWrite x, SWrite y => exactly = true -> x = y
  | _, _ => a = b
  end.
(** Two sockets or ports of the same kind, both open or both not, whose calls have the
    same results and from which the same bytes arrive.  The timeouts, the clocks and
    the way in which the bytes are cut into reads may differ. *)
Definition same_line (exactly : bool) (t1 t2 : transport) : Prop :=
  t_kind t1 = t_kind t2 /\ is_open t1 = is_open t2 /\ outcomes (env t1) = outcomes (env t2) /\
  stream (incoming (env t1)) = stream (incoming (env t2)) /\ Forall2 (same_call exactly) (log (env t1)) (log (env t2)).
