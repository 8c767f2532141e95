(** Calls that may wait forever: nothing in this file models a file of /repo. *)
From Verif Require Export Py.

(** How a call ends: it returns or raises, or it has not ended yet (it waits for
    the environment or goes on looping). *)
Inductive answer (A : Type) :=
| Done (r : res A)
| Waiting.
Arguments Done {A} _.
Arguments Waiting {A}.
