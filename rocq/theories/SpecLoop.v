(** Independent specification of the closed loop: a device that answers the lines it gets. *)
From Verif Require Import Py SpecUtils SpecConnection Connection Client SpecClient SpecDevice.
Open Scope list_scope.
Open Scope Z_scope.

(** [reacts ctx pw d lines results d']: the device, getting the telegrams [lines] one after the
    other, answers with [results]. It answers what it hears, and only that; its clock runs. *)
Inductive reacts (ctx : option cipher_context) (pw : str) : device -> list bytes -> list (res bytes) -> device -> Prop :=
| reacts_end d : reacts ctx pw d [] [] d
| reacts_tick d d1 lines results d' : runs_on d d1 -> reacts ctx pw d1 lines results d' -> reacts ctx pw d lines results d'
| reacts_answer d q p d1 t results lines results' d' :
    hears ctx pw t q -> performs d q p d1 -> delivers ctx (query_service q) p results ->
    reacts ctx pw d1 lines results' d' -> reacts ctx pw d (t :: lines) (results ++ results') d'
| reacts_deaf d t lines results d' :
    (forall q, ~ hears ctx pw t q) -> reacts ctx pw d lines results d' -> reacts ctx pw d (t :: lines) results d'.
(** the calls with arguments a telegram can carry *)
Inductive askable : operation -> Prop :=
| askable_query o q : meant o q -> askable o
| askable_parameters n : 0 <= n <= 65535 -> askable (OpReadParameters n).
