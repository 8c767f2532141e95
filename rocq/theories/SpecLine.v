(** Independent specification of damage on the line. *)
From Verif Require Import Py SpecUtils SpecFrames Frames.
Open Scope Z_scope.

(** one byte missing; one byte too many is the converse *)
Definition one_byte_lost (t t' : bytes) : Prop :=
  exists p x q, t = p ++ x :: q /\ t' = p ++ q.
Definition one_byte_added (t t' : bytes) : Prop := one_byte_lost t' t.
(** [t] is what one of the four telegram classes writes for some frame *)
Definition made (t : bytes) : Prop := exists TYPE f, telegram_type TYPE /\ is_bytes (f_data f) /\
  (response_to_bytes TYPE f = Ok t \/ request_to_bytes TYPE f = Ok t).
(** every telegram parser refuses [o] with ValueError *)
Definition refused (o : bytes) : Prop :=
  response_factory o = Err ValueError /\
  forall TYPE, telegram_type TYPE ->
    response_from_bytes TYPE o = Err ValueError /\ request_from_bytes TYPE o = Err ValueError.
