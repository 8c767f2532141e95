(** Counting the bits in which two messages differ. *)
From Verif Require Import Py SpecUtils.
Open Scope Z_scope.

(** the number of positions at which two bit strings differ *)
Fixpoint flips (a b : list bool) : nat :=
  match a, b with
  | x :: a', y :: b' => ((if Bool.eqb x y then 0 else 1) + flips a' b')%nat
  | _, _ => 0%nat
  end.
