(** Proofs: the tables of numbers. *)
From Verif Require Import Py PyFacts Frames Application Parameters SpecNumbers.
Open Scope Z_scope.

Lemma service_numbers_iff : forall n s, service_number s = n <-> In (n, s) service_numbers.
Proof.
  intros n s; split.
  - intros <-; destruct s; cbn; tauto.
  - unfold service_numbers; cbn [In]. intros H. repeat (destruct H as [H|H]; [injection H as <- <-; reflexivity|]). destruct H.
Qed.
Lemma service_numbers_lookup : forall n s, service_of_number n = Ok s <-> In (n, s) service_numbers.
Proof.
  intros n s; rewrite <- service_numbers_iff; unfold service_of_number; split.
  - destruct find as [x|] eqn:F; [|discriminate]. injection 1 as ->. apply find_some in F; lia.
  - intros <-; destruct s; reflexivity.
Qed.
Lemma type_numbers_iff : forall n t, type_code t = n <-> In (n, t) type_numbers.
Proof.
  intros n s; split.
  - intros <-; destruct s; cbn; tauto.
  - unfold type_numbers; cbn [In]. intros H. repeat (destruct H as [H|H]; [injection H as <- <-; reflexivity|]). destruct H.
Qed.
Lemma type_numbers_lookup : forall n t, parameter_type_of n = Ok t <-> In (n, t) type_numbers.
Proof.
  intros n s; rewrite <- type_numbers_iff; unfold parameter_type_of; split.
  - destruct find as [x|] eqn:F; [|discriminate]. injection 1 as ->. apply find_some in F; lia.
  - intros <-; destruct s; reflexivity.
Qed.

Lemma wants_iff : forall r n, service_number (request_service r) = n <-> wants r n.
Proof. intros r n. split; [intros <-; destruct r; constructor|intros H; destruct H; reflexivity]. Qed.
