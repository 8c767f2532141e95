(** C98: which texts are numbers, and which numbers they are. *)
From Coq Require Import QArith.
From Verif Require Import PyFacts PyFloat ParamLang Schema PyText SpecParameters SpecNumeral NumeralProofs RoundProofs ReadProofs.
Open Scope list_scope.
Open Scope Z_scope.

(** [int(text)] accepts the texts of integers and no others, and returns the integer *)
Theorem C98_int : forall uni s n, py_read_int uni s = Ok n <-> int_text (seen uni s) n.
Proof. exact read_int_iff. Qed.
Print Assumptions C98_int.
(** [float(text)] accepts the texts of numbers and no others, and returns the nearest float *)
Theorem C98_float : forall uni s x, py_read_float uni s = Ok x <-> float_text (seen uni s) x.
Proof. exact read_float_iff. Qed.
Print Assumptions C98_float.
(** on every other text both raise ValueError *)
Theorem C98_refused : forall uni s,
  ((forall n, ~ int_text (seen uni s) n) -> py_read_int uni s = Err ValueError) /\
  ((forall x, ~ float_text (seen uni s) x) -> py_read_float uni s = Err ValueError).
Proof. exact read_refused. Qed.
Print Assumptions C98_refused.
(** a text is at most one number, and a number is rounded to one float only *)
Theorem C98_one_number : forall t,
  (forall n n', int_text t n -> int_text t n' -> n = n') /\ (forall x x', float_text t x -> float_text t x' -> x = x').
Proof. exact one_number. Qed.
Print Assumptions C98_one_number.
Theorem C98_one_float : forall neg x f f', rounds_to_float neg x f -> rounds_to_float neg x f' -> f = f'.
Proof. exact rounds_once. Qed.
Print Assumptions C98_one_float.
(** [float(n)] is the nearest float too, and OverflowError if there is none *)
Theorem C98_int_as_float : forall n,
  (Z.abs n < 2 ^ 1024 - 2 ^ 970 -> exists x y, float_of_int n = Ok x /\ nearest (n # 1) y /\ float_value x y) /\
  (2 ^ 1024 - 2 ^ 970 <= Z.abs n -> float_of_int n = Err OverflowError).
Proof. exact float_of_int_rounds. Qed.
Print Assumptions C98_int_as_float.

(** " +1_0\n" is 10; "1__0", "1_", "_1", "" and "- 1" are not integers *)
Example C98_integers : int_text [32; 43; 49; 95; 48; 10] 10 /\
  Forall (fun t => forall n, ~ int_text t n) [[49; 95; 95; 48]; [49; 95]; [95; 49]; []; [45; 32; 49]].
Proof.
  split; [exists [32], [43], false, [49; 95; 48], [1; 0], [10]|].
  - split; [reflexivity|]. split; [repeat constructor; lia|]. split; [constructor; [right; lia|constructor]|]. split; [constructor|]. split; [|reflexivity].
    apply (run_underscore 1 [48] [0]); [lia|]. apply (run_last 0). lia.
  - apply Forall_forall. intros t T n H. rewrite <- (seen_plain t) in H. apply (proj2 (read_int_iff (fun c => c) t n)) in H.
    cbn [In] in T. destruct T as [T|[T|[T|[T|[T|[]]]]]]; subst t; vm_compute in H; discriminate H.
Qed.
(** "-1_0.5E-1" is -1.05, "iNf" is infinite, "2e308" too, ".5" and "5." are numbers, "." and "1_e5" are not *)
Example C98_floats :
  float_text [45; 49; 95; 48; 46; 53; 69; 45; 49] (nearest_double true 105 100) /\ float_text [105; 78; 102] (Inf false) /\
  float_text [50; 101; 51; 48; 56] (Inf false) /\ float_text [46; 53] (Fin false 1 (-1)) /\ float_text [53; 46] (Fin false 5 0) /\
  (forall x, ~ float_text [46] x) /\ (forall x, ~ float_text [49; 95; 101; 53] x).
Proof.
  assert (forall t x, py_read_float (fun c => c) t = Ok x -> float_text t x) as Y by (intros t x H; rewrite <- (seen_plain t); apply read_float_iff, H).
  assert (forall t, py_read_float (fun c => c) t = Err ValueError -> forall x, ~ float_text t x) as N.
  { intros t E x H. rewrite <- (seen_plain t) in H. apply (proj2 (read_float_iff (fun c => c) t x)) in H. congruence. }
  split; [apply Y; vm_compute; reflexivity|]. split; [apply Y; vm_compute; reflexivity|]. split; [apply Y; vm_compute; reflexivity|].
  split; [apply Y; vm_compute; reflexivity|]. split; [apply Y; vm_compute; reflexivity|]. split; apply N; vm_compute; reflexivity.
Qed.
(** 2^53 + 1 is halfway between two doubles: the even one is taken *)
Example C98_tie : rounds_to_float false (2 ^ 53 + 1 # 1) (Fin false 1 53) /\ ~ rounds_to_float false (2 ^ 53 + 1 # 1) (Fin false (2 ^ 52 + 1) 1).
Proof.
  assert ((2 ^ 53 + 1 # 1) / (1 # 1) == (2 ^ 53 + 1 # 1))%Q as E by reflexivity.
  pose proof (nearest_double_rounds false (2 ^ 53 + 1) 1 ltac:(lia) ltac:(lia)) as R. apply (rounds_to_float_wd _ _ _ _ E) in R.
  replace (nearest_double false (2 ^ 53 + 1) 1) with (Fin false 1 53) in R by (vm_compute; reflexivity). split; [exact R|].
  intros H. pose proof (rounds_once _ _ _ _ R H) as X. discriminate X.
Qed.
