(** C95, C96: which data the schemas accept, and what they write
    (elgas/parameters/*.py, elgas/integration.py). *)
From Coq Require Import QArith.
From Verif Require Import PyFacts PyFloat ParamLang Parameters Schema Schemas PyText Json SpecParameters SpecSchema SpecJson SpecLoad LoadProofs PropParameters PropSchema PropNumerals.
Open Scope string_scope.
Open Scope list_scope.
Open Scope Z_scope.

(** C95 *)
(** any data, any schema: loading gives a value if and only if the specification does,
    and the same one *)
Theorem C95_accepted_iff : forall py s d v, doubles d -> (load py s d = Ok v <-> accepts py s d v).
Proof. exact load_iff. Qed.
Print Assumptions C95_accepted_iff.
Theorem C95_refused_iff : forall py t s d, value_errors py -> registered_schema t = Some s -> t <> DIFFERENCE_BASE_COUNTER -> doubles d ->
  (load py s d = Err ValidationError <-> forall v, ~ accepts py s d v).
Proof. exact load_refuses. Qed.
Print Assumptions C95_refused_iff.
Theorem C95_one_result : forall py s d v v', doubles d -> accepts py s d v -> accepts py s d v' -> v = v'.
Proof. exact accepted_once. Qed.
Print Assumptions C95_one_result.
(** a whole number for a float field: the closest double, exactly the number below 2^53 *)
Theorem C95_whole_as_float : forall n, Z.abs n < 2 ^ 1000 -> exists x q, float_of_int n = Ok x /\ closest_double (n # 1) q /\ float_value x q.
Proof. exact float_of_int_closest. Qed.
Print Assumptions C95_whole_as_float.
Theorem C95_small_as_float : forall n, Z.abs n < 2 ^ 53 -> exists x, float_of_int n = Ok x /\ float_value x (n # 1).
Proof. exact float_of_int_exact. Qed.
Print Assumptions C95_small_as_float.
(** numbers as text, as floats with a fraction and as words; the keys in any order *)
Definition odd_data : value := VDict
  [("name", VStr (chars "W1")); ("number", VStr (chars " 1_0")); ("id", VFloat (Fin false 29 (-3))); ("bit_order_in_actual_values", VFloat (Fin true 29 (-3)));
   ("bit_order_in_data_archive_record", VInt 10); ("bit_order_in_binary_archive_record", VInt 0); ("bit_control", VInt 0);
   ("in_binary_archive", VStr (chars "Yes")); ("in_data_archive", VFloat (Fin false 1 0)); ("rows_in_window", VInt 1); ("rows", VList [VStr (chars "8-16")]);
   ("action_during_change", VNone); ("text_log_0", VNone); ("text_log_1", VStr (chars "on"))].
Example C95_ex : exists v, accepts plain TimeWindowSchema odd_data v /\ attribute "id" v = Some (VInt 3) /\ attribute "bit_order_in_actual_values" v = Some (VInt (-3)).
Proof.
  destruct (load plain TimeWindowSchema odd_data) as [v|x] eqn:E;
    [|assert (match load plain TimeWindowSchema odd_data with Ok _ => true | Err _ => false end = true) as B by (vm_compute; reflexivity); rewrite E in B; discriminate B]. exists v.
  assert (forall name, match load plain TimeWindowSchema odd_data with Ok v => attribute name v | Err _ => None end = attribute name v) as G by (intros name; rewrite E; reflexivity).
  split; [|split; rewrite <- G; vm_compute; reflexivity]. apply load_iff; [|exact E]. intros x O. unfold odd_data in O.
  inversion O as [| | |n w l I O']; subst. clear O. cbn [In] in I.
  repeat (destruct I as [I|I]; [injection I as <- <-; inversion O' as [|? ? J O2| |]; subst; try (cbn [In] in J; destruct J as [<- |[]]; inversion O2)|]); try destruct I.
  all: cbn; split; [lia|].
  - exists 29, (-3). split; [lia|]. split; [lia|]. vm_compute. reflexivity.
  - exists (-29), (-3). split; [lia|]. split; [lia|]. vm_compute. reflexivity.
  - exists 1, 0. split; [lia|]. split; [lia|]. vm_compute. reflexivity.
Qed.
Example C95_words : answer (VStr (chars "Yes")) true /\ answer (VStr (chars "OFF")) false /\ forall b, ~ answer (VStr (chars "yEs")) b.
Proof.
  split; [constructor; apply yes_iff; vm_compute; reflexivity|]. split; [constructor; apply no_iff; vm_compute; reflexivity|].
  intros b A. inversion A as [| | | | |s W|s W]; subst; [apply yes_iff in W; vm_compute in W; discriminate|apply no_iff in W; vm_compute in W; discriminate].
Qed.

(** C96: what is written of an object is what the specification says, and nothing else *)
Theorem C96_written : forall py t s v, registered_schema t = Some s -> instance t v -> ~ lossy t v ->
  exists d, writes py s v d /\ (forall d', dump py s v = Ok d' <-> d' = d) /\ forall d', writes py s v d' -> d' = d.
Proof. exact dump_writes. Qed.
Print Assumptions C96_written.
(** any object whatever: where the specification says what is written, that is written *)
Theorem C96_writes_is_dumped : forall py s v d, writes py s v d -> (v = VNone -> d = VDict []) -> dump py s v = Ok d.
Proof. exact writes_dumped. Qed.
Print Assumptions C96_writes_is_dumped.
Example C96_hypotheses : registered_schema CONVERSION_COEFFICIENT = Some ConversionCoefficientSchema /\ instance CONVERSION_COEFFICIENT coefficient /\ ~ lossy CONVERSION_COEFFICIENT coefficient.
Proof.
  split; [reflexivity|]. split; [|intros L; inversion L]. apply (C51_parsed_is_instance CONVERSION_COEFFICIENT (repeat 65 51)); [repeat constructor; lia|vm_compute; reflexivity].
Qed.
