(** C85: numbers as text.  [cpython uni text] is the Python of PyText.v: [str(x)] of a
    float, [float(text)] and [int(text)] are those of CPython, for any treatment [uni] of
    Unicode digits and any text of other objects. *)
From Verif Require Import PyFacts PyFloat ParamLang Parameters Schema Schemas PyText SpecParameters SpecSchema SchemaProofs3 NumeralProofs PropParameters PropSchema.
Open Scope string_scope.
Open Scope list_scope.
Open Scope Z_scope.

(** the text of a float is read back as that float, whatever the float *)
Theorem C85_float_survives : forall uni x, is_double x -> exists y, py_read_float uni (py_float_text x) = Ok y /\ same_float x y.
Proof. exact float_round_trip. Qed.
Print Assumptions C85_float_survives.
(** hence the assumption of C51 and C72 about Python holds *)
Theorem C85_python_is_lawful : forall uni text, lawful (cpython uni text).
Proof. exact cpython_lawful. Qed.
Print Assumptions C85_python_is_lawful.
(** reading a number from any text at all gives a number or ValueError *)
Theorem C85_reading_numbers : forall uni s,
  ((exists x, py_read_float uni s = Ok x) \/ py_read_float uni s = Err ValueError) /\
  ((exists n, py_read_int uni s = Ok n) \/ py_read_int uni s = Err ValueError).
Proof. exact reading_numbers. Qed.
Print Assumptions C85_reading_numbers.
(** an int is read back too *)
Theorem C85_int_survives : forall uni n, py_read_int uni (str_int n) = Ok n.
Proof. exact int_round_trip. Qed.
Print Assumptions C85_int_survives.

(** C51, C71 and C72 for CPython, with no assumption about it *)
Theorem C85_round_trip : forall uni text t s v, registered_schema t = Some s -> instance t v ->
  finite_floats v -> ~ lossy t v -> ~ makes_no_object t ->
  exists d v', dump (cpython uni text) s v = Ok d /\ load (cpython uni text) s d = Ok v' /\ same v v'.
Proof. exact (fun uni text t s v => round_trip (cpython uni text) t s v (cpython_lawful uni text)). Qed.
Print Assumptions C85_round_trip.
Theorem C85_configuration_kept : forall uni text objs, Forall kept objs ->
  exists data objs', save (cpython uni text) objs = Ok data /\ restore (cpython uni text) data = Ok objs' /\
    Forall2 (fun o o' => fst (fst o) = fst (fst o') /\ same (snd (fst o)) (snd (fst o')) /\ snd o = snd o') objs objs'.
Proof. exact (fun uni text objs => configuration_kept (cpython uni text) objs (cpython_lawful uni text)). Qed.
Print Assumptions C85_configuration_kept.
(** the only part left to assume: bytes.decode raises nothing but UnicodeDecodeError *)
Theorem C85_validation_error_only : forall uni text t s data, (forall b x, text (VBytes b) = Err x -> x = ValueError) ->
  registered_schema t = Some s -> t <> DIFFERENCE_BASE_COUNTER ->
  (exists v, load (cpython uni text) s data = Ok v) \/ load (cpython uni text) s data = Err ValidationError.
Proof. exact (fun uni text t s data H => load_or_validation_error (cpython uni text) t s data (cpython_value_errors uni text H)). Qed.
Print Assumptions C85_validation_error_only.

Definition plain : python := cpython (fun c => c) (fun v => match v with VBytes b => Ok b | _ => Ok [] end).
(** the text of 0.1 is 0.1, that of 2^53 has 16 digits, and 1e23 is not 10^23 *)
Example C85_texts :
  py_float_text (nearest_double false 1 10) = [48; 46; 49] /\
  py_float_text (nearest_double true (2 ^ 53) 1) = [45; 57; 48; 48; 55; 49; 57; 57; 50; 53; 52; 55; 52; 48; 57; 57; 50; 46; 48] /\
  py_float_text (nearest_double false (10 ^ 23) 1) = [49; 101; 43; 50; 51] /\
  py_read_float (fun c => c) [32; 49; 95; 48; 101; 45; 50; 10] = Ok (nearest_double false 1 10) /\
  py_read_float (fun c => c) [49; 95; 95; 48] = Err ValueError /\
  py_read_int (fun c => c) [43; 49; 95; 48] = Ok 10.
Proof. vm_compute. repeat split. Qed.
Example C85_hypotheses : is_double (nearest_double false 1 10) /\
  (exists d v, dump plain ConversionCoefficientSchema coefficient = Ok d /\ load plain ConversionCoefficientSchema d = Ok v /\ same coefficient v).
Proof.
  split; [|apply C85_round_trip with (t := CONVERSION_COEFFICIENT)].
  - replace (nearest_double false 1 10) with (Fin false 3602879701896397 (-55)) by (vm_compute; reflexivity).
    split; [lia|]. exists 3602879701896397, (-55). split; [lia|]. split; [lia|reflexivity].
  - reflexivity.
  - apply (parsed_instance _ (repeat 65 51)); [repeat constructor; lia|vm_compute; reflexivity].
  - apply all_finite_ok. vm_compute. reflexivity.
  - intros L. inversion L.
  - intros [H|[H|[H|[]]]]; discriminate.
Qed.
