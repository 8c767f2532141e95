(** C51, C52, C70-C72: schemas (elgas/parameters/*.py, elgas/integration.py). *)
From Verif Require Import PyFacts PyFloat ParamLang Parameters Schema Schemas SpecParameters SpecSchema SchemaProofs3 PropParameters.
Open Scope string_scope.
Open Scope list_scope.
Open Scope Z_scope.

(** ** Examples: a Python whose float texts are read back, and a parsed object with floats *)
Definition example_python : python := mk_python
  (fun x => match x with NaN => [0] | Inf s => [1; int_of_bool s] | Fin s m e => [2; int_of_bool s; m; e] end)
  (fun s => match s with [0] => Ok NaN | [1; s] => Ok (Inf (s =? 1)) | [2; s; m; e] => Ok (Fin (s =? 1) m e) | _ => Err ValueError end)
  (fun s => match s with [n] => Ok (n - 48) | _ => Err ValueError end)
  (fun v => match v with VBytes b => Ok b | _ => Ok [] end).
Lemma example_lawful : lawful example_python.
Proof.
  intros x _. exists x. split; [destruct x as [|[]|[] m e]; reflexivity|]. destruct x; cbn; auto. split; reflexivity.
Qed.
Lemma example_value_errors : value_errors example_python.
Proof.
  split; [|split]; cbn.
  - intros s e. destruct s as [|a [|b s]]; intros H; inversion H; reflexivity.
  - intros s e H. repeat match goal with H : match ?x with _ => _ end = _ |- _ => destruct x end; inversion H; reflexivity.
  - intros b e H. inversion H.
Qed.
Definition parsed (t : parameter_type) (l : bytes) : value := match parameter_from_bytes t l with Ok v => v | Err _ => VNone end.
(** floats with four bytes 65: 12.078431129455566 *)
Definition coefficient : value := parsed CONVERSION_COEFFICIENT (repeat 65 51).
(** the last float has the bytes 127, 255, 255, 255: NaN *)
Definition coefficient_nan : value := parsed CONVERSION_COEFFICIENT (repeat 127 42 ++ repeat 255 9).
Definition flow_without_decimals : value := parsed FLOW_RATE (repeat 65 50).

(** C51 *)
(** every object whose attributes are what the annotations say *)
Theorem C51_round_trip : forall py t s v, lawful py -> registered_schema t = Some s -> instance t v ->
  finite_floats v -> ~ lossy t v -> ~ makes_no_object t ->
  exists d v', dump py s v = Ok d /\ load py s d = Ok v' /\ same v v'.
Proof. exact round_trip. Qed.
Print Assumptions C51_round_trip.
(** every parsed object *)
Theorem C51_parsed_round_trip : forall py t s l v, lawful py -> registered_schema t = Some s -> is_bytes l -> parameter_from_bytes t l = Ok v ->
  finite_floats v -> ~ lossy t v -> ~ makes_no_object t ->
  exists d v', dump py s v = Ok d /\ load py s d = Ok v' /\ same v v'.
Proof. exact (fun py t s l v P R B E => round_trip py t s v P R (parsed_instance t l v B E)). Qed.
Print Assumptions C51_parsed_round_trip.
Theorem C51_parsed_is_instance : forall t l v, is_bytes l -> parameter_from_bytes t l = Ok v -> instance t v.
Proof. exact parsed_instance. Qed.
Print Assumptions C51_parsed_is_instance.
(** the types whose schema makes no object: a dict with the attributes comes back *)
Theorem C51_dict_round_trip : forall py t s c attrs, lawful py -> registered_schema t = Some s -> instance t (VObj c attrs) ->
  finite_floats (VObj c attrs) -> makes_no_object t ->
  exists d l, dump py s (VObj c attrs) = Ok d /\ load py s d = Ok (VDict l) /\ same (VDict attrs) (VDict l).
Proof. exact round_trip_dict. Qed.
Print Assumptions C51_dict_round_trip.
(** nothing that can be loaded is equal to a lossy object *)
Theorem C51_lossy_refuted : forall py t s v data v', registered_schema t = Some s -> lossy t v -> load py s data = Ok v' -> ~ same v v'.
Proof. exact lossy_never_equal. Qed.
Print Assumptions C51_lossy_refuted.
Theorem C51_no_object_refuted : forall py t s data v, registered_schema t = Some s -> makes_no_object t -> load py s data = Ok v -> exists l, v = VDict l.
Proof. exact no_object_made. Qed.
Print Assumptions C51_no_object_refuted.
(** NaN and the infinities are dumped, and the dump is refused *)
Theorem C51_nonfinite_refuted : forall py t s v x, lawful py -> registered_schema t = Some s -> instance t v -> occurs x v -> finite x = false ->
  t <> ANALOG_MEASURAND -> exists d, dump py s v = Ok d /\ load py s d = Err ValidationError.
Proof. exact nonfinite. Qed.
Print Assumptions C51_nonfinite_refuted.
Example C51_hypotheses : lawful example_python /\ is_bytes (repeat 65 51) /\
  parameter_from_bytes CONVERSION_COEFFICIENT (repeat 65 51) = Ok coefficient /\
  finite_floats coefficient /\ (exists x, occurs x coefficient) /\ ~ lossy CONVERSION_COEFFICIENT coefficient /\ ~ makes_no_object CONVERSION_COEFFICIENT /\
  (exists d, dump example_python ConversionCoefficientSchema coefficient = Ok d /\ load example_python ConversionCoefficientSchema d = Ok coefficient).
Proof.
  split; [exact example_lawful|]. split; [repeat constructor; lia|]. split; [vm_compute; reflexivity|].
  split; [apply all_finite_ok; vm_compute; reflexivity|]. split; [|split; [|split]].
  - exists (Fin false 12665153 (-20)). vm_compute. eapply occurs_obj with (name := "default_value_pressure"); [|constructor].
    do 13 right. left. reflexivity.
  - intros L. inversion L.
  - intros [H|[H|[H|[]]]]; discriminate.
  - eexists. split; [vm_compute; reflexivity|vm_compute; reflexivity].
Qed.
Example C51_lossy_hypotheses : is_bytes (repeat 65 50) /\ parameter_from_bytes FLOW_RATE (repeat 65 50) = Ok flow_without_decimals /\
  lossy FLOW_RATE flow_without_decimals /\
  (exists d, dump example_python FlowRateSchema flow_without_decimals = Ok d /\ load example_python FlowRateSchema d = Err ValidationError) /\
  makes_no_object ERROR_STANDARD_COUNTER /\
  (exists c attrs, parameter_from_bytes ERROR_STANDARD_COUNTER (repeat 65 47) = Ok (VObj c attrs)).
Proof.
  split; [repeat constructor; lia|]. split; [vm_compute; reflexivity|]. split; [constructor; vm_compute; reflexivity|].
  split; [eexists; split; [vm_compute; reflexivity|vm_compute; reflexivity]|]. split; [cbn; tauto|]. eexists. eexists. vm_compute. reflexivity.
Qed.
Example C51_nonfinite_hypotheses : is_bytes (repeat 127 42 ++ repeat 255 9) /\
  parameter_from_bytes CONVERSION_COEFFICIENT (repeat 127 42 ++ repeat 255 9) = Ok coefficient_nan /\ occurs NaN coefficient_nan.
Proof.
  split; [repeat constructor; lia|]. split; [vm_compute; reflexivity|].
  vm_compute. eapply occurs_obj with (name := "alternate_value_of_compressibility"); [|constructor]. do 15 right. left. reflexivity.
Qed.

(** C52 *)
Theorem C52_registration_agrees : forall t, t <> DIFFERENCE_BASE_COUNTER ->
  match registered_schema t, registered_class t with
  | Some s, Some c => NoDup (map f_name (schema_fields s)) /\ NoDup (class_attrs c) /\
      (forall name, In name (map f_name (schema_fields s)) <-> In name (class_attrs c)) /\
      (forall f, In f (schema_fields s) -> f_required f = true) /\
      (schema_post_load s = Some c \/ (makes_no_object t /\ schema_post_load s = None))
  | None, None => t = CORRECTION_COUNTER
  | _, _ => False
  end.
Proof. exact registered_names. Qed.
Print Assumptions C52_registration_agrees.
(** null is allowed exactly for the Optional attributes; FLOW_RATE decimals is the exception *)
Theorem C52_nullable_iff_optional : forall t s an f a, registered_schema t = Some s -> registered_annotations t = Some an ->
  In f (schema_fields s) -> lookup (f_name f) an = Some a -> (t, f_name f) <> (FLOW_RATE, "decimals") ->
  (f_allow_none f = true <-> exists b, a = AOptional b).
Proof. exact registered_nullable. Qed.
Print Assumptions C52_nullable_iff_optional.
(** the schema inside another one is that of GasComposition: its components, all of them
    floats, required, and never null *)
Theorem C52_nested : forall t s f fs p, registered_schema t = Some s -> In f (schema_fields s) -> f_kind f = Nested fs p ->
  (exists c, p = Some c /\ class_name c = "GasComposition" /\ class_attrs c = gas_components) /\ map f_name fs = gas_components /\
  forall g, In g fs -> f_required g = true /\ f_allow_none g = false /\ lookup (f_name g) GasComposition_annotations = Some AFloat /\ exists b, f_kind g = Float b.
Proof. exact nested_schemas. Qed.
Print Assumptions C52_nested.
(** the class of DIFFERENCE_BASE_COUNTER has no attributes at all *)
Theorem C52_difference_refuted : exists s c, registered_schema DIFFERENCE_BASE_COUNTER = Some s /\ registered_class DIFFERENCE_BASE_COUNTER = Some c /\
  length (schema_fields s) = 18%nat /\ class_attrs c = [].
Proof. exact difference_registered. Qed.
Print Assumptions C52_difference_refuted.
Example C52_hypotheses : TIMER <> DIFFERENCE_BASE_COUNTER /\ (exists s, registered_schema TIMER = Some s) /\
  In (mk_spec "decimals" true true Integer) (schema_fields StandardFlowRateSchema) /\ lookup "decimals" StandardFlowRate_annotations = Some (AOptional AInt).
Proof.
  split; [discriminate|]. split; [eexists; reflexivity|]. split; [|reflexivity]. cbn. repeat (first [left; reflexivity | right]).
Qed.
Example C52_nested_hypotheses : exists t s f fs p, registered_schema t = Some s /\ In f (schema_fields s) /\ f_kind f = Nested fs p /\ f_name f = "gas_composition".
Proof.
  exists SYSTEM_PARAMETER. eexists. exists (mk_spec "gas_composition" true false (Nested (schema_fields GasCompositionSchema) (schema_post_load GasCompositionSchema))).
  eexists _, _. split; [reflexivity|]. split; [|split; reflexivity]. cbn [schema_fields SystemParametersSchema]. repeat (first [left; reflexivity | right]).
Qed.

(** C70 *)
Theorem C70_dump_is_json : forall py t s v d, registered_schema t = Some s -> ~ numeric_type t -> dump py s v = Ok d -> json d /\ forall x, ~ occurs x d.
Proof. exact dump_json. Qed.
Print Assumptions C70_dump_is_json.
(** ANALOG_MEASURAND dumps floats as they are, with NaN, which JSON does not have *)
Theorem C70_nan_refuted : forall py, exists l v d, is_bytes l /\ parameter_from_bytes ANALOG_MEASURAND l = Ok v /\
  dump py AnalogQuantitySchema v = Ok d /\ ~ json d.
Proof. exact nan_dumped. Qed.
Print Assumptions C70_nan_refuted.
Example C70_hypotheses : ~ numeric_type CONVERSION_COEFFICIENT /\ (exists d, dump example_python ConversionCoefficientSchema coefficient = Ok d) /\ numeric_type ANALOG_MEASURAND.
Proof. split; [intros [H|[H|[H|[]]]]; discriminate|]. split; [eexists; vm_compute; reflexivity|cbn; tauto]. Qed.

(** C71 *)
(** any data at all: an object, or ValidationError *)
Theorem C71_validation_error_only : forall py t s data, value_errors py -> registered_schema t = Some s -> t <> DIFFERENCE_BASE_COUNTER ->
  (exists v, load py s data = Ok v) \/ load py s data = Err ValidationError.
Proof. exact load_or_validation_error. Qed.
Print Assumptions C71_validation_error_only.
(** what is loaded is a dict without unknown keys, with every required key, null only where allowed *)
Theorem C71_accepted_data : forall py s data v, load py s data = Ok v -> exists l, data = VDict l /\ accepts_keys s l.
Proof. exact load_accepts. Qed.
Print Assumptions C71_accepted_data.
Theorem C71_no_bool_for_number : forall py s l v f b, load py s (VDict l) = Ok v -> In f (schema_fields s) ->
  f_kind f = Integer \/ f_kind f = Number \/ (exists a, f_kind f = Float a) -> lookup (f_name f) l <> Some (VBool b).
Proof. exact numbers_not_bools. Qed.
Print Assumptions C71_no_bool_for_number.
(** the object is of the registered class with exactly its attributes *)
Theorem C71_loaded_object : forall py t s data v, registered_schema t = Some s -> load py s data = Ok v -> ~ makes_no_object t ->
  exists c attrs, registered_class t = Some c /\ v = VObj (class_name c) attrs /\ map fst attrs = class_attrs c.
Proof. exact load_makes. Qed.
Print Assumptions C71_loaded_object.
(** valid data for a DIFFERENCE_BASE_COUNTER raises TypeError *)
Theorem C71_difference_refuted : forall py, exists l, accepts_keys DifferenceBaseCounterSchema l /\ load py DifferenceBaseCounterSchema (VDict l) = Err TypeError.
Proof. exact difference_type_error. Qed.
Print Assumptions C71_difference_refuted.
Example C71_hypotheses : value_errors example_python /\
  (exists d v, dump example_python ConversionCoefficientSchema coefficient = Ok d /\ load example_python ConversionCoefficientSchema d = Ok v) /\
  load example_python ConversionCoefficientSchema (VDict [("id", VBool true); ("size", VInt 1)]) = Err ValidationError.
Proof.
  split; [exact example_value_errors|]. split; [eexists; eexists; split; [vm_compute; reflexivity|vm_compute; reflexivity]|vm_compute; reflexivity].
Qed.

(** C72 *)
Theorem C72_configuration_kept : forall py objs, lawful py -> Forall kept objs ->
  exists data objs', save py objs = Ok data /\ restore py data = Ok objs' /\
    Forall2 (fun o o' => fst (fst o) = fst (fst o') /\ same (snd (fst o)) (snd (fst o')) /\ snd o = snd o') objs objs'.
Proof. exact configuration_kept. Qed.
Print Assumptions C72_configuration_kept.
Example C72_hypotheses : Forall kept [(CONVERSION_COEFFICIENT, coefficient, None); (TIMER, parsed TIMER timer1, Some [84; 49])].
Proof.
  constructor; [|constructor; [|constructor]]; split; cbn [fst snd].
  - apply (parsed_instance _ (repeat 65 51)); [repeat constructor; lia|vm_compute; reflexivity].
  - split; [apply all_finite_ok; vm_compute; reflexivity|]. split; [intros L; inversion L|intros [H|[H|[H|[]]]]; discriminate].
  - apply (parsed_instance _ timer1); [repeat constructor; lia|vm_compute; reflexivity].
  - split; [apply all_finite_ok; vm_compute; reflexivity|]. split; [intros L; inversion L|intros [H|[H|[H|[]]]]; discriminate].
Qed.
