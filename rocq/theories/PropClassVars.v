(** C82: class variables of parameter objects (elgas/parameters/*.py). *)
From Verif Require Import PyFacts PyFloat ParamLang Parameters Schema Schemas ClassVars SpecApplication SpecParameters SpecSchema SpecClassVars.
From Verif Require Import Application Connection Client SpecText SpecSecurity SpecConnection SpecClient.
From Verif Require Import ParserProofs SchemaProofs3 ClassVarsProofs PropParameters PropSchema PropClient.
Open Scope string_scope.
Open Scope list_scope.
Open Scope Z_scope.

(** an object says the type it was parsed as ... *)
Theorem C82_parsed_type : forall t l v, is_bytes l -> parameter_from_bytes t l = Ok v -> get_object_type v = Ok t.
Proof. exact parsed_type. Qed.
Print Assumptions C82_parsed_type.
(** ... or loaded as *)
Theorem C82_loaded_type : forall py t s data v, registered_schema t = Some s -> load py s data = Ok v -> ~ makes_no_object t -> get_object_type v = Ok t.
Proof. exact loaded_type. Qed.
Print Assumptions C82_loaded_type.
(** what the three schemas without a make-method load has no type *)
Theorem C82_loaded_dict_refuted : forall py t s data v, registered_schema t = Some s -> load py s data = Ok v -> makes_no_object t ->
  get_object_type v = Err AttributeError.
Proof. exact loaded_dict_type. Qed.
Print Assumptions C82_loaded_dict_refuted.
(** the objects of a block say the types in the headers of the block, in order *)
Theorem C82_block_types : forall l vs, is_bytes l -> parse None (Some l) = Some (Ok vs) ->
  exists objs t c n, l = transmission objs ++ object_header n (type_code t) ++ c /\ len c + 3 <= n < 65536 /\
    map get_object_type vs = map (fun o => Ok (fst o)) (objs ++ [(t, c)]).
Proof. exact parsed_types. Qed.
Print Assumptions C82_block_types.
(** parsed objects are saved by the type they say, and restored *)
Theorem C82_saved_by_type : forall py l vs, lawful py -> is_bytes l -> parse None (Some l) = Some (Ok vs) -> Forall restorable vs ->
  exists data objs', save_parameters py vs = Ok data /\ restore py data = Ok objs' /\
    Forall2 (fun v o => get_object_type v = Ok (fst (fst o)) /\ same v (snd (fst o)) /\ snd o = None) vs objs'.
Proof. exact parameters_kept. Qed.
Print Assumptions C82_saved_by_type.
(** from the memory of a device, read page by page, to stored data and back *)
Theorem C82_device_to_configuration : forall py pw pid k id w cl pages rest objs vs,
  lawful py -> make_client pw pid k id w = Ok cl -> usable_context (client_context k id) -> tx w = [] -> sent w = [] -> latin1 pw ->
  Forall (page_ok (client_context k id)) pages -> complete pages -> total (map pg_amount (removelast pages)) <= 65535 ->
  rx w = concat (map pg_results pages) ++ rest ->
  concat (map pg_data pages) = transmission objs -> objs <> [] -> Forall sendable objs -> read_one_by_one objs vs -> Forall restorable vs ->
  exists cl' data objs', client_read_parameters cl 0 = (Done (Ok vs), cl') /\ save_parameters py vs = Ok data /\ restore py data = Ok objs' /\
    Forall2 (fun o o' => fst o = fst (fst o')) objs objs' /\ Forall2 (fun v o' => same v (snd (fst o'))) vs objs'.
Proof. exact device_to_configuration. Qed.
Print Assumptions C82_device_to_configuration.
(** the value of an object in an archive record: [value_length] bytes at the address of the object *)
Theorem C82_archived_value : forall t l v n record, is_bytes l -> parameter_from_bytes t l = Ok v -> documented_value_length t = Some n ->
  archived_value v record = Some (Ok (firstn (Z.to_nat n) (skipn (Z.to_nat (le_value (field 6 2 l))) record))).
Proof. exact archived. Qed.
Print Assumptions C82_archived_value.
(** every object, parsed or loaded, has the lengths of its type; every class does *)
Theorem C82_lengths : forall py v, ((exists t l, is_bytes l /\ parameter_from_bytes t l = Ok v) \/
    (exists t s data, registered_schema t = Some s /\ load py s data = Ok v /\ ~ makes_no_object t)) ->
  exists t, get_object_type v = Ok t /\ documented_lengths t (get_length "value_length" v) (get_length "data_length" v).
Proof. exact lengths_of_object. Qed.
Print Assumptions C82_lengths.
Theorem C82_class_lengths : forall cls t attrs, get_object_type (VObj cls attrs) = Ok t ->
  lookup "value_length" attrs = None -> lookup "data_length" attrs = None ->
  documented_lengths t (get_length "value_length" (VObj cls attrs)) (get_length "data_length" (VObj cls attrs)).
Proof. exact lengths_of_class. Qed.
Print Assumptions C82_class_lengths.
(** what is not an object has no type *)
Theorem C82_no_object : forall v, (forall cls attrs, v <> VObj cls attrs) -> get_object_type v = Err AttributeError.
Proof. exact no_object_no_type. Qed.
Print Assumptions C82_no_object.
(** the type of an object is the one its class is registered for (or CORRECTION_COUNTER);
    an object of another class has none *)
Theorem C82_type_of_class : forall cls attrs, lookup "object_type" attrs = None ->
  (forall t, get_object_type (VObj cls attrs) = Ok t <->
     (exists c, registered_class t = Some c /\ class_name c = cls) \/ (t = CORRECTION_COUNTER /\ cls = "CorrectionCounter")) /\
  ((forall t, get_object_type (VObj cls attrs) <> Ok t) -> get_object_type (VObj cls attrs) = Err AttributeError).
Proof. exact type_of_class. Qed.
Print Assumptions C82_type_of_class.
Example C82_no_type : get_object_type (VObj "GasComposition" []) = Err AttributeError.
Proof. reflexivity. Qed.
(** twelve types have an address and no [value_length] *)
Theorem C82_value_length_refuted : forall t l v record, is_bytes l -> parameter_from_bytes t l = Ok v ->
  (archived_value v record = Some (Err TypeError) <-> In t length_missing).
Proof. exact archived_missing. Qed.
Print Assumptions C82_value_length_refuted.

Example C82_correction_counter : get_object_type (VObj "CorrectionCounter" []) = Ok CORRECTION_COUNTER /\ get_length "value_length" (VObj "CorrectionCounter" []) = Some 4 /\
  get_object_type (VObj "DoubleTariffCounter" []) = Ok DOUBLE_TARIFF_COUNTER /\ get_length "data_length" (VObj "DoubleTariffCounter" []) = Some 8.
Proof. vm_compute. repeat split. Qed.
Definition coefficient_bytes : bytes := repeat 65 51.
Definition memory : list (parameter_type * bytes) := [(CONVERSION_COEFFICIENT, coefficient_bytes); (TIMER, timer1)].
Definition memory_pages : list page :=
  [page_of 1 0 (firstn 40 (transmission memory)); page_of 1 1 (skipn 40 (transmission memory))].
Lemma restorable_ex t l v : is_bytes l -> parameter_from_bytes t l = Ok v -> all_finite v = true -> In t [CONVERSION_COEFFICIENT; TIMER] -> restorable v.
Proof.
  intros B E F I. split; [exact (all_finite_ok v F)|]. intros t' T. rewrite (parsed_type t l v B E) in T. injection T as <-.
  destruct I as [<-|[<-|[]]]; (split; [intros L; inversion L|intros [H|[H|[H|[]]]]; discriminate]).
Qed.
Example C82_hypotheses : exists vs, read_one_by_one memory vs /\ Forall restorable vs /\ Forall sendable memory /\ memory <> [] /\
  parse None (Some (transmission memory)) = Some (Ok vs) /\
  Forall (page_ok None) memory_pages /\ complete memory_pages /\ concat (map pg_data memory_pages) = transmission memory /\
  fst (client_read_parameters (client_of None None (concat (map pg_results memory_pages))) 0) = Done (Ok vs) /\
  map get_object_type vs = [Ok CONVERSION_COEFFICIENT; Ok TIMER] /\
  map (fun v => archived_value v (map Z.of_nat (seq 0 20))) vs = [Some (Ok []); Some (Ok [])].
Proof.
  assert (read_one_by_one memory [parsed CONVERSION_COEFFICIENT coefficient_bytes; parsed TIMER timer1]) as R
    by (repeat constructor; vm_compute; reflexivity).
  assert (is_bytes coefficient_bytes) as B1 by (repeat constructor; lia). assert (is_bytes timer1) as B2 by (repeat constructor; lia).
  exists [parsed CONVERSION_COEFFICIENT coefficient_bytes; parsed TIMER timer1]. split; [exact R|]. split.
  { constructor; [|constructor; [|constructor]].
    - apply (restorable_ex CONVERSION_COEFFICIENT coefficient_bytes); [exact B1|vm_compute; reflexivity|vm_compute; reflexivity|left; reflexivity].
    - apply (restorable_ex TIMER timer1); [exact B2|vm_compute; reflexivity|vm_compute; reflexivity|right; left; reflexivity]. }
  split; [constructor; [|constructor; [|constructor]]; (split; [assumption|vm_compute; reflexivity])|]. split; [discriminate|].
  split; [apply parse_objects; [discriminate|exact R]|].
  split; [repeat constructor; apply page_of_ok; try lia; try reflexivity; vm_compute; discriminate|].
  split; [eexists [_], _; repeat split; repeat constructor|]. split; [reflexivity|].
  split; [vm_compute; reflexivity|]. split; vm_compute; reflexivity.
Qed.
(** a timer whose value is at byte 2 of the record *)
Example C82_archived_ex : exists v, parameter_from_bytes TIMER (repeat 2 7 ++ repeat 0 29) = Ok v /\
  archived_value v [10; 11; 12; 13; 14; 15; 16] = Some (Ok [12; 13; 14; 15]) /\
  In ENERGY length_missing /\ exists e, parameter_from_bytes ENERGY (repeat 65 50) = Ok e.
Proof. eexists. split; [vm_compute; reflexivity|]. split; [vm_compute; reflexivity|]. split; [cbn; tauto|]. eexists. vm_compute. reflexivity. Qed.
