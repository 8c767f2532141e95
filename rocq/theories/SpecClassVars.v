(** What the class variables of parameter objects are for: finding the schema of an
    object (tests/test_schema.py:681-696) and the bytes of its value in an archive
    record (tests/test_parser.py:28-66). *)
From Verif Require Import Py PyFloat ParamLang Parameters Schema Schemas ClassVars SpecApplication SpecParameters SpecSchema.
Open Scope string_scope.
Open Scope list_scope.
Open Scope Z_scope.

(** the program of tests/test_schema.py: the type of each object comes from the object itself *)
Definition save_parameters (py : python) (vs : list value) : res value :=
  objs <- each (fun v => t <- get_object_type v ;; Ok (t, v, None)) vs ;; save py objs.

(** objects the schemas carry without loss *)
Definition restorable (v : value) : Prop :=
  finite_floats v /\ forall t, get_object_type v = Ok t -> ~ lossy t v /\ ~ makes_no_object t.

(** the number of bytes a value of each type has in an archive record *)
Definition documented_value_length (t : parameter_type) : option Z :=
  match t with
  | ANALOG_MEASURAND => Some 2
  | COUNTER | FLOW_RATE | STANDARD_FLOW_RATE | CONVERSION_COEFFICIENT | ERROR_COUNTER
  | COMPRESSIBILITY | COMPRESSIBILITY_Z | COMPRESSIBILITY_Z_BASE | TIMER => Some 4
  | STANDARD_COUNTER | ERROR_STANDARD_COUNTER | DOUBLE_COUNTER | DOUBLE_ERROR_COUNTER
  | DIFFERENCE_COUNTER | DIFFERENCE_BASE_COUNTER => Some 8
  | _ => None
  end.
(** an error counter with a correction has no class to parse it, but has a length; the three
    tariff counters have a [data_length] instead *)
Definition documented_lengths (t : parameter_type) (value_length data_length : option Z) : Prop :=
  value_length = match t with CORRECTION_COUNTER => Some 4 | _ => documented_value_length t end /\
  data_length = match t with TARIFF_COUNTER => Some 4 | DOUBLE_TARIFF_COUNTER | BASE_TARIFF_COUNTER => Some 8 | _ => None end.
(** the types whose objects have an address in the archive records but no [value_length] *)
Definition length_missing : list parameter_type :=
  [DIAGNOSTICS; ENERGY; ERROR_ENERGY; TARIFF_COUNTER; DOUBLE_TARIFF_COUNTER; BASE_TARIFF_COUNTER;
   ANALOG_STATISTICS; STATISTICS; ANALOG_TIME_STATISTICS; TIME_STATISTICS; COUNTER_STATISTICS; STANDARD_COUNTER_STATISTICS].

(** the program of tests/test_parser.py: record[address : address + length]; an object
    without an address is skipped (None), a length that is None raises TypeError *)
Definition archived_value (v : value) (record : bytes) : option (res bytes) :=
  match attribute "address_in_data_archive_record" v with
  | Some (VInt a) =>
      match get_length "value_length" v with
      | Some n => Some (Ok (slice_from a (slice_to (a + n) record)))
      | None => Some (Err TypeError)
      end
  | _ => None
  end.
