(** The class variables of the classes of elgas/parameters/*.py ([object_type],
    [value_length], [data_length]) and attribute access on parameter objects.  The
    two tables are made by tools/gen_classvars.py, which reads the sources as text. *)
From Verif Require Import Py ParamLang Parameters Schemas.
Open Scope string_scope.
Open Scope list_scope.
Open Scope Z_scope.

(** a class variable is a member of ParameterObjectType or an int *)
Inductive class_value := CType (t : parameter_type) | CInt (n : Z).

(** what every class of elgas/parameters/*.py assigns itself; the lines are given beside each *)
Definition class_variables : list (string * list (string * class_value)) :=
  [
   ("GasComposition", []); (* elgas/parameters/gas_composition.py:11 *)
   ("SystemParameters", [("object_type", CType SYSTEM_PARAMETER)]); (* elgas/parameters/system_parameters.py:21-21 *)
   ("AnalogQuantity", [("object_type", CType ANALOG_MEASURAND); ("value_length", CInt 2)]); (* elgas/parameters/analog_quantity.py:14-15 *)
   ("Binary", [("object_type", CType BINARY)]); (* elgas/parameters/binary.py:13-13 *)
   ("Counter", [("object_type", CType COUNTER); ("value_length", CInt 4)]); (* elgas/parameters/counter.py:14-15 *)
   ("DoubleCounter", [("object_type", CType DOUBLE_COUNTER); ("value_length", CInt 8)]); (* elgas/parameters/counter.py:102-103 *)
   ("StandardCounter", [("object_type", CType STANDARD_COUNTER); ("value_length", CInt 8)]); (* elgas/parameters/standard_counter.py:13-14 *)
   ("FlowRate", [("object_type", CType FLOW_RATE); ("value_length", CInt 4)]); (* elgas/parameters/flow_rate.py:13-14 *)
   ("StandardFlowRate", [("object_type", CType STANDARD_FLOW_RATE); ("value_length", CInt 4)]); (* elgas/parameters/flow_rate.py:110-111 *)
   ("ConversionCoefficient", [("object_type", CType CONVERSION_COEFFICIENT); ("value_length", CInt 4)]); (* elgas/parameters/conversion_coefficient.py:14-17 *)
   ("ErrorCounter", [("object_type", CType ERROR_COUNTER); ("value_length", CInt 4)]); (* elgas/parameters/error_counter.py:14-15 *)
   ("DoubleErrorCounter", [("object_type", CType DOUBLE_ERROR_COUNTER); ("value_length", CInt 8)]); (* elgas/parameters/error_counter.py:88-91 *)
   ("CorrectionCounter", [("object_type", CType CORRECTION_COUNTER); ("value_length", CInt 4)]); (* elgas/parameters/error_counter.py:95-96 *)
   ("ErrorStandardCounter", [("object_type", CType ERROR_STANDARD_COUNTER); ("value_length", CInt 8)]); (* elgas/parameters/error_standard_counter.py:12-15 *)
   ("Compressibility", [("object_type", CType COMPRESSIBILITY); ("value_length", CInt 4)]); (* elgas/parameters/compressibility.py:13-14 *)
   ("CompressibilityZ", [("object_type", CType COMPRESSIBILITY_Z); ("value_length", CInt 4)]); (* elgas/parameters/compressibility.py:73-74 *)
   ("CompressibilityZBase", [("object_type", CType COMPRESSIBILITY_Z_BASE); ("value_length", CInt 4)]); (* elgas/parameters/compressibility.py:78-81 *)
   ("TimeWindow", [("object_type", CType TIME_WINDOW)]); (* elgas/parameters/time_window.py:13-13 *)
   ("Diagnostics", [("object_type", CType DIAGNOSTICS)]); (* elgas/parameters/diagnostics.py:13-13 *)
   ("SetPoint", [("object_type", CType SET_POINT)]); (* elgas/parameters/setpoint.py:13-13 *)
   ("Energy", [("object_type", CType ENERGY)]); (* elgas/parameters/energy.py:13-13 *)
   ("ErrorEnergy", [("object_type", CType ERROR_ENERGY)]); (* elgas/parameters/energy.py:89-89 *)
   ("TariffCounter", [("object_type", CType TARIFF_COUNTER); ("data_length", CInt 4)]); (* elgas/parameters/tariff_counter.py:14-15 *)
   ("DoubleTariffCounter", [("object_type", CType DOUBLE_TARIFF_COUNTER); ("data_length", CInt 8)]); (* elgas/parameters/tariff_counter.py:117-120 *)
   ("BaseTariffCounter", [("object_type", CType BASE_TARIFF_COUNTER); ("data_length", CInt 8)]); (* elgas/parameters/tariff_counter.py:131-132 *)
   ("DifferenceCounter", [("object_type", CType DIFFERENCE_COUNTER); ("value_length", CInt 8)]); (* elgas/parameters/difference_counter.py:14-15 *)
   ("DifferenceBaseCounter", [("object_type", CType DIFFERENCE_BASE_COUNTER); ("value_length", CInt 8)]); (* elgas/parameters/difference_counter.py:87-90 *)
   ("Timer", [("object_type", CType TIMER); ("value_length", CInt 4)]); (* elgas/parameters/timer.py:13-14 *)
   ("DeviceError", [("object_type", CType DEVICE_ERROR)]); (* elgas/parameters/device_error.py:13-13 *)
   ("SumOfAlarms", [("object_type", CType SUM_OF_ALARMS)]); (* elgas/parameters/sum_of_alarms.py:13-13 *)
   ("AnalogStatistics", [("object_type", CType ANALOG_STATISTICS)]); (* elgas/parameters/statistics.py:14-14 *)
   ("Statistics", [("object_type", CType STATISTICS)]); (* elgas/parameters/statistics.py:110-110 *)
   ("AnalogTimeStatistics", [("object_type", CType ANALOG_TIME_STATISTICS)]); (* elgas/parameters/statistics.py:120-122 *)
   ("TimeStatistics", [("object_type", CType TIME_STATISTICS)]); (* elgas/parameters/statistics.py:132-132 *)
   ("CounterStatistics", [("object_type", CType COUNTER_STATISTICS)]); (* elgas/parameters/statistics.py:143-143 *)
   ("StandardCounterStatistics", [("object_type", CType STANDARD_COUNTER_STATISTICS)]); (* elgas/parameters/statistics.py:208-210 *)
   ("Modem", [("object_type", CType MODEM)])  (* elgas/parameters/modem.py:12-12 *)].

(** the base class, for the classes of elgas/parameters/*.py that have one; no base has a base itself *)
Definition class_base : list (string * string) :=
  [
   ("DoubleCounter", "Counter"); (* elgas/parameters/counter.py:101 *)
   ("DoubleErrorCounter", "ErrorCounter"); (* elgas/parameters/error_counter.py:87 *)
   ("CorrectionCounter", "ErrorCounter"); (* elgas/parameters/error_counter.py:94 *)
   ("CompressibilityZ", "Compressibility"); (* elgas/parameters/compressibility.py:72 *)
   ("CompressibilityZBase", "Compressibility"); (* elgas/parameters/compressibility.py:77 *)
   ("ErrorEnergy", "Energy"); (* elgas/parameters/energy.py:88 *)
   ("DoubleTariffCounter", "TariffCounter"); (* elgas/parameters/tariff_counter.py:116 *)
   ("Statistics", "AnalogStatistics"); (* elgas/parameters/statistics.py:109 *)
   ("AnalogTimeStatistics", "AnalogStatistics"); (* elgas/parameters/statistics.py:119 *)
   ("TimeStatistics", "AnalogStatistics"); (* elgas/parameters/statistics.py:131 *)
   ("StandardCounterStatistics", "CounterStatistics")  (* elgas/parameters/statistics.py:207 *)].

(** [cls.name]: the class, then its base (elgas/parameters/counter.py:101-103 and the
    other derived classes; none of the bases has a base itself) *)
Definition class_attribute (cls name : string) : option class_value :=
  match lookup cls class_variables with
  | None => None
  | Some own =>
      match lookup name own with
      | Some v => Some v
      | None =>
          match lookup cls class_base with
          | None => None
          | Some base => match lookup base class_variables with Some l => lookup name l | None => None end
          end
      end
  end.

(** [obj.object_type] for an attrs instance (@attr.s without slots, so instance
    attributes live in the instance and hide class variables; no class has an
    instance attribute called object_type, value_length or data_length:
    elgas/parameters/*.py).  Anything else, dicts included, raises AttributeError. *)
Definition get_object_type (v : value) : res parameter_type :=
  match v with
  | VObj cls attrs =>
      match lookup "object_type" attrs with
      | Some _ => Err TypeError
      | None => match class_attribute cls "object_type" with Some (CType t) => Ok t | _ => Err AttributeError end
      end
  | _ => Err AttributeError
  end.

(** [getattr(obj, name, None)] for a name that is a class variable holding an int
    (tests/test_parser.py reads value_length this way) *)
Definition get_length (name : string) (v : value) : option Z :=
  match v with
  | VObj cls attrs =>
      match lookup name attrs with
      | Some (VInt n) => Some n
      | Some _ => None
      | None => match class_attribute cls name with Some (CInt n) => Some n | _ => None end
      end
  | _ => None
  end.
