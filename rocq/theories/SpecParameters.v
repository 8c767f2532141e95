(** What the parameter objects of an ELGAS device look like on the wire: the
    documented offset, width and encoding of every field, and the lengths each
    object type may have.  Nothing here depends on how the code reads them. *)
From Coq Require Import QArith Qpower Qabs.
From Verif Require Import Py PyFloat ParamLang Parameters SpecText SpecApplication.
Open Scope string_scope.
Open Scope list_scope.
Open Scope Z_scope.

(** ** IEEE-754 bit patterns *)

(** (-1)^neg * m * 2^e as a rational number *)
Definition dyadic (neg : bool) (m e : Z) : Q := ((if neg then - m else m) # 1) * (2 # 1) ^ e.
(** every number is written in one way, with an odd mantissa, zero with exponent 0 *)
Definition lowest_terms (m e : Z) : Prop := (m = 0 /\ e = 0) \/ (0 < m /\ Z.odd m = true).
Definition float_value (f : pyfloat) (q : Q) : Prop :=
  match f with Fin neg m e => lowest_terms m e /\ (q == dyadic neg m e)%Q | _ => False end.
Definition negative (f : pyfloat) : option bool :=
  match f with Fin s _ _ | Inf s => Some s | NaN => None end.

(** The float denoted by a number [n] whose bits are, from the top, one sign bit,
    [w] exponent bits and [f] fraction bits (IEEE-754 section 3.4). *)
Definition denotes (w f n : Z) (x : pyfloat) : Prop :=
  let sign := n / 2 ^ (w + f) in
  let E := (n / 2 ^ f) mod 2 ^ w in
  let F := n mod 2 ^ f in
  let bias := 2 ^ (w - 1) - 1 in
  (E = 2 ^ w - 1 /\ F <> 0 /\ x = NaN) \/
  (E = 2 ^ w - 1 /\ F = 0 /\ x = Inf (sign =? 1)) \/
  (E <> 2 ^ w - 1 /\ negative x = Some (sign =? 1) /\
   float_value x ((if sign =? 1 then -1 # 1 else 1 # 1) *
                  ((if E =? 0 then 0 # 1 else 1 # 1) + (F # 1) / (2 # 1) ^ f) *
                  (2 # 1) ^ ((if E =? 0 then 1 else E) - bias))).

(** a double: a number M * 2^E with 53-bit M and the exponent range of binary64 *)
Definition double_value (q : Q) : Prop :=
  exists M E, - 2 ^ 53 < M < 2 ^ 53 /\ -1074 <= E <= 971 /\ (q == (M # 1) * (2 # 1) ^ E)%Q.
Definition closest_double (x : Q) (y : Q) : Prop :=
  double_value y /\ forall z, double_value z -> (Qabs (y - x) <= Qabs (z - x))%Q.
(** [k] is an integer closest to x *)
Definition closest_integer (x : Q) (k : Z) : Prop :=
  forall j : Z, (Qabs ((k # 1) - x) <= Qabs ((j # 1) - x))%Q.
(** .. and, if there are two, the even one *)
Definition rounds_to (x : Q) (k : Z) : Prop :=
  closest_integer x k /\ forall j : Z, j <> k -> (Qabs ((j # 1) - x) == Qabs ((k # 1) - x))%Q -> Z.even k = true.
(** [y] is the double closest to the multiple of 1e-7 closest to [x], of two the even one *)
Definition rounded_to_7 (x y : pyfloat) : Prop :=
  match x with
  | Fin s m e =>
      exists k q, rounds_to (dyadic s m e * (10000000 # 1))%Q k /\
                  closest_double (k # 10000000) q /\ float_value y q /\ negative y = Some s
  | _ => y = x
  end.

(** ** Places: where and how a field is stored *)
Inductive place :=
| Unsigned (off width : Z)         (* little-endian unsigned integer *)
| Flag (off bit : Z)               (* one bit of a byte, 0 is the lowest *)
| BitField (off low width : Z)     (* [width] bits of a byte starting at bit [low] *)
| Text (off width : Z)             (* zero-terminated or blank-padded text *)
| HexText (off width : Z)          (* bytes shown as lower-case hexadecimal text *)
| IpAddress4 (off : Z)             (* four bytes, shown in dotted notation *)
| Single (off : Z)                 (* IEEE-754 binary32 *)
| SingleRounded (off : Z)          (* the same, rounded to 7 decimals *)
| Double (off : Z)                 (* IEEE-754 binary64 *)
| HexRows (off rows width : Z)     (* consecutive HexTexts *)
| Composition (off : Z)            (* a GasComposition: 23 consecutive Singles *)
| Missing.                         (* not transmitted *)

Definition hex_text (l : bytes) (s : str) : Prop :=
  s = map (fun d => if d <=? 9 then 48 + d else 97 + (d - 10)) (nibbles l).

Definition gas_components : list string :=
  ["co2"; "n2"; "combustion_heat"; "relative_density"; "h2"; "h2s"; "he"; "h2o"; "o2";
   "ar"; "co"; "c1h4"; "c2h6"; "c3h8"; "ic4h10"; "nc4h10"; "ic5h12"; "nc5h12"; "c6h14";
   "c7h16"; "c8h18"; "c9h20"; "c10h22"].

(** the value a reader shows for a place of the object [l] *)
Definition shows (l : bytes) (p : place) (v : value) : Prop :=
  match p with
  | Unsigned off w => v = VInt (le_value (field off w l))
  | Flag off bit => v = VBool (Z.testbit (byte_at off l) bit)
  | BitField off low w => v = VInt ((byte_at off l / 2 ^ low) mod 2 ^ w)
  | Text off w => exists s, v = VStr s /\ text_of (field off w l) s
  | HexText off w => exists s, v = VStr s /\ hex_text (field off w l) s
  | IpAddress4 off => exists s, v = VStr s /\ dotted (field off 4 l) s
  | Single off => exists x, v = VFloat x /\ denotes 8 23 (le_value (field off 4 l)) x
  | SingleRounded off =>
      exists x y, v = VFloat y /\ denotes 8 23 (le_value (field off 4 l)) x /\ rounded_to_7 x y
  | Double off => exists x, v = VFloat x /\ denotes 11 52 (le_value (field off 8 l)) x
  | HexRows off rows w =>
      exists ss, v = VList (map VStr ss) /\ len ss = rows /\
      forall i, 0 <= i < rows -> hex_text (field (off + w * i) w l) (nth (Z.to_nat i) ss [])
  | Composition off =>
      exists vs, v = VObj "GasComposition" (combine gas_components vs) /\ len vs = 23 /\
      forall i, 0 <= i < 23 -> exists x, nth (Z.to_nat i) vs VNone = VFloat x /\
        denotes 8 23 (le_value (field (off + 4 * i) 4 l)) x
  | Missing => v = VNone
  end.

(** ** Lengths *)
Record range := mk_range { from : Z; upto : option Z }.     (* upto None: unbounded *)
Definition within (n : Z) (r : range) : Prop :=
  from r <= n /\ match upto r with Some m => n <= m | None => True end.
Inductive reading :=
| Object (cls : string) (fields : list (string * place))
| Raises (e : exn).

Definition conforms (l : bytes) (r : res value) (d : reading) : Prop :=
  match d with
  | Object c fields =>
      exists attrs, r = Ok (VObj c attrs) /\
      Forall2 (fun (a : string * value) (f : string * place) => fst a = fst f /\ shows l (snd f) (snd a)) attrs fields
  | Raises e => r = Err e
  end.

(** the four shapes of object: [n] bytes and no more ([exactly]) or with ignored
    bytes after them ([at_least]); the same with one optional last byte; with an
    optional action byte and two 13-character texts *)
Definition exactly n d := [(mk_range 0 (Some (n - 1)), Raises IndexError); (mk_range n (Some n), d);
                           (mk_range (n + 1) None, Raises AssertionError)].
Definition at_least n d := [(mk_range 0 (Some (n - 1)), Raises IndexError); (mk_range n None, d)].
Definition optional_byte n (d : place -> reading) :=
  [(mk_range 0 (Some (n - 1)), Raises IndexError); (mk_range n (Some n), d Missing);
   (mk_range (n + 1) (Some (n + 1)), d (Unsigned n 1)); (mk_range (n + 2) None, Raises AssertionError)].
Definition optional_byte_open n (d : place -> reading) :=
  [(mk_range 0 (Some (n - 1)), Raises IndexError); (mk_range n (Some n), d Missing);
   (mk_range (n + 1) None, d (Unsigned n 1))].
Definition optional_log n (d : list (string * place) -> reading) :=
  [(mk_range 0 (Some (n - 1)), Raises IndexError);
   (mk_range n (Some n), d [("action_during_change", Missing); ("text_log_0", Missing); ("text_log_1", Missing)]);
   (mk_range (n + 1) (Some (n + 26)), Raises IndexError);
   (mk_range (n + 27) (Some (n + 27)),
    d [("action_during_change", Unsigned n 1); ("text_log_0", Text (n + 1) 13); ("text_log_1", Text (n + 14) 13)]);
   (mk_range (n + 28) None, Raises AssertionError)].

(** ** The objects *)

(** the start of every measured quantity *)
Definition quantity (flags rest : list (string * place)) : list (string * place) :=
  [("number", Unsigned 0 2); ("id", Unsigned 2 2); ("address_in_actual_values", Unsigned 4 2);
   ("address_in_data_archive_record", Unsigned 6 2); ("bit_control", Unsigned 8 1)]
  ++ flags ++ [("name", Text 9 23)] ++ rest.
(** the start of every binary item *)
Definition binary (flags rest : list (string * place)) : list (string * place) :=
  [("number", Unsigned 0 2); ("id", Unsigned 2 2); ("bit_order_in_actual_values", Unsigned 4 2);
   ("bit_order_in_data_archive_record", Unsigned 6 2); ("bit_order_in_binary_archive_record", Unsigned 8 2);
   ("bit_control", Unsigned 10 1); ("in_binary_archive", Flag 10 0); ("in_data_archive", Flag 10 1)]
  ++ flags ++ [("name", Text 11 23)] ++ rest.

Definition in_archives := [("in_data_archive", Flag 8 0); ("in_daily_archive", Flag 8 1); ("in_monthly_archive", Flag 8 2)].
Definition in_factory := [("in_factory_archive", Flag 8 3)].
Definition metrological := [("is_metrological_quantity", Flag 8 4)].
Definition unit_text := [("unit", Text 32 8)].
(** addresses in the daily, monthly and billing archive records *)
Definition addresses2 n := [("address_in_daily_archive_record", Unsigned n 2);
                            ("address_in_monthly_archive_record", Unsigned (n + 2) 2)].
Definition addresses3 n := addresses2 n ++ [("address_in_billing_archive_record", Unsigned (n + 4) 2)].
Definition decimals (p : place) := [("decimals", p)].
(** bit orders of the error bit *)
Definition error_bits n := [("error_bit_order_in_actual_values", Unsigned n 2);
                            ("error_bit_order_in_binary_archive", Unsigned (n + 2) 2);
                            ("error_bit_order_in_data_archive", Unsigned (n + 4) 2)].
Definition byte_fields n names : list (string * place) :=
  map (fun '(i, s) => (s, Unsigned (n + Z.of_nat i) 1)) (combine (seq 0 (length names)) names).
Definition word_fields n names : list (string * place) :=
  map (fun '(i, s) => (s, Unsigned (n + 2 * Z.of_nat i) 2)) (combine (seq 0 (length names)) names).

Definition system_parameters : reading := Object "SystemParameters"
  ([("device_type", Unsigned 0 1); ("serial_number", Unsigned 1 4); ("firmware_version", Text 5 5);
    ("service_version", Unsigned 10 1); ("certification_variant", Unsigned 11 1); ("station_id", Text 12 17);
    ("password_for_full_access_active", Flag 29 0); ("password_for_reading_is_on", Flag 29 1);
    ("metrological_switch", Flag 29 2); ("user_switch", Flag 29 3); ("switch_function", BitField 29 4 2);
    ("parameter_crc", Unsigned 30 2); ("measuring_period", Unsigned 32 1); ("archive_period", Unsigned 33 2);
    ("base_pressure", Single 35); ("base_temperature", Single 39); ("compressibility_formula", Unsigned 43 1);
    ("gas_composition", Composition 44)]
   ++ word_fields 136 ["data_archive_record_length"; "binary_archive_record_length"; "daily_archive_record_length";
        "monthly_archive_record_length"; "instantaneous_values_error_bit_order";
        "binary_archive_record_error_bit_order"; "data_archive_record_error_bit_order"]
   ++ byte_fields 150 ["optical_port_speed"; "optical_port_protocol"; "optical_port_bit_control";
        "communication_port_0_speed"; "communication_port_0_protocol"; "communication_port_0_bit_control";
        "communication_port_1_speed"; "communication_port_1_protocol"; "communication_port_1_bit_control";
        "communication_port_2_speed"; "communication_port_2_protocol"; "communication_port_2_bit_control";
        "gas_day_hour"]
   ++ [("fixed_barometric_pressure", Single 163); ("altitude", Single 167);
       (* 17 unused bytes *)
       ("status_archive_record_length", Unsigned 188 2);
       ("pressure_unit_type", Unsigned 190 1); ("pressure_unit_text", Text 191 8);
       ("temperature_unit_type", Unsigned 199 1); ("temperature_unit_text", Text 200 8);
       ("altitude_unit_type", Unsigned 208 1); ("altitude_unit_text", Text 209 8);
       ("gross_calorific_value_type", Unsigned 217 1); ("gross_calorific_value_text", Text 218 8);
       ("dst_region", Unsigned 226 1); ("gmt_hour_shift", Unsigned 227 1);
       ("billing_archive_record_length", Unsigned 228 2);
       ("conditions_for_combustion_heat", Unsigned 230 1); ("device_variant", Unsigned 231 1);
       (* 1 unused byte *)
       ("bit_control", Unsigned 233 1); ("places_for_corrected_volume_counters", Unsigned 234 1);
       ("device_features_bits", Unsigned 235 1); ("device_features", HexText 236 16);
       ("version_metrological_part", Text 252 5); ("metrological_crc", Unsigned 257 2);
       ("metrological_crc_32", Unsigned 259 4); ("application_crc_32", Unsigned 263 4)]).

Definition counter cls d := Object cls
  (quantity (in_archives ++ in_factory ++ metrological ++ [("accept_counting_direction", Flag 8 6)])
    (unit_text ++ [("digit", Double 40); ("serial_number_of_gas_meter", Unsigned 48 4)] ++ error_bits 52
     ++ addresses3 58 ++ [("serial_number_of_gas_meter_text", Text 64 17)] ++ decimals d)).
Definition error_counter cls d := Object cls
  (quantity (in_archives ++ in_factory ++ metrological)
    (unit_text ++ [("digit", Double 40); ("number_of_primary_counter", Unsigned 48 1)] ++ addresses3 49 ++ decimals d)).
Definition compressibility cls d := Object cls
  (quantity (in_archives ++ metrological)
    ([("number_of_conversion_coefficient", Unsigned 32 1)] ++ addresses2 33 ++ decimals d)).
Definition energy cls d := Object cls
  (quantity (in_archives ++ in_factory ++ metrological)
    (unit_text ++ byte_fields 40 ["number_of_standard_counter"; "number_of_calorific_value"; "number_of_conversion"]
     ++ addresses3 43 ++ decimals d)).
Definition tariff_counter cls d := Object cls
  (quantity (in_archives ++ in_factory ++ metrological)
    (unit_text ++ [("digit", Double 40)] ++ byte_fields 48 ["number_of_primary_counter"; "tariff"]
     ++ addresses3 50 ++ decimals d)).
Definition analog_statistics cls d := Object cls
  (quantity (in_archives ++ metrological)
    (unit_text ++ [("digit", SingleRounded 40); ("offset", Single 44)]
     ++ byte_fields 48 ["number_of_primary_quantity"; "statistics_type"] ++ addresses2 50 ++ decimals d)).
Definition counter_statistics cls := Object cls
  (quantity (in_archives ++ metrological)
    (unit_text ++ [("digit", Double 40)]
     ++ byte_fields 48 ["type_of_primary_quantity"; "number_of_primary_quantity"; "statistics_type"]
     ++ addresses2 51)).

(** For each type, what reading an object of every length gives.  [rows] matters
    only for TIME_WINDOW: the number of rows announced by byte 34 of the object.

    DEVICE_ERROR and SUM_OF_ALARMS have no readable form, DIFFERENCE_BASE_COUNTER
    and CORRECTION_COUNTER neither: what the library does for them is written down
    as it is, see C47. *)
Definition unreadable n :=
  [(mk_range 0 (Some (n - 1)), Raises IndexError); (mk_range n (Some n), Raises TypeError);
   (mk_range (n + 1) (Some (n + 26)), Raises IndexError); (mk_range (n + 27) (Some (n + 27)), Raises TypeError);
   (mk_range (n + 28) None, Raises AssertionError)].

Definition documented (t : parameter_type) (rows : Z) : list (range * reading) :=
  match t with
  | SYSTEM_PARAMETER => exactly 267 system_parameters
  | ANALOG_MEASURAND => optional_byte_open 71 (fun d => Object "AnalogQuantity"
      (quantity (in_archives ++ metrological ++ [("in_fast_archive_1", Flag 8 5); ("in_fast_archvie_2", Flag 8 6)])
        (unit_text ++ [("digit", SingleRounded 40); ("offset", Single 44); ("lower_limit_measuring_range", SingleRounded 48);
                  ("upper_limit_measuring_range", Single 52); ("serial_number_transducer", Unsigned 56 4)]
         ++ error_bits 60 ++ addresses2 66 ++ [("samples_in_fast_archive", Unsigned 70 1)] ++ decimals d)))
  | BINARY => optional_log 40 (fun log => Object "Binary"
      (binary [("active_indicator", Flag 10 6)]
        ([("error_bit_order_in_actual_values", Unsigned 34 2); ("error_bit_order_in_binary_archive_record", Unsigned 36 2);
          ("error_bit_order_in_data_archive_record", Unsigned 38 2)] ++ log)))
  | COUNTER => optional_byte_open 81 (counter "Counter")
  | DOUBLE_COUNTER => optional_byte_open 81 (counter "DoubleCounter")
  | STANDARD_COUNTER => optional_byte 48 (fun d => Object "StandardCounter"
      (quantity (in_archives ++ in_factory ++ metrological)
        (unit_text ++ byte_fields 40 ["number_of_primary_counter"; "number_of_conversion"] ++ addresses3 42 ++ decimals d)))
  | FLOW_RATE => optional_byte_open 50 (fun d => Object "FlowRate"
      (quantity (in_archives ++ metrological) (unit_text ++ error_bits 40 ++ addresses2 46 ++ decimals d)))
  | STANDARD_FLOW_RATE => optional_byte_open 46 (fun d => Object "StandardFlowRate"
      (quantity (in_archives ++ metrological)
        (unit_text ++ byte_fields 40 ["number_of_primary_flow_rate"; "number_of_conversion"] ++ addresses2 42 ++ decimals d)))
  | CONVERSION_COEFFICIENT => optional_byte_open 51 (fun d => Object "ConversionCoefficient"
      (quantity (in_archives ++ metrological)
        (byte_fields 32 ["number_of_analog_pressure"; "number_of_analog_temperature"; "compressibility_calculation_method"]
         ++ [("default_value_pressure", Single 35); ("default_value_temperature", Single 39);
             ("alternate_value_of_compressibility", Single 43)] ++ addresses2 47 ++ decimals d)))
  | ERROR_COUNTER => optional_byte_open 55 (error_counter "ErrorCounter")
  | DOUBLE_ERROR_COUNTER => optional_byte_open 55 (error_counter "DoubleErrorCounter")
  | ERROR_STANDARD_COUNTER => optional_byte_open 47 (fun d => Object "ErrorStandardCounter"
      (quantity (in_archives ++ in_factory ++ metrological)
        (unit_text ++ [("number_of_standard_counter", Unsigned 40 1)] ++ addresses3 41 ++ decimals d)))
  | COMPRESSIBILITY => optional_byte_open 37 (compressibility "Compressibility")
  | COMPRESSIBILITY_Z => optional_byte_open 37 (compressibility "CompressibilityZ")
  | COMPRESSIBILITY_Z_BASE => optional_byte_open 37 (compressibility "CompressibilityZBase")
  | TIME_WINDOW => optional_log (35 + 10 * rows) (fun log => Object "TimeWindow"
      (binary [] ([("rows_in_window", Unsigned 34 1); ("rows", HexRows 35 rows 10)] ++ log)))
  | DIAGNOSTICS => at_least 61 (Object "Diagnostics"
      (quantity (in_archives ++ in_factory)
        (addresses2 32 ++
         [("mask_1_of_status_archive", Unsigned 36 4); ("mask_2_of_status_archive", Unsigned 40 4);
          ("mask_1_of_alarm", Unsigned 44 4); ("mask_2_of_alarm", Unsigned 48 4);
          ("mask_1_of_calling_to_dispatching", Unsigned 52 4); ("mask_2_of_calling_to_dispatching", Unsigned 56 4);
          ("action_during_change", Unsigned 60 1)])))
  | SET_POINT => optional_log 40 (fun log => Object "SetPoint"
      (binary [("active_indicator", Flag 10 6)]
        ([("value_of_limit", Single 34)] ++ byte_fields 38 ["type_of_primary_quantity"; "number_of_primary_quantity"] ++ log)))
  | ENERGY => optional_byte 49 (energy "Energy")
  | ERROR_ENERGY => optional_byte 49 (energy "ErrorEnergy")
  | TARIFF_COUNTER => optional_byte 56 (tariff_counter "TariffCounter")
  | DOUBLE_TARIFF_COUNTER => optional_byte 56 (tariff_counter "DoubleTariffCounter")
  | BASE_TARIFF_COUNTER => optional_byte 48 (fun d => Object "BaseTariffCounter"
      (quantity (in_archives ++ in_factory ++ metrological)
        (unit_text ++ byte_fields 40 ["number_of_base_counter"; "tariff"] ++ addresses3 42 ++ decimals d)))
  | DIFFERENCE_COUNTER => optional_byte 55 (fun d => Object "DifferenceCounter"
      (quantity (in_archives ++ [("is_double", Flag 8 3)] ++ metrological)
        (unit_text ++ [("digit", Double 40); ("number_of_primary_counter", Unsigned 48 1)] ++ addresses3 49 ++ decimals d)))
  | TIMER => exactly 36 (Object "Timer" (quantity (in_archives ++ metrological) (addresses2 32)))
  | ANALOG_STATISTICS => optional_byte_open 54 (analog_statistics "AnalogStatistics")
  | STATISTICS => optional_byte_open 54 (analog_statistics "Statistics")
  | ANALOG_TIME_STATISTICS => optional_byte_open 54 (analog_statistics "AnalogTimeStatistics")
  | TIME_STATISTICS => optional_byte_open 54 (analog_statistics "TimeStatistics")
  | COUNTER_STATISTICS => exactly 55 (counter_statistics "CounterStatistics")
  | STANDARD_COUNTER_STATISTICS => exactly 55 (counter_statistics "StandardCounterStatistics")
  | MODEM => exactly 330 (Object "Modem"
      [("number", Unsigned 0 1); ("bit_control_0", Unsigned 1 1); ("title", Text 2 7); ("modem_type", Unsigned 9 1);
       ("initialization", Text 10 32); ("call_to_dispatching", Text 42 32); ("modem_hang_up", Text 74 8);
       ("special_initialization", Text 82 80); ("ip_address_for_registration_and_diagnostics", IpAddress4 162);
       ("ip_address_for_calling_to_dispatching", IpAddress4 166); ("registration_send_period", Unsigned 170 1);
       ("authentication_mode", Unsigned 171 1); ("port_for_registration", Unsigned 172 2);
       ("port_for_calling_to_dispatching", Unsigned 174 2); ("sms_call", Text 176 32); ("gprs_user_name", Text 208 49);
       ("gprs_password", HexText 257 33); ("ip_address_for_ping", IpAddress4 290); ("ping_period", Unsigned 294 2);
       ("transition_into_command_mode", Text 296 8); ("pin", HexText 304 9); ("owner_sim_number", Text 313 17)])
  | DEVICE_ERROR => unreadable 34
  | SUM_OF_ALARMS => unreadable 34
  | DIFFERENCE_BASE_COUNTER => [(mk_range 0 None, Raises AttributeError)]
  | CORRECTION_COUNTER => [(mk_range 0 None, Raises KeyError)]
  end.

(** ** Control bits: for each type the offset of its control byte and the boolean
    attributes stored in it, with their bit (0 is the lowest) *)
Definition archive_bits := [("in_data_archive", 0); ("in_daily_archive", 1); ("in_monthly_archive", 2)].
Definition control_bits (t : parameter_type) : Z * list (string * Z) :=
  match t with
  | SYSTEM_PARAMETER => (29, [("password_for_full_access_active", 0); ("password_for_reading_is_on", 1);
                              ("metrological_switch", 2); ("user_switch", 3)])
  | ANALOG_MEASURAND => (8, archive_bits ++ [("is_metrological_quantity", 4); ("in_fast_archive_1", 5); ("in_fast_archvie_2", 6)])
  | BINARY | SET_POINT => (10, [("in_binary_archive", 0); ("in_data_archive", 1); ("active_indicator", 6)])
  | TIME_WINDOW => (10, [("in_binary_archive", 0); ("in_data_archive", 1)])
  | COUNTER | DOUBLE_COUNTER => (8, archive_bits ++ [("in_factory_archive", 3); ("is_metrological_quantity", 4); ("accept_counting_direction", 6)])
  | STANDARD_COUNTER | ERROR_COUNTER | DOUBLE_ERROR_COUNTER | ERROR_STANDARD_COUNTER | ENERGY | ERROR_ENERGY
  | TARIFF_COUNTER | DOUBLE_TARIFF_COUNTER | BASE_TARIFF_COUNTER =>
      (8, archive_bits ++ [("in_factory_archive", 3); ("is_metrological_quantity", 4)])
  | FLOW_RATE | STANDARD_FLOW_RATE | CONVERSION_COEFFICIENT | COMPRESSIBILITY | COMPRESSIBILITY_Z | COMPRESSIBILITY_Z_BASE
  | TIMER | ANALOG_STATISTICS | STATISTICS | ANALOG_TIME_STATISTICS | TIME_STATISTICS | COUNTER_STATISTICS
  | STANDARD_COUNTER_STATISTICS => (8, archive_bits ++ [("is_metrological_quantity", 4)])
  | DIFFERENCE_COUNTER => (8, archive_bits ++ [("is_double", 3); ("is_metrological_quantity", 4)])
  | DIAGNOSTICS => (8, archive_bits ++ [("in_factory_archive", 3)])
  | MODEM | DEVICE_ERROR | SUM_OF_ALARMS | DIFFERENCE_BASE_COUNTER | CORRECTION_COUNTER => (0, [])
  end.

(** ** Parameter blocks: what a device sends for a list of objects.  Each object is
    preceded by its total length, two bytes, low byte first, and by its type code. *)
Definition object_header (n code : Z) : bytes := [n mod 256; n / 256; code].
Definition transmitted (o : parameter_type * bytes) : bytes :=
  object_header (len (snd o) + 3) (type_code (fst o)) ++ snd o.
Definition transmission (objs : list (parameter_type * bytes)) : bytes := concat (map transmitted objs).
(** the content is made of bytes and its length can be announced in two bytes *)
Definition sendable (o : parameter_type * bytes) : Prop := is_bytes (snd o) /\ len (snd o) + 3 < 65536.
(** [vs] are the results of reading the objects one by one *)
Definition read_one_by_one (objs : list (parameter_type * bytes)) (vs : list value) : Prop :=
  Forall2 (fun o v => parameter_from_bytes (fst o) (snd o) = Ok v) objs vs.
(** the types of which no object can be read *)
Definition unreadable_type (t : parameter_type) : Prop :=
  In t [DEVICE_ERROR; SUM_OF_ALARMS; DIFFERENCE_BASE_COUNTER; CORRECTION_COUNTER].

(** the shortest readable content of each type (a window without rows) *)
Definition min_length (t : parameter_type) : Z :=
  match t with
  | SYSTEM_PARAMETER => 267 | ANALOG_MEASURAND => 71 | BINARY => 40 | COUNTER => 81 | DOUBLE_COUNTER => 81
  | STANDARD_COUNTER => 48 | FLOW_RATE => 50 | STANDARD_FLOW_RATE => 46 | CONVERSION_COEFFICIENT => 51
  | ERROR_COUNTER => 55 | DOUBLE_ERROR_COUNTER => 55 | ERROR_STANDARD_COUNTER => 47
  | COMPRESSIBILITY => 37 | COMPRESSIBILITY_Z => 37 | COMPRESSIBILITY_Z_BASE => 37 | TIME_WINDOW => 35
  | DIAGNOSTICS => 61 | SET_POINT => 40 | ENERGY => 49 | ERROR_ENERGY => 49 | TARIFF_COUNTER => 56
  | DOUBLE_TARIFF_COUNTER => 56 | BASE_TARIFF_COUNTER => 48 | DIFFERENCE_COUNTER => 55 | TIMER => 36
  | ANALOG_STATISTICS => 54 | STATISTICS => 54 | ANALOG_TIME_STATISTICS => 54 | TIME_STATISTICS => 54
  | COUNTER_STATISTICS => 55 | STANDARD_COUNTER_STATISTICS => 55 | MODEM => 330
  | DEVICE_ERROR | SUM_OF_ALARMS | DIFFERENCE_BASE_COUNTER | CORRECTION_COUNTER => 0
  end.
