(** The schemas of elgas/parameters/*.py and elgas/integration.py in the syntax of
    Schema.v, the annotations of the attrs classes, and the registry of schemas.
    Transcribed by tools/gen_parameters.py (called with a second argument), which
    reads the sources as text. *)
From Verif Require Export Schema.
Open Scope string_scope.
Open Scope list_scope.

(** the annotations in use: int, bool, float, str, Optional[..], Iterable[str], GasComposition *)
Inductive annotation := AInt | ABool | AFloat | AStr | AOptional (a : annotation) | AStrs | AGasComposition.

(** elgas/parameters/gas_composition.py:11-64 *)
Definition GasComposition_annotations : list (string * annotation) :=
  [("co2", AFloat);
   ("n2", AFloat);
   ("combustion_heat", AFloat);
   ("relative_density", AFloat);
   ("h2", AFloat);
   ("h2s", AFloat);
   ("he", AFloat);
   ("h2o", AFloat);
   ("o2", AFloat);
   ("ar", AFloat);
   ("co", AFloat);
   ("c1h4", AFloat);
   ("c2h6", AFloat);
   ("c3h8", AFloat);
   ("ic4h10", AFloat);
   ("nc4h10", AFloat);
   ("ic5h12", AFloat);
   ("nc5h12", AFloat);
   ("c6h14", AFloat);
   ("c7h16", AFloat);
   ("c8h18", AFloat);
   ("c9h20", AFloat);
   ("c10h22", AFloat)].
(** elgas/parameters/gas_composition.py:67-95 *)
Definition GasCompositionSchema := mk_schema
  [mk_spec "co2" true false (Float true);
   mk_spec "n2" true false (Float true);
   mk_spec "combustion_heat" true false (Float true);
   mk_spec "relative_density" true false (Float true);
   mk_spec "h2" true false (Float true);
   mk_spec "h2s" true false (Float true);
   mk_spec "he" true false (Float true);
   mk_spec "h2o" true false (Float true);
   mk_spec "o2" true false (Float true);
   mk_spec "ar" true false (Float true);
   mk_spec "co" true false (Float true);
   mk_spec "c1h4" true false (Float true);
   mk_spec "c2h6" true false (Float true);
   mk_spec "c3h8" true false (Float true);
   mk_spec "ic4h10" true false (Float true);
   mk_spec "nc4h10" true false (Float true);
   mk_spec "ic5h12" true false (Float true);
   mk_spec "nc5h12" true false (Float true);
   mk_spec "c6h14" true false (Float true);
   mk_spec "c7h16" true false (Float true);
   mk_spec "c8h18" true false (Float true);
   mk_spec "c9h20" true false (Float true);
   mk_spec "c10h22" true false (Float true)]
  (Some GasComposition_class).

(** elgas/parameters/system_parameters.py:20-230 *)
Definition SystemParameters_annotations : list (string * annotation) :=
  [("device_type", AInt);
   ("serial_number", AInt);
   ("firmware_version", AStr);
   ("service_version", AInt);
   ("certification_variant", AInt);
   ("station_id", AStr);
   ("password_for_full_access_active", ABool);
   ("password_for_reading_is_on", ABool);
   ("metrological_switch", ABool);
   ("user_switch", ABool);
   ("switch_function", AInt);
   ("parameter_crc", AInt);
   ("measuring_period", AInt);
   ("archive_period", AInt);
   ("base_pressure", AFloat);
   ("base_temperature", AFloat);
   ("compressibility_formula", AInt);
   ("gas_composition", AGasComposition);
   ("data_archive_record_length", AInt);
   ("binary_archive_record_length", AInt);
   ("daily_archive_record_length", AInt);
   ("monthly_archive_record_length", AInt);
   ("instantaneous_values_error_bit_order", AInt);
   ("binary_archive_record_error_bit_order", AInt);
   ("data_archive_record_error_bit_order", AInt);
   ("optical_port_speed", AInt);
   ("optical_port_protocol", AInt);
   ("optical_port_bit_control", AInt);
   ("communication_port_0_speed", AInt);
   ("communication_port_0_protocol", AInt);
   ("communication_port_0_bit_control", AInt);
   ("communication_port_1_speed", AInt);
   ("communication_port_1_protocol", AInt);
   ("communication_port_1_bit_control", AInt);
   ("communication_port_2_speed", AInt);
   ("communication_port_2_protocol", AInt);
   ("communication_port_2_bit_control", AInt);
   ("gas_day_hour", AInt);
   ("fixed_barometric_pressure", AFloat);
   ("altitude", AFloat);
   ("status_archive_record_length", AInt);
   ("pressure_unit_type", AInt);
   ("pressure_unit_text", AStr);
   ("temperature_unit_type", AInt);
   ("temperature_unit_text", AStr);
   ("altitude_unit_type", AInt);
   ("altitude_unit_text", AStr);
   ("gross_calorific_value_type", AInt);
   ("gross_calorific_value_text", AStr);
   ("dst_region", AInt);
   ("gmt_hour_shift", AInt);
   ("billing_archive_record_length", AInt);
   ("conditions_for_combustion_heat", AInt);
   ("device_variant", AInt);
   ("bit_control", AInt);
   ("places_for_corrected_volume_counters", AInt);
   ("device_features_bits", AInt);
   ("device_features", AStr);
   ("version_metrological_part", AStr);
   ("metrological_crc", AInt);
   ("metrological_crc_32", AInt);
   ("application_crc_32", AInt)].
(** elgas/parameters/system_parameters.py:233-300 *)
Definition SystemParametersSchema := mk_schema
  [mk_spec "device_type" true false Integer;
   mk_spec "serial_number" true false Integer;
   mk_spec "firmware_version" true false String_;
   mk_spec "service_version" true false Integer;
   mk_spec "certification_variant" true false Integer;
   mk_spec "station_id" true false String_;
   mk_spec "password_for_full_access_active" true false Boolean;
   mk_spec "password_for_reading_is_on" true false Boolean;
   mk_spec "metrological_switch" true false Boolean;
   mk_spec "user_switch" true false Boolean;
   mk_spec "switch_function" true false Integer;
   mk_spec "parameter_crc" true false Integer;
   mk_spec "measuring_period" true false Integer;
   mk_spec "archive_period" true false Integer;
   mk_spec "base_pressure" true false (Float true);
   mk_spec "base_temperature" true false (Float true);
   mk_spec "compressibility_formula" true false Integer;
   mk_spec "gas_composition" true false (Nested (schema_fields GasCompositionSchema) (schema_post_load GasCompositionSchema));
   mk_spec "data_archive_record_length" true false Integer;
   mk_spec "binary_archive_record_length" true false Integer;
   mk_spec "daily_archive_record_length" true false Integer;
   mk_spec "monthly_archive_record_length" true false Integer;
   mk_spec "instantaneous_values_error_bit_order" true false Integer;
   mk_spec "binary_archive_record_error_bit_order" true false Integer;
   mk_spec "data_archive_record_error_bit_order" true false Integer;
   mk_spec "optical_port_speed" true false Integer;
   mk_spec "optical_port_protocol" true false Integer;
   mk_spec "optical_port_bit_control" true false Integer;
   mk_spec "communication_port_0_speed" true false Integer;
   mk_spec "communication_port_0_protocol" true false Integer;
   mk_spec "communication_port_0_bit_control" true false Integer;
   mk_spec "communication_port_1_speed" true false Integer;
   mk_spec "communication_port_1_protocol" true false Integer;
   mk_spec "communication_port_1_bit_control" true false Integer;
   mk_spec "communication_port_2_speed" true false Integer;
   mk_spec "communication_port_2_protocol" true false Integer;
   mk_spec "communication_port_2_bit_control" true false Integer;
   mk_spec "gas_day_hour" true false Integer;
   mk_spec "fixed_barometric_pressure" true false (Float true);
   mk_spec "altitude" true false (Float true);
   mk_spec "status_archive_record_length" true false Integer;
   mk_spec "pressure_unit_type" true false Integer;
   mk_spec "pressure_unit_text" true false String_;
   mk_spec "temperature_unit_type" true false Integer;
   mk_spec "temperature_unit_text" true false String_;
   mk_spec "altitude_unit_type" true false Integer;
   mk_spec "altitude_unit_text" true false String_;
   mk_spec "gross_calorific_value_type" true false Integer;
   mk_spec "gross_calorific_value_text" true false String_;
   mk_spec "dst_region" true false Integer;
   mk_spec "gmt_hour_shift" true false Integer;
   mk_spec "billing_archive_record_length" true false Integer;
   mk_spec "conditions_for_combustion_heat" true false Integer;
   mk_spec "device_variant" true false Integer;
   mk_spec "bit_control" true false Integer;
   mk_spec "places_for_corrected_volume_counters" true false Integer;
   mk_spec "device_features_bits" true false Integer;
   mk_spec "device_features" true false String_;
   mk_spec "version_metrological_part" true false String_;
   mk_spec "metrological_crc" true false Integer;
   mk_spec "metrological_crc_32" true false Integer;
   mk_spec "application_crc_32" true false Integer]
  (Some SystemParameters_class).

(** elgas/parameters/analog_quantity.py:13-104 *)
Definition AnalogQuantity_annotations : list (string * annotation) :=
  [("number", AInt);
   ("id", AInt);
   ("address_in_actual_values", AInt);
   ("address_in_data_archive_record", AInt);
   ("bit_control", AInt);
   ("in_data_archive", ABool);
   ("in_daily_archive", ABool);
   ("in_monthly_archive", ABool);
   ("is_metrological_quantity", ABool);
   ("in_fast_archive_1", ABool);
   ("in_fast_archvie_2", ABool);
   ("name", AStr);
   ("unit", AStr);
   ("digit", AFloat);
   ("offset", AFloat);
   ("lower_limit_measuring_range", AFloat);
   ("upper_limit_measuring_range", AFloat);
   ("serial_number_transducer", AInt);
   ("error_bit_order_in_actual_values", AInt);
   ("error_bit_order_in_binary_archive", AInt);
   ("error_bit_order_in_data_archive", AInt);
   ("address_in_daily_archive_record", AInt);
   ("address_in_monthly_archive_record", AInt);
   ("samples_in_fast_archive", AInt);
   ("decimals", AOptional AInt)].
(** elgas/parameters/analog_quantity.py:107-136 *)
Definition AnalogQuantitySchema := mk_schema
  [mk_spec "number" true false Integer;
   mk_spec "id" true false Integer;
   mk_spec "address_in_actual_values" true false Integer;
   mk_spec "address_in_data_archive_record" true false Integer;
   mk_spec "bit_control" true false Integer;
   mk_spec "in_data_archive" true false Boolean;
   mk_spec "in_daily_archive" true false Boolean;
   mk_spec "in_monthly_archive" true false Boolean;
   mk_spec "is_metrological_quantity" true false Boolean;
   mk_spec "in_fast_archive_1" true false Boolean;
   mk_spec "in_fast_archvie_2" true false Boolean;
   mk_spec "name" true false String_;
   mk_spec "unit" true false String_;
   mk_spec "digit" true false Number;
   mk_spec "offset" true false Number;
   mk_spec "lower_limit_measuring_range" true false Number;
   mk_spec "upper_limit_measuring_range" true false Number;
   mk_spec "serial_number_transducer" true false Integer;
   mk_spec "error_bit_order_in_actual_values" true false Integer;
   mk_spec "error_bit_order_in_binary_archive" true false Integer;
   mk_spec "error_bit_order_in_data_archive" true false Integer;
   mk_spec "address_in_daily_archive_record" true false Integer;
   mk_spec "address_in_monthly_archive_record" true false Integer;
   mk_spec "samples_in_fast_archive" true false Integer;
   mk_spec "decimals" true true Integer]
  (Some AnalogQuantity_class).

(** elgas/parameters/binary.py:12-83 *)
Definition Binary_annotations : list (string * annotation) :=
  [("number", AInt);
   ("id", AInt);
   ("bit_order_in_actual_values", AInt);
   ("bit_order_in_data_archive_record", AInt);
   ("bit_order_in_binary_archive_record", AInt);
   ("bit_control", AInt);
   ("in_binary_archive", ABool);
   ("in_data_archive", ABool);
   ("active_indicator", ABool);
   ("name", AStr);
   ("error_bit_order_in_actual_values", AInt);
   ("error_bit_order_in_binary_archive_record", AInt);
   ("error_bit_order_in_data_archive_record", AInt);
   ("action_during_change", AOptional AInt);
   ("text_log_0", AOptional AStr);
   ("text_log_1", AOptional AStr)].
(** elgas/parameters/binary.py:86-108 *)
Definition BinarySchema := mk_schema
  [mk_spec "number" true false Integer;
   mk_spec "id" true false Integer;
   mk_spec "bit_order_in_actual_values" true false Integer;
   mk_spec "bit_order_in_data_archive_record" true false Integer;
   mk_spec "bit_order_in_binary_archive_record" true false Integer;
   mk_spec "bit_control" true false Integer;
   mk_spec "in_binary_archive" true false Boolean;
   mk_spec "in_data_archive" true false Boolean;
   mk_spec "active_indicator" true false Boolean;
   mk_spec "name" true false String_;
   mk_spec "error_bit_order_in_actual_values" true false Integer;
   mk_spec "error_bit_order_in_binary_archive_record" true false Integer;
   mk_spec "error_bit_order_in_data_archive_record" true false Integer;
   mk_spec "action_during_change" true true Integer;
   mk_spec "text_log_0" true true String_;
   mk_spec "text_log_1" true true String_]
  (Some Binary_class).

(** elgas/parameters/counter.py:13-98 *)
Definition Counter_annotations : list (string * annotation) :=
  [("number", AInt);
   ("id", AInt);
   ("address_in_actual_values", AInt);
   ("address_in_data_archive_record", AInt);
   ("bit_control", AInt);
   ("in_data_archive", ABool);
   ("in_daily_archive", ABool);
   ("in_monthly_archive", ABool);
   ("in_factory_archive", ABool);
   ("is_metrological_quantity", ABool);
   ("accept_counting_direction", ABool);
   ("name", AStr);
   ("unit", AStr);
   ("digit", AFloat);
   ("serial_number_of_gas_meter", AInt);
   ("error_bit_order_in_actual_values", AInt);
   ("error_bit_order_in_binary_archive", AInt);
   ("error_bit_order_in_data_archive", AInt);
   ("address_in_daily_archive_record", AInt);
   ("address_in_monthly_archive_record", AInt);
   ("address_in_billing_archive_record", AInt);
   ("serial_number_of_gas_meter_text", AStr);
   ("decimals", AOptional AInt)].
(** elgas/parameters/counter.py:101-103: inherited *)
Definition DoubleCounter_annotations := Counter_annotations.
(** elgas/parameters/counter.py:106-136 *)
Definition CounterSchema := mk_schema
  [mk_spec "number" true false Integer;
   mk_spec "id" true false Integer;
   mk_spec "address_in_actual_values" true false Integer;
   mk_spec "address_in_data_archive_record" true false Integer;
   mk_spec "bit_control" true false Integer;
   mk_spec "in_data_archive" true false Boolean;
   mk_spec "in_daily_archive" true false Boolean;
   mk_spec "in_monthly_archive" true false Boolean;
   mk_spec "in_factory_archive" true false Boolean;
   mk_spec "is_metrological_quantity" true false Boolean;
   mk_spec "accept_counting_direction" true false Boolean;
   mk_spec "name" true false String_;
   mk_spec "unit" true false String_;
   mk_spec "digit" true false (Float true);
   mk_spec "serial_number_of_gas_meter" true false Integer;
   mk_spec "error_bit_order_in_actual_values" true false Integer;
   mk_spec "error_bit_order_in_binary_archive" true false Integer;
   mk_spec "error_bit_order_in_data_archive" true false Integer;
   mk_spec "address_in_daily_archive_record" true false Integer;
   mk_spec "address_in_monthly_archive_record" true false Integer;
   mk_spec "address_in_billing_archive_record" true false Integer;
   mk_spec "serial_number_of_gas_meter_text" true false String_;
   mk_spec "decimals" true true Integer]
  (Some Counter_class).

(** elgas/parameters/counter.py:139-142: inherits its fields *)
Definition DoubleCounterSchema := mk_schema (schema_fields CounterSchema) (Some DoubleCounter_class).

(** elgas/parameters/standard_counter.py:12-82 *)
Definition StandardCounter_annotations : list (string * annotation) :=
  [("number", AInt);
   ("id", AInt);
   ("address_in_actual_values", AInt);
   ("address_in_data_archive_record", AInt);
   ("bit_control", AInt);
   ("in_data_archive", ABool);
   ("in_daily_archive", ABool);
   ("in_monthly_archive", ABool);
   ("in_factory_archive", ABool);
   ("is_metrological_quantity", ABool);
   ("name", AStr);
   ("unit", AStr);
   ("number_of_primary_counter", AInt);
   ("number_of_conversion", AInt);
   ("address_in_daily_archive_record", AInt);
   ("address_in_monthly_archive_record", AInt);
   ("address_in_billing_archive_record", AInt);
   ("decimals", AOptional AInt)].
(** elgas/parameters/standard_counter.py:85-108 *)
Definition StandardCounterSchema := mk_schema
  [mk_spec "number" true false Integer;
   mk_spec "id" true false Integer;
   mk_spec "address_in_actual_values" true false Integer;
   mk_spec "address_in_data_archive_record" true false Integer;
   mk_spec "bit_control" true false Integer;
   mk_spec "in_data_archive" true false Boolean;
   mk_spec "in_daily_archive" true false Boolean;
   mk_spec "in_monthly_archive" true false Boolean;
   mk_spec "in_factory_archive" true false Boolean;
   mk_spec "is_metrological_quantity" true false Boolean;
   mk_spec "name" true false String_;
   mk_spec "unit" true false String_;
   mk_spec "number_of_primary_counter" true false Integer;
   mk_spec "number_of_conversion" true false Integer;
   mk_spec "address_in_daily_archive_record" true false Integer;
   mk_spec "address_in_monthly_archive_record" true false Integer;
   mk_spec "address_in_billing_archive_record" true false Integer;
   mk_spec "decimals" true true Integer]
  (Some StandardCounter_class).

(** elgas/parameters/flow_rate.py:12-79 *)
Definition FlowRate_annotations : list (string * annotation) :=
  [("number", AInt);
   ("id", AInt);
   ("address_in_actual_values", AInt);
   ("address_in_data_archive_record", AInt);
   ("bit_control", AInt);
   ("in_data_archive", AInt);
   ("in_daily_archive", AInt);
   ("in_monthly_archive", AInt);
   ("is_metrological_quantity", AInt);
   ("name", AStr);
   ("unit", AStr);
   ("error_bit_order_in_actual_values", AInt);
   ("error_bit_order_in_binary_archive", AInt);
   ("error_bit_order_in_data_archive", AInt);
   ("address_in_daily_archive_record", AInt);
   ("address_in_monthly_archive_record", AInt);
   ("decimals", AOptional AInt)].
(** elgas/parameters/flow_rate.py:82-105 *)
Definition FlowRateSchema := mk_schema
  [mk_spec "number" true false Integer;
   mk_spec "id" true false Integer;
   mk_spec "address_in_actual_values" true false Integer;
   mk_spec "address_in_data_archive_record" true false Integer;
   mk_spec "bit_control" true false Integer;
   mk_spec "in_data_archive" true false Integer;
   mk_spec "in_daily_archive" true false Integer;
   mk_spec "in_monthly_archive" true false Integer;
   mk_spec "is_metrological_quantity" true false Integer;
   mk_spec "name" true false String_;
   mk_spec "unit" true false String_;
   mk_spec "error_bit_order_in_actual_values" true false Integer;
   mk_spec "error_bit_order_in_binary_archive" true false Integer;
   mk_spec "error_bit_order_in_data_archive" true false Integer;
   mk_spec "address_in_daily_archive_record" true false Integer;
   mk_spec "address_in_monthly_archive_record" true false Integer;
   mk_spec "decimals" true false Integer]
  (Some FlowRate_class).

(** elgas/parameters/flow_rate.py:109-172 *)
Definition StandardFlowRate_annotations : list (string * annotation) :=
  [("number", AInt);
   ("id", AInt);
   ("address_in_actual_values", AInt);
   ("address_in_data_archive_record", AInt);
   ("bit_control", AInt);
   ("in_data_archive", ABool);
   ("in_daily_archive", ABool);
   ("in_monthly_archive", ABool);
   ("is_metrological_quantity", ABool);
   ("name", AStr);
   ("unit", AStr);
   ("number_of_primary_flow_rate", AInt);
   ("number_of_conversion", AInt);
   ("address_in_daily_archive_record", AInt);
   ("address_in_monthly_archive_record", AInt);
   ("decimals", AOptional AInt)].
(** elgas/parameters/flow_rate.py:175-196 *)
Definition StandardFlowRateSchema := mk_schema
  [mk_spec "number" true false Integer;
   mk_spec "id" true false Integer;
   mk_spec "address_in_actual_values" true false Integer;
   mk_spec "address_in_data_archive_record" true false Integer;
   mk_spec "bit_control" true false Integer;
   mk_spec "in_data_archive" true false Boolean;
   mk_spec "in_daily_archive" true false Boolean;
   mk_spec "in_monthly_archive" true false Boolean;
   mk_spec "is_metrological_quantity" true false Boolean;
   mk_spec "name" true false String_;
   mk_spec "unit" true false String_;
   mk_spec "number_of_primary_flow_rate" true false Integer;
   mk_spec "number_of_conversion" true false Integer;
   mk_spec "address_in_daily_archive_record" true false Integer;
   mk_spec "address_in_monthly_archive_record" true false Integer;
   mk_spec "decimals" true true Integer]
  (Some StandardFlowRate_class).

(** elgas/parameters/conversion_coefficient.py:13-87 *)
Definition ConversionCoefficient_annotations : list (string * annotation) :=
  [("number", AInt);
   ("id", AInt);
   ("address_in_actual_values", AInt);
   ("address_in_data_archive_record", AInt);
   ("bit_control", AInt);
   ("in_data_archive", ABool);
   ("in_daily_archive", ABool);
   ("in_monthly_archive", ABool);
   ("is_metrological_quantity", ABool);
   ("name", AStr);
   ("number_of_analog_pressure", AInt);
   ("number_of_analog_temperature", AInt);
   ("compressibility_calculation_method", AInt);
   ("default_value_pressure", AFloat);
   ("default_value_temperature", AFloat);
   ("alternate_value_of_compressibility", AFloat);
   ("address_in_daily_archive_record", AInt);
   ("address_in_monthly_archive_record", AInt);
   ("decimals", AOptional AInt)].
(** elgas/parameters/conversion_coefficient.py:90-117 *)
Definition ConversionCoefficientSchema := mk_schema
  [mk_spec "number" true false Integer;
   mk_spec "id" true false Integer;
   mk_spec "address_in_actual_values" true false Integer;
   mk_spec "address_in_data_archive_record" true false Integer;
   mk_spec "bit_control" true false Integer;
   mk_spec "in_data_archive" true false Boolean;
   mk_spec "in_daily_archive" true false Boolean;
   mk_spec "in_monthly_archive" true false Boolean;
   mk_spec "is_metrological_quantity" true false Boolean;
   mk_spec "name" true false String_;
   mk_spec "number_of_analog_pressure" true false Integer;
   mk_spec "number_of_analog_temperature" true false Integer;
   mk_spec "compressibility_calculation_method" true false Integer;
   mk_spec "default_value_pressure" true false (Float true);
   mk_spec "default_value_temperature" true false (Float true);
   mk_spec "alternate_value_of_compressibility" true false (Float true);
   mk_spec "address_in_daily_archive_record" true false Integer;
   mk_spec "address_in_monthly_archive_record" true false Integer;
   mk_spec "decimals" true true Integer]
  (Some ConversionCoefficient_class).

(** elgas/parameters/error_counter.py:13-84 *)
Definition ErrorCounter_annotations : list (string * annotation) :=
  [("number", AInt);
   ("id", AInt);
   ("address_in_actual_values", AInt);
   ("address_in_data_archive_record", AInt);
   ("bit_control", AInt);
   ("in_data_archive", ABool);
   ("in_daily_archive", ABool);
   ("in_monthly_archive", ABool);
   ("in_factory_archive", ABool);
   ("is_metrological_quantity", ABool);
   ("name", AStr);
   ("unit", AStr);
   ("digit", AFloat);
   ("number_of_primary_counter", AInt);
   ("address_in_daily_archive_record", AInt);
   ("address_in_monthly_archive_record", AInt);
   ("address_in_billing_archive_record", AInt);
   ("decimals", AOptional AInt)].
(** elgas/parameters/error_counter.py:87-91: inherited *)
Definition DoubleErrorCounter_annotations := ErrorCounter_annotations.
(** elgas/parameters/error_counter.py:94-96: inherited *)
Definition CorrectionCounter_annotations := ErrorCounter_annotations.
(** elgas/parameters/error_counter.py:99-123 *)
Definition ErrorCounterSchema := mk_schema
  [mk_spec "number" true false Integer;
   mk_spec "id" true false Integer;
   mk_spec "address_in_actual_values" true false Integer;
   mk_spec "address_in_data_archive_record" true false Integer;
   mk_spec "bit_control" true false Integer;
   mk_spec "in_data_archive" true false Boolean;
   mk_spec "in_daily_archive" true false Boolean;
   mk_spec "in_monthly_archive" true false Boolean;
   mk_spec "in_factory_archive" true false Boolean;
   mk_spec "is_metrological_quantity" true false Boolean;
   mk_spec "name" true false String_;
   mk_spec "unit" true false String_;
   mk_spec "digit" true false (Float true);
   mk_spec "number_of_primary_counter" true false Integer;
   mk_spec "address_in_daily_archive_record" true false Integer;
   mk_spec "address_in_monthly_archive_record" true false Integer;
   mk_spec "address_in_billing_archive_record" true false Integer;
   mk_spec "decimals" true true Integer]
  (Some ErrorCounter_class).

(** elgas/parameters/error_counter.py:126-129: inherits its fields *)
Definition DoubleErrorCounterSchema := mk_schema (schema_fields ErrorCounterSchema) (Some DoubleErrorCounter_class).

(** elgas/parameters/error_counter.py:132-135: inherits its fields *)
Definition CorrectionCounterSchema := mk_schema (schema_fields ErrorCounterSchema) (Some CorrectionCounter_class).

(** elgas/parameters/error_standard_counter.py:11-79 *)
Definition ErrorStandardCounter_annotations : list (string * annotation) :=
  [("number", AInt);
   ("id", AInt);
   ("address_in_actual_values", AInt);
   ("address_in_data_archive_record", AInt);
   ("bit_control", AInt);
   ("in_data_archive", ABool);
   ("in_daily_archive", ABool);
   ("in_monthly_archive", ABool);
   ("in_factory_archive", ABool);
   ("is_metrological_quantity", ABool);
   ("name", AStr);
   ("unit", AStr);
   ("number_of_standard_counter", AInt);
   ("address_in_daily_archive_record", AInt);
   ("address_in_monthly_archive_record", AInt);
   ("address_in_billing_archive_record", AInt);
   ("decimals", AOptional AInt)].
(** elgas/parameters/error_standard_counter.py:82-100 *)
Definition ErrorStandardCounterSchema := mk_schema
  [mk_spec "number" true false Integer;
   mk_spec "id" true false Integer;
   mk_spec "address_in_actual_values" true false Integer;
   mk_spec "address_in_data_archive_record" true false Integer;
   mk_spec "bit_control" true false Integer;
   mk_spec "in_data_archive" true false Boolean;
   mk_spec "in_daily_archive" true false Boolean;
   mk_spec "in_monthly_archive" true false Boolean;
   mk_spec "in_factory_archive" true false Boolean;
   mk_spec "is_metrological_quantity" true false Boolean;
   mk_spec "name" true false String_;
   mk_spec "unit" true false String_;
   mk_spec "number_of_standard_counter" true false Integer;
   mk_spec "address_in_daily_archive_record" true false Integer;
   mk_spec "address_in_monthly_archive_record" true false Integer;
   mk_spec "address_in_billing_archive_record" true false Integer;
   mk_spec "decimals" true true Integer]
  None.

(** elgas/parameters/compressibility.py:12-69 *)
Definition Compressibility_annotations : list (string * annotation) :=
  [("number", AInt);
   ("id", AInt);
   ("address_in_actual_values", AInt);
   ("address_in_data_archive_record", AInt);
   ("bit_control", AInt);
   ("in_data_archive", ABool);
   ("in_daily_archive", ABool);
   ("in_monthly_archive", ABool);
   ("is_metrological_quantity", ABool);
   ("name", AStr);
   ("number_of_conversion_coefficient", AInt);
   ("address_in_daily_archive_record", AInt);
   ("address_in_monthly_archive_record", AInt);
   ("decimals", AOptional AInt)].
(** elgas/parameters/compressibility.py:72-74: inherited *)
Definition CompressibilityZ_annotations := Compressibility_annotations.
(** elgas/parameters/compressibility.py:77-81: inherited *)
Definition CompressibilityZBase_annotations := Compressibility_annotations.
(** elgas/parameters/compressibility.py:84-103 *)
Definition CompressibilitySchema := mk_schema
  [mk_spec "number" true false Integer;
   mk_spec "id" true false Integer;
   mk_spec "address_in_actual_values" true false Integer;
   mk_spec "address_in_data_archive_record" true false Integer;
   mk_spec "bit_control" true false Integer;
   mk_spec "in_data_archive" true false Boolean;
   mk_spec "in_daily_archive" true false Boolean;
   mk_spec "in_monthly_archive" true false Boolean;
   mk_spec "is_metrological_quantity" true false Boolean;
   mk_spec "name" true false String_;
   mk_spec "number_of_conversion_coefficient" true false Integer;
   mk_spec "address_in_daily_archive_record" true false Integer;
   mk_spec "address_in_monthly_archive_record" true false Integer;
   mk_spec "decimals" true true Integer]
  (Some Compressibility_class).

(** elgas/parameters/compressibility.py:106-109: inherits its fields *)
Definition CompressibilityZSchema := mk_schema (schema_fields CompressibilitySchema) (Some CompressibilityZ_class).

(** elgas/parameters/compressibility.py:112-115: inherits its fields *)
Definition CompressibilityZBaseSchema := mk_schema (schema_fields CompressibilitySchema) (Some CompressibilityZBase_class).

(** elgas/parameters/time_window.py:12-74 *)
Definition TimeWindow_annotations : list (string * annotation) :=
  [("number", AInt);
   ("id", AInt);
   ("bit_order_in_actual_values", AInt);
   ("bit_order_in_data_archive_record", AInt);
   ("bit_order_in_binary_archive_record", AInt);
   ("bit_control", AInt);
   ("in_binary_archive", ABool);
   ("in_data_archive", ABool);
   ("name", AStr);
   ("rows_in_window", AInt);
   ("rows", AStrs);
   ("action_during_change", AOptional AInt);
   ("text_log_0", AOptional AStr);
   ("text_log_1", AOptional AStr)].
(** elgas/parameters/time_window.py:77-97 *)
Definition TimeWindowSchema := mk_schema
  [mk_spec "number" true false Integer;
   mk_spec "id" true false Integer;
   mk_spec "bit_order_in_actual_values" true false Integer;
   mk_spec "bit_order_in_data_archive_record" true false Integer;
   mk_spec "bit_order_in_binary_archive_record" true false Integer;
   mk_spec "bit_control" true false Integer;
   mk_spec "in_binary_archive" true false Boolean;
   mk_spec "in_data_archive" true false Boolean;
   mk_spec "name" true false String_;
   mk_spec "rows_in_window" true false Integer;
   mk_spec "rows" true false (List_ String_);
   mk_spec "action_during_change" true true Integer;
   mk_spec "text_log_0" true true String_;
   mk_spec "text_log_1" true true String_]
  (Some TimeWindow_class).

(** elgas/parameters/diagnostics.py:12-80 *)
Definition Diagnostics_annotations : list (string * annotation) :=
  [("number", AInt);
   ("id", AInt);
   ("address_in_actual_values", AInt);
   ("address_in_data_archive_record", AInt);
   ("bit_control", AInt);
   ("in_data_archive", ABool);
   ("in_daily_archive", ABool);
   ("in_monthly_archive", ABool);
   ("in_factory_archive", ABool);
   ("name", AStr);
   ("address_in_daily_archive_record", AInt);
   ("address_in_monthly_archive_record", AInt);
   ("mask_1_of_status_archive", AInt);
   ("mask_2_of_status_archive", AInt);
   ("mask_1_of_alarm", AInt);
   ("mask_2_of_alarm", AInt);
   ("mask_1_of_calling_to_dispatching", AInt);
   ("mask_2_of_calling_to_dispatching", AInt);
   ("action_during_change", AInt)].
(** elgas/parameters/diagnostics.py:83-108 *)
Definition DiagnosticsSchema := mk_schema
  [mk_spec "number" true false Integer;
   mk_spec "id" true false Integer;
   mk_spec "address_in_actual_values" true false Integer;
   mk_spec "address_in_data_archive_record" true false Integer;
   mk_spec "bit_control" true false Integer;
   mk_spec "in_data_archive" true false Boolean;
   mk_spec "in_daily_archive" true false Boolean;
   mk_spec "in_monthly_archive" true false Boolean;
   mk_spec "in_factory_archive" true false Boolean;
   mk_spec "name" true false String_;
   mk_spec "address_in_daily_archive_record" true false Integer;
   mk_spec "address_in_monthly_archive_record" true false Integer;
   mk_spec "mask_1_of_status_archive" true false Integer;
   mk_spec "mask_2_of_status_archive" true false Integer;
   mk_spec "mask_1_of_alarm" true false Integer;
   mk_spec "mask_2_of_alarm" true false Integer;
   mk_spec "mask_1_of_calling_to_dispatching" true false Integer;
   mk_spec "mask_2_of_calling_to_dispatching" true false Integer;
   mk_spec "action_during_change" true false Integer]
  (Some Diagnostics_class).

(** elgas/parameters/setpoint.py:12-78 *)
Definition SetPoint_annotations : list (string * annotation) :=
  [("number", AInt);
   ("id", AInt);
   ("bit_order_in_actual_values", AInt);
   ("bit_order_in_data_archive_record", AInt);
   ("bit_order_in_binary_archive_record", AInt);
   ("bit_control", AInt);
   ("in_binary_archive", ABool);
   ("in_data_archive", ABool);
   ("active_indicator", ABool);
   ("name", AStr);
   ("value_of_limit", AFloat);
   ("type_of_primary_quantity", AInt);
   ("number_of_primary_quantity", AInt);
   ("action_during_change", AOptional AInt);
   ("text_log_0", AOptional AStr);
   ("text_log_1", AOptional AStr)].
(** elgas/parameters/setpoint.py:81-99 *)
Definition SetPointSchema := mk_schema
  [mk_spec "number" true false Integer;
   mk_spec "id" true false Integer;
   mk_spec "bit_order_in_actual_values" true false Integer;
   mk_spec "bit_order_in_data_archive_record" true false Integer;
   mk_spec "bit_order_in_binary_archive_record" true false Integer;
   mk_spec "bit_control" true false Integer;
   mk_spec "in_binary_archive" true false Boolean;
   mk_spec "in_data_archive" true false Boolean;
   mk_spec "active_indicator" true false Boolean;
   mk_spec "name" true false String_;
   mk_spec "value_of_limit" true false (Float true);
   mk_spec "type_of_primary_quantity" true false Integer;
   mk_spec "number_of_primary_quantity" true false Integer;
   mk_spec "action_during_change" true true Integer;
   mk_spec "text_log_0" true true String_;
   mk_spec "text_log_1" true true String_]
  None.

(** elgas/parameters/energy.py:12-85 *)
Definition Energy_annotations : list (string * annotation) :=
  [("number", AInt);
   ("id", AInt);
   ("address_in_actual_values", AInt);
   ("address_in_data_archive_record", AInt);
   ("bit_control", AInt);
   ("in_data_archive", ABool);
   ("in_daily_archive", ABool);
   ("in_monthly_archive", ABool);
   ("in_factory_archive", ABool);
   ("is_metrological_quantity", ABool);
   ("name", AStr);
   ("unit", AStr);
   ("number_of_standard_counter", AInt);
   ("number_of_calorific_value", AInt);
   ("number_of_conversion", AInt);
   ("address_in_daily_archive_record", AInt);
   ("address_in_monthly_archive_record", AInt);
   ("address_in_billing_archive_record", AInt);
   ("decimals", AOptional AInt)].
(** elgas/parameters/energy.py:88-89: inherited *)
Definition ErrorEnergy_annotations := Energy_annotations.
(** elgas/parameters/energy.py:92-117 *)
Definition EnergySchema := mk_schema
  [mk_spec "number" true false Integer;
   mk_spec "id" true false Integer;
   mk_spec "address_in_actual_values" true false Integer;
   mk_spec "address_in_data_archive_record" true false Integer;
   mk_spec "bit_control" true false Integer;
   mk_spec "in_data_archive" true false Boolean;
   mk_spec "in_daily_archive" true false Boolean;
   mk_spec "in_monthly_archive" true false Boolean;
   mk_spec "in_factory_archive" true false Boolean;
   mk_spec "is_metrological_quantity" true false Boolean;
   mk_spec "name" true false String_;
   mk_spec "unit" true false String_;
   mk_spec "number_of_standard_counter" true false Integer;
   mk_spec "number_of_calorific_value" true false Integer;
   mk_spec "number_of_conversion" true false Integer;
   mk_spec "address_in_daily_archive_record" true false Integer;
   mk_spec "address_in_monthly_archive_record" true false Integer;
   mk_spec "address_in_billing_archive_record" true false Integer;
   mk_spec "decimals" true true Integer]
  (Some Energy_class).

(** elgas/parameters/energy.py:120-123: inherits its fields *)
Definition ErrorEnergySchema := mk_schema (schema_fields EnergySchema) (Some ErrorEnergy_class).

(** elgas/parameters/tariff_counter.py:13-86 *)
Definition TariffCounter_annotations : list (string * annotation) :=
  [("number", AInt);
   ("id", AInt);
   ("address_in_actual_values", AInt);
   ("address_in_data_archive_record", AInt);
   ("bit_control", AInt);
   ("in_data_archive", ABool);
   ("in_daily_archive", ABool);
   ("in_monthly_archive", ABool);
   ("in_factory_archive", ABool);
   ("is_metrological_quantity", ABool);
   ("name", AStr);
   ("unit", AStr);
   ("digit", AFloat);
   ("number_of_primary_counter", AInt);
   ("tariff", AInt);
   ("address_in_daily_archive_record", AInt);
   ("address_in_monthly_archive_record", AInt);
   ("address_in_billing_archive_record", AInt);
   ("decimals", AOptional AInt)].
(** elgas/parameters/tariff_counter.py:89-113 *)
Definition TariffCounterSchema := mk_schema
  [mk_spec "number" true false Integer;
   mk_spec "id" true false Integer;
   mk_spec "address_in_actual_values" true false Integer;
   mk_spec "address_in_data_archive_record" true false Integer;
   mk_spec "bit_control" true false Integer;
   mk_spec "in_data_archive" true false Boolean;
   mk_spec "in_daily_archive" true false Boolean;
   mk_spec "in_monthly_archive" true false Boolean;
   mk_spec "in_factory_archive" true false Boolean;
   mk_spec "is_metrological_quantity" true false Boolean;
   mk_spec "name" true false String_;
   mk_spec "unit" true false String_;
   mk_spec "digit" true false (Float false);
   mk_spec "number_of_primary_counter" true false Integer;
   mk_spec "tariff" true false Integer;
   mk_spec "address_in_daily_archive_record" true false Integer;
   mk_spec "address_in_monthly_archive_record" true false Integer;
   mk_spec "address_in_billing_archive_record" true false Integer;
   mk_spec "decimals" true true Integer]
  (Some TariffCounter_class).

(** elgas/parameters/tariff_counter.py:116-120: inherited *)
Definition DoubleTariffCounter_annotations := TariffCounter_annotations.
(** elgas/parameters/tariff_counter.py:123-126: inherits its fields *)
Definition DoubleTariffCounterSchema := mk_schema (schema_fields TariffCounterSchema) (Some DoubleTariffCounter_class).

(** elgas/parameters/tariff_counter.py:130-200 *)
Definition BaseTariffCounter_annotations : list (string * annotation) :=
  [("number", AInt);
   ("id", AInt);
   ("address_in_actual_values", AInt);
   ("address_in_data_archive_record", AInt);
   ("bit_control", AInt);
   ("in_data_archive", ABool);
   ("in_daily_archive", ABool);
   ("in_monthly_archive", ABool);
   ("in_factory_archive", ABool);
   ("is_metrological_quantity", ABool);
   ("name", AStr);
   ("unit", AStr);
   ("number_of_base_counter", AInt);
   ("tariff", AInt);
   ("address_in_daily_archive_record", AInt);
   ("address_in_monthly_archive_record", AInt);
   ("address_in_billing_archive_record", AInt);
   ("decimals", AOptional AInt)].
(** elgas/parameters/tariff_counter.py:203-226 *)
Definition BaseTariffCounterSchema := mk_schema
  [mk_spec "number" true false Integer;
   mk_spec "id" true false Integer;
   mk_spec "address_in_actual_values" true false Integer;
   mk_spec "address_in_data_archive_record" true false Integer;
   mk_spec "bit_control" true false Integer;
   mk_spec "in_data_archive" true false Boolean;
   mk_spec "in_daily_archive" true false Boolean;
   mk_spec "in_monthly_archive" true false Boolean;
   mk_spec "in_factory_archive" true false Boolean;
   mk_spec "is_metrological_quantity" true false Boolean;
   mk_spec "name" true false String_;
   mk_spec "unit" true false String_;
   mk_spec "number_of_base_counter" true false Integer;
   mk_spec "tariff" true false Integer;
   mk_spec "address_in_daily_archive_record" true false Integer;
   mk_spec "address_in_monthly_archive_record" true false Integer;
   mk_spec "address_in_billing_archive_record" true false Integer;
   mk_spec "decimals" true true Integer]
  (Some BaseTariffCounter_class).

(** elgas/parameters/difference_counter.py:13-83 *)
Definition DifferenceCounter_annotations : list (string * annotation) :=
  [("number", AInt);
   ("id", AInt);
   ("address_in_actual_values", AInt);
   ("address_in_data_archive_record", AInt);
   ("bit_control", AInt);
   ("in_data_archive", ABool);
   ("in_daily_archive", ABool);
   ("in_monthly_archive", ABool);
   ("is_double", ABool);
   ("is_metrological_quantity", ABool);
   ("name", AStr);
   ("unit", AStr);
   ("digit", AFloat);
   ("number_of_primary_counter", AInt);
   ("address_in_daily_archive_record", AInt);
   ("address_in_monthly_archive_record", AInt);
   ("address_in_billing_archive_record", AInt);
   ("decimals", AOptional AInt)].
(** elgas/parameters/difference_counter.py:86-90 *)
Definition DifferenceBaseCounter_annotations : list (string * annotation) :=
  [].
(** elgas/parameters/difference_counter.py:93-116 *)
Definition DifferenceCounterSchema := mk_schema
  [mk_spec "number" true false Integer;
   mk_spec "id" true false Integer;
   mk_spec "address_in_actual_values" true false Integer;
   mk_spec "address_in_data_archive_record" true false Integer;
   mk_spec "bit_control" true false Integer;
   mk_spec "in_data_archive" true false Boolean;
   mk_spec "in_daily_archive" true false Boolean;
   mk_spec "in_monthly_archive" true false Boolean;
   mk_spec "is_double" true false Boolean;
   mk_spec "is_metrological_quantity" true false Boolean;
   mk_spec "name" true false String_;
   mk_spec "unit" true false String_;
   mk_spec "digit" true false (Float true);
   mk_spec "number_of_primary_counter" true false Integer;
   mk_spec "address_in_daily_archive_record" true false Integer;
   mk_spec "address_in_monthly_archive_record" true false Integer;
   mk_spec "address_in_billing_archive_record" true false Integer;
   mk_spec "decimals" true true Integer]
  (Some DifferenceCounter_class).

(** elgas/parameters/difference_counter.py:119-122: inherits its fields *)
Definition DifferenceBaseCounterSchema := mk_schema (schema_fields DifferenceCounterSchema) (Some DifferenceBaseCounter_class).

(** elgas/parameters/timer.py:12-62 *)
Definition Timer_annotations : list (string * annotation) :=
  [("number", AInt);
   ("id", AInt);
   ("address_in_actual_values", AInt);
   ("address_in_data_archive_record", AInt);
   ("bit_control", AInt);
   ("in_data_archive", AInt);
   ("in_daily_archive", AInt);
   ("in_monthly_archive", AInt);
   ("is_metrological_quantity", AInt);
   ("name", AStr);
   ("address_in_daily_archive_record", AInt);
   ("address_in_monthly_archive_record", AInt)].
(** elgas/parameters/timer.py:65-82 *)
Definition TimerSchema := mk_schema
  [mk_spec "number" true false Integer;
   mk_spec "id" true false Integer;
   mk_spec "address_in_actual_values" true false Integer;
   mk_spec "address_in_data_archive_record" true false Integer;
   mk_spec "bit_control" true false Integer;
   mk_spec "in_data_archive" true false Integer;
   mk_spec "in_daily_archive" true false Integer;
   mk_spec "in_monthly_archive" true false Integer;
   mk_spec "is_metrological_quantity" true false Integer;
   mk_spec "name" true false String_;
   mk_spec "address_in_daily_archive_record" true false Integer;
   mk_spec "address_in_monthly_archive_record" true false Integer]
  (Some Timer_class).

(** elgas/parameters/device_error.py:12-69 *)
Definition DeviceError_annotations : list (string * annotation) :=
  [("number", AInt);
   ("id", AInt);
   ("bit_order_in_actual_values", AInt);
   ("bit_order_in_data_archive_record", AInt);
   ("bit_order_in_binary_archive_record", AInt);
   ("bit_control", AInt);
   ("in_binary_archive", ABool);
   ("in_data_archive", ABool);
   ("name", AStr);
   ("error_bit_order_in_actual_values", AInt);
   ("error_bit_order_in_binary_archive_record", AInt);
   ("error_bit_order_in_data_archive_record", AInt);
   ("action_during_change", AOptional AInt);
   ("text_log_0", AOptional AStr);
   ("text_log_1", AOptional AStr)].
(** elgas/parameters/device_error.py:72-93 *)
Definition DeviceErrorSchema := mk_schema
  [mk_spec "number" true false Integer;
   mk_spec "id" true false Integer;
   mk_spec "bit_order_in_actual_values" true false Integer;
   mk_spec "bit_order_in_data_archive_record" true false Integer;
   mk_spec "bit_order_in_binary_archive_record" true false Integer;
   mk_spec "bit_control" true false Integer;
   mk_spec "in_binary_archive" true false Boolean;
   mk_spec "in_data_archive" true false Boolean;
   mk_spec "name" true false String_;
   mk_spec "error_bit_order_in_actual_values" true false Integer;
   mk_spec "error_bit_order_in_binary_archive_record" true false Integer;
   mk_spec "error_bit_order_in_data_archive_record" true false Integer;
   mk_spec "action_during_change" true true Integer;
   mk_spec "text_log_0" true true Integer;
   mk_spec "text_log_1" true true Integer]
  (Some DeviceError_class).

(** elgas/parameters/sum_of_alarms.py:12-69 *)
Definition SumOfAlarms_annotations : list (string * annotation) :=
  [("number", AInt);
   ("id", AInt);
   ("bit_order_in_actual_values", AInt);
   ("bit_order_in_data_archive_record", AInt);
   ("bit_order_in_binary_archive_record", AInt);
   ("bit_control", AInt);
   ("in_binary_archive", ABool);
   ("in_data_archive", ABool);
   ("name", AStr);
   ("error_bit_order_in_actual_values", AInt);
   ("error_bit_order_in_binary_archive_record", AInt);
   ("error_bit_order_in_data_archive_record", AInt);
   ("action_during_change", AOptional AInt);
   ("text_log_0", AOptional AStr);
   ("text_log_1", AOptional AStr)].
(** elgas/parameters/sum_of_alarms.py:72-92 *)
Definition SumOfAlarmsSchema := mk_schema
  [mk_spec "number" true false Integer;
   mk_spec "id" true false Integer;
   mk_spec "bit_order_in_actual_values" true false Integer;
   mk_spec "bit_order_in_data_archive_record" true false Integer;
   mk_spec "bit_order_in_binary_archive_record" true false Integer;
   mk_spec "bit_control" true false Integer;
   mk_spec "in_binary_archive" true false Boolean;
   mk_spec "in_data_archive" true false Boolean;
   mk_spec "name" true false String_;
   mk_spec "error_bit_order_in_actual_values" true false Integer;
   mk_spec "error_bit_order_in_binary_archive_record" true false Integer;
   mk_spec "error_bit_order_in_data_archive_record" true false Integer;
   mk_spec "action_during_change" true true Integer;
   mk_spec "text_log_0" true true String_;
   mk_spec "text_log_1" true true String_]
  (Some SumOfAlarms_class).

(** elgas/parameters/statistics.py:13-80 *)
Definition AnalogStatistics_annotations : list (string * annotation) :=
  [("number", AInt);
   ("id", AInt);
   ("address_in_actual_values", AInt);
   ("address_in_data_archive_record", AInt);
   ("bit_control", AInt);
   ("in_data_archive", ABool);
   ("in_daily_archive", ABool);
   ("in_monthly_archive", ABool);
   ("is_metrological_quantity", ABool);
   ("name", AStr);
   ("unit", AStr);
   ("digit", AFloat);
   ("offset", AFloat);
   ("number_of_primary_quantity", AInt);
   ("statistics_type", AInt);
   ("address_in_daily_archive_record", AInt);
   ("address_in_monthly_archive_record", AInt);
   ("decimals", AOptional AInt)].
(** elgas/parameters/statistics.py:83-106 *)
Definition AnalogStatisticsSchema := mk_schema
  [mk_spec "number" true false Integer;
   mk_spec "id" true false Integer;
   mk_spec "address_in_actual_values" true false Integer;
   mk_spec "address_in_data_archive_record" true false Integer;
   mk_spec "bit_control" true false Integer;
   mk_spec "in_data_archive" true false Boolean;
   mk_spec "in_daily_archive" true false Boolean;
   mk_spec "in_monthly_archive" true false Boolean;
   mk_spec "is_metrological_quantity" true false Boolean;
   mk_spec "name" true false String_;
   mk_spec "unit" true false String_;
   mk_spec "digit" true false (Float true);
   mk_spec "offset" true false (Float true);
   mk_spec "number_of_primary_quantity" true false Integer;
   mk_spec "statistics_type" true false Integer;
   mk_spec "address_in_daily_archive_record" true false Integer;
   mk_spec "address_in_monthly_archive_record" true false Integer;
   mk_spec "decimals" true true Integer]
  (Some AnalogStatistics_class).

(** elgas/parameters/statistics.py:109-110: inherited *)
Definition Statistics_annotations := AnalogStatistics_annotations.
(** elgas/parameters/statistics.py:113-116: inherits its fields *)
Definition StatisticsSchema := mk_schema (schema_fields AnalogStatisticsSchema) (Some Statistics_class).

(** elgas/parameters/statistics.py:119-122: inherited *)
Definition AnalogTimeStatistics_annotations := AnalogStatistics_annotations.
(** elgas/parameters/statistics.py:125-128: inherits its fields *)
Definition AnalogTimeStatisticsSchema := mk_schema (schema_fields AnalogStatisticsSchema) (Some AnalogTimeStatistics_class).

(** elgas/parameters/statistics.py:131-132: inherited *)
Definition TimeStatistics_annotations := AnalogStatistics_annotations.
(** elgas/parameters/statistics.py:135-138: inherits its fields *)
Definition TimeStatisticsSchema := mk_schema (schema_fields AnalogStatisticsSchema) (Some TimeStatistics_class).

(** elgas/parameters/statistics.py:142-204 *)
Definition CounterStatistics_annotations : list (string * annotation) :=
  [("number", AInt);
   ("id", AInt);
   ("address_in_actual_values", AInt);
   ("address_in_data_archive_record", AInt);
   ("bit_control", AInt);
   ("in_data_archive", ABool);
   ("in_daily_archive", ABool);
   ("in_monthly_archive", ABool);
   ("is_metrological_quantity", ABool);
   ("name", AStr);
   ("unit", AStr);
   ("digit", AFloat);
   ("type_of_primary_quantity", AInt);
   ("number_of_primary_quantity", AInt);
   ("statistics_type", AInt);
   ("address_in_daily_archive_record", AInt);
   ("address_in_monthly_archive_record", AInt)].
(** elgas/parameters/statistics.py:207-210: inherited *)
Definition StandardCounterStatistics_annotations := CounterStatistics_annotations.
(** elgas/parameters/statistics.py:213-235 *)
Definition CounterStatisticsSchema := mk_schema
  [mk_spec "number" true false Integer;
   mk_spec "id" true false Integer;
   mk_spec "address_in_actual_values" true false Integer;
   mk_spec "address_in_data_archive_record" true false Integer;
   mk_spec "bit_control" true false Integer;
   mk_spec "in_data_archive" true false Boolean;
   mk_spec "in_daily_archive" true false Boolean;
   mk_spec "in_monthly_archive" true false Boolean;
   mk_spec "is_metrological_quantity" true false Boolean;
   mk_spec "name" true false String_;
   mk_spec "unit" true false String_;
   mk_spec "digit" true false (Float true);
   mk_spec "type_of_primary_quantity" true false Integer;
   mk_spec "number_of_primary_quantity" true false Integer;
   mk_spec "statistics_type" true false Integer;
   mk_spec "address_in_daily_archive_record" true false Integer;
   mk_spec "address_in_monthly_archive_record" true false Integer]
  (Some CounterStatistics_class).

(** elgas/parameters/statistics.py:238-241: inherits its fields *)
Definition StandardCounterStatisticsSchema := mk_schema (schema_fields CounterStatisticsSchema) (Some StandardCounterStatistics_class).

(** elgas/parameters/modem.py:11-90 *)
Definition Modem_annotations : list (string * annotation) :=
  [("number", AInt);
   ("bit_control_0", AInt);
   ("title", AStr);
   ("modem_type", AInt);
   ("initialization", AStr);
   ("call_to_dispatching", AStr);
   ("modem_hang_up", AStr);
   ("special_initialization", AStr);
   ("ip_address_for_registration_and_diagnostics", AStr);
   ("ip_address_for_calling_to_dispatching", AStr);
   ("registration_send_period", AInt);
   ("authentication_mode", AInt);
   ("port_for_registration", AInt);
   ("port_for_calling_to_dispatching", AInt);
   ("sms_call", AStr);
   ("gprs_user_name", AStr);
   ("gprs_password", AStr);
   ("ip_address_for_ping", AStr);
   ("ping_period", AInt);
   ("transition_into_command_mode", AStr);
   ("pin", AStr);
   ("owner_sim_number", AOptional AStr)].
(** elgas/parameters/modem.py:93-118 *)
Definition ModemSchema := mk_schema
  [mk_spec "number" true false Integer;
   mk_spec "bit_control_0" true false Integer;
   mk_spec "title" true false String_;
   mk_spec "modem_type" true false Integer;
   mk_spec "initialization" true false String_;
   mk_spec "call_to_dispatching" true false String_;
   mk_spec "modem_hang_up" true false String_;
   mk_spec "special_initialization" true false String_;
   mk_spec "ip_address_for_registration_and_diagnostics" true false String_;
   mk_spec "ip_address_for_calling_to_dispatching" true false String_;
   mk_spec "registration_send_period" true false Integer;
   mk_spec "authentication_mode" true false Integer;
   mk_spec "port_for_registration" true false Integer;
   mk_spec "port_for_calling_to_dispatching" true false Integer;
   mk_spec "sms_call" true false String_;
   mk_spec "gprs_user_name" true false String_;
   mk_spec "gprs_password" true false String_;
   mk_spec "ip_address_for_ping" true false String_;
   mk_spec "ping_period" true false Integer;
   mk_spec "transition_into_command_mode" true false String_;
   mk_spec "pin" true false String_;
   mk_spec "owner_sim_number" true true String_]
  None.

(** elgas/integration.py:14-17 *)
Definition ConfigurationObjectSchema := mk_schema
  [mk_spec "parameter_type" true false Integer;
   mk_spec "data" true false Dict]
  None.

(** elgas/integration.py:32-36 *)
Definition UtilitarianConfigurationObjectSchema := mk_schema
  [mk_spec "parameter_type" true false Integer;
   mk_spec "data" true false Dict;
   mk_spec "series_name" true true String_]
  None.

(** elgas/integration.py:39-42 *)
Definition UtilitarianConfigurationSchema := mk_schema
  [mk_spec "objects" false false (List_ (Nested (schema_fields UtilitarianConfigurationObjectSchema) (schema_post_load UtilitarianConfigurationObjectSchema)))]
  None.

(** elgas/parameters/factory.py:132-168, [object_map]; None: no such key *)
Definition registered_schema (t : parameter_type) : option (schema) :=
  match t with
  | SYSTEM_PARAMETER => Some SystemParametersSchema
  | ANALOG_MEASURAND => Some AnalogQuantitySchema
  | BINARY => Some BinarySchema
  | COUNTER => Some CounterSchema
  | STANDARD_COUNTER => Some StandardCounterSchema
  | FLOW_RATE => Some FlowRateSchema
  | STANDARD_FLOW_RATE => Some StandardFlowRateSchema
  | CONVERSION_COEFFICIENT => Some ConversionCoefficientSchema
  | ERROR_COUNTER => Some ErrorCounterSchema
  | ERROR_STANDARD_COUNTER => Some ErrorStandardCounterSchema
  | COMPRESSIBILITY => Some CompressibilitySchema
  | TIME_WINDOW => Some TimeWindowSchema
  | DOUBLE_COUNTER => Some DoubleCounterSchema
  | DOUBLE_ERROR_COUNTER => Some DoubleErrorCounterSchema
  | DIAGNOSTICS => Some DiagnosticsSchema
  | SET_POINT => Some SetPointSchema
  | COMPRESSIBILITY_Z => Some CompressibilityZSchema
  | COMPRESSIBILITY_Z_BASE => Some CompressibilityZBaseSchema
  | ENERGY => Some EnergySchema
  | ERROR_ENERGY => Some ErrorEnergySchema
  | TARIFF_COUNTER => Some TariffCounterSchema
  | DOUBLE_TARIFF_COUNTER => Some DoubleTariffCounterSchema
  | BASE_TARIFF_COUNTER => Some BaseTariffCounterSchema
  | DIFFERENCE_COUNTER => Some DifferenceCounterSchema
  | DIFFERENCE_BASE_COUNTER => Some DifferenceBaseCounterSchema
  | TIMER => Some TimerSchema
  | DEVICE_ERROR => Some DeviceErrorSchema
  | SUM_OF_ALARMS => Some SumOfAlarmsSchema
  | ANALOG_STATISTICS => Some AnalogStatisticsSchema
  | STATISTICS => Some StatisticsSchema
  | ANALOG_TIME_STATISTICS => Some AnalogTimeStatisticsSchema
  | TIME_STATISTICS => Some TimeStatisticsSchema
  | COUNTER_STATISTICS => Some CounterStatisticsSchema
  | STANDARD_COUNTER_STATISTICS => Some StandardCounterStatisticsSchema
  | MODEM => Some ModemSchema
  | CORRECTION_COUNTER => None
  end.

(** elgas/parameters/factory.py:85-121, [object_map], the annotations of the class; None: no such key *)
Definition registered_annotations (t : parameter_type) : option (list (string * annotation)) :=
  match t with
  | SYSTEM_PARAMETER => Some SystemParameters_annotations
  | ANALOG_MEASURAND => Some AnalogQuantity_annotations
  | BINARY => Some Binary_annotations
  | COUNTER => Some Counter_annotations
  | STANDARD_COUNTER => Some StandardCounter_annotations
  | FLOW_RATE => Some FlowRate_annotations
  | STANDARD_FLOW_RATE => Some StandardFlowRate_annotations
  | CONVERSION_COEFFICIENT => Some ConversionCoefficient_annotations
  | ERROR_COUNTER => Some ErrorCounter_annotations
  | ERROR_STANDARD_COUNTER => Some ErrorStandardCounter_annotations
  | COMPRESSIBILITY => Some Compressibility_annotations
  | TIME_WINDOW => Some TimeWindow_annotations
  | DOUBLE_COUNTER => Some DoubleCounter_annotations
  | DOUBLE_ERROR_COUNTER => Some DoubleErrorCounter_annotations
  | DIAGNOSTICS => Some Diagnostics_annotations
  | SET_POINT => Some SetPoint_annotations
  | COMPRESSIBILITY_Z => Some CompressibilityZ_annotations
  | COMPRESSIBILITY_Z_BASE => Some CompressibilityZBase_annotations
  | ENERGY => Some Energy_annotations
  | ERROR_ENERGY => Some ErrorEnergy_annotations
  | TARIFF_COUNTER => Some TariffCounter_annotations
  | DOUBLE_TARIFF_COUNTER => Some DoubleTariffCounter_annotations
  | BASE_TARIFF_COUNTER => Some BaseTariffCounter_annotations
  | DIFFERENCE_COUNTER => Some DifferenceCounter_annotations
  | DIFFERENCE_BASE_COUNTER => Some DifferenceBaseCounter_annotations
  | TIMER => Some Timer_annotations
  | DEVICE_ERROR => Some DeviceError_annotations
  | SUM_OF_ALARMS => Some SumOfAlarms_annotations
  | ANALOG_STATISTICS => Some AnalogStatistics_annotations
  | STATISTICS => Some Statistics_annotations
  | ANALOG_TIME_STATISTICS => Some AnalogTimeStatistics_annotations
  | TIME_STATISTICS => Some TimeStatistics_annotations
  | COUNTER_STATISTICS => Some CounterStatistics_annotations
  | STANDARD_COUNTER_STATISTICS => Some StandardCounterStatistics_annotations
  | MODEM => Some Modem_annotations
  | CORRECTION_COUNTER => None
  end.

