(** The classes of elgas/parameters/*.py: attributes and [from_bytes] bodies in the
    syntax of ParamLang.v, the registry of types, and the parser of parameter
    blocks.  The class definitions up to [registered_class] are a statement by
    statement transcription made by tools/gen_parameters.py, which reads the
    sources as text.  The class variables ([object_type], [value_length]) are in ClassVars.v. *)
From Verif Require Export ParamLang.
From Verif Require Import Utils.
Open Scope string_scope.
Open Scope Z_scope.

(** elgas/parameters/gas_composition.py:37-64 *)
Definition GasComposition_from_bytes : stmt :=
  block [Return [("co2", App UnpackF (PopMany 4));
      ("n2", App UnpackF (PopMany 4));
      ("combustion_heat", App UnpackF (PopMany 4));
      ("relative_density", App UnpackF (PopMany 4));
      ("h2", App UnpackF (PopMany 4));
      ("h2s", App UnpackF (PopMany 4));
      ("he", App UnpackF (PopMany 4));
      ("h2o", App UnpackF (PopMany 4));
      ("o2", App UnpackF (PopMany 4));
      ("ar", App UnpackF (PopMany 4));
      ("co", App UnpackF (PopMany 4));
      ("c1h4", App UnpackF (PopMany 4));
      ("c2h6", App UnpackF (PopMany 4));
      ("c3h8", App UnpackF (PopMany 4));
      ("ic4h10", App UnpackF (PopMany 4));
      ("nc4h10", App UnpackF (PopMany 4));
      ("ic5h12", App UnpackF (PopMany 4));
      ("nc5h12", App UnpackF (PopMany 4));
      ("c6h14", App UnpackF (PopMany 4));
      ("c7h16", App UnpackF (PopMany 4));
      ("c8h18", App UnpackF (PopMany 4));
      ("c9h20", App UnpackF (PopMany 4));
      ("c10h22", App UnpackF (PopMany 4))]].
(** elgas/parameters/gas_composition.py:11-36 *)
Definition GasComposition_class := mk_class "GasComposition"
  ["co2";
   "n2";
   "combustion_heat";
   "relative_density";
   "h2";
   "h2s";
   "he";
   "h2o";
   "o2";
   "ar";
   "co";
   "c1h4";
   "c2h6";
   "c3h8";
   "ic4h10";
   "nc4h10";
   "ic5h12";
   "nc5h12";
   "c6h14";
   "c7h16";
   "c8h18";
   "c9h20";
   "c10h22"]
  (Some GasComposition_from_bytes).

(** elgas/parameters/system_parameters.py:87-230 *)
Definition SystemParameters_from_bytes : stmt :=
  block [Assign "device_type" Pop;
    Assign "serial_number" (App FromLe (PopMany 4));
    Assign "firmware_version" (App PrettyText (PopMany 5));
    Assign "service_version" Pop;
    Assign "certification_variant" Pop;
    Assign "station_id" (App PrettyText (PopMany 17));
    Assign "data_access" Pop;
    Assign "password_for_full_access_active" (App ToBool (App (BitAnd 1) (Var "data_access")));
    Assign "password_for_reading_is_on" (App ToBool (App (BitAnd 2) (Var "data_access")));
    Assign "metrological_switch" (App ToBool (App (BitAnd 4) (Var "data_access")));
    Assign "user_switch" (App ToBool (App (BitAnd 8) (Var "data_access")));
    Assign "switch_function" (App ToInt (App (ShiftRight 4) (App (BitAnd 48) (Var "data_access"))));
    Assign "parameter_crc" (App FromLe (PopMany 2));
    Assign "measuring_period" Pop;
    Assign "archiving_period" (App FromLe (PopMany 2));
    Assign "base_pressure" (App UnpackF (PopMany 4));
    Assign "base_temperature" (App UnpackF (PopMany 4));
    Assign "compressibility_formula" Pop;
    Assign "gas_composition" (App (FromBytes "GasComposition") (PopMany 92));
    Assign "data_archive_record_length" (App FromLe (PopMany 2));
    Assign "binary_archive_record_length" (App FromLe (PopMany 2));
    Assign "daily_archive_record_length" (App FromLe (PopMany 2));
    Assign "monthly_archive_record_length" (App FromLe (PopMany 2));
    Assign "instantaneous_values_error_bit_order" (App FromLe (PopMany 2));
    Assign "binary_archive_record_error_bit_order" (App FromLe (PopMany 2));
    Assign "data_archive_record_error_bit_order" (App FromLe (PopMany 2));
    Assign "optical_port_speed" Pop;
    Assign "optical_port_protocol" Pop;
    Assign "optical_port_bit_control" Pop;
    Assign "communication_port_0_speed" Pop;
    Assign "communication_port_0_protocol" Pop;
    Assign "communication_port_0_bit_control" Pop;
    Assign "communication_port_1_speed" Pop;
    Assign "communication_port_1_protocol" Pop;
    Assign "communication_port_1_bit_control" Pop;
    Assign "communication_port_2_speed" Pop;
    Assign "communication_port_2_protocol" Pop;
    Assign "communication_port_2_bit_control" Pop;
    Assign "gas_hour" Pop;
    Assign "fixed_barometric_pressure" (App UnpackF (PopMany 4));
    Assign "altitude" (App UnpackF (PopMany 4));
    Assign "_" (PopMany 17);
    Assign "status_archive_record_length" (App FromLe (PopMany 2));
    Assign "pressure_unit_type" Pop;
    Assign "pressure_unit_text" (App PrettyText (PopMany 8));
    Assign "temperature_unit_type" Pop;
    Assign "temperature_unit_text" (App PrettyText (PopMany 8));
    Assign "altitude_unit_type" Pop;
    Assign "altitude_unit_text" (App PrettyText (PopMany 8));
    Assign "gross_calorific_value_type" Pop;
    Assign "gross_calorific_value_text" (App PrettyText (PopMany 8));
    Assign "dst_region" Pop;
    Assign "gmt_hour_shift" Pop;
    Assign "billing_archive_record_length" (App FromLe (PopMany 2));
    Assign "conditions_for_combustion_heat" Pop;
    Assign "device_variant" Pop;
    Assign "_" Pop;
    Assign "bit_control" Pop;
    Assign "corrected_volume_counters_amount" Pop;
    Assign "device_features_bits" Pop;
    Assign "device_features" (App Hex (PopMany 16));
    Assign "version_metrological_part" (App PrettyText (PopMany 5));
    Assign "metrological_crc" (App FromLe (PopMany 2));
    Assign "metrological_crc_32" (App FromLe (PopMany 4));
    Assign "application_crc_32" (App FromLe (PopMany 4));
    AssertNotData;
    Return [("device_type", Var "device_type");
      ("serial_number", Var "serial_number");
      ("firmware_version", Var "firmware_version");
      ("service_version", Var "service_version");
      ("certification_variant", Var "certification_variant");
      ("station_id", Var "station_id");
      ("password_for_full_access_active", Var "password_for_full_access_active");
      ("password_for_reading_is_on", Var "password_for_reading_is_on");
      ("metrological_switch", Var "metrological_switch");
      ("user_switch", Var "user_switch");
      ("switch_function", Var "switch_function");
      ("parameter_crc", Var "parameter_crc");
      ("measuring_period", Var "measuring_period");
      ("archive_period", Var "archiving_period");
      ("base_pressure", Var "base_pressure");
      ("base_temperature", Var "base_temperature");
      ("compressibility_formula", Var "compressibility_formula");
      ("gas_composition", Var "gas_composition");
      ("data_archive_record_length", Var "data_archive_record_length");
      ("binary_archive_record_length", Var "binary_archive_record_length");
      ("daily_archive_record_length", Var "daily_archive_record_length");
      ("monthly_archive_record_length", Var "monthly_archive_record_length");
      ("instantaneous_values_error_bit_order", Var "instantaneous_values_error_bit_order");
      ("binary_archive_record_error_bit_order", Var "binary_archive_record_error_bit_order");
      ("data_archive_record_error_bit_order", Var "data_archive_record_error_bit_order");
      ("optical_port_speed", Var "optical_port_speed");
      ("optical_port_protocol", Var "optical_port_protocol");
      ("optical_port_bit_control", Var "optical_port_bit_control");
      ("communication_port_0_speed", Var "communication_port_0_speed");
      ("communication_port_0_protocol", Var "communication_port_0_protocol");
      ("communication_port_0_bit_control", Var "communication_port_0_bit_control");
      ("communication_port_1_speed", Var "communication_port_1_speed");
      ("communication_port_1_protocol", Var "communication_port_1_protocol");
      ("communication_port_1_bit_control", Var "communication_port_1_bit_control");
      ("communication_port_2_speed", Var "communication_port_2_speed");
      ("communication_port_2_protocol", Var "communication_port_2_protocol");
      ("communication_port_2_bit_control", Var "communication_port_2_bit_control");
      ("gas_day_hour", Var "gas_hour");
      ("fixed_barometric_pressure", Var "fixed_barometric_pressure");
      ("altitude", Var "altitude");
      ("status_archive_record_length", Var "status_archive_record_length");
      ("pressure_unit_type", Var "pressure_unit_type");
      ("pressure_unit_text", Var "pressure_unit_text");
      ("temperature_unit_type", Var "temperature_unit_type");
      ("temperature_unit_text", Var "temperature_unit_text");
      ("altitude_unit_type", Var "altitude_unit_type");
      ("altitude_unit_text", Var "altitude_unit_text");
      ("gross_calorific_value_type", Var "gross_calorific_value_type");
      ("gross_calorific_value_text", Var "gross_calorific_value_text");
      ("dst_region", Var "dst_region");
      ("gmt_hour_shift", Var "gmt_hour_shift");
      ("billing_archive_record_length", Var "billing_archive_record_length");
      ("conditions_for_combustion_heat", Var "conditions_for_combustion_heat");
      ("device_variant", Var "device_variant");
      ("bit_control", Var "bit_control");
      ("places_for_corrected_volume_counters", Var "corrected_volume_counters_amount");
      ("device_features_bits", Var "device_features_bits");
      ("device_features", Var "device_features");
      ("version_metrological_part", Var "version_metrological_part");
      ("metrological_crc", Var "metrological_crc");
      ("metrological_crc_32", Var "metrological_crc_32");
      ("application_crc_32", Var "application_crc_32")]].
(** elgas/parameters/system_parameters.py:20-86 *)
Definition SystemParameters_class := mk_class "SystemParameters"
  ["device_type";
   "serial_number";
   "firmware_version";
   "service_version";
   "certification_variant";
   "station_id";
   "password_for_full_access_active";
   "password_for_reading_is_on";
   "metrological_switch";
   "user_switch";
   "switch_function";
   "parameter_crc";
   "measuring_period";
   "archive_period";
   "base_pressure";
   "base_temperature";
   "compressibility_formula";
   "gas_composition";
   "data_archive_record_length";
   "binary_archive_record_length";
   "daily_archive_record_length";
   "monthly_archive_record_length";
   "instantaneous_values_error_bit_order";
   "binary_archive_record_error_bit_order";
   "data_archive_record_error_bit_order";
   "optical_port_speed";
   "optical_port_protocol";
   "optical_port_bit_control";
   "communication_port_0_speed";
   "communication_port_0_protocol";
   "communication_port_0_bit_control";
   "communication_port_1_speed";
   "communication_port_1_protocol";
   "communication_port_1_bit_control";
   "communication_port_2_speed";
   "communication_port_2_protocol";
   "communication_port_2_bit_control";
   "gas_day_hour";
   "fixed_barometric_pressure";
   "altitude";
   "status_archive_record_length";
   "pressure_unit_type";
   "pressure_unit_text";
   "temperature_unit_type";
   "temperature_unit_text";
   "altitude_unit_type";
   "altitude_unit_text";
   "gross_calorific_value_type";
   "gross_calorific_value_text";
   "dst_region";
   "gmt_hour_shift";
   "billing_archive_record_length";
   "conditions_for_combustion_heat";
   "device_variant";
   "bit_control";
   "places_for_corrected_volume_counters";
   "device_features_bits";
   "device_features";
   "version_metrological_part";
   "metrological_crc";
   "metrological_crc_32";
   "application_crc_32"]
  (Some SystemParameters_from_bytes).

(** elgas/parameters/analog_quantity.py:44-104 *)
Definition AnalogQuantity_from_bytes : stmt :=
  block [Assign "number" (App FromLe (PopMany 2));
    Assign "id" (App FromLe (PopMany 2));
    Assign "address_in_actual_values" (App FromLe (PopMany 2));
    Assign "address_in_data_archive_record" (App FromLe (PopMany 2));
    Assign "bit_control" Pop;
    Assign "in_data_archive" (App ToBool (App (BitAnd 1) (Var "bit_control")));
    Assign "in_daily_archive" (App ToBool (App (BitAnd 2) (Var "bit_control")));
    Assign "in_monthly_archive" (App ToBool (App (BitAnd 4) (Var "bit_control")));
    Assign "is_metrological_quantity" (App ToBool (App (BitAnd 16) (Var "bit_control")));
    Assign "in_fast_archive_1" (App ToBool (App (BitAnd 32) (Var "bit_control")));
    Assign "in_fast_archvie_2" (App ToBool (App (BitAnd 64) (Var "bit_control")));
    Assign "name" (App PrettyText (PopMany 23));
    Assign "unit" (App PrettyText (PopMany 8));
    Assign "digit" (App Round7 (App UnpackF (PopMany 4)));
    Assign "offset" (App UnpackF (PopMany 4));
    Assign "lower_limit_measuring_range" (App Round7 (App UnpackF (PopMany 4)));
    Assign "upper_limit_measuring_range" (App UnpackF (PopMany 4));
    Assign "serial_number_transducer" (App FromLe (PopMany 4));
    Assign "error_bit_order_in_actual_values" (App FromLe (PopMany 2));
    Assign "error_bit_order_in_binary_archive" (App FromLe (PopMany 2));
    Assign "error_bit_order_in_data_archive" (App FromLe (PopMany 2));
    Assign "address_in_daily_archive_record" (App FromLe (PopMany 2));
    Assign "address_in_monthly_archive_record" (App FromLe (PopMany 2));
    Assign "samples_in_fast_archive" Pop;
    IfData (block [Assign "decimals" Pop])
            (block [Assign "decimals" None_]);
    Return [("number", Var "number");
      ("id", Var "id");
      ("address_in_actual_values", Var "address_in_actual_values");
      ("address_in_data_archive_record", Var "address_in_data_archive_record");
      ("bit_control", Var "bit_control");
      ("in_data_archive", Var "in_data_archive");
      ("in_daily_archive", Var "in_daily_archive");
      ("in_monthly_archive", Var "in_monthly_archive");
      ("is_metrological_quantity", Var "is_metrological_quantity");
      ("in_fast_archive_1", Var "in_fast_archive_1");
      ("in_fast_archvie_2", Var "in_fast_archvie_2");
      ("name", Var "name");
      ("unit", Var "unit");
      ("digit", Var "digit");
      ("offset", Var "offset");
      ("lower_limit_measuring_range", Var "lower_limit_measuring_range");
      ("upper_limit_measuring_range", Var "upper_limit_measuring_range");
      ("serial_number_transducer", Var "serial_number_transducer");
      ("error_bit_order_in_actual_values", Var "error_bit_order_in_actual_values");
      ("error_bit_order_in_binary_archive", Var "error_bit_order_in_binary_archive");
      ("error_bit_order_in_data_archive", Var "error_bit_order_in_data_archive");
      ("address_in_daily_archive_record", Var "address_in_daily_archive_record");
      ("address_in_monthly_archive_record", Var "address_in_monthly_archive_record");
      ("samples_in_fast_archive", Var "samples_in_fast_archive");
      ("decimals", Var "decimals")]].
(** elgas/parameters/analog_quantity.py:13-43 *)
Definition AnalogQuantity_class := mk_class "AnalogQuantity"
  ["number";
   "id";
   "address_in_actual_values";
   "address_in_data_archive_record";
   "bit_control";
   "in_data_archive";
   "in_daily_archive";
   "in_monthly_archive";
   "is_metrological_quantity";
   "in_fast_archive_1";
   "in_fast_archvie_2";
   "name";
   "unit";
   "digit";
   "offset";
   "lower_limit_measuring_range";
   "upper_limit_measuring_range";
   "serial_number_transducer";
   "error_bit_order_in_actual_values";
   "error_bit_order_in_binary_archive";
   "error_bit_order_in_data_archive";
   "address_in_daily_archive_record";
   "address_in_monthly_archive_record";
   "samples_in_fast_archive";
   "decimals"]
  (Some AnalogQuantity_from_bytes).

(** elgas/parameters/binary.py:34-83 *)
Definition Binary_from_bytes : stmt :=
  block [Assign "number" (App FromLe (PopMany 2));
    Assign "id" (App FromLe (PopMany 2));
    Assign "bit_order_in_actual_values" (App FromLe (PopMany 2));
    Assign "bit_order_in_data_archive_record" (App FromLe (PopMany 2));
    Assign "bit_order_in_binary_archive_record" (App FromLe (PopMany 2));
    Assign "bit_control" Pop;
    Assign "in_binary_archive" (App ToBool (App (BitAnd 1) (Var "bit_control")));
    Assign "in_data_archive" (App ToBool (App (BitAnd 2) (Var "bit_control")));
    Assign "active_indicator" (App ToBool (App (BitAnd 64) (Var "bit_control")));
    Assign "name" (App PrettyText (PopMany 23));
    Assign "error_bit_order_in_actual_values" (App FromLe (PopMany 2));
    Assign "error_bit_order_in_binary_archive_record" (App FromLe (PopMany 2));
    Assign "error_bit_order_in_data_archive_record" (App FromLe (PopMany 2));
    IfData (block [Assign "action_during_change" Pop;
              Assign "text_log_0" (App PrettyText (PopMany 13));
              Assign "text_log_1" (App PrettyText (PopMany 13))])
            (block [Assign "action_during_change" None_;
              Assign "text_log_0" None_;
              Assign "text_log_1" None_]);
    AssertNotData;
    Return [("number", Var "number");
      ("id", Var "id");
      ("bit_order_in_actual_values", Var "bit_order_in_actual_values");
      ("bit_order_in_data_archive_record", Var "bit_order_in_data_archive_record");
      ("bit_order_in_binary_archive_record", Var "bit_order_in_binary_archive_record");
      ("bit_control", Var "bit_control");
      ("in_binary_archive", Var "in_binary_archive");
      ("in_data_archive", Var "in_data_archive");
      ("active_indicator", Var "active_indicator");
      ("name", Var "name");
      ("error_bit_order_in_actual_values", Var "error_bit_order_in_actual_values");
      ("error_bit_order_in_binary_archive_record", Var "error_bit_order_in_binary_archive_record");
      ("error_bit_order_in_data_archive_record", Var "error_bit_order_in_data_archive_record");
      ("action_during_change", Var "action_during_change");
      ("text_log_0", Var "text_log_0");
      ("text_log_1", Var "text_log_1")]].
(** elgas/parameters/binary.py:12-33 *)
Definition Binary_class := mk_class "Binary"
  ["number";
   "id";
   "bit_order_in_actual_values";
   "bit_order_in_data_archive_record";
   "bit_order_in_binary_archive_record";
   "bit_control";
   "in_binary_archive";
   "in_data_archive";
   "active_indicator";
   "name";
   "error_bit_order_in_actual_values";
   "error_bit_order_in_binary_archive_record";
   "error_bit_order_in_data_archive_record";
   "action_during_change";
   "text_log_0";
   "text_log_1"]
  (Some Binary_from_bytes).

(** elgas/parameters/counter.py:44-98 *)
Definition Counter_from_bytes : stmt :=
  block [Assign "number" (App FromLe (PopMany 2));
    Assign "id" (App FromLe (PopMany 2));
    Assign "address_in_actual_values" (App FromLe (PopMany 2));
    Assign "address_in_data_archive_record" (App FromLe (PopMany 2));
    Assign "bit_control" Pop;
    Assign "in_data_archive" (App ToBool (App (BitAnd 1) (Var "bit_control")));
    Assign "in_daily_archive" (App ToBool (App (BitAnd 2) (Var "bit_control")));
    Assign "in_monthly_archive" (App ToBool (App (BitAnd 4) (Var "bit_control")));
    Assign "in_factory_archive" (App ToBool (App (BitAnd 8) (Var "bit_control")));
    Assign "is_metrological_quantity" (App ToBool (App (BitAnd 16) (Var "bit_control")));
    Assign "accept_counting_direction" (App ToBool (App (BitAnd 64) (Var "bit_control")));
    Assign "name" (App PrettyText (PopMany 23));
    Assign "unit" (App PrettyText (PopMany 8));
    Assign "digit" (App UnpackD (PopMany 8));
    Assign "serial_number_of_gas_meter" (App FromLe (PopMany 4));
    Assign "error_bit_order_in_actual_values" (App FromLe (PopMany 2));
    Assign "error_bit_order_in_binary_archive" (App FromLe (PopMany 2));
    Assign "error_bit_order_in_data_archive" (App FromLe (PopMany 2));
    Assign "address_in_daily_archive_record" (App FromLe (PopMany 2));
    Assign "address_in_monthly_archive_record" (App FromLe (PopMany 2));
    Assign "address_in_billing_archive_record" (App FromLe (PopMany 2));
    Assign "serial_number_of_gas_meter_text" (App PrettyText (PopMany 17));
    IfData (block [Assign "decimals" Pop])
            (block [Assign "decimals" None_]);
    Return [("number", Var "number");
      ("id", Var "id");
      ("address_in_actual_values", Var "address_in_actual_values");
      ("address_in_data_archive_record", Var "address_in_data_archive_record");
      ("bit_control", Var "bit_control");
      ("in_data_archive", Var "in_data_archive");
      ("in_daily_archive", Var "in_daily_archive");
      ("in_monthly_archive", Var "in_monthly_archive");
      ("in_factory_archive", Var "in_factory_archive");
      ("is_metrological_quantity", Var "is_metrological_quantity");
      ("accept_counting_direction", Var "accept_counting_direction");
      ("name", Var "name");
      ("unit", Var "unit");
      ("digit", Var "digit");
      ("serial_number_of_gas_meter", Var "serial_number_of_gas_meter");
      ("error_bit_order_in_actual_values", Var "error_bit_order_in_actual_values");
      ("error_bit_order_in_binary_archive", Var "error_bit_order_in_binary_archive");
      ("error_bit_order_in_data_archive", Var "error_bit_order_in_data_archive");
      ("address_in_daily_archive_record", Var "address_in_daily_archive_record");
      ("address_in_monthly_archive_record", Var "address_in_monthly_archive_record");
      ("address_in_billing_archive_record", Var "address_in_billing_archive_record");
      ("serial_number_of_gas_meter_text", Var "serial_number_of_gas_meter_text");
      ("decimals", Var "decimals")]].
(** elgas/parameters/counter.py:13-43 *)
Definition Counter_class := mk_class "Counter"
  ["number";
   "id";
   "address_in_actual_values";
   "address_in_data_archive_record";
   "bit_control";
   "in_data_archive";
   "in_daily_archive";
   "in_monthly_archive";
   "in_factory_archive";
   "is_metrological_quantity";
   "accept_counting_direction";
   "name";
   "unit";
   "digit";
   "serial_number_of_gas_meter";
   "error_bit_order_in_actual_values";
   "error_bit_order_in_binary_archive";
   "error_bit_order_in_data_archive";
   "address_in_daily_archive_record";
   "address_in_monthly_archive_record";
   "address_in_billing_archive_record";
   "serial_number_of_gas_meter_text";
   "decimals"]
  (Some Counter_from_bytes).

(** elgas/parameters/counter.py:101-103: inherits everything from [Counter] *)
Definition DoubleCounter_class := mk_class "DoubleCounter" (class_attrs Counter_class) (class_body Counter_class).

(** elgas/parameters/standard_counter.py:36-82 *)
Definition StandardCounter_from_bytes : stmt :=
  block [Assign "number" (App FromLe (PopMany 2));
    Assign "id" (App FromLe (PopMany 2));
    Assign "address_in_actual_values" (App FromLe (PopMany 2));
    Assign "address_in_data_archive_record" (App FromLe (PopMany 2));
    Assign "bit_control" Pop;
    Assign "in_data_archive" (App ToBool (App (BitAnd 1) (Var "bit_control")));
    Assign "in_daily_archive" (App ToBool (App (BitAnd 2) (Var "bit_control")));
    Assign "in_monthly_archive" (App ToBool (App (BitAnd 4) (Var "bit_control")));
    Assign "in_factory_archive" (App ToBool (App (BitAnd 8) (Var "bit_control")));
    Assign "is_metrological_quantity" (App ToBool (App (BitAnd 16) (Var "bit_control")));
    Assign "name" (App PrettyText (PopMany 23));
    Assign "unit" (App PrettyText (PopMany 8));
    Assign "number_of_primary_counter" Pop;
    Assign "number_of_conversion" Pop;
    Assign "address_in_daily_archive_record" (App FromLe (PopMany 2));
    Assign "address_in_monthly_archive_record" (App FromLe (PopMany 2));
    Assign "address_in_billing_archive_record" (App FromLe (PopMany 2));
    IfData (block [Assign "decimals" Pop])
            (block [Assign "decimals" None_]);
    AssertNotData;
    Return [("number", Var "number");
      ("id", Var "id");
      ("address_in_actual_values", Var "address_in_actual_values");
      ("address_in_data_archive_record", Var "address_in_data_archive_record");
      ("bit_control", Var "bit_control");
      ("in_data_archive", Var "in_data_archive");
      ("in_daily_archive", Var "in_daily_archive");
      ("in_monthly_archive", Var "in_monthly_archive");
      ("in_factory_archive", Var "in_factory_archive");
      ("is_metrological_quantity", Var "is_metrological_quantity");
      ("name", Var "name");
      ("unit", Var "unit");
      ("number_of_primary_counter", Var "number_of_primary_counter");
      ("number_of_conversion", Var "number_of_conversion");
      ("address_in_daily_archive_record", Var "address_in_daily_archive_record");
      ("address_in_monthly_archive_record", Var "address_in_monthly_archive_record");
      ("address_in_billing_archive_record", Var "address_in_billing_archive_record");
      ("decimals", Var "decimals")]].
(** elgas/parameters/standard_counter.py:12-35 *)
Definition StandardCounter_class := mk_class "StandardCounter"
  ["number";
   "id";
   "address_in_actual_values";
   "address_in_data_archive_record";
   "bit_control";
   "in_data_archive";
   "in_daily_archive";
   "in_monthly_archive";
   "in_factory_archive";
   "is_metrological_quantity";
   "name";
   "unit";
   "number_of_primary_counter";
   "number_of_conversion";
   "address_in_daily_archive_record";
   "address_in_monthly_archive_record";
   "address_in_billing_archive_record";
   "decimals"]
  (Some StandardCounter_from_bytes).

(** elgas/parameters/flow_rate.py:36-79 *)
Definition FlowRate_from_bytes : stmt :=
  block [Assign "number" (App FromLe (PopMany 2));
    Assign "id" (App FromLe (PopMany 2));
    Assign "address_in_actual_values" (App FromLe (PopMany 2));
    Assign "address_in_data_archive_record" (App FromLe (PopMany 2));
    Assign "bit_control" Pop;
    Assign "in_data_archive" (App ToBool (App (BitAnd 1) (Var "bit_control")));
    Assign "in_daily_archive" (App ToBool (App (BitAnd 2) (Var "bit_control")));
    Assign "in_monthly_archive" (App ToBool (App (BitAnd 4) (Var "bit_control")));
    Assign "is_metrological_quantity" (App ToBool (App (BitAnd 16) (Var "bit_control")));
    Assign "name" (App PrettyText (PopMany 23));
    Assign "unit" (App PrettyText (PopMany 8));
    Assign "error_bit_order_in_actual_values" (App FromLe (PopMany 2));
    Assign "error_bit_order_in_binary_archive" (App FromLe (PopMany 2));
    Assign "error_bit_order_in_data_archive" (App FromLe (PopMany 2));
    Assign "address_in_daily_archive_record" (App FromLe (PopMany 2));
    Assign "address_in_monthly_archive_record" (App FromLe (PopMany 2));
    IfData (block [Assign "decimals" Pop])
            (block [Assign "decimals" None_]);
    Return [("number", Var "number");
      ("id", Var "id");
      ("address_in_actual_values", Var "address_in_actual_values");
      ("address_in_data_archive_record", Var "address_in_data_archive_record");
      ("bit_control", Var "bit_control");
      ("in_data_archive", Var "in_data_archive");
      ("in_daily_archive", Var "in_daily_archive");
      ("in_monthly_archive", Var "in_monthly_archive");
      ("is_metrological_quantity", Var "is_metrological_quantity");
      ("name", Var "name");
      ("unit", Var "unit");
      ("error_bit_order_in_actual_values", Var "error_bit_order_in_actual_values");
      ("error_bit_order_in_binary_archive", Var "error_bit_order_in_binary_archive");
      ("error_bit_order_in_data_archive", Var "error_bit_order_in_data_archive");
      ("address_in_daily_archive_record", Var "address_in_daily_archive_record");
      ("address_in_monthly_archive_record", Var "address_in_monthly_archive_record");
      ("decimals", Var "decimals")]].
(** elgas/parameters/flow_rate.py:12-35 *)
Definition FlowRate_class := mk_class "FlowRate"
  ["number";
   "id";
   "address_in_actual_values";
   "address_in_data_archive_record";
   "bit_control";
   "in_data_archive";
   "in_daily_archive";
   "in_monthly_archive";
   "is_metrological_quantity";
   "name";
   "unit";
   "error_bit_order_in_actual_values";
   "error_bit_order_in_binary_archive";
   "error_bit_order_in_data_archive";
   "address_in_daily_archive_record";
   "address_in_monthly_archive_record";
   "decimals"]
  (Some FlowRate_from_bytes).

(** elgas/parameters/flow_rate.py:131-172 *)
Definition StandardFlowRate_from_bytes : stmt :=
  block [Assign "number" (App FromLe (PopMany 2));
    Assign "id" (App FromLe (PopMany 2));
    Assign "address_in_actual_values" (App FromLe (PopMany 2));
    Assign "address_in_data_archive_record" (App FromLe (PopMany 2));
    Assign "bit_control" Pop;
    Assign "in_data_archive" (App ToBool (App (BitAnd 1) (Var "bit_control")));
    Assign "in_daily_archive" (App ToBool (App (BitAnd 2) (Var "bit_control")));
    Assign "in_monthly_archive" (App ToBool (App (BitAnd 4) (Var "bit_control")));
    Assign "is_metrological_quantity" (App ToBool (App (BitAnd 16) (Var "bit_control")));
    Assign "name" (App PrettyText (PopMany 23));
    Assign "unit" (App PrettyText (PopMany 8));
    Assign "number_of_primary_flow_rate" Pop;
    Assign "number_of_conversion" Pop;
    Assign "address_in_daily_archive_record" (App FromLe (PopMany 2));
    Assign "address_in_monthly_archive_record" (App FromLe (PopMany 2));
    IfData (block [Assign "decimals" Pop])
            (block [Assign "decimals" None_]);
    Return [("number", Var "number");
      ("id", Var "id");
      ("address_in_actual_values", Var "address_in_actual_values");
      ("address_in_data_archive_record", Var "address_in_data_archive_record");
      ("bit_control", Var "bit_control");
      ("in_data_archive", Var "in_data_archive");
      ("in_daily_archive", Var "in_daily_archive");
      ("in_monthly_archive", Var "in_monthly_archive");
      ("is_metrological_quantity", Var "is_metrological_quantity");
      ("name", Var "name");
      ("unit", Var "unit");
      ("number_of_primary_flow_rate", Var "number_of_primary_flow_rate");
      ("number_of_conversion", Var "number_of_conversion");
      ("address_in_daily_archive_record", Var "address_in_daily_archive_record");
      ("address_in_monthly_archive_record", Var "address_in_monthly_archive_record");
      ("decimals", Var "decimals")]].
(** elgas/parameters/flow_rate.py:109-130 *)
Definition StandardFlowRate_class := mk_class "StandardFlowRate"
  ["number";
   "id";
   "address_in_actual_values";
   "address_in_data_archive_record";
   "bit_control";
   "in_data_archive";
   "in_daily_archive";
   "in_monthly_archive";
   "is_metrological_quantity";
   "name";
   "unit";
   "number_of_primary_flow_rate";
   "number_of_conversion";
   "address_in_daily_archive_record";
   "address_in_monthly_archive_record";
   "decimals"]
  (Some StandardFlowRate_from_bytes).

(** elgas/parameters/conversion_coefficient.py:41-87 *)
Definition ConversionCoefficient_from_bytes : stmt :=
  block [Assign "number" (App FromLe (PopMany 2));
    Assign "id" (App FromLe (PopMany 2));
    Assign "address_in_actual_values" (App FromLe (PopMany 2));
    Assign "address_in_data_archive_record" (App FromLe (PopMany 2));
    Assign "bit_control" Pop;
    Assign "in_data_archive" (App ToBool (App (BitAnd 1) (Var "bit_control")));
    Assign "in_daily_archive" (App ToBool (App (BitAnd 2) (Var "bit_control")));
    Assign "in_monthly_archive" (App ToBool (App (BitAnd 4) (Var "bit_control")));
    Assign "is_metrological_quantity" (App ToBool (App (BitAnd 16) (Var "bit_control")));
    Assign "name" (App PrettyText (PopMany 23));
    Assign "number_of_analog_pressure" Pop;
    Assign "number_of_analog_temperature" Pop;
    Assign "compressibility_calculation_method" Pop;
    Assign "default_value_pressure" (App UnpackF (PopMany 4));
    Assign "default_value_temperature" (App UnpackF (PopMany 4));
    Assign "alternate_value_of_compressibility" (App UnpackF (PopMany 4));
    Assign "address_in_daily_archive_record" (App FromLe (PopMany 2));
    Assign "address_in_monthly_archive_record" (App FromLe (PopMany 2));
    IfData (block [Assign "decimals" Pop])
            (block [Assign "decimals" None_]);
    Return [("number", Var "number");
      ("id", Var "id");
      ("address_in_actual_values", Var "address_in_actual_values");
      ("address_in_data_archive_record", Var "address_in_data_archive_record");
      ("bit_control", Var "bit_control");
      ("in_data_archive", Var "in_data_archive");
      ("in_daily_archive", Var "in_daily_archive");
      ("in_monthly_archive", Var "in_monthly_archive");
      ("is_metrological_quantity", Var "is_metrological_quantity");
      ("name", Var "name");
      ("number_of_analog_pressure", Var "number_of_analog_pressure");
      ("number_of_analog_temperature", Var "number_of_analog_temperature");
      ("compressibility_calculation_method", Var "compressibility_calculation_method");
      ("default_value_pressure", Var "default_value_pressure");
      ("default_value_temperature", Var "default_value_temperature");
      ("alternate_value_of_compressibility", Var "alternate_value_of_compressibility");
      ("address_in_daily_archive_record", Var "address_in_daily_archive_record");
      ("address_in_monthly_archive_record", Var "address_in_monthly_archive_record");
      ("decimals", Var "decimals")]].
(** elgas/parameters/conversion_coefficient.py:13-40 *)
Definition ConversionCoefficient_class := mk_class "ConversionCoefficient"
  ["number";
   "id";
   "address_in_actual_values";
   "address_in_data_archive_record";
   "bit_control";
   "in_data_archive";
   "in_daily_archive";
   "in_monthly_archive";
   "is_metrological_quantity";
   "name";
   "number_of_analog_pressure";
   "number_of_analog_temperature";
   "compressibility_calculation_method";
   "default_value_pressure";
   "default_value_temperature";
   "alternate_value_of_compressibility";
   "address_in_daily_archive_record";
   "address_in_monthly_archive_record";
   "decimals"]
  (Some ConversionCoefficient_from_bytes).

(** elgas/parameters/error_counter.py:39-84 *)
Definition ErrorCounter_from_bytes : stmt :=
  block [Assign "number" (App FromLe (PopMany 2));
    Assign "id" (App FromLe (PopMany 2));
    Assign "address_in_actual_values" (App FromLe (PopMany 2));
    Assign "address_in_data_archive_record" (App FromLe (PopMany 2));
    Assign "bit_control" Pop;
    Assign "in_data_archive" (App ToBool (App (BitAnd 1) (Var "bit_control")));
    Assign "in_daily_archive" (App ToBool (App (BitAnd 2) (Var "bit_control")));
    Assign "in_monthly_archive" (App ToBool (App (BitAnd 4) (Var "bit_control")));
    Assign "in_factory_archive" (App ToBool (App (BitAnd 8) (Var "bit_control")));
    Assign "is_metrological_quantity" (App ToBool (App (BitAnd 16) (Var "bit_control")));
    Assign "name" (App PrettyText (PopMany 23));
    Assign "unit" (App PrettyText (PopMany 8));
    Assign "digit" (App UnpackD (PopMany 8));
    Assign "number_of_primary_counter" Pop;
    Assign "address_in_daily_archive_record" (App FromLe (PopMany 2));
    Assign "address_in_monthly_archive_record" (App FromLe (PopMany 2));
    Assign "address_in_billing_archive_record" (App FromLe (PopMany 2));
    IfData (block [Assign "decimals" Pop])
            (block [Assign "decimals" None_]);
    Return [("number", Var "number");
      ("id", Var "id");
      ("address_in_actual_values", Var "address_in_actual_values");
      ("address_in_data_archive_record", Var "address_in_data_archive_record");
      ("bit_control", Var "bit_control");
      ("in_data_archive", Var "in_data_archive");
      ("in_daily_archive", Var "in_daily_archive");
      ("in_monthly_archive", Var "in_monthly_archive");
      ("in_factory_archive", Var "in_factory_archive");
      ("is_metrological_quantity", Var "is_metrological_quantity");
      ("name", Var "name");
      ("unit", Var "unit");
      ("digit", Var "digit");
      ("number_of_primary_counter", Var "number_of_primary_counter");
      ("address_in_daily_archive_record", Var "address_in_daily_archive_record");
      ("address_in_monthly_archive_record", Var "address_in_monthly_archive_record");
      ("address_in_billing_archive_record", Var "address_in_billing_archive_record");
      ("decimals", Var "decimals")]].
(** elgas/parameters/error_counter.py:13-38 *)
Definition ErrorCounter_class := mk_class "ErrorCounter"
  ["number";
   "id";
   "address_in_actual_values";
   "address_in_data_archive_record";
   "bit_control";
   "in_data_archive";
   "in_daily_archive";
   "in_monthly_archive";
   "in_factory_archive";
   "is_metrological_quantity";
   "name";
   "unit";
   "digit";
   "number_of_primary_counter";
   "address_in_daily_archive_record";
   "address_in_monthly_archive_record";
   "address_in_billing_archive_record";
   "decimals"]
  (Some ErrorCounter_from_bytes).

(** elgas/parameters/error_counter.py:87-91: inherits everything from [ErrorCounter] *)
Definition DoubleErrorCounter_class := mk_class "DoubleErrorCounter" (class_attrs ErrorCounter_class) (class_body ErrorCounter_class).

(** elgas/parameters/error_counter.py:94-96: inherits everything from [ErrorCounter] *)
Definition CorrectionCounter_class := mk_class "CorrectionCounter" (class_attrs ErrorCounter_class) (class_body ErrorCounter_class).

(** elgas/parameters/error_standard_counter.py:36-79 *)
Definition ErrorStandardCounter_from_bytes : stmt :=
  block [Assign "number" (App FromLe (PopMany 2));
    Assign "id" (App FromLe (PopMany 2));
    Assign "address_in_actual_values" (App FromLe (PopMany 2));
    Assign "address_in_data_archive_record" (App FromLe (PopMany 2));
    Assign "bit_control" Pop;
    Assign "in_data_archive" (App ToBool (App (BitAnd 1) (Var "bit_control")));
    Assign "in_daily_archive" (App ToBool (App (BitAnd 2) (Var "bit_control")));
    Assign "in_monthly_archive" (App ToBool (App (BitAnd 4) (Var "bit_control")));
    Assign "in_factory_archive" (App ToBool (App (BitAnd 8) (Var "bit_control")));
    Assign "is_metrological_quantity" (App ToBool (App (BitAnd 16) (Var "bit_control")));
    Assign "name" (App PrettyText (PopMany 23));
    Assign "unit" (App PrettyText (PopMany 8));
    Assign "number_of_standard_counter" Pop;
    Assign "address_in_daily_archive_record" (App FromLe (PopMany 2));
    Assign "address_in_monthly_archive_record" (App FromLe (PopMany 2));
    Assign "address_in_billing_archive_record" (App FromLe (PopMany 2));
    IfData (block [Assign "decimals" Pop])
            (block [Assign "decimals" None_]);
    Return [("number", Var "number");
      ("id", Var "id");
      ("address_in_actual_values", Var "address_in_actual_values");
      ("address_in_data_archive_record", Var "address_in_data_archive_record");
      ("bit_control", Var "bit_control");
      ("in_data_archive", Var "in_data_archive");
      ("in_daily_archive", Var "in_daily_archive");
      ("in_monthly_archive", Var "in_monthly_archive");
      ("in_factory_archive", Var "in_factory_archive");
      ("is_metrological_quantity", Var "is_metrological_quantity");
      ("name", Var "name");
      ("unit", Var "unit");
      ("number_of_standard_counter", Var "number_of_standard_counter");
      ("address_in_daily_archive_record", Var "address_in_daily_archive_record");
      ("address_in_monthly_archive_record", Var "address_in_monthly_archive_record");
      ("address_in_billing_archive_record", Var "address_in_billing_archive_record");
      ("decimals", Var "decimals")]].
(** elgas/parameters/error_standard_counter.py:11-35 *)
Definition ErrorStandardCounter_class := mk_class "ErrorStandardCounter"
  ["number";
   "id";
   "address_in_actual_values";
   "address_in_data_archive_record";
   "bit_control";
   "in_data_archive";
   "in_daily_archive";
   "in_monthly_archive";
   "in_factory_archive";
   "is_metrological_quantity";
   "name";
   "unit";
   "number_of_standard_counter";
   "address_in_daily_archive_record";
   "address_in_monthly_archive_record";
   "address_in_billing_archive_record";
   "decimals"]
  (Some ErrorStandardCounter_from_bytes).

(** elgas/parameters/compressibility.py:32-69 *)
Definition Compressibility_from_bytes : stmt :=
  block [Assign "number" (App FromLe (PopMany 2));
    Assign "id" (App FromLe (PopMany 2));
    Assign "address_in_actual_values" (App FromLe (PopMany 2));
    Assign "address_in_data_archive_record" (App FromLe (PopMany 2));
    Assign "bit_control" Pop;
    Assign "in_data_archive" (App ToBool (App (BitAnd 1) (Var "bit_control")));
    Assign "in_daily_archive" (App ToBool (App (BitAnd 2) (Var "bit_control")));
    Assign "in_monthly_archive" (App ToBool (App (BitAnd 4) (Var "bit_control")));
    Assign "is_metrological_quantity" (App ToBool (App (BitAnd 16) (Var "bit_control")));
    Assign "name" (App PrettyText (PopMany 23));
    Assign "number_of_conversion_coefficient" Pop;
    Assign "address_in_daily_archive_record" (App FromLe (PopMany 2));
    Assign "address_in_monthly_archive_record" (App FromLe (PopMany 2));
    IfData (block [Assign "decimals" Pop])
            (block [Assign "decimals" None_]);
    Return [("number", Var "number");
      ("id", Var "id");
      ("address_in_actual_values", Var "address_in_actual_values");
      ("address_in_data_archive_record", Var "address_in_data_archive_record");
      ("bit_control", Var "bit_control");
      ("in_data_archive", Var "in_data_archive");
      ("in_daily_archive", Var "in_daily_archive");
      ("in_monthly_archive", Var "in_monthly_archive");
      ("is_metrological_quantity", Var "is_metrological_quantity");
      ("name", Var "name");
      ("number_of_conversion_coefficient", Var "number_of_conversion_coefficient");
      ("address_in_daily_archive_record", Var "address_in_daily_archive_record");
      ("address_in_monthly_archive_record", Var "address_in_monthly_archive_record");
      ("decimals", Var "decimals")]].
(** elgas/parameters/compressibility.py:12-31 *)
Definition Compressibility_class := mk_class "Compressibility"
  ["number";
   "id";
   "address_in_actual_values";
   "address_in_data_archive_record";
   "bit_control";
   "in_data_archive";
   "in_daily_archive";
   "in_monthly_archive";
   "is_metrological_quantity";
   "name";
   "number_of_conversion_coefficient";
   "address_in_daily_archive_record";
   "address_in_monthly_archive_record";
   "decimals"]
  (Some Compressibility_from_bytes).

(** elgas/parameters/compressibility.py:72-74: inherits everything from [Compressibility] *)
Definition CompressibilityZ_class := mk_class "CompressibilityZ" (class_attrs Compressibility_class) (class_body Compressibility_class).

(** elgas/parameters/compressibility.py:77-81: inherits everything from [Compressibility] *)
Definition CompressibilityZBase_class := mk_class "CompressibilityZBase" (class_attrs Compressibility_class) (class_body Compressibility_class).

(** elgas/parameters/time_window.py:32-74 *)
Definition TimeWindow_from_bytes : stmt :=
  block [Assign "number" (App FromLe (PopMany 2));
    Assign "id" (App FromLe (PopMany 2));
    Assign "bit_order_in_actual_values" (App FromLe (PopMany 2));
    Assign "bit_order_in_data_archive_record" (App FromLe (PopMany 2));
    Assign "bit_order_in_binary_archive_record" (App FromLe (PopMany 2));
    Assign "bit_control" Pop;
    Assign "in_binary_archive" (App ToBool (App (BitAnd 1) (Var "bit_control")));
    Assign "in_data_archive" (App ToBool (App (BitAnd 2) (Var "bit_control")));
    Assign "name" (App PrettyText (PopMany 23));
    Assign "rows_in_window" Pop;
    Assign "rows" EmptyList;
    ForRange "rows_in_window" (block [AppendTo "rows" (App Hex (PopMany 10))]);
    IfData (block [Assign "action_during_change" Pop;
              Assign "text_log_0" (App PrettyText (PopMany 13));
              Assign "text_log_1" (App PrettyText (PopMany 13))])
            (block [Assign "action_during_change" None_;
              Assign "text_log_0" None_;
              Assign "text_log_1" None_]);
    AssertNotData;
    Return [("number", Var "number");
      ("id", Var "id");
      ("bit_order_in_actual_values", Var "bit_order_in_actual_values");
      ("bit_order_in_data_archive_record", Var "bit_order_in_data_archive_record");
      ("bit_order_in_binary_archive_record", Var "bit_order_in_binary_archive_record");
      ("bit_control", Var "bit_control");
      ("in_binary_archive", Var "in_binary_archive");
      ("in_data_archive", Var "in_data_archive");
      ("name", Var "name");
      ("rows_in_window", Var "rows_in_window");
      ("rows", Var "rows");
      ("action_during_change", Var "action_during_change");
      ("text_log_0", Var "text_log_0");
      ("text_log_1", Var "text_log_1")]].
(** elgas/parameters/time_window.py:12-31 *)
Definition TimeWindow_class := mk_class "TimeWindow"
  ["number";
   "id";
   "bit_order_in_actual_values";
   "bit_order_in_data_archive_record";
   "bit_order_in_binary_archive_record";
   "bit_control";
   "in_binary_archive";
   "in_data_archive";
   "name";
   "rows_in_window";
   "rows";
   "action_during_change";
   "text_log_0";
   "text_log_1"]
  (Some TimeWindow_from_bytes).

(** elgas/parameters/diagnostics.py:37-80 *)
Definition Diagnostics_from_bytes : stmt :=
  block [Assign "number" (App FromLe (PopMany 2));
    Assign "id" (App FromLe (PopMany 2));
    Assign "address_in_actual_values" (App FromLe (PopMany 2));
    Assign "address_in_data_archive_record" (App FromLe (PopMany 2));
    Assign "bit_control" Pop;
    Assign "in_data_archive" (App ToBool (App (BitAnd 1) (Var "bit_control")));
    Assign "in_daily_archive" (App ToBool (App (BitAnd 2) (Var "bit_control")));
    Assign "in_monthly_archive" (App ToBool (App (BitAnd 4) (Var "bit_control")));
    Assign "in_factory_archive" (App ToBool (App (BitAnd 8) (Var "bit_control")));
    Assign "name" (App PrettyText (PopMany 23));
    Assign "address_in_daily_archive_record" (App FromLe (PopMany 2));
    Assign "address_in_monthly_archive_record" (App FromLe (PopMany 2));
    Assign "mask_1_of_status_archive" (App FromLe (PopMany 4));
    Assign "mask_2_of_status_archive" (App FromLe (PopMany 4));
    Assign "mask_1_of_alarm" (App FromLe (PopMany 4));
    Assign "mask_2_of_alarm" (App FromLe (PopMany 4));
    Assign "mask_1_of_calling_to_dispatching" (App FromLe (PopMany 4));
    Assign "mask_2_of_calling_to_dispatching" (App FromLe (PopMany 4));
    Assign "action_during_change" Pop;
    Return [("number", Var "number");
      ("id", Var "id");
      ("address_in_actual_values", Var "address_in_actual_values");
      ("address_in_data_archive_record", Var "address_in_data_archive_record");
      ("bit_control", Var "bit_control");
      ("in_data_archive", Var "in_data_archive");
      ("in_daily_archive", Var "in_daily_archive");
      ("in_monthly_archive", Var "in_monthly_archive");
      ("in_factory_archive", Var "in_factory_archive");
      ("name", Var "name");
      ("address_in_daily_archive_record", Var "address_in_daily_archive_record");
      ("address_in_monthly_archive_record", Var "address_in_monthly_archive_record");
      ("mask_1_of_status_archive", Var "mask_1_of_status_archive");
      ("mask_2_of_status_archive", Var "mask_2_of_status_archive");
      ("mask_1_of_alarm", Var "mask_1_of_alarm");
      ("mask_2_of_alarm", Var "mask_2_of_alarm");
      ("mask_1_of_calling_to_dispatching", Var "mask_1_of_calling_to_dispatching");
      ("mask_2_of_calling_to_dispatching", Var "mask_2_of_calling_to_dispatching");
      ("action_during_change", Var "action_during_change")]].
(** elgas/parameters/diagnostics.py:12-36 *)
Definition Diagnostics_class := mk_class "Diagnostics"
  ["number";
   "id";
   "address_in_actual_values";
   "address_in_data_archive_record";
   "bit_control";
   "in_data_archive";
   "in_daily_archive";
   "in_monthly_archive";
   "in_factory_archive";
   "name";
   "address_in_daily_archive_record";
   "address_in_monthly_archive_record";
   "mask_1_of_status_archive";
   "mask_2_of_status_archive";
   "mask_1_of_alarm";
   "mask_2_of_alarm";
   "mask_1_of_calling_to_dispatching";
   "mask_2_of_calling_to_dispatching";
   "action_during_change"]
  (Some Diagnostics_from_bytes).

(** elgas/parameters/setpoint.py:34-78 *)
Definition SetPoint_from_bytes : stmt :=
  block [Assign "number" (App FromLe (PopMany 2));
    Assign "id" (App FromLe (PopMany 2));
    Assign "bit_order_in_actual_values" (App FromLe (PopMany 2));
    Assign "bit_order_in_data_archive_record" (App FromLe (PopMany 2));
    Assign "bit_order_in_binary_archive_record" (App FromLe (PopMany 2));
    Assign "bit_control" Pop;
    Assign "in_binary_archive" (App ToBool (App (BitAnd 1) (Var "bit_control")));
    Assign "in_data_archive" (App ToBool (App (BitAnd 2) (Var "bit_control")));
    Assign "active_indicator" (App ToBool (App (BitAnd 64) (Var "bit_control")));
    Assign "name" (App PrettyText (PopMany 23));
    Assign "value_of_limit" (App UnpackF (PopMany 4));
    Assign "type_of_primary_quantity" Pop;
    Assign "number_of_primary_quantity" Pop;
    IfData (block [Assign "action_during_change" Pop;
              Assign "text_log_0" (App PrettyText (PopMany 13));
              Assign "text_log_1" (App PrettyText (PopMany 13))])
            (block [Assign "action_during_change" None_;
              Assign "text_log_0" None_;
              Assign "text_log_1" None_]);
    AssertNotData;
    Return [("number", Var "number");
      ("id", Var "id");
      ("bit_order_in_actual_values", Var "bit_order_in_actual_values");
      ("bit_order_in_data_archive_record", Var "bit_order_in_data_archive_record");
      ("bit_order_in_binary_archive_record", Var "bit_order_in_binary_archive_record");
      ("bit_control", Var "bit_control");
      ("in_binary_archive", Var "in_binary_archive");
      ("in_data_archive", Var "in_data_archive");
      ("active_indicator", Var "active_indicator");
      ("name", Var "name");
      ("value_of_limit", Var "value_of_limit");
      ("type_of_primary_quantity", Var "type_of_primary_quantity");
      ("number_of_primary_quantity", Var "number_of_primary_quantity");
      ("action_during_change", Var "action_during_change");
      ("text_log_0", Var "text_log_0");
      ("text_log_1", Var "text_log_1")]].
(** elgas/parameters/setpoint.py:12-33 *)
Definition SetPoint_class := mk_class "SetPoint"
  ["number";
   "id";
   "bit_order_in_actual_values";
   "bit_order_in_data_archive_record";
   "bit_order_in_binary_archive_record";
   "bit_control";
   "in_binary_archive";
   "in_data_archive";
   "active_indicator";
   "name";
   "value_of_limit";
   "type_of_primary_quantity";
   "number_of_primary_quantity";
   "action_during_change";
   "text_log_0";
   "text_log_1"]
  (Some SetPoint_from_bytes).

(** elgas/parameters/energy.py:37-85 *)
Definition Energy_from_bytes : stmt :=
  block [Assign "number" (App FromLe (PopMany 2));
    Assign "id" (App FromLe (PopMany 2));
    Assign "address_in_actual_values" (App FromLe (PopMany 2));
    Assign "address_in_data_archive_record" (App FromLe (PopMany 2));
    Assign "bit_control" Pop;
    Assign "in_data_archive" (App ToBool (App (BitAnd 1) (Var "bit_control")));
    Assign "in_daily_archive" (App ToBool (App (BitAnd 2) (Var "bit_control")));
    Assign "in_monthly_archive" (App ToBool (App (BitAnd 4) (Var "bit_control")));
    Assign "in_factory_archive" (App ToBool (App (BitAnd 8) (Var "bit_control")));
    Assign "is_metrological_quantity" (App ToBool (App (BitAnd 16) (Var "bit_control")));
    Assign "name" (App PrettyText (PopMany 23));
    Assign "unit" (App PrettyText (PopMany 8));
    Assign "number_of_standard_counter" Pop;
    Assign "number_of_calorific_value" Pop;
    Assign "number_of_conversion" Pop;
    Assign "address_in_daily_archive_record" (App FromLe (PopMany 2));
    Assign "address_in_monthly_archive_record" (App FromLe (PopMany 2));
    Assign "address_in_billing_archive_record" (App FromLe (PopMany 2));
    IfData (block [Assign "decimals" Pop])
            (block [Assign "decimals" None_]);
    AssertNotData;
    Return [("number", Var "number");
      ("id", Var "id");
      ("address_in_actual_values", Var "address_in_actual_values");
      ("address_in_data_archive_record", Var "address_in_data_archive_record");
      ("bit_control", Var "bit_control");
      ("in_data_archive", Var "in_data_archive");
      ("in_daily_archive", Var "in_daily_archive");
      ("in_monthly_archive", Var "in_monthly_archive");
      ("in_factory_archive", Var "in_factory_archive");
      ("is_metrological_quantity", Var "is_metrological_quantity");
      ("name", Var "name");
      ("unit", Var "unit");
      ("number_of_standard_counter", Var "number_of_standard_counter");
      ("number_of_calorific_value", Var "number_of_calorific_value");
      ("number_of_conversion", Var "number_of_conversion");
      ("address_in_daily_archive_record", Var "address_in_daily_archive_record");
      ("address_in_monthly_archive_record", Var "address_in_monthly_archive_record");
      ("address_in_billing_archive_record", Var "address_in_billing_archive_record");
      ("decimals", Var "decimals")]].
(** elgas/parameters/energy.py:12-36 *)
Definition Energy_class := mk_class "Energy"
  ["number";
   "id";
   "address_in_actual_values";
   "address_in_data_archive_record";
   "bit_control";
   "in_data_archive";
   "in_daily_archive";
   "in_monthly_archive";
   "in_factory_archive";
   "is_metrological_quantity";
   "name";
   "unit";
   "number_of_standard_counter";
   "number_of_calorific_value";
   "number_of_conversion";
   "address_in_daily_archive_record";
   "address_in_monthly_archive_record";
   "address_in_billing_archive_record";
   "decimals"]
  (Some Energy_from_bytes).

(** elgas/parameters/energy.py:88-89: inherits everything from [Energy] *)
Definition ErrorEnergy_class := mk_class "ErrorEnergy" (class_attrs Energy_class) (class_body Energy_class).

(** elgas/parameters/tariff_counter.py:38-86 *)
Definition TariffCounter_from_bytes : stmt :=
  block [Assign "number" (App FromLe (PopMany 2));
    Assign "id" (App FromLe (PopMany 2));
    Assign "address_in_actual_values" (App FromLe (PopMany 2));
    Assign "address_in_data_archive_record" (App FromLe (PopMany 2));
    Assign "bit_control" Pop;
    Assign "in_data_archive" (App ToBool (App (BitAnd 1) (Var "bit_control")));
    Assign "in_daily_archive" (App ToBool (App (BitAnd 2) (Var "bit_control")));
    Assign "in_monthly_archive" (App ToBool (App (BitAnd 4) (Var "bit_control")));
    Assign "in_factory_archive" (App ToBool (App (BitAnd 8) (Var "bit_control")));
    Assign "is_metrological_quantity" (App ToBool (App (BitAnd 16) (Var "bit_control")));
    Assign "name" (App PrettyText (PopMany 23));
    Assign "unit" (App PrettyText (PopMany 8));
    Assign "digit" (App UnpackD (PopMany 8));
    Assign "number_of_primary_counter" Pop;
    Assign "tariff" Pop;
    Assign "address_in_daily_archive_record" (App FromLe (PopMany 2));
    Assign "address_in_monthly_archive_record" (App FromLe (PopMany 2));
    Assign "address_in_billing_archive_record" (App FromLe (PopMany 2));
    IfData (block [Assign "decimals" Pop])
            (block [Assign "decimals" None_]);
    AssertNotData;
    Return [("number", Var "number");
      ("id", Var "id");
      ("address_in_actual_values", Var "address_in_actual_values");
      ("address_in_data_archive_record", Var "address_in_data_archive_record");
      ("bit_control", Var "bit_control");
      ("in_data_archive", Var "in_data_archive");
      ("in_daily_archive", Var "in_daily_archive");
      ("in_monthly_archive", Var "in_monthly_archive");
      ("in_factory_archive", Var "in_factory_archive");
      ("is_metrological_quantity", Var "is_metrological_quantity");
      ("name", Var "name");
      ("unit", Var "unit");
      ("digit", Var "digit");
      ("number_of_primary_counter", Var "number_of_primary_counter");
      ("tariff", Var "tariff");
      ("address_in_daily_archive_record", Var "address_in_daily_archive_record");
      ("address_in_monthly_archive_record", Var "address_in_monthly_archive_record");
      ("address_in_billing_archive_record", Var "address_in_billing_archive_record");
      ("decimals", Var "decimals")]].
(** elgas/parameters/tariff_counter.py:13-37 *)
Definition TariffCounter_class := mk_class "TariffCounter"
  ["number";
   "id";
   "address_in_actual_values";
   "address_in_data_archive_record";
   "bit_control";
   "in_data_archive";
   "in_daily_archive";
   "in_monthly_archive";
   "in_factory_archive";
   "is_metrological_quantity";
   "name";
   "unit";
   "digit";
   "number_of_primary_counter";
   "tariff";
   "address_in_daily_archive_record";
   "address_in_monthly_archive_record";
   "address_in_billing_archive_record";
   "decimals"]
  (Some TariffCounter_from_bytes).

(** elgas/parameters/tariff_counter.py:116-120: inherits everything from [TariffCounter] *)
Definition DoubleTariffCounter_class := mk_class "DoubleTariffCounter" (class_attrs TariffCounter_class) (class_body TariffCounter_class).

(** elgas/parameters/tariff_counter.py:154-200 *)
Definition BaseTariffCounter_from_bytes : stmt :=
  block [Assign "number" (App FromLe (PopMany 2));
    Assign "id" (App FromLe (PopMany 2));
    Assign "address_in_actual_values" (App FromLe (PopMany 2));
    Assign "address_in_data_archive_record" (App FromLe (PopMany 2));
    Assign "bit_control" Pop;
    Assign "in_data_archive" (App ToBool (App (BitAnd 1) (Var "bit_control")));
    Assign "in_daily_archive" (App ToBool (App (BitAnd 2) (Var "bit_control")));
    Assign "in_monthly_archive" (App ToBool (App (BitAnd 4) (Var "bit_control")));
    Assign "in_factory_archive" (App ToBool (App (BitAnd 8) (Var "bit_control")));
    Assign "is_metrological_quantity" (App ToBool (App (BitAnd 16) (Var "bit_control")));
    Assign "name" (App PrettyText (PopMany 23));
    Assign "unit" (App PrettyText (PopMany 8));
    Assign "number_of_base_counter" Pop;
    Assign "tariff" Pop;
    Assign "address_in_daily_archive_record" (App FromLe (PopMany 2));
    Assign "address_in_monthly_archive_record" (App FromLe (PopMany 2));
    Assign "address_in_billing_archive_record" (App FromLe (PopMany 2));
    IfData (block [Assign "decimals" Pop])
            (block [Assign "decimals" None_]);
    AssertNotData;
    Return [("number", Var "number");
      ("id", Var "id");
      ("address_in_actual_values", Var "address_in_actual_values");
      ("address_in_data_archive_record", Var "address_in_data_archive_record");
      ("bit_control", Var "bit_control");
      ("in_data_archive", Var "in_data_archive");
      ("in_daily_archive", Var "in_daily_archive");
      ("in_monthly_archive", Var "in_monthly_archive");
      ("in_factory_archive", Var "in_factory_archive");
      ("is_metrological_quantity", Var "is_metrological_quantity");
      ("name", Var "name");
      ("unit", Var "unit");
      ("number_of_base_counter", Var "number_of_base_counter");
      ("tariff", Var "tariff");
      ("address_in_daily_archive_record", Var "address_in_daily_archive_record");
      ("address_in_monthly_archive_record", Var "address_in_monthly_archive_record");
      ("address_in_billing_archive_record", Var "address_in_billing_archive_record");
      ("decimals", Var "decimals")]].
(** elgas/parameters/tariff_counter.py:130-153 *)
Definition BaseTariffCounter_class := mk_class "BaseTariffCounter"
  ["number";
   "id";
   "address_in_actual_values";
   "address_in_data_archive_record";
   "bit_control";
   "in_data_archive";
   "in_daily_archive";
   "in_monthly_archive";
   "in_factory_archive";
   "is_metrological_quantity";
   "name";
   "unit";
   "number_of_base_counter";
   "tariff";
   "address_in_daily_archive_record";
   "address_in_monthly_archive_record";
   "address_in_billing_archive_record";
   "decimals"]
  (Some BaseTariffCounter_from_bytes).

(** elgas/parameters/difference_counter.py:37-83 *)
Definition DifferenceCounter_from_bytes : stmt :=
  block [Assign "number" (App FromLe (PopMany 2));
    Assign "id" (App FromLe (PopMany 2));
    Assign "address_in_actual_values" (App FromLe (PopMany 2));
    Assign "address_in_data_archive_record" (App FromLe (PopMany 2));
    Assign "bit_control" Pop;
    Assign "in_data_archive" (App ToBool (App (BitAnd 1) (Var "bit_control")));
    Assign "in_daily_archive" (App ToBool (App (BitAnd 2) (Var "bit_control")));
    Assign "in_monthly_archive" (App ToBool (App (BitAnd 4) (Var "bit_control")));
    Assign "is_double" (App ToBool (App (BitAnd 8) (Var "bit_control")));
    Assign "is_metrological_quantity" (App ToBool (App (BitAnd 16) (Var "bit_control")));
    Assign "name" (App PrettyText (PopMany 23));
    Assign "unit" (App PrettyText (PopMany 8));
    Assign "digit" (App UnpackD (PopMany 8));
    Assign "number_of_primary_counter" Pop;
    Assign "address_in_daily_archive_record" (App FromLe (PopMany 2));
    Assign "address_in_monthly_archive_record" (App FromLe (PopMany 2));
    Assign "address_in_billing_archive_record" (App FromLe (PopMany 2));
    IfData (block [Assign "decimals" Pop])
            (block [Assign "decimals" None_]);
    AssertNotData;
    Return [("number", Var "number");
      ("id", Var "id");
      ("address_in_actual_values", Var "address_in_actual_values");
      ("address_in_data_archive_record", Var "address_in_data_archive_record");
      ("bit_control", Var "bit_control");
      ("in_data_archive", Var "in_data_archive");
      ("in_daily_archive", Var "in_daily_archive");
      ("in_monthly_archive", Var "in_monthly_archive");
      ("is_double", Var "is_double");
      ("is_metrological_quantity", Var "is_metrological_quantity");
      ("name", Var "name");
      ("unit", Var "unit");
      ("digit", Var "digit");
      ("number_of_primary_counter", Var "number_of_primary_counter");
      ("address_in_daily_archive_record", Var "address_in_daily_archive_record");
      ("address_in_monthly_archive_record", Var "address_in_monthly_archive_record");
      ("address_in_billing_archive_record", Var "address_in_billing_archive_record");
      ("decimals", Var "decimals")]].
(** elgas/parameters/difference_counter.py:13-36 *)
Definition DifferenceCounter_class := mk_class "DifferenceCounter"
  ["number";
   "id";
   "address_in_actual_values";
   "address_in_data_archive_record";
   "bit_control";
   "in_data_archive";
   "in_daily_archive";
   "in_monthly_archive";
   "is_double";
   "is_metrological_quantity";
   "name";
   "unit";
   "digit";
   "number_of_primary_counter";
   "address_in_daily_archive_record";
   "address_in_monthly_archive_record";
   "address_in_billing_archive_record";
   "decimals"]
  (Some DifferenceCounter_from_bytes).

(** elgas/parameters/difference_counter.py:86-90: no from_bytes *)
Definition DifferenceBaseCounter_class := mk_class "DifferenceBaseCounter"
  []
  None.

(** elgas/parameters/timer.py:31-62 *)
Definition Timer_from_bytes : stmt :=
  block [Assign "number" (App FromLe (PopMany 2));
    Assign "id" (App FromLe (PopMany 2));
    Assign "address_in_actual_values" (App FromLe (PopMany 2));
    Assign "address_in_data_archive_record" (App FromLe (PopMany 2));
    Assign "bit_control" Pop;
    Assign "in_data_archive" (App ToBool (App (BitAnd 1) (Var "bit_control")));
    Assign "in_daily_archive" (App ToBool (App (BitAnd 2) (Var "bit_control")));
    Assign "in_monthly_archive" (App ToBool (App (BitAnd 4) (Var "bit_control")));
    Assign "is_metrological_quantity" (App ToBool (App (BitAnd 16) (Var "bit_control")));
    Assign "name" (App PrettyText (PopMany 23));
    Assign "address_in_daily_archive_record" (App FromLe (PopMany 2));
    Assign "address_in_monthly_archive_record" (App FromLe (PopMany 2));
    AssertNotData;
    Return [("number", Var "number");
      ("id", Var "id");
      ("address_in_actual_values", Var "address_in_actual_values");
      ("address_in_data_archive_record", Var "address_in_data_archive_record");
      ("bit_control", Var "bit_control");
      ("in_data_archive", Var "in_data_archive");
      ("in_daily_archive", Var "in_daily_archive");
      ("in_monthly_archive", Var "in_monthly_archive");
      ("is_metrological_quantity", Var "is_metrological_quantity");
      ("name", Var "name");
      ("address_in_daily_archive_record", Var "address_in_daily_archive_record");
      ("address_in_monthly_archive_record", Var "address_in_monthly_archive_record")]].
(** elgas/parameters/timer.py:12-30 *)
Definition Timer_class := mk_class "Timer"
  ["number";
   "id";
   "address_in_actual_values";
   "address_in_data_archive_record";
   "bit_control";
   "in_data_archive";
   "in_daily_archive";
   "in_monthly_archive";
   "is_metrological_quantity";
   "name";
   "address_in_daily_archive_record";
   "address_in_monthly_archive_record"]
  (Some Timer_from_bytes).

(** elgas/parameters/device_error.py:33-69 *)
Definition DeviceError_from_bytes : stmt :=
  block [Assign "number" (App FromLe (PopMany 2));
    Assign "id" (App FromLe (PopMany 2));
    Assign "bit_order_in_actual_values" (App FromLe (PopMany 2));
    Assign "bit_order_in_data_archive_record" (App FromLe (PopMany 2));
    Assign "bit_order_in_binary_archive_record" (App FromLe (PopMany 2));
    Assign "bit_control" Pop;
    Assign "in_binary_archive" (App ToBool (App (BitAnd 1) (Var "bit_control")));
    Assign "in_data_archive" (App ToBool (App (BitAnd 2) (Var "bit_control")));
    Assign "name" (App PrettyText (PopMany 23));
    IfData (block [Assign "action_during_change" Pop;
              Assign "text_log_0" (App PrettyText (PopMany 13));
              Assign "text_log_1" (App PrettyText (PopMany 13))])
            (block [Assign "action_during_change" None_;
              Assign "text_log_0" None_;
              Assign "text_log_1" None_]);
    AssertNotData;
    Return [("number", Var "number");
      ("id", Var "id");
      ("bit_order_in_actual_values", Var "bit_order_in_actual_values");
      ("bit_order_in_data_archive_record", Var "bit_order_in_data_archive_record");
      ("bit_order_in_binary_archive_record", Var "bit_order_in_binary_archive_record");
      ("bit_control", Var "bit_control");
      ("in_binary_archive", Var "in_binary_archive");
      ("in_data_archive", Var "in_data_archive");
      ("name", Var "name");
      ("action_during_change", Var "action_during_change");
      ("text_log_0", Var "text_log_0");
      ("text_log_1", Var "text_log_1")]].
(** elgas/parameters/device_error.py:12-32 *)
Definition DeviceError_class := mk_class "DeviceError"
  ["number";
   "id";
   "bit_order_in_actual_values";
   "bit_order_in_data_archive_record";
   "bit_order_in_binary_archive_record";
   "bit_control";
   "in_binary_archive";
   "in_data_archive";
   "name";
   "error_bit_order_in_actual_values";
   "error_bit_order_in_binary_archive_record";
   "error_bit_order_in_data_archive_record";
   "action_during_change";
   "text_log_0";
   "text_log_1"]
  (Some DeviceError_from_bytes).

(** elgas/parameters/sum_of_alarms.py:33-69 *)
Definition SumOfAlarms_from_bytes : stmt :=
  block [Assign "number" (App FromLe (PopMany 2));
    Assign "id" (App FromLe (PopMany 2));
    Assign "bit_order_in_actual_values" (App FromLe (PopMany 2));
    Assign "bit_order_in_data_archive_record" (App FromLe (PopMany 2));
    Assign "bit_order_in_binary_archive_record" (App FromLe (PopMany 2));
    Assign "bit_control" Pop;
    Assign "in_binary_archive" (App ToBool (App (BitAnd 1) (Var "bit_control")));
    Assign "in_data_archive" (App ToBool (App (BitAnd 2) (Var "bit_control")));
    Assign "name" (App PrettyText (PopMany 23));
    IfData (block [Assign "action_during_change" Pop;
              Assign "text_log_0" (App PrettyText (PopMany 13));
              Assign "text_log_1" (App PrettyText (PopMany 13))])
            (block [Assign "action_during_change" None_;
              Assign "text_log_0" None_;
              Assign "text_log_1" None_]);
    AssertNotData;
    Return [("number", Var "number");
      ("id", Var "id");
      ("bit_order_in_actual_values", Var "bit_order_in_actual_values");
      ("bit_order_in_data_archive_record", Var "bit_order_in_data_archive_record");
      ("bit_order_in_binary_archive_record", Var "bit_order_in_binary_archive_record");
      ("bit_control", Var "bit_control");
      ("in_binary_archive", Var "in_binary_archive");
      ("in_data_archive", Var "in_data_archive");
      ("name", Var "name");
      ("action_during_change", Var "action_during_change");
      ("text_log_0", Var "text_log_0");
      ("text_log_1", Var "text_log_1")]].
(** elgas/parameters/sum_of_alarms.py:12-32 *)
Definition SumOfAlarms_class := mk_class "SumOfAlarms"
  ["number";
   "id";
   "bit_order_in_actual_values";
   "bit_order_in_data_archive_record";
   "bit_order_in_binary_archive_record";
   "bit_control";
   "in_binary_archive";
   "in_data_archive";
   "name";
   "error_bit_order_in_actual_values";
   "error_bit_order_in_binary_archive_record";
   "error_bit_order_in_data_archive_record";
   "action_during_change";
   "text_log_0";
   "text_log_1"]
  (Some SumOfAlarms_from_bytes).

(** elgas/parameters/statistics.py:36-80 *)
Definition AnalogStatistics_from_bytes : stmt :=
  block [Assign "number" (App FromLe (PopMany 2));
    Assign "id" (App FromLe (PopMany 2));
    Assign "address_in_actual_values" (App FromLe (PopMany 2));
    Assign "address_in_data_archive_record" (App FromLe (PopMany 2));
    Assign "bit_control" Pop;
    Assign "in_data_archive" (App ToBool (App (BitAnd 1) (Var "bit_control")));
    Assign "in_daily_archive" (App ToBool (App (BitAnd 2) (Var "bit_control")));
    Assign "in_monthly_archive" (App ToBool (App (BitAnd 4) (Var "bit_control")));
    Assign "is_metrological_quantity" (App ToBool (App (BitAnd 16) (Var "bit_control")));
    Assign "name" (App PrettyText (PopMany 23));
    Assign "unit" (App PrettyText (PopMany 8));
    Assign "digit" (App Round7 (App UnpackF (PopMany 4)));
    Assign "offset" (App UnpackF (PopMany 4));
    Assign "number_of_primary_quantity" Pop;
    Assign "statistics_type" Pop;
    Assign "address_in_daily_archive_record" (App FromLe (PopMany 2));
    Assign "address_in_monthly_archive_record" (App FromLe (PopMany 2));
    IfData (block [Assign "decimals" Pop])
            (block [Assign "decimals" None_]);
    Return [("number", Var "number");
      ("id", Var "id");
      ("address_in_actual_values", Var "address_in_actual_values");
      ("address_in_data_archive_record", Var "address_in_data_archive_record");
      ("bit_control", Var "bit_control");
      ("in_data_archive", Var "in_data_archive");
      ("in_daily_archive", Var "in_daily_archive");
      ("in_monthly_archive", Var "in_monthly_archive");
      ("is_metrological_quantity", Var "is_metrological_quantity");
      ("name", Var "name");
      ("unit", Var "unit");
      ("digit", Var "digit");
      ("offset", Var "offset");
      ("number_of_primary_quantity", Var "number_of_primary_quantity");
      ("statistics_type", Var "statistics_type");
      ("address_in_daily_archive_record", Var "address_in_daily_archive_record");
      ("address_in_monthly_archive_record", Var "address_in_monthly_archive_record");
      ("decimals", Var "decimals")]].
(** elgas/parameters/statistics.py:13-35 *)
Definition AnalogStatistics_class := mk_class "AnalogStatistics"
  ["number";
   "id";
   "address_in_actual_values";
   "address_in_data_archive_record";
   "bit_control";
   "in_data_archive";
   "in_daily_archive";
   "in_monthly_archive";
   "is_metrological_quantity";
   "name";
   "unit";
   "digit";
   "offset";
   "number_of_primary_quantity";
   "statistics_type";
   "address_in_daily_archive_record";
   "address_in_monthly_archive_record";
   "decimals"]
  (Some AnalogStatistics_from_bytes).

(** elgas/parameters/statistics.py:109-110: inherits everything from [AnalogStatistics] *)
Definition Statistics_class := mk_class "Statistics" (class_attrs AnalogStatistics_class) (class_body AnalogStatistics_class).

(** elgas/parameters/statistics.py:119-122: inherits everything from [AnalogStatistics] *)
Definition AnalogTimeStatistics_class := mk_class "AnalogTimeStatistics" (class_attrs AnalogStatistics_class) (class_body AnalogStatistics_class).

(** elgas/parameters/statistics.py:131-132: inherits everything from [AnalogStatistics] *)
Definition TimeStatistics_class := mk_class "TimeStatistics" (class_attrs AnalogStatistics_class) (class_body AnalogStatistics_class).

(** elgas/parameters/statistics.py:164-204 *)
Definition CounterStatistics_from_bytes : stmt :=
  block [Assign "number" (App FromLe (PopMany 2));
    Assign "id" (App FromLe (PopMany 2));
    Assign "address_in_actual_values" (App FromLe (PopMany 2));
    Assign "address_in_data_archive_record" (App FromLe (PopMany 2));
    Assign "bit_control" Pop;
    Assign "in_data_archive" (App ToBool (App (BitAnd 1) (Var "bit_control")));
    Assign "in_daily_archive" (App ToBool (App (BitAnd 2) (Var "bit_control")));
    Assign "in_monthly_archive" (App ToBool (App (BitAnd 4) (Var "bit_control")));
    Assign "is_metrological_quantity" (App ToBool (App (BitAnd 16) (Var "bit_control")));
    Assign "name" (App PrettyText (PopMany 23));
    Assign "unit" (App PrettyText (PopMany 8));
    Assign "digit" (App UnpackD (PopMany 8));
    Assign "type_of_primary_quantity" Pop;
    Assign "number_of_primary_quantity" Pop;
    Assign "statistics_type" Pop;
    Assign "address_in_daily_archive_record" (App FromLe (PopMany 2));
    Assign "address_in_monthly_archive_record" (App FromLe (PopMany 2));
    AssertNotData;
    Return [("number", Var "number");
      ("id", Var "id");
      ("address_in_actual_values", Var "address_in_actual_values");
      ("address_in_data_archive_record", Var "address_in_data_archive_record");
      ("bit_control", Var "bit_control");
      ("in_data_archive", Var "in_data_archive");
      ("in_daily_archive", Var "in_daily_archive");
      ("in_monthly_archive", Var "in_monthly_archive");
      ("is_metrological_quantity", Var "is_metrological_quantity");
      ("name", Var "name");
      ("unit", Var "unit");
      ("digit", Var "digit");
      ("type_of_primary_quantity", Var "type_of_primary_quantity");
      ("number_of_primary_quantity", Var "number_of_primary_quantity");
      ("statistics_type", Var "statistics_type");
      ("address_in_daily_archive_record", Var "address_in_daily_archive_record");
      ("address_in_monthly_archive_record", Var "address_in_monthly_archive_record")]].
(** elgas/parameters/statistics.py:142-163 *)
Definition CounterStatistics_class := mk_class "CounterStatistics"
  ["number";
   "id";
   "address_in_actual_values";
   "address_in_data_archive_record";
   "bit_control";
   "in_data_archive";
   "in_daily_archive";
   "in_monthly_archive";
   "is_metrological_quantity";
   "name";
   "unit";
   "digit";
   "type_of_primary_quantity";
   "number_of_primary_quantity";
   "statistics_type";
   "address_in_daily_archive_record";
   "address_in_monthly_archive_record"]
  (Some CounterStatistics_from_bytes).

(** elgas/parameters/statistics.py:207-210: inherits everything from [CounterStatistics] *)
Definition StandardCounterStatistics_class := mk_class "StandardCounterStatistics" (class_attrs CounterStatistics_class) (class_body CounterStatistics_class).

(** elgas/parameters/modem.py:38-90 *)
Definition Modem_from_bytes : stmt :=
  block [Assign "number" Pop;
    Assign "bit_control_0" Pop;
    Assign "title" (App PrettyText (PopMany 7));
    Assign "modem_type" Pop;
    Assign "initialization" (App PrettyText (PopMany 32));
    Assign "call_to_dispatching" (App PrettyText (PopMany 32));
    Assign "modem_hang_up" (App PrettyText (PopMany 8));
    Assign "special_initialization" (App PrettyText (PopMany 80));
    Assign "ip_address_for_registration_and_diagnostics" (App IpAddress (PopMany 4));
    Assign "ip_address_for_calling_to_dispatching" (App IpAddress (PopMany 4));
    Assign "registration_send_period" Pop;
    Assign "authentication_mode" Pop;
    Assign "port_for_registration" (App FromLe (PopMany 2));
    Assign "port_for_calling_to_dispatching" (App FromLe (PopMany 2));
    Assign "sms_call" (App PrettyText (PopMany 32));
    Assign "gprs_user_name" (App PrettyText (PopMany 49));
    Assign "gprs_password" (App Hex (PopMany 33));
    Assign "ip_address_for_ping" (App IpAddress (PopMany 4));
    Assign "ping_period" (App FromLe (PopMany 2));
    Assign "transition_into_command_mode" (App PrettyText (PopMany 8));
    Assign "pin" (App Hex (PopMany 9));
    Assign "owner_sim_number" (App PrettyText (PopMany 17));
    AssertNotData;
    Return [("number", Var "number");
      ("bit_control_0", Var "bit_control_0");
      ("title", Var "title");
      ("modem_type", Var "modem_type");
      ("initialization", Var "initialization");
      ("call_to_dispatching", Var "call_to_dispatching");
      ("modem_hang_up", Var "modem_hang_up");
      ("special_initialization", Var "special_initialization");
      ("ip_address_for_registration_and_diagnostics", Var "ip_address_for_registration_and_diagnostics");
      ("ip_address_for_calling_to_dispatching", Var "ip_address_for_calling_to_dispatching");
      ("registration_send_period", Var "registration_send_period");
      ("authentication_mode", Var "authentication_mode");
      ("port_for_registration", Var "port_for_registration");
      ("port_for_calling_to_dispatching", Var "port_for_calling_to_dispatching");
      ("sms_call", Var "sms_call");
      ("gprs_user_name", Var "gprs_user_name");
      ("gprs_password", Var "gprs_password");
      ("ip_address_for_ping", Var "ip_address_for_ping");
      ("ping_period", Var "ping_period");
      ("transition_into_command_mode", Var "transition_into_command_mode");
      ("pin", Var "pin");
      ("owner_sim_number", Var "owner_sim_number")]].
(** elgas/parameters/modem.py:11-37 *)
Definition Modem_class := mk_class "Modem"
  ["number";
   "bit_control_0";
   "title";
   "modem_type";
   "initialization";
   "call_to_dispatching";
   "modem_hang_up";
   "special_initialization";
   "ip_address_for_registration_and_diagnostics";
   "ip_address_for_calling_to_dispatching";
   "registration_send_period";
   "authentication_mode";
   "port_for_registration";
   "port_for_calling_to_dispatching";
   "sms_call";
   "gprs_user_name";
   "gprs_password";
   "ip_address_for_ping";
   "ping_period";
   "transition_into_command_mode";
   "pin";
   "owner_sim_number"]
  (Some Modem_from_bytes).

(** elgas/parameters/enumerations.py:32-71 *)
Inductive parameter_type :=
| SYSTEM_PARAMETER
| ANALOG_MEASURAND
| BINARY
| COUNTER
| STANDARD_COUNTER
| FLOW_RATE
| STANDARD_FLOW_RATE
| CONVERSION_COEFFICIENT
| ERROR_COUNTER
| ERROR_STANDARD_COUNTER
| COMPRESSIBILITY
| TIME_WINDOW
| CORRECTION_COUNTER
| DOUBLE_COUNTER
| DOUBLE_ERROR_COUNTER
| DIAGNOSTICS
| DEVICE_ERROR
| SUM_OF_ALARMS
| TIMER
| TARIFF_COUNTER
| BASE_TARIFF_COUNTER
| SET_POINT
| DIFFERENCE_COUNTER
| DIFFERENCE_BASE_COUNTER
| COMPRESSIBILITY_Z
| COMPRESSIBILITY_Z_BASE
| ENERGY
| ERROR_ENERGY
| DOUBLE_TARIFF_COUNTER
| ANALOG_STATISTICS
| COUNTER_STATISTICS
| STANDARD_COUNTER_STATISTICS
| STATISTICS
| ANALOG_TIME_STATISTICS
| TIME_STATISTICS
| MODEM.

(** the values of the enumeration, same lines *)
Definition type_code (t : parameter_type) : Z :=
  match t with
  | SYSTEM_PARAMETER => 0
  | ANALOG_MEASURAND => 30
  | BINARY => 31
  | COUNTER => 32
  | STANDARD_COUNTER => 33
  | FLOW_RATE => 34
  | STANDARD_FLOW_RATE => 35
  | CONVERSION_COEFFICIENT => 36
  | ERROR_COUNTER => 45
  | ERROR_STANDARD_COUNTER => 46
  | COMPRESSIBILITY => 47
  | TIME_WINDOW => 48
  | CORRECTION_COUNTER => 49
  | DOUBLE_COUNTER => 53
  | DOUBLE_ERROR_COUNTER => 54
  | DIAGNOSTICS => 59
  | DEVICE_ERROR => 61
  | SUM_OF_ALARMS => 62
  | TIMER => 65
  | TARIFF_COUNTER => 68
  | BASE_TARIFF_COUNTER => 69
  | SET_POINT => 70
  | DIFFERENCE_COUNTER => 72
  | DIFFERENCE_BASE_COUNTER => 73
  | COMPRESSIBILITY_Z => 74
  | COMPRESSIBILITY_Z_BASE => 75
  | ENERGY => 77
  | ERROR_ENERGY => 78
  | DOUBLE_TARIFF_COUNTER => 79
  | ANALOG_STATISTICS => 80
  | COUNTER_STATISTICS => 81
  | STANDARD_COUNTER_STATISTICS => 82
  | STATISTICS => 83
  | ANALOG_TIME_STATISTICS => 84
  | TIME_STATISTICS => 85
  | MODEM => 141
  end.

(** all members, in order of definition, same lines *)
Definition all_types : list parameter_type :=
  [SYSTEM_PARAMETER; ANALOG_MEASURAND; BINARY; COUNTER; STANDARD_COUNTER; FLOW_RATE; STANDARD_FLOW_RATE; CONVERSION_COEFFICIENT; ERROR_COUNTER; ERROR_STANDARD_COUNTER; COMPRESSIBILITY; TIME_WINDOW; CORRECTION_COUNTER; DOUBLE_COUNTER; DOUBLE_ERROR_COUNTER; DIAGNOSTICS; DEVICE_ERROR; SUM_OF_ALARMS; TIMER; TARIFF_COUNTER; BASE_TARIFF_COUNTER; SET_POINT; DIFFERENCE_COUNTER; DIFFERENCE_BASE_COUNTER; COMPRESSIBILITY_Z; COMPRESSIBILITY_Z_BASE; ENERGY; ERROR_ENERGY; DOUBLE_TARIFF_COUNTER; ANALOG_STATISTICS; COUNTER_STATISTICS; STANDARD_COUNTER_STATISTICS; STATISTICS; ANALOG_TIME_STATISTICS; TIME_STATISTICS; MODEM].

(** elgas/parameters/factory.py:85-121, [object_map]; None: no such key *)
Definition registered_class (t : parameter_type) : option class :=
  match t with
  | SYSTEM_PARAMETER => Some SystemParameters_class
  | ANALOG_MEASURAND => Some AnalogQuantity_class
  | BINARY => Some Binary_class
  | COUNTER => Some Counter_class
  | STANDARD_COUNTER => Some StandardCounter_class
  | FLOW_RATE => Some FlowRate_class
  | STANDARD_FLOW_RATE => Some StandardFlowRate_class
  | CONVERSION_COEFFICIENT => Some ConversionCoefficient_class
  | ERROR_COUNTER => Some ErrorCounter_class
  | ERROR_STANDARD_COUNTER => Some ErrorStandardCounter_class
  | COMPRESSIBILITY => Some Compressibility_class
  | TIME_WINDOW => Some TimeWindow_class
  | DOUBLE_COUNTER => Some DoubleCounter_class
  | DOUBLE_ERROR_COUNTER => Some DoubleErrorCounter_class
  | DIAGNOSTICS => Some Diagnostics_class
  | SET_POINT => Some SetPoint_class
  | COMPRESSIBILITY_Z => Some CompressibilityZ_class
  | COMPRESSIBILITY_Z_BASE => Some CompressibilityZBase_class
  | ENERGY => Some Energy_class
  | ERROR_ENERGY => Some ErrorEnergy_class
  | TARIFF_COUNTER => Some TariffCounter_class
  | DOUBLE_TARIFF_COUNTER => Some DoubleTariffCounter_class
  | BASE_TARIFF_COUNTER => Some BaseTariffCounter_class
  | DIFFERENCE_COUNTER => Some DifferenceCounter_class
  | DIFFERENCE_BASE_COUNTER => Some DifferenceBaseCounter_class
  | TIMER => Some Timer_class
  | DEVICE_ERROR => Some DeviceError_class
  | SUM_OF_ALARMS => Some SumOfAlarms_class
  | ANALOG_STATISTICS => Some AnalogStatistics_class
  | STATISTICS => Some Statistics_class
  | ANALOG_TIME_STATISTICS => Some AnalogTimeStatistics_class
  | TIME_STATISTICS => Some TimeStatistics_class
  | COUNTER_STATISTICS => Some CounterStatistics_class
  | STANDARD_COUNTER_STATISTICS => Some StandardCounterStatistics_class
  | MODEM => Some Modem_class
  | CORRECTION_COUNTER => None
  end.

(** [cls.from_bytes] for the classes of elgas/parameters: only SystemParameters
    calls another one, GasComposition.from_bytes
    (elgas/parameters/system_parameters.py:106) *)
Definition call_gas (c : string) (data : bytes) : res value :=
  if String.eqb c "GasComposition"
  then run_from_bytes (fun _ _ => Err AttributeError) GasComposition_class data
  else Err AttributeError.
Definition class_from_bytes (c : class) (data : bytes) : res value := run_from_bytes call_gas c data.

(** elgas/parameters/factory.py:123-126 *)
Definition parameter_from_bytes (object_type : parameter_type) (in_data : bytes) : res value :=
  match registered_class object_type with
  | None => Err KeyError
  | Some klass => class_from_bytes klass in_data
  end.

(** [ParameterObjectType(n)] of enum.IntEnum: ValueError if there is no such member *)
Definition parameter_type_of (n : Z) : res parameter_type :=
  match find (fun t => type_code t =? n) all_types with
  | Some t => Ok t
  | None => Err ValueError
  end.

(** elgas/parser.py:32-42, the while loop; [fuel] bounds the number of iterations.
    [None]: the fuel ran out; [parse] gives enough, see C43. *)
Fixpoint parse_loop (fuel : nat) (object_list : list value) (working_data : bytes) : option (res (list value)) :=
  match working_data with
  | [] => Some (Ok object_list)
  | _ =>
      match fuel with
      | O => None
      | S fuel' =>
          match pop_many working_data 2 with
          | Err e => Some (Err e)
          | Ok (b, working_data) =>
              let length := from_le b in
              match pop0 working_data with
              | Err e => Some (Err e)
              | Ok (t, working_data) =>
                  match parameter_type_of t with
                  | Err e => Some (Err e)
                  | Ok object_type =>
                      match parameter_from_bytes object_type (slice_to (length - 3) working_data) with
                      | Err e => Some (Err e)
                      | Ok o => parse_loop fuel' (object_list ++ [o]) (slice_from (length - 3) working_data)
                      end
                  end
              end
          end
      end
  end.

(** elgas/parser.py:24-44. [self_data] is the attribute of line 22, [data] the
    argument; [self.data or data] takes the argument if the attribute is None or
    empty, and bytearray(None) is a TypeError. *)
Definition parse (self_data data : option bytes) : option (res (list value)) :=
  let chosen := match self_data with Some (b :: l) => Some (b :: l) | _ => data end in
  match chosen with
  | None => Some (Err TypeError)
  | Some [] => Some (Err ValueError)
  | Some working_data => parse_loop (length working_data) [] working_data
  end.
