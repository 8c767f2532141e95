(** Independent specification: the numbers that stand for services and for parameter
    types in telegrams, in increasing order. *)
From Verif Require Import Frames Application Parameters.
Open Scope Z_scope.

Definition service_numbers : list (Z * service) :=
  [(100, READ_VALUES);
   (101, WRITE_VALUES);
   (103, SEARCH_ARCHIVE_POINTERS_OLD);
   (104, READ_ARCHIVES_OLD);
   (108, READ_DEVICE_TIME);
   (112, READ_SCADA_PARAMETERS);
   (113, WRITE_DEVICE_TIME);
   (119, GROUP_WRITE_VALUES);
   (121, GROUP_READ_VALUES);
   (123, SEARCH_ARCHIVE_POINTERS);
   (124, READ_ARCHIVES);
   (125, READ_ARCHIVES_BY_DATE);
   (135, CALL);
   (145, READ_ARCHIVES_BY_DATE_OLD)].

Definition type_numbers : list (Z * parameter_type) :=
  [(0, SYSTEM_PARAMETER);
   (30, ANALOG_MEASURAND);
   (31, BINARY);
   (32, COUNTER);
   (33, STANDARD_COUNTER);
   (34, FLOW_RATE);
   (35, STANDARD_FLOW_RATE);
   (36, CONVERSION_COEFFICIENT);
   (45, ERROR_COUNTER);
   (46, ERROR_STANDARD_COUNTER);
   (47, COMPRESSIBILITY);
   (48, TIME_WINDOW);
   (49, CORRECTION_COUNTER);
   (53, DOUBLE_COUNTER);
   (54, DOUBLE_ERROR_COUNTER);
   (59, DIAGNOSTICS);
   (61, DEVICE_ERROR);
   (62, SUM_OF_ALARMS);
   (65, TIMER);
   (68, TARIFF_COUNTER);
   (69, BASE_TARIFF_COUNTER);
   (70, SET_POINT);
   (72, DIFFERENCE_COUNTER);
   (73, DIFFERENCE_BASE_COUNTER);
   (74, COMPRESSIBILITY_Z);
   (75, COMPRESSIBILITY_Z_BASE);
   (77, ENERGY);
   (78, ERROR_ENERGY);
   (79, DOUBLE_TARIFF_COUNTER);
   (80, ANALOG_STATISTICS);
   (81, COUNTER_STATISTICS);
   (82, STANDARD_COUNTER_STATISTICS);
   (83, STATISTICS);
   (84, ANALOG_TIME_STATISTICS);
   (85, TIME_STATISTICS);
   (141, MODEM)].

(** the number of the service every request is for *)
Inductive wants : request -> Z -> Prop :=
| wants_values p : wants (ReadInstantaneousValuesRequest p) 100
| wants_time : wants ReadTimeRequest 108
| wants_parameters p c b : wants (ReadDeviceParametersRequest p c b) 112
| wants_set_time p t b : wants (WriteTimeRequest p t b) 113
| wants_archive p a n i : wants (ReadArchiveRequest p a n i) 124
| wants_archive_by_time p a n t : wants (ReadArchiveByTimeRequest p a n t) 125.
