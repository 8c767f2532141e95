(** Independent specification: which response data means nothing. *)
From Verif Require Export SpecMeaning.
From Verif Require Import Py SpecUtils SpecFrames SpecText SpecApplication Application SpecErrors.
Open Scope list_scope.
Open Scope Z_scope.

Inductive means_nothing : service -> bytes -> exn -> Prop :=
| no_such_answer srv d : unanswered srv -> means_nothing srv d KeyError
| values_without_time d : no_clock_time (firstn 6 d) -> means_nothing READ_VALUES d ValueError
| values_too_short time t dst supports tail : clock_time time t dst supports -> len tail < 19 ->
    means_nothing READ_VALUES (time ++ tail) IndexError
| time_without_time d : no_clock_time (firstn 6 d) -> means_nothing READ_DEVICE_TIME d ValueError
| parameters_too_short d : len d < 5 -> means_nothing READ_SCADA_PARAMETERS d IndexError
| archive_without_data srv : srv = READ_ARCHIVES \/ srv = READ_ARCHIVES_BY_DATE -> means_nothing srv [] IndexError
| archive_without_name srv a l : srv = READ_ARCHIVES \/ srv = READ_ARCHIVES_BY_DATE -> ~ archive_number a ->
    means_nothing srv (a :: l) ValueError.
