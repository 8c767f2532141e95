(** Independent specification: what the data of a response means, for every byte
    string. *)
From Verif Require Import Py SpecUtils SpecFrames SpecText SpecApplication Application.
Open Scope list_scope.
Open Scope Z_scope.

(** six bytes as a point of time, with the two flags in the byte of the hour *)
Definition clock_time (l : bytes) (t : datetime) (dst supports : bool) : Prop :=
  exists s mi h d mo y vs vmi vh vd vmo vy,
    l = [s; mi; h; d; mo; y] /\
    bcd_value s = Some vs /\ bcd_value mi = Some vmi /\ bcd_value (h mod 64) = Some vh /\
    bcd_value d = Some vd /\ bcd_value mo = Some vmo /\ bcd_value y = Some vy /\
    t = mk_datetime (2000 + vy) vmo vd vh vmi vs /\ calendar_time t /\
    dst = Z.testbit h 7 /\ supports = Z.testbit h 6.
Definition no_clock_time (l : bytes) : Prop := forall t dst supports, ~ clock_time l t dst supports.
(** the archives have the numbers 0 to 10 *)
Definition archive_number (a : Z) : Prop := 0 <= a <= 10.
(** an archive response: the number of the archive, three bytes of the record id (the
    fourth is not looked at), data; a response may end anywhere after the archive *)
Inductive archive_data : bytes -> Z -> Z -> bytes -> Prop :=
| archive_whole a i x data : archive_number a -> 0 <= i < 2 ^ 24 ->
    archive_data ([a] ++ [i mod 256; i / 256 mod 256; i / 65536] ++ [x] ++ data) a i data
| archive_cut a l : archive_number a -> len l <= 3 -> archive_data (a :: l) a (le_value l) [].

Inductive means : service -> bytes -> response_pdu -> Prop :=
| means_values time t dst supports data access status summary crc : clock_time time t dst supports ->
    len status = 8 -> len summary = 8 -> len crc = 2 ->
    means READ_VALUES (time ++ data ++ [access] ++ status ++ summary ++ crc)
      (ReadInstantaneousValuesResponse t dst supports data access status summary crc)
| means_time time t dst supports result extra crc : clock_time time t dst supports -> len crc = 2 ->
    means READ_DEVICE_TIME (time ++ [result] ++ extra ++ crc) (ReadTimeResponse t [result] dst supports extra)
| means_time_cut time t dst supports tail : clock_time time t dst supports -> len tail <= 2 ->
    means READ_DEVICE_TIME (time ++ tail) (ReadTimeResponse t (firstn 1 tail) dst supports [])
| means_parameters n a e data : 0 <= n <= 65535 -> 0 <= a <= 65535 ->
    means READ_SCADA_PARAMETERS (le2 n ++ le2 a ++ [e] ++ data) (ReadDeviceParametersResponse data n a (negb (e =? 0)))
| means_archive d a i data : archive_data d a i data -> means READ_ARCHIVES d (ReadArchiveResponse a i data)
| means_by_date d a i data : archive_data d a i data -> means READ_ARCHIVES_BY_DATE d (ReadArchiveByTimeResponse a i data)
| means_written d : means WRITE_DEVICE_TIME d WriteTimeResponse.
