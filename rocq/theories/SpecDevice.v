(** Independent specification of a device with a state: a clock, a memory of parameter
    objects, archives. What it hears in a telegram, what it does, what it answers. *)
From Verif Require Import Py SpecUtils SpecFrames SpecText SpecApplication SpecPdu SpecSecurity SpecMeaning SpecConnection.
From Verif Require Import Connection ParamLang Parameters Client SpecBlock SpecClient.
Open Scope list_scope.
Open Scope Z_scope.

(** what a device can be asked *)
Inductive query :=
| AskValues
| AskTime
| SetTime (t : datetime)
| AskParameters (first size : Z)
| AskArchive (archive amount first_record : Z)
| AskArchiveSince (archive amount : Z) (oldest : datetime).

(** [requested pw f d q]: the service number [f] and the data [d] are the query [q],
    asked with the password [pw] *)
Inductive requested (pw : str) : Z -> bytes -> query -> Prop :=
| hear_values p : password_field pw p -> requested pw 0x64 p AskValues
| hear_time : requested pw 0x6C [] AskTime
| hear_set p f t : password_field pw p -> clock_time f t false false -> requested pw 0x71 (p ++ f ++ [4]) (SetTime t)
| hear_parameters p n size : password_field pw p -> 0 <= n <= 65535 -> 0 <= size <= 65535 ->
    requested pw 0x70 (p ++ le2 n ++ le2 size) (AskParameters n size)
| hear_archive p a n i : password_field pw p -> 0 <= n <= 65535 -> 0 <= i < 2 ^ 32 ->
    requested pw 0x7C (p ++ [a] ++ le4 i ++ le2 n) (AskArchive a n i)
| hear_since p a n f t : password_field pw p -> 0 <= n <= 65535 -> clock_time f t false false ->
    requested pw 0x7D (p ++ [a] ++ le2 n ++ f) (AskArchiveSince a n t).
(** a device with a key hears encrypted requests, a device without hears plain ones *)
Definition hears (ctx : option cipher_context) (pw : str) (line : bytes) (q : query) : Prop :=
  exists f d1 d2 s1 s2 p d, is_bytes p /\ requested pw f d q /\
  match ctx with
  | Some (mk_context i k) => on_line (request_wire 133 f d1 d2 s1 s2 p) line /\ unseals i k p d
  | None => on_line (request_wire 132 f d1 d2 s1 s2 p) line /\ p = d
  end.
(** ... and hears nothing else in the line *)
Definition hears_only (ctx : option cipher_context) (pw : str) (q : query) (line : bytes) : Prop :=
  hears ctx pw line q /\ forall q', hears ctx pw line q' -> q' = q.

(** the state of a device *)
Record device := mk_device {
  dv_clock : datetime;
  dv_values : bytes;                          (* the measured values *)
  dv_memory : list bytes;                     (* the parameter objects *)
  dv_archive : Z -> Z -> Z -> bytes;          (* archive, first record, number of records *)
  dv_since : Z -> Z -> datetime -> Z * bytes  (* archive, number of records, oldest time: first record and records *)
}.
Definition with_clock (d : device) (t : datetime) : device :=
  mk_device t (dv_values d) (dv_memory d) (dv_archive d) (dv_since d).
(** the clock of a device runs *)
Definition runs_on (d d' : device) : Prop :=
  exists n t, 0 <= n /\ seconds_later n (dv_clock d) t /\ d' = with_clock d t.
(** the parameter objects from number [n] on *)
Definition objects_from (d : device) (n : Z) : list bytes := skipn (Z.to_nat n) (dv_memory d).

(** [performs d q p d']: the answer to [q] is [p], the device being [d'] then *)
Inductive performs (d : device) : query -> response_pdu -> device -> Prop :=
| do_values dst supports access status summary crc :
    performs d AskValues (ReadInstantaneousValuesResponse (dv_clock d) dst supports (dv_values d) access status summary crc) d
| do_time result dst supports extra : performs d AskTime (ReadTimeResponse (dv_clock d) result dst supports extra) d
| do_set t : performs d (SetTime t) WriteTimeResponse (with_clock d t)
(* as many objects as the device likes; the flag when there are no more *)
| do_parameters n size here later number : objects_from d n = here ++ later ->
    performs d (AskParameters n size)
      (ReadDeviceParametersResponse (concat here) number (len here) (match later with [] => true | _ => false end)) d
| do_archive a n i : performs d (AskArchive a n i) (ReadArchiveResponse a i (dv_archive d a i n)) d
| do_since a n t : performs d (AskArchiveSince a n t)
    (ReadArchiveByTimeResponse a (fst (dv_since d a n t)) (snd (dv_since d a n t))) d.
Definition query_service (q : query) : service :=
  match q with
  | AskValues => READ_VALUES | AskTime => READ_DEVICE_TIME | SetTime _ => WRITE_DEVICE_TIME
  | AskParameters _ _ => READ_SCADA_PARAMETERS | AskArchive _ _ _ => READ_ARCHIVES | AskArchiveSince _ _ _ => READ_ARCHIVES_BY_DATE
  end.
(** the query of an operation of the client *)
Inductive meant : operation -> query -> Prop :=
| meant_values : meant OpReadValues AskValues
| meant_time : meant OpReadTime AskTime
| meant_set t cryout : encodable_time t -> meant (OpWriteTime t cryout) (SetTime t)
| meant_archive a n i : 0 <= a <= 255 -> 0 <= n <= 65535 -> 0 <= i < 2 ^ 32 -> meant (OpReadArchive a n i) (AskArchive a n i)
| meant_since a n t : 0 <= a <= 255 -> 0 <= n <= 65535 -> encodable_time t ->
    meant (OpReadArchiveByTime a n t) (AskArchiveSince a n t).

(** the device sends its parameter objects from [n] on, answering a query for each page *)
Inductive sends_pages (ctx : option cipher_context) (d : device) : Z -> list query -> list (res bytes) -> Prop :=
| page_final n number data amount results :
    performs d (AskParameters n 1024) (ReadDeviceParametersResponse data number amount true) d ->
    delivers ctx READ_SCADA_PARAMETERS (ReadDeviceParametersResponse data number amount true) results ->
    sends_pages ctx d n [AskParameters n 1024] results
| page_more n number data amount results qs results' :
    performs d (AskParameters n 1024) (ReadDeviceParametersResponse data number amount false) d ->
    delivers ctx READ_SCADA_PARAMETERS (ReadDeviceParametersResponse data number amount false) results ->
    sends_pages ctx d (n + amount) qs results' ->
    sends_pages ctx d n (AskParameters n 1024 :: qs) (results ++ results').

(** [serves ctx d os results qs vs d']: the device, asked the queries [qs], answers with
    [results]; the operations [os] then give [vs] *)
Inductive serves (ctx : option cipher_context) :
  device -> list operation -> list (res bytes) -> list query -> list (answer returned) -> device -> Prop :=
| serves_end d : serves ctx d [] [] [] [] d
| serves_tick d d1 os results qs vs d' : runs_on d d1 ->
    serves ctx d1 os results qs vs d' -> serves ctx d os results qs vs d'
| serves_query d o q p d1 v results os results' qs vs d' :
    meant o q -> performs d q p d1 -> delivers ctx (query_service q) p results -> gives o p v ->
    serves ctx d1 os results' qs vs d' ->
    serves ctx d (o :: os) (results ++ results') (q :: qs) (Done (Ok v) :: vs) d'
(* whatever the pages are: the objects of the memory *)
| serves_parameters d n results qs os results' qs' vs d' outcome :
    0 <= n <= 65535 -> len (dv_memory d) <= 65535 -> sends_pages ctx d n qs results -> reads (concat (objects_from d n)) outcome ->
    serves ctx d os results' qs' vs d' ->
    serves ctx d (OpReadParameters n :: os) (results ++ results') (qs ++ qs')
      (Done (match outcome with Ok l => Ok (RObjects l) | Err e => Err e end) :: vs) d'.
