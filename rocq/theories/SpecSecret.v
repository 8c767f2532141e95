(** Independent specification of censored representations. *)
From Coq Require Import String.
From Verif Require Import Py Secret.
Open Scope string_scope.
Open Scope list_scope.
Open Scope Z_scope.

(** the two objects are the same except for the text of their secrets *)
Inductive alike : object -> object -> Prop :=
| alike_string s s' : alike (SecretString s) (SecretString s')
| alike_bytes b b' : alike (SecretBytes b) (SecretBytes b')
| alike_plain x : alike (Plain x) (Plain x)
| alike_builtin opening closing items items' :
    Forall2 (fun i i' => fst i = fst i' /\ alike (snd i) (snd i')) items items' ->
    alike (BuiltIn opening items closing) (BuiltIn opening items' closing)
| alike_instance cls attrs attrs' :
    Forall2 (fun i i' => fst i = fst i' /\ alike (snd i) (snd i')) attrs attrs' ->
    alike (Instance cls attrs) (Instance cls attrs').

(** [exposed shown o]: a secret with representation [shown] can be reached from
    [o] through built-in containers only *)
Inductive exposed (str_repr : str -> str) (bytes_repr : bytes -> str) : str -> object -> Prop :=
| exposed_string s : exposed str_repr bytes_repr (str_repr s) (SecretString s)
| exposed_bytes b : exposed str_repr bytes_repr (bytes_repr b) (SecretBytes b)
| exposed_item x before o opening items closing : In (before, o) items -> exposed str_repr bytes_repr x o ->
    exposed str_repr bytes_repr x (BuiltIn opening items closing).
(** no secret is exposed: every one is inside an instance of an attrs class *)
Definition protected (o : object) : Prop := forall sr br x, ~ exposed sr br x o.

Definition contains (whole part : str) : Prop := exists before after, whole = before ++ part ++ after.

(** the same clients, connections and requests apart from password and key *)
Definition same_key (k k' : option bytes) : Prop := (k = None <-> k' = None).
Definition same_context (a b : option cipher_context) : Prop :=
  match a, b with Some x, Some y => key_id x = key_id y | None, None => True | _, _ => False end.
Definition same_connection (c c' : connection) : Prop :=
  c_source_1 c = c_source_1 c' /\ c_source_2 c = c_source_2 c' /\ c_destination_1 c = c_destination_1 c' /\
  c_destination_2 c = c_destination_2 c' /\ c_password_id c = c_password_id c' /\
  same_key (encryption_key c) (encryption_key c') /\ encryption_key_id c = encryption_key_id c' /\
  buffer c = buffer c' /\ elgas_state c = elgas_state c' /\ same_context (context c) (context c').
Inductive same_request : request -> request -> Prop :=
| same_values p p' : same_request (ReadInstantaneousValuesRequest p) (ReadInstantaneousValuesRequest p')
| same_time : same_request ReadTimeRequest ReadTimeRequest
| same_write p p' t b : same_request (WriteTimeRequest p t b) (WriteTimeRequest p' t b)
| same_parameters p p' n k : same_request (ReadDeviceParametersRequest p n k) (ReadDeviceParametersRequest p' n k)
| same_by_time p p' a n t : same_request (ReadArchiveByTimeRequest p a n t) (ReadArchiveByTimeRequest p' a n t)
| same_archive p p' a n i : same_request (ReadArchiveRequest p a n i) (ReadArchiveRequest p' a n i).
