(** C57: passwords and keys in representations (elgas/utils.py). *)
From Coq Require Import String.
From Verif Require Import PyFacts Secret SpecSecret SecretProofs Client SpecClient PropConnection PropClient.
Open Scope string_scope.
Open Scope list_scope.
Open Scope Z_scope.

(** C57 *)
(** the representation of an object whose secrets are all inside instances of attrs
    classes, at any depth and with any call stack, does not depend on the secrets *)
Theorem C57_secrets_hidden : forall str_repr bytes_repr stack o o', protected o -> alike o o' ->
  object_repr str_repr bytes_repr stack o = object_repr str_repr bytes_repr stack o'.
Proof. intros sr br stack o o'. exact (protected_alike sr br o stack o'). Qed.
Print Assumptions C57_secrets_hidden.
(** inside any function named __repr__ nothing is shown at all *)
Theorem C57_hidden_inside_repr : forall str_repr bytes_repr stack o o', In "__repr__" stack -> alike o o' ->
  object_repr str_repr bytes_repr stack o = object_repr str_repr bytes_repr stack o'.
Proof.
  intros sr br stack o o' I. apply censored_alike. induction stack as [|n stack IH]; [contradiction|]. cbn [censors].
  destruct (String.eqb n "__repr__") eqn:E; [reflexivity|]. destruct I as [->|I]; [discriminate|auto].
Qed.
Print Assumptions C57_hidden_inside_repr.
(** clients with any passwords and keys, in any state *)
Theorem C57_client : forall str_repr bytes_repr sh stack cl cl', same_connection (cl_connection cl) (cl_connection cl') ->
  object_repr str_repr bytes_repr stack (client_object sh cl) = object_repr str_repr bytes_repr stack (client_object sh cl').
Proof. exact client_repr_same. Qed.
Print Assumptions C57_client.
(** new clients differ in their secrets only *)
Theorem C57_new_client : forall pw pw' pid k k' id w w' cl cl',
  make_client pw pid k id w = Ok cl -> make_client pw' pid k' id w' = Ok cl' ->
  same_key (to_secret_byte k) (to_secret_byte k') -> same_connection (cl_connection cl) (cl_connection cl').
Proof. exact made_same. Qed.
Print Assumptions C57_new_client.
(** requests *)
Theorem C57_request : forall str_repr bytes_repr sh stack r r', same_request r r' ->
  object_repr str_repr bytes_repr stack (request_object sh r) = object_repr str_repr bytes_repr stack (request_object sh r').
Proof. exact request_repr_same. Qed.
Print Assumptions C57_request.
(** a secret inside built-in containers only is shown in clear *)
Theorem C57_containers_refuted : forall str_repr bytes_repr stack o x, exposed str_repr bytes_repr x o -> ~ In "__repr__" stack ->
  contains (object_repr str_repr bytes_repr stack o) x.
Proof. intros sr br stack o x E. exact (exposed_shown sr br x o E stack). Qed.
Print Assumptions C57_containers_refuted.
(** a connection made by the user from a plain password and key shows them *)
Theorem C57_user_connection_refuted : forall str_repr bytes_repr sh stack c,
  contains (object_repr str_repr bytes_repr stack (plain_connection_object str_repr bytes_repr sh c)) (str_repr (c_password c)) /\
  forall k, encryption_key c = Some k ->
    contains (object_repr str_repr bytes_repr stack (plain_connection_object str_repr bytes_repr sh c)) (bytes_repr k).
Proof. exact user_connection_shows. Qed.
Print Assumptions C57_user_connection_refuted.
Definition shown0 : shown :=
  mk_shown str_int (fun o => match o with Some n => str_int n | None => text "None" end) (fun b : bool => if b then text "True" else text "False")
    (fun _ => text "bytearray(b'')") (fun _ => text "IDLE") (fun _ => []) (text "T()").
Definition quoted (s : str) : str := 39 :: s ++ [39].
Example C57_ex :
  let cl := client_of (Some key7) (Some 7) [] in
  object_repr quoted quoted ["main"] (client_object shown0 cl) = text
    "ElgasClient(transport=T(), password=<SECRET>, password_id=801, encryption_key=<SECRET>, encryption_key_id=7, elgas_connection=ElgasConnection(source_address_1=0, source_address_2=0, destination_address_1=0, destination_address_2=0, password=<SECRET>, password_id=801, encryption_key=<SECRET>, encryption_key_id=7, buffer=bytearray(b''), elgas_state=ElgasState(current_state=IDLE), cipher_context=CipherContext(key_id=7, key=<SECRET>)))" /\
  object_repr quoted quoted ["main"] (BuiltIn (text "[") [([], SecretString (text "123"))] (text "]")) = text "['123']" /\
  protected (BuiltIn (text "[") [([], client_object shown0 cl)] (text "]")) /\
  alike (request_object shown0 (ReadInstantaneousValuesRequest [1])) (request_object shown0 (ReadInstantaneousValuesRequest [2; 3])).
Proof.
  split; [vm_compute; reflexivity|]. split; [vm_compute; reflexivity|]. split.
  - intros sr br x E. inversion E as [| |? ? ? ? ? ? I X]; subst. destruct I as [I|[]]. inversion I; subst. inversion X.
  - apply request_alike. constructor.
Qed.
