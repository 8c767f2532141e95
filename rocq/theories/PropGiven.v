(** C81: a client on a connection that its user made (elgas/client.py, the argument
    elgas_connection). *)
From Verif Require Import PyFacts SpecUtils SpecFrames SpecText SpecApplication SpecPdu SpecSecurity.
From Verif Require Import SpecConnection Connection ConnectionProofs PropConnection ParamLang Parameters Client SpecClient ClientProofs PropParameters PropClient.
From Verif Require Import SpecGiven GivenProofs.
Open Scope list_scope.
Open Scope Z_scope.

(** addresses and encryption are those of the connection, the password is that of
    the client *)
Theorem C81_conversation : forall s1 s2 d1 d2 pc pidc kc idc st gc c pw pid k id w cl os results rs vs rest ctx,
  make_connection_with s1 s2 d1 d2 pc pidc kc idc st gc = Ok c -> st = None \/ st = Some IDLE ->
  ctx = connection_context kc idc gc ->
  make_client_with pw pid k id (Some c) w = Ok cl -> usable_context ctx -> len pw <= 65000 -> tx w = [] -> sent w = [] ->
  converses ctx pw os results rs vs -> rx w = results ++ rest ->
  exists cl', session cl os = (vs, cl') /\ Forall2 (request_line_at d1 d2 s1 s2 ctx) rs (sent (cl_world cl')) /\
    rx (cl_world cl') = rest /\ elgas_state (cl_connection cl') = IDLE /\ buffer (cl_connection cl') = [].
Proof. exact given_conversation. Qed.
Print Assumptions C81_conversation.
(** every telegram, also when the connection has been used before, whatever the
    device and the transport do *)
Theorem C81_every_telegram : forall s1 s2 d1 d2 pc pidc kc idc st gc c ks pw pid k id w cl os ctx,
  make_connection_with s1 s2 d1 d2 pc pidc kc idc st gc = Ok c -> ctx = connection_context kc idc gc -> context_bytes ctx ->
  make_client_with pw pid k id (Some (snd (run c ks))) w = Ok cl -> sent w = [] ->
  Forall (fun t => exists r, (forall p, request_password r = Some p -> p = pw) /\ request_line_at d1 d2 s1 s2 ctx r t)
    (sent (cl_world (snd (session cl os)))).
Proof. exact given_lines. Qed.
Print Assumptions C81_every_telegram.
(** the key and the key id given to such a client do not count: if the connection
    has no context, everything goes out in clear, the password too *)
Theorem C81_client_key_used_refuted : forall s1 s2 d1 d2 pc pidc kc idc st gc c ks pw pid k id w cl os,
  make_connection_with s1 s2 d1 d2 pc pidc kc idc st gc = Ok c -> connection_context kc idc gc = None ->
  make_client_with pw pid k id (Some (snd (run c ks))) w = Ok cl -> sent w = [] ->
  Forall (fun t => exists w0, on_line w0 t /\
      ((exists tail, w0 = [2; 254; 132; 108] ++ tail) \/ (exists before after, w0 = [2; 254; 132] ++ before ++ pw ++ after)))
    (sent (cl_world (snd (session cl os)))).
Proof. exact given_key_ignored. Qed.
Print Assumptions C81_client_key_used_refuted.
(** a password of more than six characters is refused by a connection and by a client
    without a connection of its own, not by such a client *)
Theorem C81_password_checked_refuted : forall s1 s2 d1 d2 pc pidc kc idc st gc c pw pid k id w,
  make_connection_with s1 s2 d1 d2 pc pidc kc idc st gc = Ok c -> st = None \/ st = Some IDLE ->
  usable_context (connection_context kc idc gc) -> latin1 pw -> len pw <= 65000 -> tx w = [] -> rx w = [] -> sent w = [] ->
  exists cl t cl', make_client_with pw pid k id (Some c) w = Ok cl /\ session cl [OpReadValues] = ([Waiting], cl') /\
    sent (cl_world cl') = [t] /\
    request_line_at d1 d2 s1 s2 (connection_context kc idc gc) (ReadInstantaneousValuesRequest pw) t.
Proof. exact given_long_password. Qed.
Print Assumptions C81_password_checked_refuted.

(** the time is read from device 513/5; the reply arrives as in [time_results]; the
    key of the client makes no difference *)
Example C81_ex : exists c cl,
  make_connection_with 7 8 513 5 [49] 801 None None None None = Ok c /\
  make_client_with [49; 50; 51; 52; 53; 54; 55] 900 (Some key7) (Some 7) (Some c) (world_of time_results) = Ok cl /\
  let '(rs, cl') := session cl [OpReadTime; OpReadValues] in
  rs = [Done (Ok (RTime (mk_datetime 2024 2 29 23 59 58))); Waiting] /\
  map (firstn 12) (sent (cl_world cl')) =
    [[2; 254; 132; 108; 15; 0; 2; 1; 5; 0; 7; 8]; [2; 254; 132; 100; 26; 0; 2; 1; 5; 0; 7; 8]].
Proof. eexists _, _. split; [reflexivity|]. split; [reflexivity|]. vm_compute. split; reflexivity. Qed.
(** a context given to the connection *)
Example C81_ex_context : exists c cl,
  make_connection_with 7 8 513 5 [49] 801 None None (Some IDLE) (Some (Some (mk_context 7 key7))) = Ok c /\
  usable_context (connection_context None None (Some (Some (mk_context 7 key7)))) /\
  make_client_with [49] 801 None None (Some c) (world_of []) = Ok cl /\
  map (firstn 12) (sent (cl_world (snd (session cl [OpReadValues])))) = [[2; 254; 133; 100; 34; 0; 2; 1; 5; 0; 7; 8]].
Proof.
  eexists _, _. split; [reflexivity|]. split; [|split; [reflexivity|vm_compute; reflexivity]].
  cbn. split; [|lia]. split; [repeat constructor; lia|reflexivity].
Qed.
