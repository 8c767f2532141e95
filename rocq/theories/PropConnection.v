(** C28-C39, C61, C62: protocol state and connection
    (elgas/state.py, elgas/connection.py). *)
From Verif Require Import PyFacts SpecUtils SpecFrames SpecText SpecApplication SpecPdu SpecSecurity SpecMeaning.
From Verif Require Import SpecConnection Connection ConnectionProofs MeansProofs.
Open Scope Z_scope.

(** *** concrete connections and telegrams for the examples *)
Definition key7 : bytes := [1; 2; 3; 4; 5; 6; 7; 8; 9; 10; 11; 12; 13; 14; 15; 16].
Definition plain_connection (s : protocol_state) (b : bytes) : connection :=
  mk_connection 0 0 4660 5 [49; 50] 801 None None b s None.
Definition sealed_connection (s : protocol_state) (b : bytes) : connection :=
  mk_connection 0 0 4660 5 [49; 50] 801 (Some key7) (Some 7) b s (Some (mk_context 7 key7)).
Definition rnd0 : nat -> Z := fun i => Z.of_nat i.
(** 2024-02-29 23:59:58, access result 13, no extra data, CRC *)
Definition time_data : bytes := [88; 89; 35; 41; 2; 36; 13; 27; 141].
Definition time_pdu : response_pdu := ReadTimeResponse (mk_datetime 2024 2 29 23 59 58) [13] false false [].
Definition line_of (w : bytes) : bytes := flat_map esc_byte (removelast w) ++ [13].
Definition time_line : bytes := line_of (response_wire 134 108 4660 5 0 0 time_data).
Definition sealed_data (d : bytes) : bytes :=
  match context_encrypt rnd0 (mk_context 7 key7) d with Ok p => p | Err _ => [] end.
Definition sealed_time_line : bytes := line_of (response_wire 135 108 4660 5 0 0 (sealed_data time_data)).
Definition flag_line (srv b : Z) : bytes := line_of (response_wire 134 srv 4660 5 0 0 [b]).

Lemma line_of_on_line w : w = removelast w ++ [13] -> on_line w (line_of w).
Proof. intros E. unfold line_of. rewrite E at 1. apply escaped_on_line. Qed.
Example time_line_answers : answers None READ_DEVICE_TIME time_data time_line /\
  answers (Some (mk_context 7 key7)) READ_DEVICE_TIME time_data sealed_time_line /\
  no_flag time_data /\ means READ_DEVICE_TIME time_data time_pdu.
Proof.
  assert (is_bytes time_data) as B by (repeat constructor; lia).
  assert (key16 key7) as K by (split; [repeat constructor; lia|reflexivity]).
  assert (addresses 4660 5 0 0) as A by (unfold addresses; lia).
  split; [|split; [|split]].
  - apply plain_answer with (d1 := 4660) (d2 := 5) (s1 := 0) (s2 := 0); auto; [vm_compute; discriminate|].
    apply line_of_on_line. vm_compute. reflexivity.
  - destruct (SecurityProofs.encrypt_payload rnd0 7 key7 time_data K B ltac:(lia) ltac:(vm_compute; discriminate)) as (p & pad & E & Hp & Bp & Fp & _).
    apply encrypted_answer with (d1 := 4660) (d2 := 5) (s1 := 0) (s2 := 0) (k := key7) (id := 7) (p := sealed_data time_data); auto; try lia.
    + vm_compute; discriminate.
    + unfold sealed_data. rewrite E. exists pad. split; [eapply Forall_impl; [|exact Fp]; unfold is_byte; intros; lia|exact Hp].
    + vm_compute; discriminate.
    + apply line_of_on_line. vm_compute. reflexivity.
  - intros i _ H. discriminate.
  - apply decodes_means; [exact B|]. apply dec_time. vm_compute. reflexivity.
Qed.

(** C28 *)
Theorem C28_key_and_id_always_encrypts : forall s1 s2 d1 d2 pw pid k id c ks rnd pad e out,
  make_connection s1 s2 d1 d2 pw pid (Some k) (Some id) = Ok c -> is_bytes k ->
  fst (send rnd pad (snd (run c ks)) e) = Ok out ->
  exists w tail, on_line w out /\ w = [2; 254; 133] ++ tail.
Proof. exact encrypted_type. Qed.
Print Assumptions C28_key_and_id_always_encrypts.
Theorem C28_no_key_or_no_id_always_plain : forall s1 s2 d1 d2 pw pid k id c ks rnd pad e out,
  make_connection s1 s2 d1 d2 pw pid k id = Ok c -> key_bytes k -> k = None \/ id = None ->
  fst (send rnd pad (snd (run c ks)) e) = Ok out ->
  exists w tail, on_line w out /\ w = [2; 254; 132] ++ tail.
Proof. exact plain_type. Qed.
Print Assumptions C28_no_key_or_no_id_always_plain.
(** so a connection with a key but no key id sends every password in clear *)
Theorem C28_key_means_encryption_refuted : forall s1 s2 d1 d2 pw pid k c ks rnd pad r password out,
  make_connection s1 s2 d1 d2 pw pid (Some k) None = Ok c -> is_bytes k ->
  request_password r = Some password ->
  fst (send rnd pad (snd (run c ks)) (Request r)) = Ok out ->
  exists w before after, on_line w out /\ w = [2; 254; 132] ++ before ++ password ++ after.
Proof. exact key_without_id. Qed.
Print Assumptions C28_key_means_encryption_refuted.
Example C28_ex :
  make_connection 0 0 4660 5 [49; 50] 801 (Some key7) (Some 7) = Ok (sealed_connection IDLE []) /\
  match make_connection 0 0 4660 5 [49; 50] 801 (Some key7) None with
  | Ok c => match fst (send rnd0 rnd0 c (Request (ReadInstantaneousValuesRequest [49; 50]))) with
            | Ok out => firstn 3 out = [2; 254; 132] | Err _ => False end
  | Err _ => False end /\
  match fst (send rnd0 rnd0 (sealed_connection IDLE []) (Request (ReadInstantaneousValuesRequest [49; 50]))) with
  | Ok out => firstn 3 out = [2; 254; 133] | Err _ => False end.
Proof. split; [|split]; vm_compute; reflexivity. Qed.

(** C29 *)
Theorem C29_one_outstanding_request : forall s1 s2 d1 d2 pw pid k id c ks,
  make_connection s1 s2 d1 d2 pw pid k id = Ok c -> only_requests ks ->
  obeys None (fst (run c ks)) /\ alternate (items (fst (run c ks))).
Proof. exact history_alternates. Qed.
Print Assumptions C29_one_outstanding_request.
Theorem C29_refused_send_changes_nothing : forall rnd pad c e c',
  send rnd pad c e = (Err LocalElgasProtocolError, c') -> c' = c.
Proof. exact refused_unchanged. Qed.
Print Assumptions C29_refused_send_changes_nothing.
(** restricting to requests is necessary: sending a response object of the
    awaited class closes the exchange *)
Theorem C29_any_event_refuted : forall rnd pad c p, outstanding (elgas_state c) = Some (pdu_service p) ->
  send rnd pad c (Response p) = (Err AttributeError, set_state c IDLE).
Proof. exact response_object_resets. Qed.
Print Assumptions C29_any_event_refuted.
Example C29_ex :
  let h := [CSend rnd0 rnd0 (Request ReadTimeRequest); CSend rnd0 rnd0 (Request ReadTimeRequest); CNext;
            CReceive time_line; CNext; CNext; CSend rnd0 rnd0 (Request (ReadInstantaneousValuesRequest [49]))] in
  only_requests h /\
  items (fst (run (plain_connection IDLE []) h)) =
    [Accepted READ_DEVICE_TIME; Delivered READ_DEVICE_TIME; Accepted READ_VALUES].
Proof. split; [repeat constructor; eauto|vm_compute; reflexivity]. Qed.

(** C30 *)
Theorem C30_delivery_independent_of_chunks : forall rnd pad c r out c' d t p chunks last,
  send rnd pad c (Request r) = (Ok out, c') -> buffer c = [] ->
  answers (context c) (request_service r) d t -> no_flag d -> means (request_service r) d p ->
  concat chunks ++ last = t -> last <> [] ->
  exists c'', feed c' (chunks ++ [last]) = (map (fun _ => Ok None) chunks ++ [Ok (Some p)], c'') /\
    elgas_state c'' = IDLE /\ buffer c'' = [].
Proof. exact chunked_means. Qed.
Print Assumptions C30_delivery_independent_of_chunks.
(** a device that escapes as documented writes such telegrams *)
Theorem C30_escaped_telegrams_read_back : forall body, on_line (body ++ [13]) (flat_map esc_byte body ++ [13]).
Proof. exact escaped_on_line. Qed.
Print Assumptions C30_escaped_telegrams_read_back.
Example C30_ex :
  fst (feed (plain_connection AWAITING_READ_TIME_RESPONSE []) [firstn 5 time_line; []; firstn 12 (skipn 5 time_line); skipn 17 time_line]) =
    [Ok None; Ok None; Ok None; Ok (Some time_pdu)] /\
  fst (feed (sealed_connection AWAITING_READ_TIME_RESPONSE []) [firstn 5 sealed_time_line; skipn 5 sealed_time_line]) =
    [Ok None; Ok (Some time_pdu)].
Proof. split; vm_compute; reflexivity. Qed.

(** C31 *)
Theorem C31_sent_bytes_decode : forall s1 s2 d1 d2 pw pid k id c ks rnd pad e out,
  make_connection s1 s2 d1 d2 pw pid k id = Ok c -> key_bytes k ->
  fst (send rnd pad (snd (run c ks)) e) = Ok out ->
  exists r app, e = Request r /\ request_data r app /\
    match k, id with
    | Some k, Some id => exists p, key16 k /\ 0 <= id <= 255 /\ seals k id app p /\ context_decrypt (mk_context id k) p = Ok app /\
        on_line (request_wire 133 (function_code r) d1 d2 s1 s2 p) out
    | _, _ => on_line (request_wire 132 (function_code r) d1 d2 s1 s2 app) out
    end.
Proof. exact sent_telegram. Qed.
Print Assumptions C31_sent_bytes_decode.
Example C31_ex :
  match fst (send rnd0 rnd0 (sealed_connection IDLE []) (Request (ReadArchiveRequest [49; 50] 3 5 141))) with
  | Ok out => firstn 4 out = [2; 254; 133; 124] | Err _ => False end /\
  fst (send rnd0 rnd0 (plain_connection IDLE []) (Request ReadTimeRequest)) =
    Ok [2; 254; 132; 108; 15; 0; 18; 52; 5; 0; 0; 0; 58; 72; 48; 13].
Proof. split; vm_compute; reflexivity. Qed.

(** C32 *)
Theorem C32_device_error_iff_flag : forall c i e,
  is_bytes (buffer c) -> sound_context (context c) -> device_error i e ->
  fst (next_event c) = Err e <->
  exists w t srv, on_line w t /\ first_telegram t (buffer c) /\ accepted (context c) srv [2 ^ i] w.
Proof. exact device_error_iff. Qed.
Print Assumptions C32_device_error_iff_flag.
(** in particular for a device that answers with one flag, plain or encrypted *)
Theorem C32_flag_raises : forall c i e srv t, device_error i e ->
  answers (context c) srv [2 ^ i] t -> first_telegram t (buffer c) -> next_event c = (Err e, c).
Proof. exact answered_error. Qed.
Print Assumptions C32_flag_raises.
Example C32_ex : map (fun i => fst (next_event (plain_connection AWAITING_READ_TIME_RESPONSE (flag_line 112 (2 ^ i) ++ [9; 13]))))
    [0; 1; 2; 3; 4; 5; 6; 7] =
  [Err WrongPasswordError; Err SettingArchiveFull; Err SwitchOff; Err BlockedBuffer; Err DataError;
   Err CipherKeyError; Err WrongEncryptionKeysError; Err WriteError] /\
  fst (next_event (sealed_connection IDLE (line_of (response_wire 135 108 1 2 3 4 (sealed_data [64]))))) = Err WrongEncryptionKeysError.
Proof. split; vm_compute; reflexivity. Qed.

(** C33 *)
(** whatever is called afterwards, every request is refused and the same error
    is raised again *)
Theorem C33_recovery_after_device_error_refuted : forall c i e srv t ks,
  device_error i e -> answers (context c) srv [2 ^ i] t ->
  first_telegram t (buffer c) -> elgas_state c <> IDLE -> only_requests ks ->
  stuck_on e (fst (run c ks)) /\ elgas_state (snd (run c ks)) = elgas_state c.
Proof. exact device_error_stuck. Qed.
Print Assumptions C33_recovery_after_device_error_refuted.
Example C33_ex : map snd (fst (run (plain_connection AWAITING_READ_TIME_RESPONSE [])
    [CReceive (flag_line 108 1); CNext; CSend rnd0 rnd0 (Request ReadTimeRequest); CReceive time_line; CNext])) =
  [OReceive; ONext (Err WrongPasswordError); OSend (Err LocalElgasProtocolError); OReceive; ONext (Err WrongPasswordError)].
Proof. vm_compute. reflexivity. Qed.

(** C34 *)
(** what is delivered is the content of the first telegram of the buffer, which
    is complete and valid, or (see below) a runt *)
Theorem C34_only_valid_telegrams_delivered : forall c p c',
  is_bytes (buffer c) -> sound_context (context c) -> next_event c = (Ok (Some p), c') ->
  outstanding (elgas_state c) = Some (pdu_service p) /\ c' = set_buffer (set_state c IDLE) [] /\
  exists w t, on_line w t /\ first_telegram t (buffer c) /\
   ((exists d, accepted (context c) (pdu_service p) d w /\ no_flag d /\ means (pdu_service p) d p) \/
    (len w < 16 /\ p = WriteTimeResponse)).
Proof. exact delivered_means. Qed.
Print Assumptions C34_only_valid_telegrams_delivered.
(** the exception is real: a telegram without addresses and data is taken for
    the acknowledgement of a time setting *)
Theorem C34_runts_rejected_refuted : forall c rest,
  elgas_state c = AWAITING_WRITE_TIME_RESPONSE -> buffer c = runt ++ rest ->
  fst (next_event c) = Ok (Some WriteTimeResponse).
Proof. exact runt_delivered. Qed.
Print Assumptions C34_runts_rejected_refuted.
(** a telegram with one corrupted byte is never delivered, and neither is
    anything after it: no resynchronisation, whatever is received or sent *)
Theorem C34_resynchronisation_refuted : forall c w w' t ks,
  telegram w -> one_byte_changed w w' -> is_bytes t -> on_line w' t ->
  first_telegram t (buffer c) -> never_delivers (fst (run c ks)).
Proof. exact changed_byte_stuck. Qed.
Print Assumptions C34_resynchronisation_refuted.
Theorem C34_invalid_telegram_blocks_refuted : forall c w t ks,
  is_bytes t -> on_line w t -> 16 <= len w -> ~ telegram w ->
  first_telegram t (buffer c) -> never_delivers (fst (run c ks)) /\ first_telegram t (buffer (snd (run c ks))).
Proof. exact bad_telegram_stuck. Qed.
Print Assumptions C34_invalid_telegram_blocks_refuted.
Example C34_ex : map snd (fst (run (plain_connection AWAITING_READ_TIME_RESPONSE [])
    [CReceive ([2; 254; 134; 109] ++ skipn 4 time_line); CNext; CReceive time_line; CNext; CNext])) =
  [OReceive; ONext (Ok None); OReceive; ONext (Ok None); ONext (Ok None)] /\
  fst (next_event (plain_connection AWAITING_WRITE_TIME_RESPONSE runt)) = Ok (Some WriteTimeResponse).
Proof. split; vm_compute; reflexivity. Qed.

(** C35 *)
Theorem C35_delivery_depends_on_first_telegram : forall c w t rest,
  on_line w t -> buffer c = t ++ rest -> fst (next_event c) = fst (next_event (set_buffer c t)).
Proof. exact first_only. Qed.
Print Assumptions C35_delivery_depends_on_first_telegram.
Theorem C35_rest_kept_refuted : forall c d t p rest,
  answers (context c) (pdu_service p) d t -> no_flag d -> means (pdu_service p) d p ->
  outstanding (elgas_state c) = Some (pdu_service p) -> buffer c = t ++ rest ->
  exists c', next_event c = (Ok (Some p), c') /\ buffer c' = [] /\ elgas_state c' = IDLE.
Proof. exact rest_dropped_means. Qed.
Print Assumptions C35_rest_kept_refuted.
Example C35_ex : next_event (plain_connection AWAITING_READ_TIME_RESPONSE (time_line ++ time_line)) =
  (Ok (Some time_pdu), plain_connection IDLE []).
Proof. vm_compute. reflexivity. Qed.

(** C36 *)
Theorem C36_receive_data : forall c data,
  (data = [] -> receive_data c data = c) /\
  (data = [13] -> buffer c = [] -> receive_data c data = c) /\
  (data <> [] -> (data <> [13] \/ buffer c <> []) ->
     buffer (receive_data c data) = buffer c ++ data /\ elgas_state (receive_data c data) = elgas_state c /\
     context (receive_data c data) = context c).
Proof. exact receive_spec. Qed.
Print Assumptions C36_receive_data.
Example C36_ex : buffer (receive_data (plain_connection IDLE [7]) [13]) = [7; 13] /\
  buffer (receive_data (plain_connection IDLE []) [13; 13]) = [13; 13].
Proof. split; reflexivity. Qed.

(** C37 *)
Theorem C37_failed_send_leaves_no_trace_refuted : forall rnd pad c r e,
  elgas_state c = IDLE -> request_times_valid r -> request_misfit r = Some e ->
  exists c', send rnd pad c (Request r) = (Err e, c') /\ elgas_state c' <> IDLE /\
    forall rnd' pad' r', send rnd' pad' c' (Request r') = (Err LocalElgasProtocolError, c').
Proof. exact failed_send_stuck. Qed.
Print Assumptions C37_failed_send_leaves_no_trace_refuted.
Theorem C37_refusal_leaves_no_trace : forall rnd pad c e c',
  send rnd pad c e = (Err LocalElgasProtocolError, c') -> c' = c.
Proof. exact refused_unchanged. Qed.
Print Assumptions C37_refusal_leaves_no_trace.
Example C37_ex : request_misfit (ReadArchiveRequest [49] 3 70000 1) = Some OverflowError /\
  request_misfit (WriteTimeRequest [49] (mk_datetime 1999 12 31 0 0 0) true) = Some ValueError /\
  request_misfit (ReadInstantaneousValuesRequest [8364]) = Some UnicodeEncodeError.
Proof. repeat split. Qed.

(** C38 *)
Theorem C38_construction_iff_in_range : forall s1 s2 d1 d2 pw pid k id,
  (exists c, make_connection s1 s2 d1 d2 pw pid k id = Ok c) <->
  0 <= s1 <= 65535 /\ 0 <= s2 <= 255 /\ 0 <= d1 <= 65535 /\ 0 <= d2 <= 255 /\ len pw <= 6 /\ 801 <= pid <= 849.
Proof. exact make_iff. Qed.
Print Assumptions C38_construction_iff_in_range.
Theorem C38_construction_error : forall s1 s2 d1 d2 pw pid k id e,
  make_connection s1 s2 d1 d2 pw pid k id = Err e -> e = ValueError.
Proof. exact make_err. Qed.
Print Assumptions C38_construction_error.
(** an idle connection can send every request that can be serialised *)
Theorem C38_send_succeeds : forall s1 s2 d1 d2 pw pid k id c ks rnd pad r app,
  make_connection s1 s2 d1 d2 pw pid k id = Ok c -> elgas_state (snd (run c ks)) = IDLE ->
  pdu_to_bytes rnd r = Ok app -> len app <= 65500 ->
  (forall k' id', k = Some k' -> id = Some id' -> key16 k' /\ 0 <= id' <= 255) ->
  exists out, fst (send rnd pad (snd (run c ks)) (Request r)) = Ok out.
Proof. exact send_succeeds. Qed.
Print Assumptions C38_send_succeeds.
Example C38_ex : make_connection 65535 255 65535 255 [1; 2; 3; 4; 5; 6] 849 None None =
    Ok (mk_connection 65535 255 65535 255 [1; 2; 3; 4; 5; 6] 849 None None [] IDLE None) /\
  make_connection 65536 0 0 0 [] 801 None None = Err ValueError.
Proof. split; reflexivity. Qed.

(** C39 *)
Theorem C39_exceptions : forall c e c', is_bytes (buffer c) -> sound_context (context c) ->
  next_event c = (Err e, c') -> next_event_exn (context c) e.
Proof. exact next_event_err. Qed.
Print Assumptions C39_exceptions.
Theorem C39_unchanged_unless_delivered : forall c r c',
  next_event c = (r, c') -> (forall p, r <> Ok (Some p)) -> c' = c.
Proof. exact next_event_kept. Qed.
Print Assumptions C39_unchanged_unless_delivered.
(** every listed kind of exception occurs *)
Example C39_ex :
  fst (next_event (plain_connection IDLE time_line)) = Err LocalElgasProtocolError /\
  fst (next_event (plain_connection IDLE (flag_line 101 0))) = Err KeyError /\
  fst (next_event (plain_connection IDLE (flag_line 112 0))) = Err IndexError /\
  fst (next_event (plain_connection IDLE (flag_line 124 11))) = Err ValueError /\
  fst (next_event (sealed_connection IDLE (line_of (response_wire 135 108 1 2 3 4 [0; 0; 8])))) = Err AssertionError /\
  fst (next_event (plain_connection IDLE sealed_time_line)) = Err AttributeError.
Proof. do 5 (split; [vm_compute; reflexivity|]); vm_compute; reflexivity. Qed.

(** C61 *)
Theorem C61_encryption_enforced_on_responses_refuted : forall c d1 d2 s1 s2 d p t rest,
  addresses d1 d2 s1 s2 -> is_bytes d -> len d <= 65520 -> no_flag d ->
  means (pdu_service p) d p -> outstanding (elgas_state c) = Some (pdu_service p) ->
  on_line (response_wire 134 (service_number (pdu_service p)) d1 d2 s1 s2 d) t -> buffer c = t ++ rest ->
  fst (next_event c) = Ok (Some p).
Proof. exact downgrade_means. Qed.
Print Assumptions C61_encryption_enforced_on_responses_refuted.
Example C61_ex : fst (next_event (sealed_connection AWAITING_READ_TIME_RESPONSE time_line)) = Ok (Some time_pdu).
Proof. vm_compute. reflexivity. Qed.

(** C62 *)
Theorem C62_combined_flags_raise_refuted : forall c b t, (forall i, 0 <= i <= 7 -> b <> 2 ^ i) ->
  elgas_state c = AWAITING_WRITE_TIME_RESPONSE -> answers (context c) WRITE_DEVICE_TIME [b] t ->
  first_telegram t (buffer c) -> fst (next_event c) = Ok (Some WriteTimeResponse).
Proof. exact combined_flags. Qed.
Print Assumptions C62_combined_flags_raise_refuted.
Theorem C62_combined_flags_read_as_archive_refuted : forall c b t, (forall i, 0 <= i <= 7 -> b <> 2 ^ i) -> 0 <= b <= 10 ->
  elgas_state c = AWAITING_READ_ARCHIVE_RESPONSE -> answers (context c) READ_ARCHIVES [b] t ->
  first_telegram t (buffer c) -> fst (next_event c) = Ok (Some (ReadArchiveResponse b 0 [])).
Proof. exact combined_flags_archive. Qed.
Print Assumptions C62_combined_flags_read_as_archive_refuted.
(** wrong password and write error at once *)
Example C62_ex : fst (next_event (plain_connection AWAITING_WRITE_TIME_RESPONSE (flag_line 113 129))) = Ok (Some WriteTimeResponse) /\
  fst (next_event (plain_connection AWAITING_READ_ARCHIVE_RESPONSE (flag_line 124 3))) = Ok (Some (ReadArchiveResponse 3 0 [])).
Proof. split; vm_compute; reflexivity. Qed.
