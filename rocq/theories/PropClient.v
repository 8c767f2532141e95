(** C40-C42, C63-C66: the client (elgas/client.py) over any transport. *)
From Verif Require Import PyFacts SpecUtils SpecFrames SpecText SpecApplication SpecPdu SpecSecurity.
From Verif Require Import SpecConnection Connection ConnectionProofs PropConnection MeansProofs ParamLang Parameters SpecBlock BlockProofs Client SpecClient ClientProofs PropParameters.
Open Scope list_scope.
Open Scope Z_scope.

(** *** concrete worlds for the examples *)
Definition draws0 : nat -> (nat -> Z) * (nat -> Z) := fun _ => (rnd0, rnd0).
Definition world_of (results : list (res bytes)) : world := mk_world [] results [] [] 0 draws0.
Definition client_of (key : option bytes) (id : option Z) (results : list (res bytes)) : client :=
  match make_client [49; 50] 801 key id (world_of results) with Ok cl => cl | Err _ =>
    mk_client [] (plain_connection IDLE []) (world_of []) end.
(** the time telegram, in pieces, after an empty read and a stray line end *)
Definition time_results : list (res bytes) := [Ok []; Ok [13]; Ok (firstn 9 time_line); Ok []; Ok (skipn 9 time_line)].
Example time_delivered ctx : delivers ctx READ_DEVICE_TIME time_pdu time_results.
Proof.
  exists [[]; [13]], [firstn 9 time_line; []], (skipn 9 time_line), time_data, time_line.
  split; [reflexivity|]. split; [constructor; [left; reflexivity|constructor; [right; reflexivity|constructor]]|]. split; [vm_compute; reflexivity|]. split; [vm_compute; discriminate|].
  destruct time_line_answers as (A & _ & N & D). split; [|auto].
  destruct A as [d1 d2 s1 s2 H1 H2 H3 H4|d1 d2 s1 s2 k id p ? ? ? X]; [|discriminate]. eapply plain_answer; eauto.
Qed.
(** pages with a parameter object each: (object number 0, amount, end flag, data) *)
Definition page_line (amount e : Z) (data : bytes) : bytes :=
  line_of (response_wire 134 112 4660 5 0 0 ([0; 0; amount; 0; e] ++ data)).
Definition page_of (amount e : Z) (data : bytes) : page :=
  mk_page data 0 amount (negb (e =? 0)) [Ok (page_line amount e data)].
Definition byte_data (data : bytes) : bool := forallb (fun b => (0 <=? b) && (b <=? 255)) data.
Lemma sealed_end R : sealed R = removelast (sealed R) ++ [13].
Proof.
  unfold sealed.
  replace (2 :: R ++ [xor_all R; sum_all R mod 256; drc_spec R; 13]) with ((2 :: R ++ [xor_all R; sum_all R mod 256; drc_spec R]) ++ [13])
    by (cbn [app]; rewrite <- app_assoc; reflexivity).
  rewrite removelast_last. reflexivity.
Qed.
Lemma page_of_ok ctx amount e data : 0 <= amount <= 255 -> 0 <= e <= 255 -> byte_data data = true -> len data <= 1000 ->
  page_ok ctx (page_of amount e data).
Proof.
  intros Ha He Hd Hl.
  assert (is_bytes data) as B.
  { apply Forall_forall. intros x Hx. eapply forallb_forall in Hd; [|exact Hx]. cbn beta in Hd. unfold is_byte. lia. }
  assert (is_bytes ([0; 0; amount; 0; e] ++ data)) as B'.
  { apply is_bytes_app. split; [|exact B]. repeat constructor; lia. }
  exists [], [], (page_line amount e data), ([0; 0; amount; 0; e] ++ data), (page_line amount e data).
  split; [reflexivity|]. split; [constructor|]. split; [reflexivity|].
  split; [unfold page_line, line_of; intros X; apply app_eq_nil in X as [_ X]; discriminate|].
  split; [|split].
  - apply plain_answer with (d1 := 4660) (d2 := 5) (s1 := 0) (s2 := 0); [unfold addresses; lia|exact B'| |].
    + rewrite len_app. unfold len at 1. cbn [length]. lia.
    + apply line_of_on_line, sealed_end.
  - intros i _ X. discriminate.
  - apply decodes_means; [exact B'|]. apply dec_parameters.
    pose proof (ApplicationProofs.device_parameters_split 0 amount e data) as X.
    unfold le2 in X. rewrite (Z.mod_small amount), (Z.div_small amount) in X by lia. change (0 mod 256) with 0 in X. change (0 / 256) with 0 in X.
    apply X; lia.
Qed.

(** C40 *)
(** any sequence of operations against a device that answers each request *)
Theorem C40_conversation : forall pw pid k id w cl os results rs vs rest,
  make_client pw pid k id w = Ok cl -> usable_context (client_context k id) -> tx w = [] -> sent w = [] ->
  converses (client_context k id) pw os results rs vs -> rx w = results ++ rest ->
  exists cl', session cl os = (vs, cl') /\ Forall2 (request_line (client_context k id)) rs (sent (cl_world cl')) /\
    rx (cl_world cl') = rest /\ elgas_state (cl_connection cl') = IDLE /\ buffer (cl_connection cl') = [].
Proof. exact client_conversation. Qed.
Print Assumptions C40_conversation.
Definition two_pages : list page := [page_of 1 0 [39; 0; 65]; page_of 1 1 timer1].
Definition conversation_results : list (res bytes) :=
  time_results ++ (concat (map pg_results two_pages) ++ (time_results ++ [])).
Example C40_hypotheses : exists v,
  converses (client_context (Some key7) (Some 7)) [49; 50] [OpReadTime; OpReadParameters 3; OpReadTime] conversation_results
    (ReadTimeRequest :: page_requests [49; 50] 3 two_pages ++ [ReadTimeRequest])
    [Done (Ok (RTime (mk_datetime 2024 2 29 23 59 58))); Done (Ok (RObjects [v])); Done (Ok (RTime (mk_datetime 2024 2 29 23 59 58)))] /\
  usable_context (client_context (Some key7) (Some 7)).
Proof.
  destruct (parse None (Some (concat (map pg_data two_pages)))) as [[[|v [|? ?]]|]|] eqn:E; try (vm_compute in E; discriminate).
  exists v. split; [|split; [split; [repeat constructor; unfold is_byte; lia|reflexivity]|lia]].
  eapply conv_exchange; [reflexivity|split; [reflexivity|exact I]|apply time_delivered|constructor|].
  eapply (conv_parameters _ _ 3 two_pages (Ok [v])).
  - repeat constructor; apply page_of_ok; try lia; try reflexivity; vm_compute; discriminate.
  - exists [page_of 1 0 [39; 0; 65]], (page_of 1 1 timer1). repeat split; repeat constructor.
  - repeat constructor; lia.
  - lia.
  - vm_compute. discriminate.
  - apply reads_iff; [apply (pages_bytes None); repeat constructor; apply page_of_ok; try lia; try reflexivity; vm_compute; discriminate|exact E].
  - eapply conv_exchange; [reflexivity|split; [reflexivity|exact I]|apply time_delivered|constructor|]. constructor.
Qed.
Example C40_ex :
  let '(vs, cl') := session (client_of (Some key7) (Some 7) conversation_results) [OpReadTime; OpReadParameters 3; OpReadTime] in
  length vs = 3%nat /\ ~ In Waiting vs /\ rx (cl_world cl') = [] /\ length (sent (cl_world cl')) = 4%nat.
Proof.
  vm_compute. split; [reflexivity|]. split; [|split; reflexivity]. intros [H|[H|[H|[]]]]; discriminate.
Qed.

(** C41 *)
Theorem C41_parameters_paged : forall pw pid k id w cl n pages rest r,
  make_client pw pid k id w = Ok cl -> usable_context (client_context k id) -> tx w = [] -> sent w = [] -> latin1 pw ->
  Forall (page_ok (client_context k id)) pages -> complete pages -> 0 <= n ->
  n + total (map pg_amount (removelast pages)) <= 65535 ->
  rx w = concat (map pg_results pages) ++ rest ->
  reads (concat (map pg_data pages)) r ->
  exists cl', client_read_parameters cl n = (Done r, cl') /\ rx (cl_world cl') = rest /\
    Forall2 (request_line (client_context k id)) (page_requests pw n pages) (sent (cl_world cl')).
Proof. exact client_parameters. Qed.
Print Assumptions C41_parameters_paged.
Example C41_ex : Forall (page_ok None) two_pages /\ complete two_pages /\
  page_requests [49] 3 two_pages = [ReadDeviceParametersRequest [49] 3 1024; ReadDeviceParametersRequest [49] 4 1024] /\
  exists v cl', client_read_parameters (client_of None None (concat (map pg_results two_pages))) 3 = (Done (Ok [v]), cl').
Proof.
  split; [repeat constructor; apply page_of_ok; try lia; try reflexivity; vm_compute; discriminate|].
  split; [exists [page_of 1 0 [39; 0; 65]], (page_of 1 1 timer1); repeat split; repeat constructor|].
  split; [reflexivity|].
  destruct (client_read_parameters (client_of None None (concat (map pg_results two_pages))) 3) as [[[[|v [|? ?]]|]|] cl'] eqn:E;
    try (vm_compute in E; discriminate). exists v, cl'. reflexivity.
Qed.

(** C42 *)
(** a device that sends pages with at least one object each *)
Theorem C42_parameters_terminate : forall pw pid k id dev n, usable_context (client_context k id) -> 0 <= n ->
  (forall i, page_ok (client_context k id) (dev i) /\ 1 <= pg_amount (dev i)) ->
  exists j, Z.of_nat j <= 65536 /\ forall w cl rest, make_client pw pid k id w = Ok cl -> tx w = [] ->
    rx w = concat (map pg_results (map dev (seq 0 j))) ++ rest ->
    exists r cl', client_read_parameters cl n = (Done r, cl') /\ rx (cl_world cl') = rest /\
      length (sent (cl_world cl')) = (length (sent w) + j)%nat.
Proof. exact parameters_bounded. Qed.
Print Assumptions C42_parameters_terminate.
(** a device that sends a page without objects and without end flag again and
    again: after any number of such pages the client asks the same once more *)
Theorem C42_termination_refuted : forall pw pid k id w cl pg n j,
  make_client pw pid k id w = Ok cl -> usable_context (client_context k id) ->
  tx w = [] -> sent w = [] -> latin1 pw -> 0 <= n <= 65535 ->
  page_ok (client_context k id) pg -> pg_amount pg = 0 -> pg_end pg = false ->
  rx w = concat (repeat (pg_results pg) j) ->
  exists cl', client_read_parameters cl n = (Waiting, cl') /\ length (sent (cl_world cl')) = S j /\
    Forall (request_line (client_context k id) (ReadDeviceParametersRequest pw n 1024)) (sent (cl_world cl')).
Proof. exact parameters_endless. Qed.
Print Assumptions C42_termination_refuted.
Example C42_ex : page_ok None (page_of 0 0 []) /\ page_ok None (page_of 1 0 [39; 0; 65]) /\
  (let '(r, cl') := client_read_parameters (client_of None None (concat (repeat (pg_results (page_of 0 0 [])) 5))) 7 in
   r = Waiting /\ length (sent (cl_world cl')) = 6%nat).
Proof.
  split; [|split]; [apply page_of_ok; try lia; try reflexivity; vm_compute; discriminate
                   |apply page_of_ok; try lia; try reflexivity; vm_compute; discriminate|].
  vm_compute. split; reflexivity.
Qed.

(** C63 *)
(** after an exception of a call that talks to the device nothing works any more,
    reconnecting included; the one exception is a block of parameters that was
    received completely and does not parse *)
Theorem C63_recovery_after_exception_refuted : forall cl o x cl' os,
  communicates o -> operate cl o = (Done (Err x), cl') ->
  (forall n data, o = OpReadParameters n -> parse None (Some data) <> Some (Err x)) ->
  all_refused os (fst (session cl' os)) /\ sent (cl_world (snd (session cl' os))) = sent (cl_world cl').
Proof. exact no_recovery. Qed.
Print Assumptions C63_recovery_after_exception_refuted.
(** a timeout of the transport, then a device that would answer *)
Example C63_ex :
  let cl := client_of None None (Err CommunicationError :: time_results ++ time_results) in
  let '(r, cl') := operate cl OpReadTime in
  r = Done (Err CommunicationError) /\
  fst (session cl' [OpDisconnect; OpConnect; OpReadTime; OpReadValues]) =
    [Done (Ok RNothing); Done (Ok RNothing); Done (Err LocalElgasProtocolError); Done (Err LocalElgasProtocolError)].
Proof. vm_compute. split; reflexivity. Qed.

(** C64 *)
(** a telegram that is not valid (of at least 16 bytes) in answer to a request:
    the call never returns, whatever arrives later, unless the transport raises *)
Theorem C64_invalid_answer_raises_refuted : forall pw pid k id wd cl os results rs vs o r w t pieces more,
  make_client pw pid k id wd = Ok cl -> usable_context (client_context k id) -> tx wd = [] ->
  converses (client_context k id) pw os results rs vs ->
  opens pw o = Some r -> encodable r ->
  is_bytes t -> on_line w t -> 16 <= len w -> ~ telegram w -> first_telegram t (concat pieces) ->
  rx wd = results ++ map Ok pieces ++ more ->
  exists last cl', session cl (os ++ [o]) = (vs ++ [last], cl') /\ waits_or_fails last more.
Proof. exact corrupted_answer. Qed.
Print Assumptions C64_invalid_answer_raises_refuted.
(** in particular a valid telegram with one byte changed *)
Theorem C64_changed_byte_is_invalid : forall w w', telegram w -> one_byte_changed w w' -> 16 <= len w' /\ ~ telegram w'.
Proof. exact changed_not_telegram. Qed.
Print Assumptions C64_changed_byte_is_invalid.
(** one byte changed; then the device repeats the correct telegram three times *)
Example C64_ex :
  let cl := client_of None None (Ok ([2; 254; 134; 109] ++ skipn 4 time_line) :: time_results ++ time_results ++ time_results) in
  fst (operate cl OpReadTime) = Waiting.
Proof. vm_compute. reflexivity. Qed.

(** C65 *)
(** every telegram that a client ever gives to the transport *)
Theorem C65_every_telegram_is_a_request : forall pw pid k id w cl os,
  make_client pw pid k id w = Ok cl -> key_bytes k -> sent w = [] ->
  Forall (fun t => exists r, (forall p, request_password r = Some p -> p = pw) /\ request_line (client_context k id) r t)
    (sent (cl_world (snd (session cl os)))).
Proof. exact sent_lines. Qed.
Print Assumptions C65_every_telegram_is_a_request.
Theorem C65_encrypted_iff_key_and_id : forall pw pid k id w cl os,
  make_client pw pid k id w = Ok cl -> key_bytes k -> sent w = [] ->
  Forall (fun t => exists w0 tail, on_line w0 t /\
      w0 = [2; 254; match client_context k id with Some _ => 133 | None => 132 end] ++ tail)
    (sent (cl_world (snd (session cl os)))).
Proof. exact sent_types. Qed.
Print Assumptions C65_encrypted_iff_key_and_id.
(** without (non-empty) key or without id the password is sent in clear in every
    request but the time request (service 0x6C) *)
Theorem C65_password_in_clear_otherwise : forall pw pid k id w cl os,
  make_client pw pid k id w = Ok cl -> key_bytes k -> sent w = [] ->
  client_context k id = None ->
  Forall (fun t => exists w0, on_line w0 t /\
      ((exists tail, w0 = [2; 254; 132; 108] ++ tail) \/ (exists before after, w0 = [2; 254; 132] ++ before ++ pw ++ after)))
    (sent (cl_world (snd (session cl os)))).
Proof. exact sent_passwords. Qed.
Print Assumptions C65_password_in_clear_otherwise.
Example C65_ex :
  map (firstn 3) (sent (cl_world (snd (session (client_of (Some key7) (Some 0) []) [OpConnect; OpReadValues])))) = [[2; 254; 133]] /\
  map (firstn 3) (sent (cl_world (snd (session (client_of (Some []) (Some 0) []) [OpConnect; OpReadValues])))) = [[2; 254; 132]].
Proof. split; vm_compute; reflexivity. Qed.

(** C66 *)
(** a repeated telegram is taken for the answer to the next request, the real
    answer is left in the transport *)
Theorem C66_answers_match_requests_refuted : forall pw pid k id w cl t1 dar dst dev extra first again rest,
  make_client pw pid k id w = Ok cl -> usable_context (client_context k id) -> tx w = [] ->
  delivers (client_context k id) READ_DEVICE_TIME (ReadTimeResponse t1 dar dst dev extra) first ->
  delivers (client_context k id) READ_DEVICE_TIME (ReadTimeResponse t1 dar dst dev extra) again ->
  rx w = first ++ again ++ rest ->
  exists cl', session cl [OpReadTime; OpReadTime] = ([Done (Ok (RTime t1)); Done (Ok (RTime t1))], cl') /\
    rx (cl_world cl') = rest.
Proof. exact stale_answer. Qed.
Print Assumptions C66_answers_match_requests_refuted.
(** the records of any archive are returned, whichever was asked for *)
Theorem C66_archive_checked_refuted : forall pw pid k id w cl a n i b j data results rest,
  make_client pw pid k id w = Ok cl -> usable_context (client_context k id) -> tx w = [] ->
  encodable (ReadArchiveRequest pw a n i) ->
  delivers (client_context k id) READ_ARCHIVES (ReadArchiveResponse b j data) results -> rx w = results ++ rest ->
  fst (operate cl (OpReadArchive a n i)) = Done (Ok (RPdu (ReadArchiveResponse b j data))).
Proof. exact other_archive. Qed.
Print Assumptions C66_archive_checked_refuted.
Example C66_ex :
  let cl := client_of None None [Ok (line_of (response_wire 134 124 4660 5 0 0 [2; 9; 0; 0; 0; 0; 77]))] in
  fst (operate cl (OpReadArchive 5 10 100)) = Done (Ok (RPdu (ReadArchiveResponse 2 9 [0; 77]))).
Proof. vm_compute. reflexivity. Qed.
