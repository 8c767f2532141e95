(** Proofs about elgas/state.py and elgas/connection.py. *)
From Verif Require Import PyFacts SpecUtils SpecFrames SpecText SpecApplication SpecPdu SpecSecurity.
From Verif Require Import UtilsProofs FramesProofs TextProofs ApplicationProofs AesProofs SecurityProofs.
From Verif Require Export Connection SpecConnection.
Open Scope Z_scope.

(** ** next_event on the first telegram of the buffer *)
Lemma next_event_cut c p rest : ~ In 13 p -> buffer c = p ++ 13 :: rest ->
  next_event c =
  match interpret (context c) (p ++ [13]) with
  | Err x => if is_value_error x then (Ok None, c) else (Err x, c)
  | Ok f => match pdu_from_response f with
            | Err x => (Err x, c)
            | Ok pdu => match process_event (elgas_state c) (Response pdu) with
                        | Err x => (Err x, c)
                        | Ok s => (Ok (Some pdu), set_buffer (set_state c s) [])
                        end
            end
  end.
Proof.
  intros Hp E. unfold next_event. rewrite E.
  rewrite index_of_app by exact Hp. cbv zeta.
  transitivity (match interpret (context c) (slice_to (len p + 1) (p ++ 13 :: rest)) with
  | Err x => if is_value_error x then (Ok None, c) else (Err x, c)
  | Ok f => match pdu_from_response f with
            | Err x => (Err x, c)
            | Ok pdu => match process_event (elgas_state c) (Response pdu) with
                        | Err x => (Err x, c)
                        | Ok s => (Ok (Some pdu), set_buffer (set_state c s) [])
                        end
            end
  end); [destruct p; reflexivity|].
  replace (p ++ 13 :: rest) with ((p ++ [13]) ++ rest) by (rewrite <- app_assoc; reflexivity).
  rewrite slice_to_app by (rewrite len_app; reflexivity). reflexivity.
Qed.
Lemma next_event_uncut c : ~ In 13 (buffer c) -> next_event c = (Ok None, c).
Proof.
  intros H. unfold next_event. destruct (buffer c) eqn:E; [reflexivity|].
  rewrite (proj2 (index_of_none 13 _) H). reflexivity.
Qed.
Lemma buffer_cases (b : bytes) : ~ In 13 b \/ exists p rest, b = p ++ 13 :: rest /\ ~ In 13 p.
Proof.
  pose proof (index_of_spec 13 b) as H. destruct (index_of 13 b); [|auto].
  destruct H as (p & s & -> & _ & H). right. eauto.
Qed.

Lemma set_buffer_same c : set_buffer c (buffer c) = c. Proof. destruct c; reflexivity. Qed.
Lemma receive_nonend c data : data <> [] -> (data <> [13] \/ buffer c <> []) ->
  receive_data c data = set_buffer c (buffer c ++ data).
Proof.
  intros H N. unfold receive_data. destruct data as [|x data]; [contradiction|].
  destruct (list_eqb (x :: data) [13]) eqn:E; [|reflexivity]. apply list_eqb_eq in E.
  destruct (Z.eqb_spec (len (buffer c)) 0) as [L|L]; [|reflexivity].
  apply len_0_nil in L. destruct N; contradiction.
Qed.
Lemma receive_nil c : receive_data c [] = c. Proof. reflexivity. Qed.
Lemma receive_fields c data :
  elgas_state (receive_data c data) = elgas_state c /\ context (receive_data c data) = context c /\
  c_source_1 (receive_data c data) = c_source_1 c /\ c_source_2 (receive_data c data) = c_source_2 c /\
  c_destination_1 (receive_data c data) = c_destination_1 c /\ c_destination_2 (receive_data c data) = c_destination_2 c.
Proof. unfold receive_data. destruct data; [auto 10|]. destruct (_ && _); cbn; auto 10. Qed.

(** ** the state check *)
Definition awaiting (s : service) : protocol_state :=
  match s with
  | READ_VALUES => AWAITING_READ_ACTUAL_VALUES_RESPONSE
  | READ_SCADA_PARAMETERS => AWAITING_READ_DEVICE_PARAMETERS_RESPONSE
  | READ_DEVICE_TIME => AWAITING_READ_TIME_RESPONSE
  | READ_ARCHIVES_BY_DATE => AWAITING_READ_ARCHIVE_BY_TIME_RESPONSE
  | READ_ARCHIVES => AWAITING_READ_ARCHIVE_RESPONSE
  | WRITE_DEVICE_TIME => AWAITING_WRITE_TIME_RESPONSE
  | _ => IDLE
  end.
Lemma process_request s r :
  process_event s (Request r) =
  match outstanding s with None => Ok (awaiting (request_service r)) | Some _ => Err LocalElgasProtocolError end.
Proof. destruct s; destruct r; reflexivity. Qed.
Lemma service_eq_dec (a b : service) : {a = b} + {a <> b}. Proof. decide equality. Defined.
Lemma process_response s p :
  process_event s (Response p) =
  match outstanding s with
  | Some srv => if service_eq_dec srv (pdu_service p) then Ok IDLE else Err LocalElgasProtocolError
  | None => Err LocalElgasProtocolError
  end.
Proof. destruct s; destruct p; reflexivity. Qed.
Lemma outstanding_awaiting r : outstanding (awaiting (request_service r)) = Some (request_service r).
Proof. destruct r; reflexivity. Qed.

(** ** send *)
Definition serialise (rnd pad : nat -> Z) (c : connection) (r : request) : res bytes :=
  application_data <- pdu_to_bytes rnd r ;;
  frame_data <-
    match context c with
    | Some ctx => d <- context_encrypt pad ctx application_data ;;
                  request_to_bytes ENCRYPTED_REQUEST_TYPE (frame_of c (request_service r) d)
    | None => request_to_bytes REQUEST_TYPE (frame_of c (request_service r) application_data)
    end ;;
  escape_characters frame_data.
Lemma send_request rnd pad c r :
  send rnd pad c (Request r) =
  match outstanding (elgas_state c) with
  | None => (serialise rnd pad c r, set_state c (awaiting (request_service r)))
  | Some _ => (Err LocalElgasProtocolError, c)
  end.
Proof.
  unfold send. rewrite process_request. destruct (outstanding (elgas_state c)); reflexivity.
Qed.

Lemma pdu_to_bytes_errs rnd r e : pdu_to_bytes rnd r = Err e ->
  e = ValueError \/ e = OverflowError \/ e = UnicodeEncodeError.
Proof.
  assert (forall w n x, to_le w n = Err x -> x = OverflowError) as TL by (intros w n x; unfold to_le; destruct (_ && _); congruence).
  assert (forall o b x, append o b = Err x -> x = ValueError) as AP by (intros o b x; unfold append; destruct (_ && _); congruence).
  assert (forall rn pw x, password_bytes rn pw = Err x -> x = UnicodeEncodeError) as PB.
  { intros rn pw x. unfold password_bytes, encode_latin1. destruct (forallb _ _); congruence. }
  assert (forall n x, to_bdc n = Err x -> x = ValueError) as TB.
  { intros n x. unfold to_bdc. set (s := if negb _ then _ else _). generalize s. clear.
    fix IH 1. intros [|a [|b l]]; cbn [fromhex]; try congruence.
    destruct (hex_value a), (hex_value b); try congruence.
    destruct (fromhex l) eqn:E; cbn [bind]; [discriminate|]. specialize (IH l). rewrite E in IH.
    intros H. apply IH. congruence. }
  assert (forall t x, datetime_to_bytes t = Err x -> x = ValueError) as DT.
  { intros t x. unfold datetime_to_bytes.
    repeat (match goal with |- context [bind (to_bdc ?n) _] => destruct (to_bdc n) eqn:? end; cbn [bind];
            [|intros H; injection H as <-; eauto]). discriminate. }
  destruct r; cbn [pdu_to_bytes]; cbv zeta; intros H;
  repeat (match type of H with
    | bind (password_bytes ?a ?b) _ = _ => destruct (password_bytes a b) eqn:?; cbn [bind] in H
    | bind (to_le ?a ?b) _ = _ => destruct (to_le a b) eqn:?; cbn [bind] in H
    | bind (append ?a ?b) _ = _ => destruct (append a b) eqn:?; cbn [bind] in H
    | bind (datetime_to_bytes ?a) _ = _ => destruct (datetime_to_bytes a) eqn:?; cbn [bind] in H
    end; [|injection H as <-; eauto]); try discriminate; eauto.
Qed.
Lemma request_to_bytes_errs T f e : request_to_bytes T f = Err e -> e = ValueError \/ e = OverflowError.
Proof.
  assert (forall w n x, to_le w n = Err x -> x = OverflowError) as TL by (intros w n x; unfold to_le; destruct (_ && _); congruence).
  assert (forall w n x, to_be w n = Err x -> x = OverflowError) as TB by (intros w n x; unfold to_be; destruct (_ && _); congruence).
  assert (forall o b x, append o b = Err x -> x = ValueError) as AP by (intros o b x; unfold append; destruct (_ && _); congruence).
  unfold request_to_bytes. intros H.
  repeat (match type of H with
    | bind (to_le ?a ?b) _ = _ => destruct (to_le a b) eqn:?; cbn [bind] in H; cbv zeta in H
    | bind (to_be ?a ?b) _ = _ => destruct (to_be a b) eqn:?; cbn [bind] in H; cbv zeta in H
    | bind (append ?a ?b) _ = _ => destruct (append a b) eqn:?; cbn [bind] in H; cbv zeta in H
    end; [|injection H as <-; eauto]); eauto.
Qed.
Lemma encrypt_errs pad ctx d e : context_encrypt pad ctx d = Err e -> e = ValueError \/ e = OverflowError.
Proof.
  assert (forall w n x, to_le w n = Err x -> x = OverflowError) as TL by (intros w n x; unfold to_le; destruct (_ && _); congruence).
  assert (forall w n x, to_be w n = Err x -> x = OverflowError) as TB by (intros w n x; unfold to_be; destruct (_ && _); congruence).
  assert (forall o b x, append o b = Err x -> x = ValueError) as AP by (intros o b x; unfold append; destruct (_ && _); congruence).
  assert (forall m k iv x, aes_cbc_encrypt m k iv = Err x -> x = ValueError) as AE.
  { intros m k iv x. unfold aes_cbc_encrypt. repeat (match goal with |- context [if ?b then _ else _] => destruct b end); congruence. }
  unfold context_encrypt. intros H. cbv zeta in H.
  repeat (match type of H with
    | bind (to_le ?a ?b) _ = _ => destruct (to_le a b) eqn:?; cbn [bind] in H; cbv zeta in H
    | bind (to_be ?a ?b) _ = _ => destruct (to_be a b) eqn:?; cbn [bind] in H; cbv zeta in H
    | bind (append ?a ?b) _ = _ => destruct (append a b) eqn:?; cbn [bind] in H; cbv zeta in H
    | bind (aes_cbc_encrypt ?a ?b ?c) _ = _ => destruct (aes_cbc_encrypt a b c) eqn:?; cbn [bind] in H; cbv zeta in H
    end; [|injection H as <-; eauto]). discriminate.
Qed.
Lemma serialise_errs rnd pad c r e : serialise rnd pad c r = Err e ->
  e = ValueError \/ e = OverflowError \/ e = UnicodeEncodeError.
Proof.
  unfold serialise. destruct (pdu_to_bytes rnd r) as [d|x] eqn:E; cbn [bind].
  2:{ intros H; injection H as <-. eapply pdu_to_bytes_errs; exact E. }
  destruct (context c) as [ctx|].
  - destruct (context_encrypt pad ctx d) as [d'|x] eqn:E2; cbn [bind].
    2:{ intros H; injection H as <-. apply encrypt_errs in E2. tauto. }
    destruct (request_to_bytes _ _) as [w|x] eqn:E3; cbn [bind].
    2:{ intros H; injection H as <-. apply request_to_bytes_errs in E3. tauto. }
    intros H. apply escape_err in H. auto.
  - destruct (request_to_bytes _ _) as [w|x] eqn:E3; cbn [bind].
    2:{ intros H; injection H as <-. apply request_to_bytes_errs in E3. tauto. }
    intros H. apply escape_err in H. auto.
Qed.

(** ** telegrams *)
Lemma escaped_on_line body : on_line (body ++ [13]) (flat_map esc_byte body ++ [13]).
Proof.
  exists (flat_map esc_byte body). split; [reflexivity|]. split; [apply esc_no_end|].
  apply return_unesc, return_escape_ok.
Qed.
Lemma interpret_reads ctx w t : on_line w t ->
  interpret ctx t =
  (response <- response_factory w ;;
   f <- match response with
        | PlainResponse f => Ok f
        | EncryptedResponse f =>
            match ctx with
            | None => Err AttributeError
            | Some ctx => d <- context_decrypt ctx (f_data f) ;; Ok (set_data f d)
            end
        end ;;
   if len (f_data f) =? 1 then u <- raise_error (f_data f) ;; Ok f else Ok f).
Proof.
  intros (p & -> & Hp & Hu). unfold interpret. apply return_unesc in Hu. rewrite Hu. reflexivity.
Qed.
Lemma factory_plain srv d1 d2 s1 s2 d : addresses d1 d2 s1 s2 -> is_bytes d -> len d <= 65520 ->
  response_factory (response_wire 134 (service_number srv) d1 d2 s1 s2 d) =
  Ok (PlainResponse (mk_frame srv d1 d2 s1 s2 d)).
Proof.
  intros (H1 & H2 & H3 & H4) Hd Hl. apply response_factory_plain. unfold response_wire.
  rewrite from_bytes_wire; try assumption; try (unfold is_byte; lia); auto using le2_bytes.
  rewrite !from_le_le2. reflexivity.
Qed.
Lemma factory_encrypted srv d1 d2 s1 s2 d : addresses d1 d2 s1 s2 -> is_bytes d -> len d <= 65520 ->
  response_factory (response_wire 135 (service_number srv) d1 d2 s1 s2 d) =
  Ok (EncryptedResponse (mk_frame srv d1 d2 s1 s2 d)).
Proof.
  intros (H1 & H2 & H3 & H4) Hd Hl. apply response_factory_encrypted. unfold response_wire.
  rewrite from_bytes_wire; try assumption; try (unfold is_byte; lia); auto using le2_bytes.
  rewrite !from_le_le2. reflexivity.
Qed.
Lemma seals_decrypt k id d p : key16 k -> 0 <= id <= 255 -> is_bytes d -> len d <= 65535 -> seals k id d p ->
  is_bytes p /\ context_decrypt (mk_context id k) p = Ok d.
Proof.
  intros Hk Hi Hd Hl (pad & Hp & Hpay). pose proof (len_nonneg d).
  assert (is_bytes (d ++ pad)) as Hb by (apply is_bytes_app; auto).
  assert (is_bytes p) as Bp.
  { destruct (payload_sizes k id (len d) (d ++ pad) p Hk Hb ltac:(lia) Hi Hpay) as (ct & -> & Bc & _).
    rewrite !is_bytes_app. split; [apply le2_bytes; lia|]. split; [repeat constructor; lia|exact Bc]. }
  split; [exact Bp|]. apply decrypt_iff; [exact Bp|exact Hk|].
  exists (len d), (d ++ pad). split; [lia|]. split; [exact Hi|]. split; [exact Hb|]. split; [exact Hpay|].
  rewrite <- app_assoc. symmetry. apply firstn_app_exact. unfold len. lia.
Qed.
Lemma answers_interpret ctx srv d t : answers ctx srv d t ->
  exists p f, t = p ++ [13] /\ ~ In 13 p /\ f_service f = srv /\ f_data f = d /\
    interpret ctx t = if len d =? 1 then u <- raise_error d ;; Ok f else Ok f.
Proof.
  intros [d1 d2 s1 s2 Ha Hd Hl Ho|d1 d2 s1 s2 k id p Ha Hd Hl -> Hk Hi Hs Hlp Ho].
  - pose proof Ho as (p & -> & Hp & _). exists p, (mk_frame srv d1 d2 s1 s2 d).
    do 4 (split; [auto|]). rewrite (interpret_reads _ _ _ Ho), factory_plain by assumption. reflexivity.
  - destruct (seals_decrypt k id d p Hk Hi Hd ltac:(lia) Hs) as (Bp & Dp).
    pose proof Ho as (q & -> & Hq & _). exists q, (mk_frame srv d1 d2 s1 s2 d).
    do 4 (split; [auto|]). rewrite (interpret_reads _ _ _ Ho), factory_encrypted by assumption.
    cbn [bind f_data]. rewrite Dp. reflexivity.
Qed.
Lemma pdu_decodes f p : pdu_from_response f = Ok p <-> decodes (f_service f) (f_data f) p.
Proof.
  unfold pdu_from_response. split.
  - destruct (f_service f); try discriminate; constructor; assumption.
  - intros H. inversion H; subst; assumption.
Qed.
Lemma decodes_service srv d p : decodes srv d p -> pdu_service p = srv.
Proof.
  intros H. inversion H; subst.
  - unfold instantaneous_values_from_bytes in H0. destruct (bytes_to_datetime _) as [[[? ?] ?]|]; [|discriminate].
    cbn [bind] in H0. cbv zeta in H0. destruct (getitem _ _); cbn [bind] in H0; [|discriminate]. injection H0 as <-. reflexivity.
  - unfold read_time_from_bytes in H0. destruct (bytes_to_datetime _) as [[[? ?] ?]|]; [|discriminate].
    cbn [bind] in H0. injection H0 as <-. reflexivity.
  - unfold device_parameters_from_bytes in H0. destruct (getitem _ _); cbn [bind] in H0; [|discriminate]. injection H0 as <-. reflexivity.
  - unfold archive_by_time_from_bytes in H0. destruct (getitem _ _); cbn [bind] in H0; [|discriminate].
    destruct (archive_of_number _); cbn [bind] in H0; [|discriminate]. injection H0 as <-. reflexivity.
  - unfold archive_from_bytes in H0. destruct (getitem _ _); cbn [bind] in H0; [|discriminate].
    destruct (archive_of_number _); cbn [bind] in H0; [|discriminate]. injection H0 as <-. reflexivity.
  - injection H0 as <-. reflexivity.
Qed.
Lemma raise_error_flag i e : device_error i e -> raise_error [2 ^ i] = Err e.
Proof. intros H. inversion H; reflexivity. Qed.
Lemma device_error_range i e : device_error i e -> 0 <= i <= 7.
Proof. intros H. inversion H; lia. Qed.
Lemma raise_error_cases b : (exists i e, device_error i e /\ b = 2 ^ i /\ raise_error [b] = Err e) \/
  ((forall i, 0 <= i <= 7 -> b <> 2 ^ i) /\ raise_error [b] = Ok tt).
Proof.
  unfold raise_error. cbn [getitem]. change (getitem 0 [b]) with (@Ok Z b). cbn [bind].
  assert (forall i, 0 <= i <= 7 -> 2 ^ i = 1 \/ 2 ^ i = 2 \/ 2 ^ i = 4 \/ 2 ^ i = 8 \/ 2 ^ i = 16 \/ 2 ^ i = 32 \/ 2 ^ i = 64 \/ 2 ^ i = 128) as P.
  { intros i Hi. assert (i = 0 \/ i = 1 \/ i = 2 \/ i = 3 \/ i = 4 \/ i = 5 \/ i = 6 \/ i = 7) as C by lia.
    destruct C as [->|[->|[->|[->|[->|[->|[->| ->]]]]]]]; cbn; auto 10. }
  destruct (Z.eqb_spec b 1) as [->|]; [left; exists 0; eexists; split; [constructor|split; reflexivity]|].
  destruct (Z.eqb_spec b 2) as [->|]; [left; exists 1; eexists; split; [constructor|split; reflexivity]|].
  destruct (Z.eqb_spec b 4) as [->|]; [left; exists 2; eexists; split; [constructor|split; reflexivity]|].
  destruct (Z.eqb_spec b 8) as [->|]; [left; exists 3; eexists; split; [constructor|split; reflexivity]|].
  destruct (Z.eqb_spec b 16) as [->|]; [left; exists 4; eexists; split; [constructor|split; reflexivity]|].
  destruct (Z.eqb_spec b 32) as [->|]; [left; exists 5; eexists; split; [constructor|split; reflexivity]|].
  destruct (Z.eqb_spec b 64) as [->|]; [left; exists 6; eexists; split; [constructor|split; reflexivity]|].
  destruct (Z.eqb_spec b 128) as [->|]; [left; exists 7; eexists; split; [constructor|split; reflexivity]|].
  right. split; [|reflexivity]. intros i Hi E. specialize (P i Hi). lia.
Qed.
Lemma flag_check d f : (if len d =? 1 then u <- raise_error d ;; Ok f else Ok f) =
  (Ok f : res frame) \/ exists i e, device_error i e /\ d = [2 ^ i] /\
  (if len d =? 1 then u <- raise_error d ;; Ok f else Ok f) = Err e.
Proof.
  destruct (Z.eqb_spec (len d) 1) as [L|L]; [|auto].
  destruct d as [|b [|? ?]]; try (exfalso; lenlia).
  destruct (raise_error_cases b) as [(i & e & D & -> & E)|(H & E)]; rewrite E; cbn [bind]; [|auto].
  right. exists i, e. auto.
Qed.
Lemma no_flag_check d f : no_flag d -> (if len d =? 1 then u <- raise_error d ;; Ok f else Ok f) = (Ok f : res frame).
Proof.
  intros H. destruct (flag_check d f) as [E|(i & e & D & -> & E)]; [exact E|].
  exfalso. apply (H i); [|reflexivity]. eapply device_error_range; exact D.
Qed.

(** ** what is accepted *)
Lemma unesc_bytes t w : unesc t w -> is_bytes t -> is_bytes w.
Proof. intros H. apply return_unesc in H. apply return_is_bytes. exact H. Qed.
Lemma unseals_iff id k p d : is_bytes p -> key16 k -> 0 <= id <= 255 -> (unseals id k p d <-> context_decrypt (mk_context id k) p = Ok d).
Proof.
  intros B K I. rewrite decrypt_iff by assumption. unfold unseals. split.
  - intros (n & body & H1 & H2 & H3 & H4). exists n, body. auto 10.
  - intros (n & body & H1 & _ & H2 & H3 & H4). exists n, body. auto.
Qed.
Lemma accepted_interpret ctx srv d w t : on_line w t -> accepted ctx srv d w ->
  exists f, f_service f = srv /\ f_data f = d /\
    interpret ctx t = if len d =? 1 then u <- raise_error d ;; Ok f else Ok f.
Proof.
  intros Ho [d1 d2 s1 s2 Ha Hd Hl ->|d1 d2 s1 s2 id k p Ha Hd Hl -> -> Hk Hi Hx]; rewrite (interpret_reads _ _ _ Ho).
  - exists (mk_frame srv d1 d2 s1 s2 d). rewrite factory_plain by assumption. auto.
  - exists (mk_frame srv d1 d2 s1 s2 d). rewrite factory_encrypted by assumption. cbn [bind f_data].
    apply unseals_iff in Hx; auto. rewrite Hx. auto.
Qed.
Lemma answers_accepted ctx srv d t : answers ctx srv d t -> exists w, on_line w t /\ accepted ctx srv d w.
Proof.
  intros [d1 d2 s1 s2 Ha Hd Hl Ho|d1 d2 s1 s2 k id p Ha Hd Hl -> Hk Hi Hs Hlp Ho]; eexists; split; try exact Ho.
  - eapply accepted_plain; eauto.
  - destruct (seals_decrypt k id d p Hk Hi Hd ltac:(lia) Hs) as (Bp & Dp). eapply accepted_encrypted; eauto. apply unseals_iff; assumption.
Qed.
Lemma wire_len addr T s d1 d2 s1 s2 d : (forall n, length (addr n) = 2%nat) -> len (wire addr T s d1 d2 s1 s2 d) = len d + 16.
Proof.
  intros H. unfold wire. rewrite sealed_len. rewrite !len_app. 
  assert (forall n, len (addr n) = 2) as L by (intros; unfold len; rewrite H; reflexivity). rewrite !L.
  unfold le2. repeat rewrite len_cons. rewrite ?len_nil. lia.
Qed.
(** acceptance of a runt leaves no data *)
Lemma runt_data T w f : is_bytes w -> len w < 16 -> response_from_bytes T w = Ok f -> f_data f = [].
Proof.
  intros Hb Hl. unfold response_from_bytes.
  destruct (startswith _ _); [|discriminate]. destruct (endswith _ _); [|discriminate].
  destruct (service_of_number _); cbn [bind]; [|discriminate]. cbv zeta.
  destruct (_ =? _); [|discriminate].
  destruct (getitem (-4) w); cbn [bind]; [|discriminate]. destruct (_ =? _); [|discriminate].
  destruct (getitem (-3) w); cbn [bind]; [|discriminate]. destruct (_ =? _); [|discriminate].
  destruct (getitem (-2) w); cbn [bind]; [|discriminate]. destruct (_ =? _); [|discriminate].
  intros H. injection H as <-. cbn [f_data]. unfold slice. cbv zeta.
  rewrite (clamp_pos _ 12), (clamp_neg _ (-4)) by lia. pose proof (len_nonneg w).
  replace (Z.to_nat (Z.max 0 (-4 + len w) - Z.min 12 (len w))) with 0%nat by lia. reflexivity.
Qed.
Lemma factory_inv w r : is_bytes w -> response_factory w = Ok r ->
  (16 <= len w /\ exists srv d1 d2 s1 s2 d, addresses d1 d2 s1 s2 /\ is_bytes d /\ len d <= 65520 /\
     ((r = PlainResponse (mk_frame srv d1 d2 s1 s2 d) /\ w = response_wire 134 (service_number srv) d1 d2 s1 s2 d) \/
      (r = EncryptedResponse (mk_frame srv d1 d2 s1 s2 d) /\ w = response_wire 135 (service_number srv) d1 d2 s1 s2 d))) \/
  (len w < 16 /\ exists f, f_data f = [] /\ (r = PlainResponse f \/ r = EncryptedResponse f)).
Proof.
  intros Hb H. destruct (Z_lt_le_dec (len w) 16) as [Hl|Hl].
  - right. split; [exact Hl|]. destruct r as [f|f]; exists f.
    + apply response_factory_plain in H. split; [eapply runt_data; eauto|auto].
    + apply response_factory_encrypted in H. split; [eapply runt_data; eauto|auto].
  - left. split; [exact Hl|]. destruct r as [f|f].
    + apply response_factory_plain in H. apply accepted_canonical in H as (R & Hd & E); [|assumption|unfold is_byte; lia|assumption].
      rewrite response_to_bytes_wire in E by (try assumption; unfold is_byte; lia).
      rewrite (proj2 (misfit_none f) R) in E. injection E as E. destruct f as [srv d1 d2 s1 s2 d]. cbn in *.
      destruct R as (R1 & R2 & R3 & R4 & R5). cbn in *. do 6 eexists. split; [|split; [exact Hd|split; [exact R5|left; split; [reflexivity|auto]]]].
      unfold addresses; auto.
    + apply response_factory_encrypted in H. apply accepted_canonical in H as (R & Hd & E); [|assumption|unfold is_byte; lia|assumption].
      rewrite response_to_bytes_wire in E by (try assumption; unfold is_byte; lia).
      rewrite (proj2 (misfit_none f) R) in E. injection E as E. destruct f as [srv d1 d2 s1 s2 d]. cbn in *.
      destruct R as (R1 & R2 & R3 & R4 & R5). cbn in *. do 6 eexists. split; [|split; [exact Hd|split; [exact R5|right; split; [reflexivity|auto]]]].
      unfold addresses; auto.
Qed.
Lemma decrypt_empty x : context_decrypt x [] = Err IndexError. Proof. reflexivity. Qed.

(** what interpreting a line telegram can give *)
Inductive reading (ctx : option cipher_context) (w : bytes) : res frame -> Prop :=
| reading_ok f : accepted ctx (f_service f) (f_data f) w -> no_flag (f_data f) -> reading ctx w (Ok f)
| reading_flag srv i e : accepted ctx srv [2 ^ i] w -> device_error i e -> reading ctx w (Err e)
| reading_runt f : len w < 16 -> f_data f = [] -> reading ctx w (Ok f)
| reading_err e : (e = ValueError \/ e = IndexError \/ (e = AssertionError /\ ctx <> None) \/ (e = AttributeError /\ ctx = None)) -> reading ctx w (Err e).
Lemma interpret_reading ctx w t : on_line w t -> is_bytes t -> sound_context ctx -> reading ctx w (interpret ctx t).
Proof.
  intros Ho Hb Hs. rewrite (interpret_reads _ _ _ Ho).
  assert (is_bytes w) as Hw by (destruct Ho as (p & _ & _ & U); eapply unesc_bytes; eauto).
  assert (forall (d : bytes) srv f, f_data f = d -> f_service f = srv -> accepted ctx srv d w ->
    reading ctx w (if len d =? 1 then u <- raise_error d ;; Ok f else Ok f)) as K.
  { intros d srv f E1 E2 A. destruct (Z.eqb_spec (len d) 1) as [L|L].
    - destruct d as [|b [|? ?]]; try (exfalso; lenlia).
      destruct (raise_error_cases b) as [(i & e & D & Eb & E)|(H & E)]; rewrite E; cbn [bind].
      + eapply reading_flag; [|exact D]. rewrite <- Eb. exact A.
      + apply reading_ok; [rewrite E1, E2; exact A|]. rewrite E1. intros i Hi Ei. injection Ei as Ei. exact (H i Hi Ei).
    - apply reading_ok; [rewrite E1, E2; exact A|]. rewrite E1. intros i Hi Ei. rewrite Ei in L. apply L. reflexivity. }
  destruct (response_factory w) as [r|e] eqn:F; cbn [bind].
  2:{ apply response_factory_errs in F. apply reading_err. auto. }
  destruct (factory_inv w r Hw F) as [(Hl & srv & d1 & d2 & s1 & s2 & d & Ha & Hd & Hld & [(-> & E)|(-> & E)])|(Hl & f & Ef & [->| ->])].
  - cbn [bind f_data]. eapply K; try reflexivity. eapply accepted_plain; eauto.
  - destruct ctx as [[id k]|]; cbn [bind f_data]; [|apply reading_err; auto].
    destruct (context_decrypt (mk_context id k) d) as [d'|e] eqn:D; cbn [bind f_data set_data].
    + destruct (decrypt_iff id k d d' Hd Hs) as [X _]. destruct (X D) as (n & body & H1 & H2 & H3 & H4).
      eapply K; try reflexivity. eapply (accepted_encrypted _ _ _ _ d1 d2 s1 s2 id k d); auto; exists n, body; tauto.
    + apply decrypt_errors in D; [|assumption|exact Hs]. apply reading_err.
      assert (Some (mk_context id k) <> None) by discriminate. tauto.
  - cbn [bind f_data]. rewrite Ef. cbn. apply reading_runt; auto.
  - cbn [bind f_data]. rewrite Ef. destruct ctx as [x|]; [rewrite decrypt_empty|]; cbn [bind]; apply reading_err; auto.
Qed.
Lemma pdu_errs f e : is_bytes (f_data f) -> pdu_from_response f = Err e -> e = KeyError \/ e = IndexError \/ e = ValueError.
Proof.
  intros Hb. unfold pdu_from_response.
  assert (forall i (l : bytes) x, getitem i l = Err x -> x = IndexError) as G.
  { intros i l x. unfold getitem. destruct (_ || _); [congruence|]. destruct (nth_error _ _); congruence. }
  assert (forall n x, archive_of_number n = Err x -> x = ValueError) as A.
  { intros n x. unfold archive_of_number. destruct (_ && _); congruence. }
  destruct (f_service f); try (intros H; injection H as <-; auto; fail).
  - unfold instantaneous_values_from_bytes. cbv zeta. destruct (bytes_to_datetime _) as [[[? ?] ?]|] eqn:E; cbn [bind].
    + destruct (getitem _ _) eqn:E2; cbn [bind]; [discriminate|]. intros H; injection H as <-. eauto.
    + intros H; injection H as <-. apply bytes_to_datetime_err in E; [auto|]. apply is_bytes_slice_to. exact Hb.
  - unfold archive_from_bytes. destruct (getitem _ _) eqn:E; cbn [bind]; [|intros H; injection H as <-; eauto].
    destruct (archive_of_number _) eqn:E2; cbn [bind]; [discriminate|]. intros H; injection H as <-. eauto.
  - unfold read_time_from_bytes. cbv zeta. destruct (bytes_to_datetime _) as [[[? ?] ?]|] eqn:E; cbn [bind]; [discriminate|].
    intros H; injection H as <-. apply bytes_to_datetime_err in E; [auto|]. apply is_bytes_slice_to. exact Hb.
  - unfold device_parameters_from_bytes. cbv zeta. destruct (getitem _ _) eqn:E; cbn [bind]; [discriminate|].
    intros H; injection H as <-; eauto.
  - unfold write_time_from_bytes. discriminate.
  - unfold archive_by_time_from_bytes. destruct (getitem _ _) eqn:E; cbn [bind]; [|intros H; injection H as <-; eauto].
    destruct (archive_of_number _) eqn:E2; cbn [bind]; [discriminate|]. intros H; injection H as <-. eauto.
Qed.
Lemma pdu_empty f p : f_data f = [] -> pdu_from_response f = Ok p -> p = WriteTimeResponse.
Proof.
  intros E. unfold pdu_from_response. rewrite E. destruct (f_service f); try discriminate.
  intros H. injection H as <-. reflexivity.
Qed.
Lemma accepted_bytes ctx srv d w : sound_context ctx -> accepted ctx srv d w -> is_bytes d.
Proof.
  intros Hs [d1 d2 s1 s2 Ha Hd Hl E|d1 d2 s1 s2 id k p Ha Hd Hl E -> Hk Hi (n & body & Hn & Hb & Hp & ->)]; [exact Hd|].
  apply is_bytes_firstn. apply is_bytes_app. split; [exact Hb|]. apply be2_bytes.
  apply payload_crc_range; assumption.
Qed.

(** ** next_event by cases *)
Lemma next_event_read c w t rest : on_line w t -> buffer c = t ++ rest ->
  next_event c =
  match interpret (context c) t with
  | Err x => if is_value_error x then (Ok None, c) else (Err x, c)
  | Ok f => match pdu_from_response f with
            | Err x => (Err x, c)
            | Ok pdu => match process_event (elgas_state c) (Response pdu) with
                        | Err x => (Err x, c)
                        | Ok s => (Ok (Some pdu), set_buffer (set_state c s) [])
                        end
            end
  end.
Proof.
  intros (p & -> & Hp & _) E. apply next_event_cut with (rest := rest); [exact Hp|].
  rewrite E, <- app_assoc. reflexivity.
Qed.
Lemma buffer_first (b : bytes) : In 13 b -> exists w t, on_line w t /\ first_telegram t b.
Proof.
  intros H. destruct (buffer_cases b) as [N|(p & rest & E & Hp)]; [contradiction|].
  destruct (unesc_cut p Hp) as (o & U). exists (o ++ [13]), (p ++ [13]). split; [exists p; auto|].
  exists rest. rewrite <- app_assoc. exact E.
Qed.
Lemma first_bytes t b : first_telegram t b -> is_bytes b -> is_bytes t.
Proof. intros (rest & ->) H. apply is_bytes_app in H. tauto. Qed.

(** C35: what is delivered *)
Lemma deliver c w t d p rest : on_line w t -> accepted (context c) (pdu_service p) d w -> no_flag d ->
  decodes (pdu_service p) d p -> outstanding (elgas_state c) = Some (pdu_service p) ->
  buffer c = t ++ rest -> next_event c = (Ok (Some p), set_buffer (set_state c IDLE) []).
Proof.
  intros Ho Ha Hn Hd Hs E. rewrite (next_event_read c w t rest Ho E).
  destruct (accepted_interpret _ _ _ _ _ Ho Ha) as (f & E1 & E2 & ->). rewrite no_flag_check by exact Hn.
  assert (pdu_from_response f = Ok p) as -> by (apply pdu_decodes; rewrite E1, E2; exact Hd).
  rewrite process_response, Hs. destruct (service_eq_dec _ _); [reflexivity|contradiction].
Qed.
Lemma delivered_inv c p c' : is_bytes (buffer c) -> sound_context (context c) ->
  next_event c = (Ok (Some p), c') ->
  outstanding (elgas_state c) = Some (pdu_service p) /\ c' = set_buffer (set_state c IDLE) [] /\
  exists w t, on_line w t /\ first_telegram t (buffer c) /\
   ((exists d, accepted (context c) (pdu_service p) d w /\ no_flag d /\ decodes (pdu_service p) d p) \/
    (len w < 16 /\ p = WriteTimeResponse)).
Proof.
  intros Hb Hs H.
  destruct (in_dec Z.eq_dec 13 (buffer c)) as [I|I]; [|rewrite next_event_uncut in H by exact I; discriminate].
  destruct (buffer_first _ I) as (w & t & Ho & Hf). pose proof Hf as (rest & E).
  rewrite (next_event_read c w t rest Ho E) in H.
  pose proof (interpret_reading (context c) w t Ho (first_bytes _ _ Hf Hb) Hs) as R.
  destruct (interpret (context c) t) as [f|x]; [|destruct (is_value_error x); discriminate].
  destruct (pdu_from_response f) as [q|x] eqn:P; [|discriminate].
  rewrite process_response in H. destruct (outstanding (elgas_state c)) as [s|] eqn:O; [|discriminate].
  destruct (service_eq_dec s (pdu_service q)) as [->|]; [|discriminate]. injection H as <- <-.
  split; [reflexivity|]. split; [reflexivity|]. exists w, t. split; [exact Ho|]. split; [exact Hf|].
  inversion R as [f' A N|? ? ? ? ?|f' L D|]; subst.
  - left. exists (f_data f). pose proof (proj1 (pdu_decodes f q) P) as P'. rewrite (decodes_service _ _ _ P'). auto.
  - right. split; [exact L|]. eapply pdu_empty; eauto.
Qed.

(** C39 *)
Lemma next_event_err c e c' : is_bytes (buffer c) -> sound_context (context c) ->
  next_event c = (Err e, c') -> next_event_exn (context c) e.
Proof.
  intros Hb Hs H. unfold next_event_exn.
  destruct (in_dec Z.eq_dec 13 (buffer c)) as [I|I]; [|rewrite next_event_uncut in H by exact I; discriminate].
  destruct (buffer_first _ I) as (w & t & Ho & Hf). pose proof Hf as (rest & E).
  rewrite (next_event_read c w t rest Ho E) in H.
  pose proof (interpret_reading (context c) w t Ho (first_bytes _ _ Hf Hb) Hs) as R.
  destruct (interpret (context c) t) as [f|x].
  - destruct (pdu_from_response f) as [q|x] eqn:P.
    + rewrite process_response in H. destruct (outstanding _); [destruct (service_eq_dec _ _)|]; try discriminate; injection H as <- <-; auto.
    + injection H as <- <-. apply pdu_errs in P; [tauto|].
      inversion R as [f' A N|? ? ? ? ?|f' L D|]; subst; [eapply accepted_bytes; eauto|rewrite D; constructor].
  - destruct (is_value_error x); [discriminate|]. injection H as <- <-.
    inversion R as [|? ? ? ? D| |]; subst; [left; eauto|tauto].
Qed.
Lemma next_event_kept c r c' : next_event c = (r, c') -> (forall p, r <> Ok (Some p)) -> c' = c.
Proof.
  unfold next_event. intros H N. destruct (buffer c) as [|z l]; [congruence|].
  destruct (index_of 13 (z :: l)); [|congruence].
  cbv zeta in H. destruct (interpret _ _) as [f|x]; [|destruct (is_value_error x); congruence].
  destruct (pdu_from_response f) as [q|x]; [|congruence].
  destruct (process_event _ _); [|congruence]. injection H as <- <-. exfalso. eapply N; reflexivity.
Qed.
Lemma next_event_context c : context (snd (next_event c)) = context c.
Proof.
  destruct (next_event c) as [r c'] eqn:E. cbn [snd]. 
  unfold next_event in E. destruct (buffer c) as [|z l]; [congruence|].
  destruct (index_of 13 (z :: l)); [|congruence].
  cbv zeta in E. destruct (interpret _ _) as [f|x]; [|destruct (is_value_error x); congruence].
  destruct (pdu_from_response f) as [q|x]; [|congruence].
  destruct (process_event _ _); [|congruence]. injection E as <- <-. reflexivity.
Qed.

(** C32 *)
Lemma device_error_raised c i e w t srv : device_error i e -> on_line w t -> accepted (context c) srv [2 ^ i] w ->
  first_telegram t (buffer c) -> next_event c = (Err e, c).
Proof.
  intros D Ho A (rest & E). rewrite (next_event_read c w t rest Ho E).
  destruct (accepted_interpret _ _ _ _ _ Ho A) as (f & E1 & E2 & ->).
  change (len [2 ^ i] =? 1) with true. cbv iota. rewrite (raise_error_flag i e D). cbn [bind].
  destruct D; reflexivity.
Qed.
Lemma device_error_inj i j e : device_error i e -> device_error j e -> i = j.
Proof. intros H1 H2. inversion H1; inversion H2; subst; try reflexivity; try discriminate. Qed.
Lemma device_error_source c i e : is_bytes (buffer c) -> sound_context (context c) -> device_error i e ->
  fst (next_event c) = Err e ->
  exists w t srv, on_line w t /\ first_telegram t (buffer c) /\ accepted (context c) srv [2 ^ i] w.
Proof.
  intros Hb Hs De H.
  destruct (in_dec Z.eq_dec 13 (buffer c)) as [I|I]; [|rewrite next_event_uncut in H by exact I; discriminate].
  destruct (buffer_first _ I) as (w & t & Ho & Hf). pose proof Hf as (rest & E).
  rewrite (next_event_read c w t rest Ho E) in H.
  pose proof (interpret_reading (context c) w t Ho (first_bytes _ _ Hf Hb) Hs) as R.
  exists w, t. 
  destruct (interpret (context c) t) as [f|x].
  - exfalso. destruct (pdu_from_response f) as [q|x] eqn:P.
    + rewrite process_response in H. destruct (outstanding _); [destruct (service_eq_dec _ _)|]; try discriminate; injection H as <-; inversion De.
    + cbn [fst] in H. injection H as <-. apply pdu_errs in P; [destruct P as [->|[->| ->]]; inversion De|].
      inversion R as [f' A N|? ? ? ? ?|f' L D|]; subst; [eapply accepted_bytes; eauto|rewrite D; constructor].
  - destruct (is_value_error x); [discriminate|]. cbn [fst] in H. injection H as ->.
    inversion R as [|srv j ? A D| |e0 C]; subst.
    + rewrite (device_error_inj i j e De D). exists srv. auto.
    + destruct C as [->|[->|[[-> _]|[-> _]]]]; inversion De.
Qed.

Lemma device_error_iff c i e :
  is_bytes (buffer c) -> sound_context (context c) -> device_error i e ->
  fst (next_event c) = Err e <->
  exists w t srv, on_line w t /\ first_telegram t (buffer c) /\ accepted (context c) srv [2 ^ i] w.
Proof.
  intros Hb Hs D. split; [apply device_error_source; assumption|].
  intros (w & t & srv & Ho & F & A). rewrite (device_error_raised c i e w t srv D Ho A F). reflexivity.
Qed.
Lemma answered_error c i e srv t : device_error i e ->
  answers (context c) srv [2 ^ i] t -> first_telegram t (buffer c) -> next_event c = (Err e, c).
Proof.
  intros D A F. apply answers_accepted in A as (w & Ho & A). eapply device_error_raised; eauto.
Qed.

(** ** histories *)
Lemma send_fields rnd pad c e : let c' := snd (send rnd pad c e) in
  buffer c' = buffer c /\ context c' = context c /\ encryption_key c' = encryption_key c /\
  encryption_key_id c' = encryption_key_id c /\
  c_source_1 c' = c_source_1 c /\ c_source_2 c' = c_source_2 c /\
  c_destination_1 c' = c_destination_1 c /\ c_destination_2 c' = c_destination_2 c.
Proof. unfold send. destruct (process_event _ _); cbn; auto 10. Qed.
Definition config (c : connection) := (c_source_1 c, c_source_2 c, c_destination_1 c, c_destination_2 c, context c).
Lemma step_config c k : config (snd (step c k)) = config c.
Proof.
  destruct k as [rnd pad e|data|]; cbn [step].
  - pose proof (send_fields rnd pad c e) as H. destruct (send rnd pad c e) as [r c']. cbn in *. unfold config.
    destruct H as (_ & -> & _ & _ & -> & -> & -> & ->). reflexivity.
  - cbn [snd]. destruct (receive_fields c data) as (_ & H1 & H2 & H3 & H4 & H5). unfold config. congruence.
  - destruct (next_event c) as [r c'] eqn:E. cbn [snd].
    destruct r as [[p|]|e].
    + unfold next_event in E. destruct (buffer c) as [|z l]; [congruence|].
      destruct (index_of 13 (z :: l)); [|congruence].
      cbv zeta in E. destruct (interpret _ _) as [f|x]; [|destruct (is_value_error x); congruence].
      destruct (pdu_from_response f) as [q|x]; [|congruence].
      destruct (process_event _ _); [|congruence]. injection E as <- <-. reflexivity.
    + rewrite (next_event_kept _ _ _ E); congruence.
    + rewrite (next_event_kept _ _ _ E); congruence.
Qed.
Lemma run_config ks : forall c, config (snd (run c ks)) = config c.
Proof.
  induction ks as [|k ks IH]; intros c; [reflexivity|]. cbn [run].
  pose proof (step_config c k) as S. destruct (step c k) as [o c1]. specialize (IH c1).
  destruct (run c1 ks) as [os c2]. cbn [snd] in *. congruence.
Qed.
(** an invariant of single steps holds along a history *)
Lemma run_invariant (I : connection -> Prop) (Q : call * outcome -> Prop) ks :
  (forall c k, In k ks -> I c -> Q (k, fst (step c k)) /\ I (snd (step c k))) ->
  forall c, I c -> Forall Q (fst (run c ks)) /\ I (snd (run c ks)).
Proof.
  induction ks as [|k ks IH]; intros S c Hc; [split; [constructor|exact Hc]|].
  cbn [run]. destruct (S c k (or_introl eq_refl) Hc) as [HQ HI]. destruct (step c k) as [o c1]. cbn [fst snd] in *.
  destruct (IH (fun c k H => S c k (or_intror H)) c1 HI) as [F G].
  destruct (run c1 ks) as [os c2]. cbn [fst snd] in *. split; [constructor; assumption|assumption].
Qed.

(** ** sent telegrams *)
Lemma to_bdc_bytes n b : to_bdc n = Ok b -> is_bytes b.
Proof.
  intros H. destruct (Z_lt_le_dec n 0) as [L|L]; [rewrite to_bdc_neg in H by exact L; discriminate|].
  destruct (to_bdc_spec n L) as (ds & out & _ & E & _ & B). congruence.
Qed.
Lemma datetime_bytes t b : datetime_to_bytes t = Ok b -> is_bytes b.
Proof.
  unfold datetime_to_bytes. intros H.
  repeat (match type of H with bind (to_bdc ?n) _ = _ => 
    let E := fresh "E" in destruct (to_bdc n) eqn:E; cbn [bind] in H; [apply to_bdc_bytes in E|discriminate] end).
  injection H as <-. repeat (apply is_bytes_app; split; [assumption|]). assumption.
Qed.
Lemma password_bytes_inv rnd p b : password_bytes rnd p = Ok b -> is_bytes b /\ password_field p b.
Proof.
  intros H. destruct (latin1_dec p) as [L|L].
  - destruct (password_bytes_ok rnd p L) as (f & E & F). rewrite E in H. injection H as <-. split; [|exact F].
    destruct F as (c1 & c2 & H1 & H2 & ->). apply alphanumeric_range in H1, H2.
    apply is_bytes_app. split; [eapply Forall_impl; [|exact L]; unfold is_byte; intros; lia|].
    repeat constructor; lia.
  - rewrite password_bytes_err in H by exact L. discriminate.
Qed.
Lemma to_le_bytes w n b : to_le w n = Ok b -> is_bytes b.
Proof.
  unfold to_le. destruct (_ && _); [|discriminate]. intros H. injection H as <-. apply le_bytes_is_bytes.
Qed.
Lemma append_bytes o n b : is_bytes o -> append o n = Ok b -> is_bytes b.
Proof.
  intros Ho H. destruct (append_cases o n) as [[Hn E]|[Hn E]]; rewrite E in H; [|discriminate]. injection H as <-.
  apply is_bytes_app. split; [exact Ho|]. repeat constructor; apply Hn.
Qed.
Lemma pdu_bytes rnd r b : pdu_to_bytes rnd r = Ok b -> is_bytes b.
Proof.
  destruct r; cbn [pdu_to_bytes]; cbv zeta; intros H;
  repeat (match type of H with
    | bind (password_bytes ?a ?p) _ = _ => let E := fresh "E" in destruct (password_bytes a p) eqn:E; cbn [bind] in H;
        [apply password_bytes_inv in E as [E _]|discriminate]
    | bind (to_le ?a ?p) _ = _ => let E := fresh "E" in destruct (to_le a p) eqn:E; cbn [bind] in H; [apply to_le_bytes in E|discriminate]
    | bind (datetime_to_bytes ?a) _ = _ => let E := fresh "E" in destruct (datetime_to_bytes a) eqn:E; cbn [bind] in H; [apply datetime_bytes in E|discriminate]
    | bind (append ?a ?p) _ = _ => let E := fresh "E" in destruct (append a p) eqn:E; cbn [bind] in H; [apply append_bytes in E; [|assumption]|discriminate]
    end).
  - apply password_bytes_inv in H. tauto.
  - injection H as <-. constructor.
  - eapply append_bytes; [|exact H]. apply is_bytes_app; auto.
  - injection H as <-. repeat (apply is_bytes_app; split); assumption.
  - injection H as <-. repeat (apply is_bytes_app; split); assumption.
  - injection H as <-. repeat (apply is_bytes_app; split); assumption.
Qed.
(** the data of the requests *)
Lemma four_digits out a b c d : is_bytes out -> nibbles out = [a; b; c; d] -> out = [16 * a + b; 16 * c + d].
Proof.
  intros B. destruct out as [|x [|y [|z out]]]; intros N; try discriminate. cbn in N. injection N as <- <- <- <-. f_equal; [lia|]. f_equal; lia.
Qed.
Lemma to_bdc_late n : 100 <= n <= 7999 -> to_bdc n = Ok [bcd_byte (n / 100); bcd_byte (n mod 100)].
Proof.
  intros H. destruct (to_bdc_spec n ltac:(lia)) as (ds & out & D & E & N & B). rewrite E. f_equal.
  unfold bcd_byte.
  destruct (Z_lt_le_dec n 1000) as [L|L].
  - assert (ds = [n / 100; n / 10 mod 10; n mod 10]) as ->.
    { apply (decimal_digits_unique n); [exact D|]. split; [repeat (constructor; [unfold is_digit; lia|]); constructor|]. split; [unfold dec_value; cbn [fold_left]; lia|].
      split; [discriminate|]. cbn [hd]. lia. }
    change (pad_even _) with [0; n / 100; n / 10 mod 10; n mod 10] in N. rewrite (four_digits _ _ _ _ _ B N). f_equal; [lia|]. f_equal; lia.
  - assert (ds = [n / 1000; n / 100 mod 10; n / 10 mod 10; n mod 10]) as ->.
    { apply (decimal_digits_unique n); [exact D|]. split; [repeat (constructor; [unfold is_digit; lia|]); constructor|]. split; [unfold dec_value; cbn [fold_left]; lia|].
      split; [discriminate|]. cbn [hd]. lia. }
    change (pad_even _) with [n / 1000; n / 100 mod 10; n / 10 mod 10; n mod 10] in N. rewrite (four_digits _ _ _ _ _ B N). f_equal; [lia|]. f_equal; lia.
Qed.
Lemma datetime_field t b : datetime_to_bytes t = Ok b -> calendar_time t -> b = time_digits t.
Proof.
  intros E C. pose proof C as (Y & _). destruct (Z_lt_le_dec (year t) 2000) as [L|L].
  { rewrite datetime_to_bytes_early in E by assumption. discriminate. }
  unfold time_digits. destruct (Z.leb_spec (year t) 2099) as [M|M].
  - rewrite datetime_to_bytes_century in E by (auto; lia). injection E as <-. reflexivity.
  - rewrite datetime_to_bytes_calendar, to_bdc_late in E by (auto; lia). injection E as <-. reflexivity.
Qed.
Lemma pdu_data rnd r b : pdu_to_bytes rnd r = Ok b -> request_data r b.
Proof.
  destruct r; cbn [pdu_to_bytes]; cbv zeta; intros H;
  repeat (match type of H with
    | bind (password_bytes ?a ?p) _ = _ => let E := fresh "E" in destruct (password_bytes a p) eqn:E; cbn [bind] in H;
        [apply password_bytes_inv in E as [_ E]|discriminate]
    | bind (to_le 2 ?n) _ = _ => let E := fresh "R" in rewrite (to_le_2_if n) in H; destruct ((0 <=? n) && (n <=? 65535)) eqn:E; cbn [bind] in H; [|discriminate]
    | bind (to_le 4 ?n) _ = _ => let E := fresh "R" in rewrite (to_le_4_if n) in H; destruct ((0 <=? n) && (n <=? 4294967295)) eqn:E; cbn [bind] in H; [|discriminate]
    | bind (datetime_to_bytes ?a) _ = _ => let E := fresh "T" in destruct (datetime_to_bytes a) eqn:E; cbn [bind] in H; [|discriminate]
    | bind (append ?a ?p) _ = _ => let E := fresh "A" in rewrite (append_if a p) in H; destruct ((0 <=? p) && (p <=? 255)) eqn:E; cbn [bind] in H; [|discriminate]
    end).
  - apply password_bytes_inv in H as [_ H]. constructor. exact H.
  - injection H as <-. constructor.
  - change (Z.land 4 255) with 4 in H. rewrite append_ok in H by (unfold is_byte; lia). injection H as <-. rewrite <- app_assoc.
    constructor; [assumption|]. apply datetime_field. assumption.
  - injection H as <-. rewrite <- app_assoc. constructor; try assumption; lia.
  - injection H as <-. rewrite <- !app_assoc. constructor; try assumption; try lia. apply datetime_field. assumption.
  - injection H as <-. rewrite <- !app_assoc. constructor; try assumption; lia.
Qed.
Lemma data_password r p b : request_password r = Some p -> request_data r b -> exists s, b = p ++ s.
Proof.
  intros H D. destruct D as [pw f F| |pw t c f g F _|pw n s f F _ _|pw a n t f g F _ _ _|pw a n i f F _ _ _];
    [| discriminate H|..]; injection H as <-; destruct F as (c1 & c2 & _ & _ & ->); rewrite <- ?app_assoc; eauto.
Qed.
(** every request but ReadTimeRequest starts with the password *)
Lemma pdu_password rnd r p b : request_password r = Some p -> pdu_to_bytes rnd r = Ok b -> exists s, b = p ++ s.
Proof.
  assert (forall rnd p b, password_bytes rnd p = Ok b -> exists s, b = p ++ s) as P.
  { intros rn q x H. apply password_bytes_inv in H as [_ (c1 & c2 & _ & _ & ->)]. eauto. }
  assert (forall o n x, append o n = Ok x -> exists s, x = o ++ s) as A.
  { intros o n x H. destruct (append_cases o n) as [[Hn E]|[Hn E]]; rewrite E in H; [|discriminate]. injection H as <-. eauto. }
  destruct r; cbn [pdu_to_bytes request_password]; cbv zeta; intros Hp H; try discriminate; injection Hp as ->;
  [exact (P _ _ _ H)|..];
  (destruct (password_bytes rnd p) as [b0|] eqn:E0; cbn [bind] in H; [|discriminate]); apply P in E0 as (s0 & ->).
  - destruct (datetime_to_bytes _); cbn [bind] in H; [|discriminate]. apply A in H as (s & ->).
    rewrite <- !app_assoc. eauto.
  - destruct (to_le 2 object_count); cbn [bind] in H; [|discriminate]. destruct (to_le 2 buffer_length); cbn [bind] in H; [|discriminate].
    injection H as <-. rewrite <- !app_assoc. eauto.
  - destruct (append _ _) as [b1|] eqn:E1; cbn [bind] in H; [|discriminate]. apply A in E1 as (s1 & ->).
    destruct (to_le 2 amount); cbn [bind] in H; [|discriminate]. destruct (datetime_to_bytes _); cbn [bind] in H; [|discriminate].
    injection H as <-. rewrite <- !app_assoc. eauto.
  - destruct (append _ _) as [b1|] eqn:E1; cbn [bind] in H; [|discriminate]. apply A in E1 as (s1 & ->).
    destruct (to_le 4 _); cbn [bind] in H; [|discriminate]. destruct (to_le 2 _); cbn [bind] in H; [|discriminate].
    injection H as <-. rewrite <- !app_assoc. eauto.
Qed.

Lemma escape_sealed R : exists out, escape_characters (sealed R) = Ok out /\ on_line (sealed R) out.
Proof.
  assert (sealed R = (2 :: R ++ [xor_all R; sum_all R mod 256; drc_spec R]) ++ [13]) as E
    by (unfold sealed; cbn [app]; rewrite <- app_assoc; reflexivity).
  rewrite E, escape_app. eexists; split; [reflexivity|]. apply escaped_on_line.
Qed.
Definition sane (c : connection) : Prop :=
  addresses (c_destination_1 c) (c_destination_2 c) (c_source_1 c) (c_source_2 c).
Definition sends (c : connection) (T : Z) (srv : service) (data out : bytes) : Prop :=
  on_line (request_wire T (service_number srv) (c_destination_1 c) (c_destination_2 c) (c_source_1 c) (c_source_2 c) data) out.
Lemma frame_sent c T srv d : sane c -> is_byte T -> is_bytes d ->
  (len d <= 65520 /\ exists out, (w <- request_to_bytes T (frame_of c srv d) ;; escape_characters w) = Ok out /\ sends c T srv d out) \/
  (len d > 65520 /\ (w <- request_to_bytes T (frame_of c srv d) ;; escape_characters w) = Err OverflowError).
Proof.
  intros (H1 & H2 & H3 & H4) HT Hd. rewrite request_to_bytes_wire by assumption.
  unfold misfit, first_misfit. cbn [f_data frame_of destination_address_1 destination_address_2 source_address_1 source_address_2 f_service].
  unfold fits2, fits1. rewrite Z.gtb_ltb.
  destruct (Z.ltb_spec 65520 (len d)); [right; split; [lia|reflexivity]|].
  repeat match goal with |- context [?a <=? ?b] => destruct (Z.leb_spec a b); [|exfalso; lia] end. cbn [andb negb bind].
  left. split; [lia|]. unfold sends, request_wire, wire.
  match goal with |- context [sealed ?R] => destruct (escape_sealed R) as (out & E & O) end. eauto.
Qed.
Lemma serialise_inv rnd pad c r out : sane c -> 
  (match context c with Some x => is_bytes (key x) | None => True end) ->
  serialise rnd pad c r = Ok out ->
  exists app, pdu_to_bytes rnd r = Ok app /\
    ((context c = None /\ sends c 132 (request_service r) app out) \/
     (exists id k p, context c = Some (mk_context id k) /\ key16 k /\ 0 <= id <= 255 /\ 
        seals k id app p /\ context_decrypt (mk_context id k) p = Ok app /\ sends c 133 (request_service r) p out)).
Proof.
  intros Hs Hk H. unfold serialise in H. destruct (pdu_to_bytes rnd r) as [app|] eqn:E; cbn [bind] in H; [|discriminate].
  exists app. split; [reflexivity|]. pose proof (pdu_bytes _ _ _ E) as Hb.
  destruct (context c) as [[id k]|].
  - right. cbn [key] in Hk.
    destruct (context_encrypt pad (mk_context id k) app) as [p|] eqn:Ee; cbn [bind] in H; [|discriminate].
    pose proof (encrypt_errors pad id k app Hb) as X. rewrite Ee in X. rewrite Z.gtb_ltb in X.
    destruct (Z.ltb_spec 65535 (len app)); [discriminate|].
    destruct (Z.leb_spec 0 id), (Z.leb_spec id 255); cbn [andb negb] in X; try discriminate.
    destruct (Z.eqb_spec (len k) 16); cbn [negb] in X; [|discriminate].
    assert (key16 k) as K by (split; assumption).
    destruct (encrypt_payload pad id k app K Hb ltac:(lia) ltac:(lia)) as (p' & pd & E1 & Hp & Bp & Fp & _).
    rewrite Ee in E1. injection E1 as <-.
    assert (seals k id app p) as S.
    { exists pd. split; [eapply Forall_impl; [|exact Fp]; unfold is_byte; intros; lia|exact Hp]. }
    exists id, k, p. split; [reflexivity|]. split; [exact K|]. split; [lia|]. split; [exact S|].
    split; [apply (seals_decrypt k id app p K); auto; lia|].
    destruct (frame_sent c 133 (request_service r) p Hs ltac:(unfold is_byte; lia) Bp) as [(_ & o & E2 & S2)|(_ & E2)];
      unfold ENCRYPTED_REQUEST_TYPE in H; rewrite E2 in H; [|discriminate]. injection H as <-. exact S2.
  - left. split; [reflexivity|].
    destruct (frame_sent c 132 (request_service r) app Hs ltac:(unfold is_byte; lia) Hb) as [(_ & o & E2 & S2)|(_ & E2)];
      unfold REQUEST_TYPE in H; rewrite E2 in H; [|discriminate]. injection H as <-. exact S2.
Qed.
Lemma serialise_ok rnd pad c r app : sane c -> pdu_to_bytes rnd r = Ok app ->
  match context c with
  | None => len app <= 65520
  | Some (mk_context id k) => key16 k /\ 0 <= id <= 255 /\ len app <= 65500
  end -> exists out, serialise rnd pad c r = Ok out.
Proof.
  intros Hs E H. unfold serialise. rewrite E. cbn [bind]. pose proof (pdu_bytes _ _ _ E) as Hb.
  destruct (context c) as [[id k]|].
  - destruct H as (K & Hi & Hl). destruct (encrypt_payload pad id k app K Hb Hi ltac:(lia)) as (p & pd & E1 & Hp & Bp & Fp & Lp).
    rewrite E1. cbn [bind].
    destruct (frame_sent c 133 (request_service r) p Hs ltac:(unfold is_byte; lia) Bp) as [(_ & o & E2 & S2)|(L & E2)];
      unfold ENCRYPTED_REQUEST_TYPE; rewrite E2; [eauto|]. exfalso.
    destruct (encrypt_format pad id k app p K Hb E1) as (ct & -> & _ & Lc).
    rewrite !len_app in L. change (len (le2 (len app))) with 2 in L. change (len [id]) with 1 in L. lia.
  - destruct (frame_sent c 132 (request_service r) app Hs ltac:(unfold is_byte; lia) Hb) as [(_ & o & E2 & S2)|(L & E2)];
      unfold REQUEST_TYPE; rewrite E2; [eauto|]. lia.
Qed.

(** ** statements used in PropConnection.v *)
Lemma make_inv s1 s2 d1 d2 pw pid k id c : make_connection s1 s2 d1 d2 pw pid k id = Ok c ->
  addresses d1 d2 s1 s2 /\ len pw <= 6 /\ 801 <= pid <= 849 /\
  c = mk_connection s1 s2 d1 d2 pw pid k id [] IDLE (create_cipher_context k id).
Proof.
  unfold make_connection, validate. destruct (_ && _) eqn:E; [|discriminate]. intros H. injection H as <-.
  rewrite !andb_true_iff in E. unfold addresses. repeat split; lia.
Qed.
Lemma make_iff s1 s2 d1 d2 pw pid k id :
  (exists c, make_connection s1 s2 d1 d2 pw pid k id = Ok c) <->
  0 <= s1 <= 65535 /\ 0 <= s2 <= 255 /\ 0 <= d1 <= 65535 /\ 0 <= d2 <= 255 /\ len pw <= 6 /\ 801 <= pid <= 849.
Proof.
  split.
  - intros [c H]. apply make_inv in H as ((H1 & H2 & H3 & H4) & H5 & H6 & _). tauto.
  - intros H. unfold make_connection, validate.
    assert ((0 <=? s1) && (s1 <=? 65535) && (0 <=? s2) && (s2 <=? 255) && (0 <=? d1) && (d1 <=? 65535) && (0 <=? d2) &&
            (d2 <=? 255) && (len pw <=? 6) && (801 <=? pid) && (pid <=? 849) = true) as -> by lia.
    eauto.
Qed.
Lemma make_err s1 s2 d1 d2 pw pid k id e : make_connection s1 s2 d1 d2 pw pid k id = Err e -> e = ValueError.
Proof. unfold make_connection. destruct (validate _ _ _ _ _ _); congruence. Qed.
Lemma reached_config s1 s2 d1 d2 pw pid k id c ks : make_connection s1 s2 d1 d2 pw pid k id = Ok c ->
  sane (snd (run c ks)) /\ config (snd (run c ks)) = (s1, s2, d1, d2, create_cipher_context k id).
Proof.
  intros H. apply make_inv in H as (Ha & _ & _ & ->). rewrite run_config.
  pose proof (run_config ks (mk_connection s1 s2 d1 d2 pw pid k id [] IDLE (create_cipher_context k id))) as E.
  split; [|reflexivity]. unfold config in E. injection E as E1 E2 E3 E4 _. unfold sane.
  cbn in E1, E2, E3, E4. rewrite E1, E2, E3, E4. exact Ha.
Qed.
(** a send that returns bytes *)
Lemma send_ok_inv rnd pad c e out : fst (send rnd pad c e) = Ok out ->
  exists r, e = Request r /\ outstanding (elgas_state c) = None /\ serialise rnd pad c r = Ok out.
Proof.
  intros H. destruct e as [r|p|].
  - exists r. rewrite send_request in H. destruct (outstanding (elgas_state c)); [discriminate|]. auto.
  - unfold send in H. destruct (process_event _ _); discriminate.
  - unfold send in H. destruct (process_event _ _); discriminate.
Qed.

Lemma function_code_ok r : service_number (request_service r) = function_code r.
Proof. destruct r; reflexivity. Qed.
Lemma sent_telegram s1 s2 d1 d2 pw pid k id c ks rnd pad e out :
  make_connection s1 s2 d1 d2 pw pid k id = Ok c -> key_bytes k ->
  fst (send rnd pad (snd (run c ks)) e) = Ok out ->
  exists r app, e = Request r /\ request_data r app /\
    match k, id with
    | Some k, Some id => exists p, key16 k /\ 0 <= id <= 255 /\ seals k id app p /\ context_decrypt (mk_context id k) p = Ok app /\
        on_line (request_wire 133 (function_code r) d1 d2 s1 s2 p) out
    | _, _ => on_line (request_wire 132 (function_code r) d1 d2 s1 s2 app) out
    end.
Proof.
  intros H Hk Hs. destruct (reached_config _ _ _ _ _ _ _ _ _ ks H) as [Sa C].
  apply send_ok_inv in Hs as (r & -> & _ & Hs). exists r.
  unfold config in C. injection C as C1 C2 C3 C4 C5.
  apply serialise_inv in Hs; [|exact Sa|].
  - destruct Hs as (app & E & D). exists app. split; [reflexivity|]. split; [eapply pdu_data; exact E|].
    unfold sends in D. rewrite C1, C2, C3, C4, C5 in D. rewrite function_code_ok in D.
    destruct D as [(N & O)|(id' & k' & p & N & K & I & S & De & O)].
    + destruct k, id; try discriminate; exact O.
    + destruct k as [k|], id as [id|]; try discriminate. injection N as <- <-. exists p. auto 10.
  - rewrite C5. destruct k as [k|], id as [id|]; cbn; auto.
Qed.
Lemma wire_type addr T s d1 d2 s1 s2 d : exists tail, wire addr T s d1 d2 s1 s2 d = [2; 254; T] ++ tail.
Proof. unfold wire, sealed. cbn [app]. eauto. Qed.

Lemma encrypted_type s1 s2 d1 d2 pw pid k id c ks rnd pad e out :
  make_connection s1 s2 d1 d2 pw pid (Some k) (Some id) = Ok c -> is_bytes k ->
  fst (send rnd pad (snd (run c ks)) e) = Ok out ->
  exists w tail, on_line w out /\ w = [2; 254; 133] ++ tail.
Proof.
  intros H Hk Hs. destruct (sent_telegram _ _ _ _ _ _ _ _ _ ks _ _ _ _ H Hk Hs) as (r & app & _ & _ & p & _ & _ & _ & _ & O).
  destruct (wire_type be2 133 (function_code r) d1 d2 s1 s2 p) as (tail & E).
  unfold request_wire in O. rewrite E in O. eauto.
Qed.
Lemma plain_type s1 s2 d1 d2 pw pid k id c ks rnd pad e out :
  make_connection s1 s2 d1 d2 pw pid k id = Ok c -> key_bytes k -> k = None \/ id = None ->
  fst (send rnd pad (snd (run c ks)) e) = Ok out ->
  exists w tail, on_line w out /\ w = [2; 254; 132] ++ tail.
Proof.
  intros H Hk N Hs. destruct (sent_telegram _ _ _ _ _ _ _ _ _ ks _ _ _ _ H Hk Hs) as (r & app & _ & _ & O).
  assert (on_line (request_wire 132 (function_code r) d1 d2 s1 s2 app) out) as O'.
  { destruct k, id; try exact O. destruct N; discriminate. }
  destruct (wire_type be2 132 (function_code r) d1 d2 s1 s2 app) as (tail & E).
  unfold request_wire in O'. rewrite E in O'. eauto.
Qed.
Lemma key_without_id s1 s2 d1 d2 pw pid k c ks rnd pad r password out :
  make_connection s1 s2 d1 d2 pw pid (Some k) None = Ok c -> is_bytes k ->
  request_password r = Some password ->
  fst (send rnd pad (snd (run c ks)) (Request r)) = Ok out ->
  exists w before after, on_line w out /\ w = [2; 254; 132] ++ before ++ password ++ after.
Proof.
  intros H Hk Hp Hs. destruct (sent_telegram _ _ _ _ _ _ _ _ _ ks _ _ _ _ H Hk Hs) as (r' & app & Er & E & O).
  injection Er as <-. destruct (data_password _ _ _ Hp E) as (s & ->).
  unfold request_wire, wire, sealed in O. rewrite <- !app_assoc in O.
  eexists; eexists (_ :: le2 _ ++ be2 d1 ++ [d2] ++ be2 s1 ++ [s2]), _. split; [exact O|].
  cbn [app]. rewrite <- !app_assoc. reflexivity.
Qed.

(** C29 *)
Lemma run_obeys ks : only_requests ks -> forall c, obeys (outstanding (elgas_state c)) (fst (run c ks)).
Proof.
  induction ks as [|k ks IH]; intros H c; [constructor|].
  apply Forall_cons_iff in H as [Hk H]. specialize (IH H). cbn [run].
  destruct k as [rnd pad e|data|]; cbn [step].
  - destruct Hk as [r ->]. rewrite send_request. destruct (outstanding (elgas_state c)) as [s|] eqn:O.
    + specialize (IH c). rewrite O in IH. destruct (run c ks) as [os c2]. cbn [fst] in *. constructor. exact IH.
    + specialize (IH (set_state c (awaiting (request_service r)))).
      cbn [set_state elgas_state] in IH. rewrite outstanding_awaiting in IH.
      destruct (run (set_state c (awaiting (request_service r))) ks) as [os c2]. cbn [fst] in *. constructor; [|exact IH].
      intros X. apply serialise_errs in X. destruct X as [X|[X|X]]; discriminate.
  - specialize (IH (receive_data c data)). rewrite (proj1 (receive_fields c data)) in IH.
    destruct (run (receive_data c data) ks) as [os c2]. cbn [fst] in *. constructor. exact IH.
  - destruct (next_event c) as [r c1] eqn:E. specialize (IH c1).
    destruct r as [[p|]|x].
    + unfold next_event in E. destruct (buffer c) as [|z l]; [congruence|].
      destruct (index_of 13 (z :: l)); [|congruence].
      cbv zeta in E. destruct (interpret _ _) as [f|x]; [|destruct (is_value_error x); congruence].
      destruct (pdu_from_response f) as [q|x]; [|congruence].
      rewrite process_response in E. destruct (outstanding (elgas_state c)) as [s|]; [|congruence].
      destruct (service_eq_dec s (pdu_service q)) as [->|]; [|congruence]. injection E as <- <-.
      cbn in IH. destruct (run _ ks) as [os c2]. cbn [fst] in *. constructor. exact IH.
    + rewrite (next_event_kept _ _ _ E) in * by congruence. destruct (run c ks) as [os c2]. cbn [fst] in *. constructor. exact IH.
    + rewrite (next_event_kept _ _ _ E) in * by congruence. destruct (run c ks) as [os c2]. cbn [fst] in *. constructor. exact IH.
Qed.
Lemma obeys_alternate out h : obeys out h ->
  match out with None => alternate (items h) | Some s => alternate (Accepted s :: items h) end.
Proof.
  induction 1 as [out|out data h _ IH|rnd pad r res h N _ IH|s rnd pad r h _ IH|p h _ IH|out h _ IH|out e h _ IH];
    unfold items in *; cbn [flat_map items_of app].
  - destruct out; constructor.
  - exact IH.
  - destruct res as [b|x]; [exact IH|]. destruct x; try exact IH. exfalso. apply N. reflexivity.
  - exact IH.
  - constructor. exact IH.
  - exact IH.
  - exact IH.
Qed.
Lemma history_alternates s1 s2 d1 d2 pw pid k id c ks : make_connection s1 s2 d1 d2 pw pid k id = Ok c ->
  only_requests ks -> obeys None (fst (run c ks)) /\ alternate (items (fst (run c ks))).
Proof.
  intros H O. apply make_inv in H as (_ & _ & _ & ->).
  pose proof (run_obeys ks O (mk_connection s1 s2 d1 d2 pw pid k id [] IDLE (create_cipher_context k id))) as X.
  cbn in X. split; [exact X|]. exact (obeys_alternate _ _ X).
Qed.
Lemma refused_unchanged rnd pad c e c' : send rnd pad c e = (Err LocalElgasProtocolError, c') -> c' = c.
Proof.
  intros H. destruct e as [r|p|].
  - rewrite send_request in H. destruct (outstanding (elgas_state c)); [congruence|].
    injection H as H _. apply serialise_errs in H. destruct H as [X|[X|X]]; discriminate.
  - unfold send in H. destruct (process_event _ _); congruence.
  - unfold send in H. destruct (process_event _ _); congruence.
Qed.
Lemma response_object_resets rnd pad c p : outstanding (elgas_state c) = Some (pdu_service p) ->
  send rnd pad c (Response p) = (Err AttributeError, set_state c IDLE).
Proof.
  intros H. unfold send. rewrite process_response, H. destruct (service_eq_dec _ _); [reflexivity|contradiction].
Qed.

(** C30 *)
Lemma feed_chunks w t d p : on_line w t -> forall chunks c last b,
  b ++ concat chunks ++ last = t -> last <> [] -> buffer c = b -> (b = [] -> concat chunks ++ last <> [13]) ->
  accepted (context c) (pdu_service p) d w -> no_flag d -> decodes (pdu_service p) d p ->
  outstanding (elgas_state c) = Some (pdu_service p) ->
  exists c', feed c (chunks ++ [last]) = (map (fun _ => Ok None) chunks ++ [Ok (Some p)], c') /\
    c' = set_buffer (set_state c IDLE) [].
Proof.
  intros Ho. induction chunks as [|ch chunks IH]; intros c last b Et Hl Eb Hne A N D O.
  - cbn [concat app] in Et, Hne. cbn [app feed map].
    rewrite receive_nonend; [|exact Hl|]. 2:{ destruct b; [left; auto|right; congruence]. }
    assert (buffer (set_buffer c (buffer c ++ last)) = t ++ []) as Et'.
    { cbn [set_buffer buffer]. rewrite Eb, app_nil_r. exact Et. }
    rewrite (deliver (set_buffer c (buffer c ++ last)) w t d p [] Ho A N D O Et').
    eexists; split; [reflexivity|]. reflexivity.
  - cbn [app feed map]. cbn [concat] in Et, Hne. rewrite <- app_assoc in Et, Hne.
    destruct ch as [|x ch].
    + cbn [app] in Et, Hne. cbn [receive_data].
      assert (next_event c = (Ok None, c)) as ->.
      { apply next_event_uncut. rewrite Eb. destruct Ho as (q & Eq & Hq & _). rewrite Eq in Et.
        destruct (exists_last (l := concat chunks ++ last)) as (m & y & Em).
        { intros X. apply app_eq_nil in X as [_ X]. contradiction. }
        rewrite Em, app_assoc in Et. apply app_inj_tail in Et as [<- _].
        intros I. apply Hq. apply in_or_app. left. exact I. }
      destruct (IH c last b Et Hl Eb Hne A N D O) as (c' & -> & E). eexists; split; [reflexivity|exact E].
    + rewrite receive_nonend.
      2: discriminate.
      2:{ destruct b as [|y b]; [left|right; congruence]. intros X.
          specialize (Hne eq_refl). rewrite X in *. cbn [app] in Et.
          destruct Ho as (q & Eq & Hq & _). destruct q as [|q0 q].
          - rewrite Eq in Et. cbn [app] in Et. injection Et as Et. apply app_eq_nil in Et as [_ Et]. contradiction.
          - rewrite Eq in Et. cbn [app] in Et. injection Et as <- Et. apply Hq. left. reflexivity. }
      set (c1 := set_buffer c (buffer c ++ x :: ch)).
      assert (buffer c1 = b ++ x :: ch) as Eb1 by (unfold c1; cbn; rewrite Eb; reflexivity).
      assert (next_event c1 = (Ok None, c1)) as ->.
      { apply next_event_uncut. rewrite Eb1. destruct Ho as (q & Eq & Hq & _). rewrite Eq in Et.
        destruct (exists_last (l := concat chunks ++ last)) as (m & y & Em).
        { intros X. apply app_eq_nil in X as [_ X]. contradiction. }
        rewrite Em in Et. rewrite !app_assoc in Et. apply app_inj_tail in Et as [<- _].
        intros I. apply Hq. apply in_or_app. left. exact I. }
      destruct (IH c1 last (b ++ x :: ch)) as (c' & -> & E); auto.
      * rewrite <- app_assoc. exact Et.
      * intros X. destruct b; discriminate.
      * eexists; split; [reflexivity|]. rewrite E. reflexivity.
Qed.

Lemma accepted_not_end ctx srv d w t : on_line w t -> accepted ctx srv d w -> t <> [13].
Proof.
  intros (q & Eq & Hq & U) A ->. assert (w = [13]) as ->.
  { inversion U; subst. inversion H3; subst. reflexivity. }
  destruct A as [d1 d2 s1 s2 _ _ _ E|d1 d2 s1 s2 id k p _ _ _ E _ _ _ _]; apply (f_equal (hd 0)) in E; discriminate.
Qed.
Lemma chunked_delivery rnd pad c r out c' d t p chunks last :
  send rnd pad c (Request r) = (Ok out, c') -> buffer c = [] ->
  answers (context c) (request_service r) d t -> no_flag d -> decodes (request_service r) d p ->
  concat chunks ++ last = t -> last <> [] ->
  exists c'', feed c' (chunks ++ [last]) = (map (fun _ => Ok None) chunks ++ [Ok (Some p)], c'') /\
    elgas_state c'' = IDLE /\ buffer c'' = [].
Proof.
  intros Hs Eb A N D Et Hl. apply answers_accepted in A as (w & Ho & A).
  rewrite send_request in Hs. destruct (outstanding (elgas_state c)) eqn:O; [discriminate|]. injection Hs as _ <-.
  pose proof (decodes_service _ _ _ D) as Es.
  destruct (feed_chunks w t d p Ho chunks (set_state c (awaiting (request_service r))) last []) as (c'' & E & E'); auto.
  - intros _. rewrite Et. eapply accepted_not_end; eauto.
  - rewrite Es. exact A.
  - rewrite Es. exact D.
  - cbn. rewrite outstanding_awaiting, Es. reflexivity.
  - exists c''. split; [exact E|]. rewrite E'. split; reflexivity.
Qed.

(** C33 *)
Lemma appended c t data : first_telegram t (buffer c) -> t <> [] -> first_telegram t (buffer (receive_data c data)).
Proof.
  intros (rest & E) Hn. unfold receive_data. destruct data as [|x data]; [exists rest; exact E|].
  destruct (_ && _); [exists rest; exact E|]. cbn [set_buffer buffer]. exists (rest ++ x :: data).
  rewrite E, <- app_assoc. reflexivity.
Qed.
Lemma on_line_nonempty w t : on_line w t -> t <> [].
Proof. intros (p & -> & _) H. destruct p; discriminate. Qed.
Lemma device_error_stuck c i e srv t ks : device_error i e -> answers (context c) srv [2 ^ i] t ->
  first_telegram t (buffer c) -> elgas_state c <> IDLE -> only_requests ks ->
  stuck_on e (fst (run c ks)) /\ elgas_state (snd (run c ks)) = elgas_state c.
Proof.
  intros D A F S O. apply answers_accepted in A as (w & Ho & A).
  set (s0 := elgas_state c) in *.
  destruct (run_invariant (fun c' => context c' = context c /\ elgas_state c' = s0 /\ first_telegram t (buffer c'))
    (fun ko => match ko with
    | (CSend _ _ _, o) => o = OSend (Err LocalElgasProtocolError)
    | (CNext, o) => o = ONext (Err e)
    | (CReceive _, _) => True
    end) ks) with (c := c) as [H1 (_ & H2 & _)]; auto.
  intros c1 k Hk (I1 & I2 & I3). apply (proj1 (Forall_forall _ _) O) in Hk.
  destruct k as [rnd pad ev|data|]; cbn [step].
  - destruct Hk as [r ->]. rewrite send_request, I2.
    destruct (outstanding s0) eqn:E; [|destruct s0; try discriminate; contradiction]. cbn [fst snd]. auto.
  - cbn [fst snd]. destruct (receive_fields c1 data) as (R1 & R2 & _). split; [exact I|].
    split; [congruence|]. split; [congruence|]. apply appended; [exact I3|]. eapply on_line_nonempty; exact Ho.
  - rewrite <- I1 in A. rewrite (device_error_raised c1 i e w t srv D Ho A I3). cbn [fst snd]. auto.
Qed.

(** C34 *)
Lemma rejected_stuck c w t ks : on_line w t -> response_factory w = Err ValueError ->
  first_telegram t (buffer c) -> never_delivers (fst (run c ks)) /\ first_telegram t (buffer (snd (run c ks))).
Proof.
  intros Ho R F.
  apply (run_invariant (fun c' => first_telegram t (buffer c'))
    (fun ko => match ko with (CNext, o) => o = ONext (Ok None) | _ => True end) ks); [|exact F].
  intros c1 k _ I1. destruct k as [rnd pad ev|data|]; cbn [step].
  - pose proof (proj1 (send_fields rnd pad c1 ev)) as E. destruct (send rnd pad c1 ev) as [r c2]. cbn in *.
    split; [exact I|]. rewrite E. exact I1.
  - cbn [fst snd]. split; [exact I|]. apply appended; [exact I1|]. eapply on_line_nonempty; exact Ho.
  - pose proof I1 as (rest & E). rewrite (next_event_read c1 w t rest Ho E), (interpret_reads _ _ _ Ho), R.
    cbn. auto.
Qed.
Lemma not_telegram_rejected w : is_bytes w -> 16 <= len w -> ~ telegram w -> response_factory w = Err ValueError.
Proof.
  intros Hb Hl N. destruct (response_factory w) as [r|e] eqn:F; [|apply response_factory_errs in F; congruence].
  exfalso. destruct (factory_inv w r Hb F) as [(_ & srv & d1 & d2 & s1 & s2 & d & Ha & Hd & Hld & [(_ & E)|(_ & E)])|(X & _)]; [..|lia];
  apply N; do 7 eexists; (split; [|split; [exact Ha|split; [exact Hd|split; [exact Hld|exact E]]]]); auto.
Qed.
Lemma bad_telegram_stuck c w t ks : is_bytes t -> on_line w t -> 16 <= len w -> ~ telegram w ->
  first_telegram t (buffer c) -> never_delivers (fst (run c ks)) /\ first_telegram t (buffer (snd (run c ks))).
Proof.
  intros Hb Ho Hl N F. eapply rejected_stuck; eauto. apply not_telegram_rejected; auto.
  destruct Ho as (_ & _ & _ & U). eapply unesc_bytes; eauto.
Qed.
Lemma telegram_sealed w : telegram w -> exists R, is_bytes R /\ w = sealed R /\ 11 <= len R.
Proof.
  intros (T & srv & d1 & d2 & s1 & s2 & d & HT & (H1 & H2 & H3 & H4) & Hd & Hl & ->).
  unfold response_wire, wire. pose proof (len_nonneg d). eexists. split; [|split; [reflexivity|]].
  - rewrite !is_bytes_app. pose proof (service_number_byte srv) as Sb.
    split; [repeat constructor; try lia; try apply Sb|]. split; [apply le2_bytes; lia|]. split; [apply le2_bytes; lia|].
    split; [repeat constructor; lia|]. split; [apply le2_bytes; lia|]. split; [repeat constructor; lia|exact Hd].
  - rewrite !len_app. unfold le2. repeat rewrite len_cons. rewrite ?len_nil. lia.
Qed.
Lemma changed_not_telegram w w' : telegram w -> one_byte_changed w w' -> 16 <= len w' /\ ~ telegram w'.
Proof.
  intros T C. split.
  - apply telegram_sealed in T as (R & HR & -> & L). destruct C as (p & x & y & q & E & -> & _).
    apply (f_equal len) in E. rewrite sealed_len, len_app, len_cons in E. rewrite len_app, len_cons. lia.
  - intros T'. apply telegram_sealed in T as (R & HR & -> & _). apply telegram_sealed in T' as (R' & HR' & -> & _).
    exact (sealed_one_byte R R' HR HR' C).
Qed.
Lemma changed_byte_stuck c w w' t ks : telegram w -> one_byte_changed w w' -> is_bytes t -> on_line w' t ->
  first_telegram t (buffer c) -> never_delivers (fst (run c ks)).
Proof.
  intros T C Hb Ho F. destruct (changed_not_telegram w w' T C) as [L N].
  eapply (bad_telegram_stuck c w' t ks); eauto.
Qed.
Lemma runt_delivered c rest : elgas_state c = AWAITING_WRITE_TIME_RESPONSE -> buffer c = runt ++ rest ->
  fst (next_event c) = Ok (Some WriteTimeResponse).
Proof.
  intros S E. rewrite (next_event_cut c (removelast runt) rest); [|cbn; lia|exact E].
  assert (exists f, interpret (context c) (removelast runt ++ [13]) = Ok f /\ f_service f = WRITE_DEVICE_TIME) as (f & -> & Ef).
  { unfold interpret. eexists. split; [vm_compute; reflexivity|reflexivity]. }
  unfold pdu_from_response. rewrite Ef. cbn [write_time_from_bytes]. rewrite S. reflexivity.
Qed.

(** C35 *)
Lemma first_only c w t rest : on_line w t -> buffer c = t ++ rest ->
  fst (next_event c) = fst (next_event (set_buffer c t)).
Proof.
  intros Ho E. rewrite (next_event_read c w t rest Ho E).
  rewrite (next_event_read (set_buffer c t) w t [] Ho) by (cbn; rewrite app_nil_r; reflexivity).
  cbn [set_buffer context elgas_state].
  destruct (interpret (context c) t) as [f|x]; [|destruct (is_value_error x); reflexivity].
  destruct (pdu_from_response f); [|reflexivity]. destruct (process_event _ _); reflexivity.
Qed.
Lemma rest_dropped c d t p rest : answers (context c) (pdu_service p) d t -> no_flag d -> decodes (pdu_service p) d p ->
  outstanding (elgas_state c) = Some (pdu_service p) -> buffer c = t ++ rest ->
  exists c', next_event c = (Ok (Some p), c') /\ buffer c' = [] /\ elgas_state c' = IDLE.
Proof.
  intros A N D O E. apply answers_accepted in A as (w & Ho & A). rewrite (deliver c w t d p rest Ho A N D O E).
  eexists. split; [reflexivity|]. split; reflexivity.
Qed.

(** C36 *)
Lemma receive_spec c data :
  (data = [] -> receive_data c data = c) /\
  (data = [13] -> buffer c = [] -> receive_data c data = c) /\
  (data <> [] -> (data <> [13] \/ buffer c <> []) ->
     buffer (receive_data c data) = buffer c ++ data /\ elgas_state (receive_data c data) = elgas_state c /\
     context (receive_data c data) = context c).
Proof.
  split; [intros ->; reflexivity|]. split.
  - intros -> E. unfold receive_data. rewrite E. reflexivity.
  - intros H1 H2. rewrite receive_nonend by assumption. repeat split.
Qed.

(** C37 *)
Lemma failed_send_stuck rnd pad c r e : elgas_state c = IDLE -> request_times_valid r -> request_misfit r = Some e ->
  exists c', send rnd pad c (Request r) = (Err e, c') /\ elgas_state c' <> IDLE /\
    forall rnd' pad' r', send rnd' pad' c' (Request r') = (Err LocalElgasProtocolError, c').
Proof.
  intros S V M. rewrite send_request, S. cbn [outstanding].
  exists (set_state c (awaiting (request_service r))). split; [|split].
  - f_equal. pose proof (pdu_to_bytes_error rnd r V) as P. rewrite M in P. unfold serialise. rewrite P. reflexivity.
  - cbn. destruct r; discriminate.
  - intros. rewrite send_request. cbn [set_state elgas_state]. rewrite outstanding_awaiting. reflexivity.
Qed.

(** C38 *)
Lemma send_succeeds s1 s2 d1 d2 pw pid k id c ks rnd pad r app :
  make_connection s1 s2 d1 d2 pw pid k id = Ok c -> elgas_state (snd (run c ks)) = IDLE ->
  pdu_to_bytes rnd r = Ok app -> len app <= 65500 ->
  (forall k' id', k = Some k' -> id = Some id' -> key16 k' /\ 0 <= id' <= 255) ->
  exists out, fst (send rnd pad (snd (run c ks)) (Request r)) = Ok out.
Proof.
  intros H S E L K. destruct (reached_config _ _ _ _ _ _ _ _ _ ks H) as [Sa C].
  rewrite send_request, S. cbn [outstanding fst]. apply serialise_ok with (app := app); auto.
  unfold config in C. injection C as _ _ _ _ C. rewrite C.
  destruct k as [k|], id as [id|]; cbn; try lia. destruct (K k id eq_refl eq_refl). auto.
Qed.

(** C61 *)
Lemma downgrade c d1 d2 s1 s2 d p t rest : addresses d1 d2 s1 s2 -> is_bytes d -> len d <= 65520 -> no_flag d ->
  decodes (pdu_service p) d p -> outstanding (elgas_state c) = Some (pdu_service p) ->
  on_line (response_wire 134 (service_number (pdu_service p)) d1 d2 s1 s2 d) t -> buffer c = t ++ rest ->
  fst (next_event c) = Ok (Some p).
Proof.
  intros Ha Hd Hl N D O Ho E.
  rewrite (deliver c _ t d p rest Ho); auto. eapply accepted_plain; eauto.
Qed.

(** C62 *)
Lemma no_flag_byte b : (forall i, 0 <= i <= 7 -> b <> 2 ^ i) -> no_flag [b].
Proof. intros H i Hi E. injection E as E. exact (H i Hi E). Qed.
Lemma combined_flags c b t : (forall i, 0 <= i <= 7 -> b <> 2 ^ i) ->
  elgas_state c = AWAITING_WRITE_TIME_RESPONSE -> answers (context c) WRITE_DEVICE_TIME [b] t ->
  first_telegram t (buffer c) -> fst (next_event c) = Ok (Some WriteTimeResponse).
Proof.
  intros H S A (rest & E). apply answers_accepted in A as (w & Ho & A).
  rewrite (deliver c w t [b] WriteTimeResponse rest Ho); auto.
  - apply no_flag_byte; exact H.
  - apply dec_write_time. reflexivity.
  - rewrite S. reflexivity.
Qed.
Lemma combined_flags_archive c b t : (forall i, 0 <= i <= 7 -> b <> 2 ^ i) -> 0 <= b <= 10 ->
  elgas_state c = AWAITING_READ_ARCHIVE_RESPONSE -> answers (context c) READ_ARCHIVES [b] t ->
  first_telegram t (buffer c) -> fst (next_event c) = Ok (Some (ReadArchiveResponse b 0 [])).
Proof.
  intros H Hb S A (rest & E). apply answers_accepted in A as (w & Ho & A).
  rewrite (deliver c w t [b] (ReadArchiveResponse b 0 []) rest Ho); auto.
  - apply no_flag_byte; exact H.
  - apply dec_archives. destruct (archive_truncated_accepted b [] Hb) as [E1 _]; [unfold len; cbn; lia|]. exact E1.
  - rewrite S. reflexivity.
Qed.
