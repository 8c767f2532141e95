(** Proofs for C76: what the calls of the client raise. *)
From Verif Require Import PyFacts SpecUtils SpecFrames SpecText SpecApplication SpecPdu SpecSecurity SpecConnection UtilsProofs SecurityProofs ApplicationProofs.
From Verif Require Import Connection ConnectionProofs ParamLang Parameters SpecParameters ParamProofs ParserProofs Client SpecClient ClientProofs.
From Verif Require Import Exceptions SpecErrors.
Open Scope list_scope.
Open Scope Z_scope.

(** ** parsing a block of parameters *)
Definition parse_exn (x : exn) : Prop :=
  x = ValueError \/ x = KeyError \/ x = IndexError \/ x = AssertionError \/ x = TypeError \/ x = AttributeError.
Lemma documented_raises t rows r e : In (r, Raises e) (documented t rows) -> parse_exn e.
Proof.
  unfold parse_exn.
  destruct t; cbn [documented]; unfold optional_log, optional_byte, optional_byte_open, exactly, at_least, unreadable; intros H;
    repeat (destruct H as [H|H]; [inversion H; subst; tauto|]); destruct H.
Qed.
Lemma parameter_raises t l e : is_bytes l -> parameter_from_bytes t l = Err e -> parse_exn e.
Proof.
  intros Hl H. destruct (lengths_covered t l Hl) as (r & d & I & W). pose proof (parameter_conforms t l r d Hl I W) as C.
  rewrite H in C. destruct d as [c f|x]; cbn in C; [destruct C as (attrs & C & _); discriminate|].
  injection C as ->. eapply documented_raises; exact I.
Qed.
Lemma loop_raises_exn k : forall l acc e, (length l < k)%nat -> is_bytes l -> loop acc l = Err e -> parse_exn e.
Proof.
  induction k as [|k IH]; intros l acc e Hk Hl H; [lia|].
  destruct l as [|a [|b [|t l]]].
  - rewrite loop_nil in H. discriminate.
  - rewrite loop_short in H by (unfold len; cbn [length]; lia). injection H as <-. unfold parse_exn. auto.
  - rewrite loop_short in H by (unfold len; cbn [length]; lia). injection H as <-. unfold parse_exn. auto.
  - unfold is_bytes in Hl. apply Forall_cons_iff in Hl as [_ Hl]. apply Forall_cons_iff in Hl as [_ Hl]. apply Forall_cons_iff in Hl as [_ Hl].
    rewrite loop_header in H. destruct (parameter_type_of t) as [ty|x] eqn:T.
    + destruct (parameter_from_bytes ty _) as [o|x] eqn:P.
      * eapply IH; [|apply is_bytes_slice_from; exact Hl|exact H].
        pose proof (slice_from_len (a + 256 * b - 3) l). unfold len in *. cbn [length] in Hk. lia.
      * injection H as <-. eapply parameter_raises; [|exact P]. apply is_bytes_slice_to. exact Hl.
    + injection H as <-. unfold parameter_type_of in T. destruct (find _ _); [discriminate|]. injection T as <-. unfold parse_exn. auto.
Qed.
Lemma parse_raises l e : is_bytes l -> parse None (Some l) = Some (Err e) -> parse_exn e.
Proof.
  intros Hl H. destruct l as [|b l]; [injection H as <-; unfold parse_exn; auto|].
  rewrite parse_loop_eq in H by discriminate. injection H as H. eapply loop_raises_exn; [apply Nat.lt_succ_diag_r|exact Hl|exact H].
Qed.

(** ** sending *)
Lemma unusable_refused pad ctx d : is_bytes (key ctx) -> ~ usable_context (Some ctx) -> is_bytes d -> len d <= 65535 ->
  context_encrypt pad ctx d = Err ValueError.
Proof.
  destruct ctx as [i k]. cbn [key usable_context]. intros Hk U Hd L. rewrite encrypt_errors by exact Hd. rewrite Z.gtb_ltb.
  destruct (Z.ltb_spec 65535 (len d)); [lia|]. destruct ((0 <=? i) && (i <=? 255)) eqn:E; cbn [negb]; [|reflexivity].
  destruct (Z.eqb_spec (len k) 16) as [K|K]; cbn [negb]; [|reflexivity].
  exfalso. apply U. split; [split; assumption|]. lia.
Qed.
Lemma usable_dec ctx : match ctx with Some y => is_bytes (key y) | None => True end ->
  usable_context ctx \/ ~ usable_context ctx.
Proof.
  destruct ctx as [[i k]|]; cbn; [|auto]. intros K. unfold key16.
  destruct (Z_le_dec 0 i), (Z_le_dec i 255), (Z.eq_dec (len k) 16); [left; repeat split; assumption|right..]; intros [[_ ?] ?]; lia.
Qed.
Lemma serialise_reason ctx rnd pad cl r x : client_config ctx cl -> match ctx with Some y => is_bytes (key y) | None => True end ->
  len (cl_password cl) <= 6 -> password_of (cl_password cl) r -> request_times_valid r ->
  serialise rnd pad (cl_connection cl) r = Err x ->
  request_misfit r = Some x \/ (~ usable_context ctx /\ x = ValueError).
Proof.
  intros C K L P V H. pose proof (pdu_to_bytes_error rnd r V) as M.
  destruct (request_misfit r) as [e|] eqn:Em.
  { left. unfold serialise in H. rewrite M in H. cbn [bind] in H. injection H as <-. reflexivity. }
  right. destruct M as [d M]. destruct (client_sane _ _ C) as [Sn Cx].
  assert (len d <= 100) as Ld.
  { apply (pdu_len rnd r d V M). intros p Hp. rewrite (P p Hp). exact L. }
  destruct (usable_dec ctx K) as [U|U].
  - exfalso. destruct (serialise_ok rnd pad (cl_connection cl) r d Sn M) as [o E]; [|congruence].
    rewrite Cx. destruct ctx as [[i k]|]; [split; [apply U|split; [apply U|lia]]|lia].
  - split; [exact U|]. destruct ctx as [y|]; [|exfalso; apply U; exact I].
    unfold serialise in H. rewrite M, Cx in H. cbn [bind] in H.
    rewrite (unusable_refused pad y d K U (pdu_bytes _ _ _ M) ltac:(lia)) in H. cbn [bind] in H. congruence.
Qed.
Lemma unusable_serialise ctx rnd pad cl r t : client_config ctx cl -> match ctx with Some y => is_bytes (key y) | None => True end ->
  len (cl_password cl) <= 6 -> password_of (cl_password cl) r -> request_times_valid r ->
  serialise rnd pad (cl_connection cl) r = Ok t -> usable_context ctx.
Proof.
  intros C K L P V H. destruct (usable_dec ctx K) as [U|U]; [exact U|]. exfalso.
  destruct (client_sane _ _ C) as [Sn Cx]. unfold serialise in H. apply bind_ok in H as (d & M & H).
  assert (len d <= 100) as Ld.
  { apply (pdu_len rnd r d V M). intros p Hp. rewrite (P p Hp). exact L. }
  destruct ctx as [y|]; [|apply U; exact I]. rewrite Cx in H.
  rewrite (unusable_refused pad y d K U (pdu_bytes _ _ _ M) ltac:(lia)) in H. discriminate.
Qed.

(** ** receiving *)
Lemma receive_bytes c d : is_bytes (buffer c) -> is_bytes d -> is_bytes (buffer (receive_data c d)).
Proof.
  intros Hc Hd. unfold receive_data. destruct d as [|z l]; [exact Hc|]. destruct (_ && _); [exact Hc|].
  cbn [buffer set_buffer]. apply is_bytes_app. auto.
Qed.
Lemma receive_context c d : context (receive_data c d) = context c.
Proof. unfold receive_data. destruct d; [reflexivity|]. destruct (_ && _); reflexivity. Qed.
Definition received_ok (a : answer response_pdu) : Prop :=
  match a with
  | Done (Ok (ReadDeviceParametersResponse data _ amount _)) => is_bytes data /\ 0 <= amount
  | _ => True
  end.
Lemma decoded_ok srv d p : is_bytes d -> decodes srv d p -> received_ok (Done (Ok p)).
Proof.
  intros Hd D. destruct p; try exact I. inversion D as [? ? H|? ? H|? ? H|? ? H|? ? H|? ? H]; subst.
  - exfalso. unfold instantaneous_values_from_bytes in H. cbv zeta in H. apply bind_ok in H as ([[? ?] ?] & _ & H). apply bind_ok in H as (? & _ & H). discriminate.
  - exfalso. unfold read_time_from_bytes in H. cbv zeta in H. apply bind_ok in H as ([[? ?] ?] & _ & H). discriminate.
  - unfold device_parameters_from_bytes in H. apply bind_ok in H as (e & _ & H). injection H as <- _ <- _.
    split; [apply is_bytes_slice_from; exact Hd|].
    assert (is_bytes (slice 2 4 d)) as Hs by (unfold slice; apply is_bytes_firstn, is_bytes_skipn, Hd).
    apply from_le_range in Hs. lia.
  - exfalso. unfold archive_by_time_from_bytes in H. cbv zeta in H. apply bind_ok in H as (? & _ & H). apply bind_ok in H as (? & _ & H). discriminate.
  - exfalso. unfold archive_from_bytes in H. cbv zeta in H. apply bind_ok in H as (? & _ & H). apply bind_ok in H as (? & _ & H). discriminate.
  - exfalso. discriminate.
Qed.
Definition result_bytes (r : res bytes) : Prop := match r with Ok d => is_bytes d | Err _ => True end.
Lemma loop_reason rx : forall c a c' rx', is_bytes (buffer c) -> sound_context (context c) -> Forall result_bytes rx ->
  next_event_loop rx c = (a, c', rx') ->
  incl rx' rx /\ is_bytes (buffer c') /\ received_ok a /\
  forall x, a = Done (Err x) -> In (Err x) rx \/ next_event_exn (context c) x.
Proof.
  induction rx as [|y rx IH]; intros c a c' rx' Hb Hs F H; cbn [next_event_loop] in H;
    destruct (next_event c) as [[[p|]|e] c1] eqn:E.
  1,4: injection H as <- <- <-; split; [apply incl_refl|]; destruct (delivered_inv c p c1 Hb Hs E) as (_ & -> & w & t & _ & _ & X);
    (split; [constructor|]); (split; [|intros x Hx; discriminate]);
    (destruct X as [(d & A & _ & D)|[_ ->]]; [eapply decoded_ok; [eapply accepted_bytes; eauto|exact D]|exact I]).
  2,4: injection H as <- <- <-; split; [apply incl_refl|]; (split; [apply next_event_kept in E; [subst; exact Hb|congruence]|]);
    (split; [exact I|]); intros x Hx; injection Hx as <-; right; eapply next_event_err; eauto.
  - injection H as <- <- <-. split; [apply incl_refl|]. split; [apply next_event_kept in E; [subst; exact Hb|congruence]|].
    split; [exact I|]. intros x Hx. discriminate.
  - apply next_event_kept in E; [|congruence]. subst c1. apply Forall_cons_iff in F as [Fy F]. destruct y as [d|e].
    + apply IH in H as (H1 & H2 & H3 & H4); [|apply receive_bytes; assumption| |exact F].
      * split; [apply incl_tl; exact H1|]. split; [exact H2|]. split; [exact H3|].
        intros x Hx. apply H4 in Hx as [Hx|Hx]; [left; right; exact Hx|right]. rewrite receive_context in Hx. exact Hx.
      * rewrite receive_context. exact Hs.
    + injection H as <- <- <-. split; [apply incl_tl, incl_refl|]. split; [exact Hb|]. split; [exact I|].
      intros x Hx. injection Hx as <-. left. left. reflexivity.
Qed.

(** ** one exchange *)
Definition tame (pw : str) (ctx : option cipher_context) (w0 : world) (cl : client) : Prop :=
  cl_password cl = pw /\ client_config ctx cl /\ is_bytes (buffer (cl_connection cl)) /\
  incl (tx (cl_world cl)) (tx w0) /\ incl (rx (cl_world cl)) (rx w0) /\ incl (ctl (cl_world cl)) (ctl w0).
Definition reason (ctx : option cipher_context) (w0 : world) (r : request) (x : exn) : Prop :=
  transport_raises w0 x \/ x = LocalElgasProtocolError \/ request_misfit r = Some x \/
  (~ usable_context ctx /\ x = ValueError) \/ next_event_exn ctx x.
Lemma usable_sound ctx : usable_context ctx -> sound_context ctx.
Proof. destruct ctx as [[i k]|]; cbn; tauto. Qed.
Lemma incl_tail {A} (x : A) l m : incl (x :: l) m -> In x m /\ incl l m.
Proof. intros H. split; [apply H; left; reflexivity|]. intros y Hy. apply H. right. exact Hy. Qed.
Lemma exchange_reason pw ctx w0 cl r a cl' : match ctx with Some y => is_bytes (key y) | None => True end ->
  len pw <= 6 -> receives_bytes w0 -> tame pw ctx w0 cl -> password_of pw r -> request_times_valid r ->
  exchange cl r = (a, cl') ->
  tame pw ctx w0 cl' /\ received_ok a /\ forall x, a = Done (Err x) -> reason ctx w0 r x.
Proof.
  intros K L B T P V H. pose proof T as (<- & C & Hb & T1 & T2 & T3).
  destruct (elgas_state (cl_connection cl)) eqn:St.
  2-7: rewrite exchange_refused in H by congruence; injection H as <- <-;
    (split; [unfold tame, refused_client; cbn; auto 10|split; [exact I|intros x Hx; injection Hx as <-; unfold reason; auto]]).
  unfold exchange in H. cbn [client_send] in H. unfold client_send_one, draw in H.
  destruct (draws (cl_world cl) (requests (cl_world cl))) as [rnd pad] eqn:Ed. cbn [set_world cl_connection] in H.
  rewrite send_request, St in H. cbn [outstanding] in H.
  destruct (serialise rnd pad (cl_connection cl) r) as [t|e] eqn:Es.
  2:{ injection H as <- <-. split; [unfold tame; cbn; auto 10|]. split; [exact I|].
      intros x Hx. injection Hx as <-. unfold reason. destruct (serialise_reason _ _ _ _ _ _ C K L P V Es); auto. }
  pose proof (usable_sound _ (unusable_serialise _ _ _ _ _ _ C K L P V Es)) as So.
  destruct (client_sane _ _ C) as [_ Cx].
  cbn [set_connection cl_world cl_connection cl_password set_world] in H.
  unfold transport_send in H. cbn [tx rx ctl sent requests draws] in H.
  assert (exists o tx', incl tx' (tx w0) /\ (forall e, o = Err e -> In (Some e) (tx w0)) /\
    (match tx (cl_world cl) with
     | [] => (Ok tt, mk_world [] (rx (cl_world cl)) (ctl (cl_world cl)) (sent (cl_world cl) ++ [t]) (S (requests (cl_world cl))) (draws (cl_world cl)))
     | r0 :: tx' => (match r0 with None => Ok tt | Some e => Err e end,
         mk_world tx' (rx (cl_world cl)) (ctl (cl_world cl)) (sent (cl_world cl) ++ [t]) (S (requests (cl_world cl))) (draws (cl_world cl)))
     end) = (o, mk_world tx' (rx (cl_world cl)) (ctl (cl_world cl)) (sent (cl_world cl) ++ [t]) (S (requests (cl_world cl))) (draws (cl_world cl))))
    as (o & tx' & I1 & I2 & Eo).
  { destruct (tx (cl_world cl)) as [|[e|] l]; do 2 eexists.
    - split; [|split; [|reflexivity]]; [intros y []|discriminate].
    - apply incl_tail in T1 as [T1 T1']. split; [exact T1'|split; [|reflexivity]]. intros x Hx. congruence.
    - apply incl_tail in T1 as [T1 T1']. split; [exact T1'|split; [|reflexivity]]. discriminate. }
  rewrite Eo in H. destruct o as [u|e].
  2:{ injection H as <- <-. split; [unfold tame; cbn; auto 10|]. split; [exact I|].
      intros x Hx. injection Hx as <-. left. left. auto. }
  unfold transport_recv in H. cbn [rx] in H. destruct (rx (cl_world cl)) as [|[d|e] rest] eqn:Er.
  - injection H as <- <-. split; [unfold tame; cbn; auto 10|]. split; [exact I|]. discriminate.
  - apply incl_tail in T2 as [T2 T2'].
    assert (is_bytes d) as Hd by (apply (proj1 (Forall_forall _ _) B) in T2; exact T2).
    assert (Forall result_bytes rest) as Fr.
    { apply Forall_forall. intros y Hy. apply T2' in Hy. apply (proj1 (Forall_forall _ _) B) in Hy. exact Hy. }
    cbn [tx ctl sent requests draws cl_connection] in H. unfold client_next_event in H. cbn [cl_world rx cl_connection] in H.
    destruct (next_event_loop rest _) as [[a' c'] rx'] eqn:El. pose proof (loop_outcome _ _ _ _ _ El) as (L1 & _ & _).
    match type of L1 with _ = config (receive_data ?c d) =>
      assert (config (receive_data c d) = config (cl_connection cl)) as Ec
        by (destruct (receive_fields c d) as (_ & R1 & R2 & R3 & R4 & R5); unfold config; rewrite R1, R2, R3, R4, R5; reflexivity) end.
    assert (forall c, config c = config (cl_connection cl) -> context c = ctx) as Cc.
    { intros c Hc. unfold config in Hc. injection Hc as _ _ _ _ Hc. congruence. }
    apply loop_reason in El as (H1 & H2 & H3 & H4); [|apply receive_bytes; [exact Hb|exact Hd]|rewrite (Cc _ Ec); exact So|exact Fr].
    injection H as <- <-. split.
    + unfold tame. cbn. split; [reflexivity|]. split; [unfold client_config; cbn; rewrite L1, Ec; exact C|].
      split; [exact H2|]. split; [exact I1|]. split; [|exact T3]. intros y Hy. apply T2', H1, Hy.
    + split; [exact H3|]. intros x Hx. apply H4 in Hx as [Hx|Hx].
      * left. right. right. apply T2', Hx.
      * rewrite (Cc _ Ec) in Hx. unfold reason. auto.
  - apply incl_tail in T2 as [T2 T2']. injection H as <- <-. split; [unfold tame; cbn; auto 10|]. split; [exact I|].
    intros x Hx. injection Hx as <-. left. right. right. exact T2.
Qed.
Lemma reason_explained pw ctx w0 o r x : communicates o -> asked pw o r -> reason ctx w0 r x -> explained pw ctx w0 o x.
Proof.
  intros Co A [H|[H|[H|[[H1 H2]|H]]]].
  - apply by_transport, H.
  - apply by_refusal; assumption.
  - eapply by_arguments; eauto.
  - apply by_key; assumption.
  - apply by_device; [exact Co|]. destruct H as [[i H]|[->|[->|[->|[->|[[-> H]|[-> H]]]]]]]; [eapply error_flag; exact H|constructor..]; exact H.
Qed.

(** ** operations and sessions *)
Lemma parameters_reason pw ctx w0 : match ctx with Some y => is_bytes (key y) | None => True end ->
  len pw <= 6 -> receives_bytes w0 -> forall n0 fuel cl n acc a cl', n0 <= n -> is_bytes acc -> tame pw ctx w0 cl ->
  read_parameters_loop fuel cl n acc = (a, cl') ->
  tame pw ctx w0 cl' /\ forall x, a = Done (Err x) -> explained pw ctx w0 (OpReadParameters n0) x.
Proof.
  intros K L B n0. induction fuel as [|fuel IH]; intros cl n acc a cl' Hn Ha T H.
  { injection H as <- <-. split; [exact T|]. discriminate. }
  cbn [read_parameters_loop] in H. destruct (exchange cl _) as [a1 cl1] eqn:E.
  assert (communicates (OpReadParameters n0)) as Co by (split; discriminate).
  pose proof T as (Pw & _).
  pose proof (exchange_reason pw ctx w0 cl (ReadDeviceParametersRequest (cl_password cl) n 1024) a1 cl1 K L B T ltac:(intros p Hp; cbn in Hp; congruence) I E) as (T1 & R1 & X1).
  destruct a1 as [[p|e]|].
  - assert (pdu_service p = READ_SCADA_PARAMETERS) as Sv by (exact (exchange_service _ _ _ _ E)).
    destruct p; try discriminate. cbv zeta in H. cbn in R1. destruct R1 as [Rd Rn].
    assert (is_bytes (acc ++ data)) as Hd by (apply is_bytes_app; auto).
    destruct is_end.
    + injection H as <- <-. split; [exact T1|]. intros x Hx.
      destruct (parse None (Some (acc ++ data))) as [r|] eqn:Ep; [|discriminate]. injection Hx as ->.
      apply parse_raises in Ep; [|exact Hd]. apply by_device; [exact Co|].
      destruct Ep as [->|[->|[->|[->|[->| ->]]]]];
        [apply bad_value|apply unknown_service|apply short_answer|apply object_too_long|apply unreadable_object|apply unregistered_object].
    + eapply IH; [| |exact T1|exact H]; [lia|exact Hd].
  - injection H as <- <-. split; [exact T1|]. intros x Hx. injection Hx as <-. eapply reason_explained; [exact Co| |apply X1; reflexivity].
    rewrite Pw. apply asked_parameters. exact Hn.
  - injection H as <- <-. split; [exact T1|]. discriminate.
Qed.
Lemma control_reason pw ctx w0 o cl : tame pw ctx w0 cl ->
  tame pw ctx w0 (set_world cl (snd (transport_control (cl_world cl)))) /\
  forall x, fst (transport_control (cl_world cl)) = Err x -> explained pw ctx w0 o x.
Proof.
  intros T. pose proof T as (T1 & T2 & T3 & T4 & T5 & T6). unfold transport_control.
  destruct (ctl (cl_world cl)) as [|y l] eqn:E; cbn [fst snd].
  - split; [unfold tame; cbn; rewrite E; auto 10|]. discriminate.
  - apply incl_tail in T6 as [T6 T6']. split; [unfold tame; cbn; auto 10|]. intros x Hx. apply by_transport. right. left.
    destruct y; congruence.
Qed.
Lemma operate_reason pw ctx w0 cl o a cl' : match ctx with Some y => is_bytes (key y) | None => True end ->
  len pw <= 6 -> receives_bytes w0 -> tame pw ctx w0 cl -> operation_times_valid o ->
  operate cl o = (a, cl') ->
  tame pw ctx w0 cl' /\ forall x, a = Done (Err x) -> explained pw ctx w0 o x.
Proof.
  intros K L B T V H. pose proof T as (Pw & _).
  destruct o; cbn [operate] in H;
    unfold client_read_instantaneous_values, client_read_time, client_write_time,
      client_read_archive, client_read_archive_by_time in H.
  1,2: unfold client_connect, client_disconnect in H;
    match type of T with tame _ _ _ _ => idtac end;
    destruct (control_reason pw ctx w0 OpConnect cl T) as [T1 _];
    match goal with |- _ /\ forall x, _ -> explained _ _ _ ?o x => destruct (control_reason pw ctx w0 o cl T) as [_ X1] end;
    destruct (transport_control (cl_world cl)) as [[u|e] w]; cbn [answer_map fst snd] in *; injection H as <- <-;
    (split; [exact T1|]); intros x Hx; [discriminate|]; injection Hx as <-; apply X1; reflexivity.
  4:{ unfold client_read_parameters in H. destruct (read_parameters_loop _ _ _ _) as [a1 cl1] eqn:E.
      apply (parameters_reason pw ctx w0 K L B read_from) in E as [T1 X1]; [|lia|constructor|exact T].
      destruct a1 as [[p|e]|]; cbn [answer_map] in H; injection H as <- <-; (split; [exact T1|]); intros x Hx; try discriminate.
      injection Hx as <-. apply X1. reflexivity. }
  all: match goal with |- _ /\ forall x, _ -> explained _ _ _ ?o x => assert (communicates o) as Co by (split; discriminate) end;
    match type of H with context [exchange ?c ?r] =>
      destruct (exchange c r) as [a1 cl1] eqn:E;
      pose proof (exchange_reason pw ctx w0 c r a1 cl1 K L B T ltac:(intros q Hq; cbn in Hq; congruence) ltac:(first [exact V|exact I]) E) as (T1 & _ & X1)
    end; rewrite ?Pw in *;
    destruct a1 as [[p|e]|]; cbn [answer_map] in H;
    [|injection H as <- <-; split; [exact T1|]; intros x Hx; injection Hx as <-;
      eapply reason_explained; [exact Co|apply asked_once; reflexivity|apply X1; reflexivity]
     |injection H as <- <-; split; [exact T1|]; discriminate].
  all: try (injection H as <- <-; split; [exact T1|]; discriminate).
  pose proof (exchange_service _ _ _ _ E) as Sv. destruct p; try discriminate. cbn [answer_map] in H.
  injection H as <- <-. split; [exact T1|]. discriminate.
Qed.
Lemma session_reason pw ctx w0 : match ctx with Some y => is_bytes (key y) | None => True end ->
  len pw <= 6 -> receives_bytes w0 -> forall os cl, tame pw ctx w0 cl -> Forall operation_times_valid os ->
  forall o x, raised os (fst (session cl os)) o x -> explained pw ctx w0 o x.
Proof.
  intros K L B. induction os as [|o os IH]; intros cl T V o' x R; [destruct R|].
  apply Forall_cons_iff in V as [V Vs]. cbn [session] in R. destruct (operate cl o) as [a cl1] eqn:E.
  destruct (operate_reason pw ctx w0 cl o a cl1 K L B T V E) as [T1 X1].
  destruct a as [r|].
  - destruct (session cl1 os) as [rs cl2] eqn:S. cbn [fst] in R. unfold raised in R. cbn [combine In] in R. destruct R as [R|R].
    + injection R as -> ->. apply X1. reflexivity.
    + apply (IH cl1 T1 Vs). rewrite S. exact R.
  - unfold raised in R. cbn [fst combine In] in R. destruct R as [R|R]; [congruence|]. destruct os; destruct R.
Qed.
Lemma client_raises pw pid k id w cl os o x : make_client pw pid k id w = Ok cl -> key_bytes k -> receives_bytes w ->
  Forall operation_times_valid os -> raised os (fst (session cl os)) o x ->
  explained pw (client_context k id) w o x.
Proof.
  intros M K B V. apply make_client_inv in M as (L & Pw & W & C & _ & Bf).
  apply session_reason; [|exact L|exact B| |exact V].
  - destruct k as [[|b k]|], id; cbn; try exact I. exact K.
  - unfold tame. rewrite W, Bf. split; [exact Pw|]. split; [exact C|]. split; [constructor|]. split; [|split]; apply incl_refl.
Qed.

(** ** an answer that raises, in pieces *)
Lemma raise_arrives w t x ctx st : on_line w t -> t <> [13] ->
  (forall c, context c = ctx -> elgas_state c = st -> first_telegram t (buffer c) -> fst (next_event c) = Err x) ->
  forall pieces more c s, context c = ctx -> elgas_state c = st -> t = buffer c ++ s -> s <> [] -> first_telegram s (concat pieces) ->
  fst (fst (next_event_loop (map Ok pieces ++ more) c)) = Done (Err x).
Proof.
  intros Ho Nt R. pose proof Ho as (q & Eq & Hq & _).
  assert (forall rx c, context c = ctx -> elgas_state c = st -> first_telegram t (buffer c) -> fst (fst (next_event_loop rx c)) = Done (Err x)) as Q.
  { intros rx c C1 C2 F. specialize (R c C1 C2 F). destruct (next_event c) as [r c'] eqn:E. cbn [fst] in R. subst r.
    destruct rx; cbn [next_event_loop]; rewrite E; reflexivity. }
  induction pieces as [|y pieces IH]; intros more c s Cc Cs Es Ns (rest & Er).
  - destruct s; [contradiction|discriminate].
  - assert (next_event c = (Ok None, c)) as Hc.
    { apply next_event_uncut. rewrite Eq in Es. destruct (exists_last Ns) as (s' & z & ->). rewrite app_assoc in Es.
      apply app_inj_tail in Es as [-> _]. intros I. apply Hq. apply in_or_app. left. exact I. }
    cbn [map app next_event_loop]. rewrite Hc. cbn [concat] in Er.
    destruct (list_eq_dec Z.eq_dec y []) as [->|Nx].
    { rewrite receive_nil. apply (IH more c s Cc Cs Es Ns). exists rest. exact Er. }
    assert (receive_data c y = set_buffer c (buffer c ++ y)) as ->.
    { apply receive_nonend; [exact Nx|]. destruct (buffer c) as [|b0 b] eqn:B; [left|right; discriminate].
      intros ->. cbn [app] in Es, Er. subst s. destruct q as [|q0 q]; [rewrite Eq in Nt; apply Nt; reflexivity|].
      rewrite Eq in Er. cbn [app] in Er. injection Er as E0 _. apply Hq. left. symmetry. exact E0. }
    apply app_eq_app in Er as (m & [[E1 E2]|[E1 E2]]).
    + apply Q; [exact Cc|exact Cs|]. exists m. cbn. rewrite E1, Es, <- app_assoc. reflexivity.
    + destruct m as [|m0 m].
      * rewrite app_nil_r in E1. subst s. apply Q; [exact Cc|exact Cs|]. exists []. cbn. rewrite app_nil_r. symmetry. exact Es.
      * apply (IH more (set_buffer c (buffer c ++ y)) (m0 :: m)); [exact Cc|exact Cs| |discriminate|exists rest; exact E2].
        cbn. rewrite Es, E1, <- app_assoc. reflexivity.
Qed.
Lemma exchange_raises ctx cl r w t pieces more x : at_rest ctx cl -> encodable r -> password_of (cl_password cl) r ->
  on_line w t -> t <> [13] ->
  (forall c, context c = ctx -> elgas_state c = awaiting (request_service r) -> first_telegram t (buffer c) -> fst (next_event c) = Err x) ->
  first_telegram t (concat pieces) -> rx (cl_world cl) = map Ok pieces ++ more ->
  fst (exchange cl r) = Done (Err x).
Proof.
  intros (C & U & L & I & B & T) En Pw Ho Nt R F E. set (wd := cl_world cl) in *.
  destruct (draws wd (requests wd)) as [rnd pad] eqn:Ed.
  destruct (request_sent ctx rnd pad (cl_connection cl) r C U I En) as (out & Es & Hl).
  { intros q Hq. rewrite (Pw q Hq). exact L. }
  unfold exchange. cbn [client_send]. unfold client_send_one, draw. fold wd. rewrite Ed.
  cbn [set_world cl_connection]. rewrite Es. unfold transport_send. cbn [set_connection cl_world set_world tx]. rewrite T.
  unfold transport_recv. cbn [rx]. rewrite E.
  set (c := set_state (cl_connection cl) (awaiting (request_service r))).
  destruct pieces as [|y pieces].
  { destruct F as (rest & F). destruct Ho as (p & Ep & _). rewrite Ep in F. destruct p; discriminate. }
  cbn [map app cl_password cl_connection cl_world tx ctl sent requests draws].
  unfold client_next_event. cbn [cl_world cl_connection cl_password rx tx ctl sent requests draws set_connection set_world].
  pose proof (raise_arrives w t x ctx (awaiting (request_service r)) Ho Nt R (y :: pieces) more c t) as X. cbn [map app next_event_loop] in X.
  fold c. rewrite next_event_uncut in X by (unfold c; cbn; rewrite B; intros []).
  destruct (next_event_loop (map Ok pieces ++ more) (receive_data c y)) as [[a c'] rx'] eqn:El. cbn [fst] in *. apply X; auto.
  - unfold c. cbn. exact (proj2 C).
  - unfold c. cbn. rewrite B. reflexivity.
  - eapply on_line_nonempty; exact Ho.
Qed.
Lemma operate_raises ctx cl o r w t pieces more x : at_rest ctx cl -> opens (cl_password cl) o = Some r -> encodable r ->
  on_line w t -> t <> [13] ->
  (forall c, context c = ctx -> elgas_state c = awaiting (request_service r) -> first_telegram t (buffer c) -> fst (next_event c) = Err x) ->
  first_telegram t (concat pieces) -> rx (cl_world cl) = map Ok pieces ++ more ->
  fst (operate cl o) = Done (Err x).
Proof.
  intros R A En Ho Nt Rj F E. pose proof (exchange_raises ctx cl r w t pieces more x R En (opens_password _ _ _ A) Ho Nt Rj F E) as X.
  destruct o; cbn in A; inversion A; subst r; cbn [operate];
    unfold client_read_instantaneous_values, client_read_time, client_write_time, client_read_parameters,
      client_read_archive, client_read_archive_by_time; cbn [read_parameters_loop];
    destruct (exchange cl _) as [a cl']; cbn [fst] in X; subst a; reflexivity.
Qed.
(** after any conversation *)
Lemma session_raises pw pid k id wd cl os results rs vs o r w t pieces more x :
  make_client pw pid k id wd = Ok cl -> usable_context (client_context k id) -> tx wd = [] ->
  converses (client_context k id) pw os results rs vs ->
  opens pw o = Some r -> encodable r -> on_line w t -> t <> [13] ->
  (forall c, context c = client_context k id -> elgas_state c = awaiting (request_service r) -> first_telegram t (buffer c) -> fst (next_event c) = Err x) ->
  first_telegram t (concat pieces) -> rx wd = results ++ map Ok pieces ++ more ->
  fst (session cl (os ++ [o])) = vs ++ [Done (Err x)].
Proof.
  intros H U T C A En Ho Nt R F E. destruct (made_at_rest _ _ _ _ _ _ H U T) as (Rt & Ep & Ew). subst wd pw.
  destruct (conversation _ _ _ _ _ _ C cl _ Rt eq_refl E) as (ts & Es & _).
  rewrite (session_app os cl vs _ o Es (converses_done _ _ _ _ _ _ C)). cbn [fst]. do 2 f_equal.
  apply (operate_raises (client_context k id) _ o r w t pieces more x); auto.
  apply afters_rest. exact Rt.
Qed.
Lemma flag_raised pw pid k id wd cl os results rs vs o r srv i x t pieces more :
  make_client pw pid k id wd = Ok cl -> usable_context (client_context k id) -> tx wd = [] ->
  converses (client_context k id) pw os results rs vs -> opens pw o = Some r -> encodable r ->
  answers (client_context k id) srv [2 ^ i] t -> device_error i x ->
  first_telegram t (concat pieces) -> rx wd = results ++ map Ok pieces ++ more ->
  fst (session cl (os ++ [o])) = vs ++ [Done (Err x)] /\ is_elgas_error x = true.
Proof.
  intros H U T C A En An D F E. split; [|destruct D; reflexivity].
  destruct (answers_accepted _ _ _ _ An) as (w & Ho & Ac).
  eapply session_raises; eauto; [eapply accepted_not_end; eauto|].
  intros c Cc _ Fc. rewrite <- Cc in Ac. rewrite (device_error_raised c i x w t srv D Ho Ac Fc). reflexivity.
Qed.
Lemma unknown_raised pw pid k id wd cl os results rs vs o r srv d t pieces more :
  make_client pw pid k id wd = Ok cl -> usable_context (client_context k id) -> tx wd = [] ->
  converses (client_context k id) pw os results rs vs -> opens pw o = Some r -> encodable r ->
  answers (client_context k id) srv d t -> no_flag d -> unanswered srv ->
  first_telegram t (concat pieces) -> rx wd = results ++ map Ok pieces ++ more ->
  fst (session cl (os ++ [o])) = vs ++ [Done (Err KeyError)] /\ is_elgas_error KeyError = false.
Proof.
  intros H U T C A En An N Un F E. split; [|reflexivity].
  destruct (answers_accepted _ _ _ _ An) as (w & Ho & Ac).
  eapply session_raises; eauto; [eapply accepted_not_end; eauto|].
  intros c Cc _ (rest & Fc). rewrite <- Cc in Ac. rewrite (next_event_read c w t rest Ho Fc).
  destruct (accepted_interpret _ _ _ _ _ Ho Ac) as (f & E1 & E2 & ->). rewrite no_flag_check by exact N.
  assert (pdu_from_response f = Err KeyError) as ->; [|reflexivity].
  unfold pdu_from_response. rewrite E1. unfold unanswered in Un. cbn [In] in Un. destruct srv; try reflexivity; tauto.
Qed.
Lemma encrypted_raised pw pid k id wd cl os results rs vs o r t pieces more :
  make_client pw pid k id wd = Ok cl -> client_context k id = None -> tx wd = [] ->
  converses None pw os results rs vs -> opens pw o = Some r -> encodable r -> encrypted_telegram t ->
  first_telegram t (concat pieces) -> rx wd = results ++ map Ok pieces ++ more ->
  fst (session cl (os ++ [o])) = vs ++ [Done (Err AttributeError)] /\ is_elgas_error AttributeError = false.
Proof.
  intros H Nc T C A En (srv & d1 & d2 & s1 & s2 & p & Ha & Hp & Hl & Ho) F E. split; [|reflexivity].
  assert (usable_context (client_context k id)) as U by (rewrite Nc; exact I). rewrite <- Nc in C.
  eapply session_raises; eauto.
  - intros ->. destruct Ho as (q & _ & _ & X). inversion X; subst.
  - rewrite Nc. intros c Cc _ (rest & Fc). rewrite (next_event_read c _ t rest Ho Fc), (interpret_reads _ _ _ Ho).
    rewrite factory_encrypted by assumption. rewrite Cc. reflexivity.
Qed.
(** what to catch *)
Lemma uncaught pw pid k id w cl os o x : make_client pw pid k id w = Ok cl -> key_bytes k -> receives_bytes w ->
  Forall operation_times_valid os -> raised os (fst (session cl os)) o x ->
  usable_context (client_context k id) -> (forall y, transport_raises w y -> is_elgas_error y = true) ->
  (forall r, asked pw o r -> request_misfit r = None) ->
  is_elgas_error x = true \/
  In x [KeyError; IndexError; ValueError; AssertionError; AttributeError] \/ (x = TypeError /\ exists n, o = OpReadParameters n).
Proof.
  intros M K B V R U Tr As. destruct (client_raises _ _ _ _ _ _ _ _ _ M K B V R) as [H|_ ->|r H1 H2|_ H _|_ H].
  - left. apply Tr, H.
  - left. reflexivity.
  - rewrite (As r H1) in H2. discriminate.
  - contradiction.
  - destruct H as [? i ? D| | | | | | | | |];
      [left; destruct D; reflexivity|left; reflexivity|..]; right; try (left; cbn [In]; tauto).
    right. split; [reflexivity|]. eexists. reflexivity.
Qed.
