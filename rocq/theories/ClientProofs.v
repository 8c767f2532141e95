(** Proofs about the client. *)
From Verif Require Import PyFacts SpecUtils SpecFrames SpecText SpecApplication SpecPdu SpecSecurity SpecConnection.
From Verif Require Import ApplicationProofs SpecMeaning Connection ConnectionProofs MeansProofs ParamLang Parameters ParserProofs SpecBlock BlockProofs Client SpecClient.
From Verif Require FramesProofs LineProofs SecurityProofs.
Open Scope list_scope.
Open Scope Z_scope.

(** ** requests *)
Lemma password_len rnd p b : password_bytes rnd p = Ok b -> len b = len p + 4.
Proof.
  rewrite password_bytes_if. destruct (forallb _ _); [|discriminate]. intros H. injection H as <-.
  destruct (pad_shape rnd p) as (c1 & c2 & ->). rewrite len_app. reflexivity.
Qed.
Lemma to_le_len w n b : to_le w n = Ok b -> len b = Z.of_nat w.
Proof. unfold to_le. destruct (_ && _); [|discriminate]. intros H. injection H as <-. unfold len. rewrite le_bytes_length. reflexivity. Qed.
Lemma append_len o n b : append o n = Ok b -> len b = len o + 1.
Proof. intros H. destruct (append_cases o n) as [[Hn E]|[Hn E]]; rewrite E in H; [|discriminate]. injection H as <-. rewrite len_app. reflexivity. Qed.
Lemma pdu_length m rnd r b : 6 <= m -> request_times_valid r -> pdu_to_bytes rnd r = Ok b ->
  (forall p, request_password r = Some p -> len p <= m) -> len b <= m + 94.
Proof.
  intros Hn V H P.
  destruct r as [p| |p t c|p c n|p a n t|p a n i]; cbn [pdu_to_bytes request_password request_times_valid] in *; cbv zeta in H;
    try specialize (P _ eq_refl);
    repeat (match type of H with
    | bind (password_bytes ?a ?p) _ = _ => let E := fresh "E" in destruct (password_bytes a p) eqn:E; cbn [bind] in H;
        [apply password_len in E|discriminate]
    | bind (to_le ?a ?p) _ = _ => let E := fresh "E" in destruct (to_le a p) eqn:E; cbn [bind] in H; [apply to_le_len in E|discriminate]
    | bind (datetime_to_bytes ?a) _ = _ => let E := fresh "E" in destruct (datetime_to_bytes a) eqn:E; cbn [bind] in H; [apply datetime_to_bytes_len in E; [|exact V]|discriminate]
    | bind (append ?a ?p) _ = _ => let E := fresh "E" in destruct (append a p) eqn:E; cbn [bind] in H; [apply append_len in E|discriminate]
    end);
    try (apply password_len in H); try (apply append_len in H); try (injection H as <-); rewrite ?len_app in *; try lia; try (unfold len; cbn; lia).
Qed.
Lemma pdu_len rnd r b : request_times_valid r -> pdu_to_bytes rnd r = Ok b ->
  (forall p, request_password r = Some p -> len p <= 6) -> len b <= 100.
Proof. intros V H P. apply (pdu_length 6 rnd r b); [lia|assumption..]. Qed.

(** ** make_client *)
Definition client_config (ctx : option cipher_context) (cl : client) : Prop :=
  config (cl_connection cl) = (0, 0, 0, 0, ctx).
Lemma make_client_inv pw pid k id w cl : make_client pw pid k id w = Ok cl ->
  len pw <= 6 /\ cl_password cl = pw /\ cl_world cl = w /\ client_config (client_context k id) cl /\
  elgas_state (cl_connection cl) = IDLE /\ buffer (cl_connection cl) = [].
Proof.
  unfold make_client. intros H. apply bind_ok in H as (c & Hc & H). injection H as <-.
  apply make_inv in Hc as (_ & Hl & _ & ->). cbn. repeat (split; [auto; fail|]). split; [|split; reflexivity].
  unfold client_config, config. cbn. f_equal. destruct k as [[|b k]|], id; reflexivity.
Qed.
Lemma client_sane ctx cl : client_config ctx cl -> sane (cl_connection cl) /\ context (cl_connection cl) = ctx.
Proof.
  unfold client_config, config. intros H. injection H as H1 H2 H3 H4 H5. split; [|exact H5].
  unfold sane, addresses. rewrite H1, H2, H3, H4. lia.
Qed.
(** addresses in range, and the cipher context *)
Definition ready (ctx : option cipher_context) (c : connection) : Prop := sane c /\ context c = ctx.
(** [t] is a telegram for [r] from the connection [c] *)
Definition line_from (c : connection) (r : request) (t : bytes) : Prop :=
  request_line_at (c_destination_1 c) (c_destination_2 c) (c_source_1 c) (c_source_2 c) (context c) r t.
Lemma line_zero ctx cl : client_config ctx cl -> line_from (cl_connection cl) = request_line ctx.
Proof. unfold client_config, config, line_from, request_line. intros H. injection H as -> -> -> -> ->. reflexivity. Qed.

(** ** receiving *)
Lemma feed_noise noise : forall c l, Forall (fun x => x = [] \/ x = [13]) noise -> buffer c = [] ->
  feed c (noise ++ l) = (map (fun _ => Ok None) noise ++ fst (feed c l), snd (feed c l)).
Proof.
  induction noise as [|x noise IH]; intros c l H E; [cbn; destruct (feed c l); reflexivity|].
  inversion H as [|? ? Hx Hn]; subst. cbn [app feed map].
  assert (receive_data c x = c) as -> by (destruct Hx as [->| ->]; [reflexivity|unfold receive_data; rewrite E; reflexivity]).
  rewrite next_event_uncut by (rewrite E; intros []). rewrite (IH c l Hn E). reflexivity.
Qed.
Lemma loop_feed front : forall c last p c', 
  feed c (front ++ [last]) = (map (fun _ => Ok None) front ++ [Ok (Some p)], c') ->
  forall rest, exists x more, front ++ [last] = x :: more /\
    next_event_loop (map Ok more ++ rest) (receive_data c x) = (Done (Ok p), c', rest).
Proof.
  induction front as [|x front IH]; intros c last p c' H rest.
  - exists last, []. split; [reflexivity|]. cbn [app feed map] in H.
    destruct (next_event (receive_data c last)) as [r c1] eqn:E. injection H as -> ->.
    cbn [map app]. destruct rest; cbn [next_event_loop]; rewrite E; reflexivity.
  - exists x, (front ++ [last]). split; [reflexivity|]. cbn [app feed map] in H.
    destruct (next_event (receive_data c x)) as [r c1] eqn:E. destruct (feed c1 (front ++ [last])) as [rs c2] eqn:F.
    injection H as -> E2 ->. pose proof (next_event_kept _ _ _ E ltac:(congruence)) as ->.
    destruct (IH _ _ _ _ ltac:(rewrite F, E2; reflexivity) rest) as (y & more & Em & L). rewrite Em. cbn [map app].
    cbn [next_event_loop]. rewrite E. exact L.
Qed.
(** the service of what a request gets *)
Lemma delivers_loop c srv p results rest : outstanding (elgas_state c) = Some srv -> buffer c = [] ->
  delivers (context c) srv p results ->
  exists x more, results = Ok x :: more /\
    next_event_loop (more ++ rest) (receive_data c x) = (Done (Ok p), set_buffer (set_state c IDLE) [], rest).
Proof.
  intros O B (noise & parts & last & d & t & -> & Hn & Et & Hl & A & N & D).
  apply (answered_means _ _ _ _ _ A) in D. apply answers_accepted in A as (w & Ho & A). pose proof (decodes_service _ _ _ D) as Es. subst srv.
  destruct (feed_chunks w t d p Ho parts c last []) as (c' & E & ->); auto.
  { intros _. rewrite Et. eapply accepted_not_end; eauto. }
  pose proof (feed_noise noise c (parts ++ [last]) Hn B) as F. unfold bytes in *. rewrite E in F. cbn [fst snd] in F.
  rewrite app_assoc in F. rewrite (app_assoc (map _ _)), <- map_app in F.
  destruct (loop_feed _ _ _ _ _ F rest) as (x & more & Em & L). exists x, (map Ok more). split; [|exact L].
  rewrite app_assoc. exact (f_equal (map Ok) Em).
Qed.

(** ** one exchange *)
Lemma request_sent ctx rnd pad c r : ready ctx c -> usable_context ctx -> elgas_state c = IDLE ->
  encodable r -> (forall p, request_password r = Some p -> len p <= 65000) ->
  exists t, send rnd pad c (Request r) = (Ok t, set_state c (awaiting (request_service r))) /\ line_from c r t.
Proof.
  intros [Sc Ec] U S [M V] P. rewrite send_request, S. cbn [outstanding].
  pose proof (pdu_to_bytes_error rnd r V) as X. rewrite M in X. destruct X as [app E].
  pose proof (pdu_length 65000 rnd r app ltac:(lia) V E P) as L.
  destruct (serialise_ok rnd pad c r app Sc E) as [t Et].
  { rewrite Ec. destruct ctx as [[i k]|]; [split; [apply U|split; [apply U|lia]]|lia]. }
  exists t. rewrite Et. split; [reflexivity|].
  apply serialise_inv in Et; [|exact Sc|rewrite Ec; destruct ctx as [[i k]|]; [apply U|exact I]].
  destruct Et as (app' & E' & X). rewrite E in E'. injection E' as <-.
  exists app. split; [eapply pdu_data; exact E|]. unfold sends in X. rewrite function_code_ok in X.
  destruct X as [[-> X]|(i & k & q & -> & _ & _ & Sq & _ & X)]; [exact X|eauto].
Qed.
Definition after (cl : client) (t : bytes) (rest : list (res bytes)) : client :=
  mk_client (cl_password cl) (cl_connection cl)
    (mk_world [] rest (ctl (cl_world cl)) (sent (cl_world cl) ++ [t]) (S (requests (cl_world cl))) (draws (cl_world cl))).
Lemma idle_again c : elgas_state c = IDLE -> buffer c = [] -> forall s, set_buffer (set_state (set_state c s) IDLE) [] = c.
Proof. destruct c; cbn; intros -> -> s; reflexivity. Qed.
(** a client at rest *)
Definition at_rest (ctx : option cipher_context) (cl : client) : Prop :=
  ready ctx (cl_connection cl) /\ usable_context ctx /\ len (cl_password cl) <= 65000 /\
  elgas_state (cl_connection cl) = IDLE /\ buffer (cl_connection cl) = [] /\ tx (cl_world cl) = [].
Lemma after_rest ctx cl t rest : at_rest ctx cl -> at_rest ctx (after cl t rest).
Proof. unfold at_rest. cbn. tauto. Qed.
Definition password_of (pw : str) (r : request) : Prop := forall p, request_password r = Some p -> p = pw.
Lemma exchange_ok ctx cl r p results rest : at_rest ctx cl -> encodable r -> password_of (cl_password cl) r ->
  delivers ctx (request_service r) p results -> rx (cl_world cl) = results ++ rest ->
  exists t, exchange cl r = (Done (Ok p), after cl t rest) /\ line_from (cl_connection cl) r t.
Proof.
  intros (C & U & L & S & B & T) En Pw D R.
  pose proof (proj2 C) as Ec.
  set (w := cl_world cl) in *. 
  destruct (draws w (requests w)) as [rnd pad] eqn:Ed.
  destruct (request_sent ctx rnd pad (cl_connection cl) r C U S En) as (t & Es & Hl).
  { intros q Hq. rewrite (Pw q Hq). exact L. }
  exists t. split; [|exact Hl].
  destruct (delivers_loop (set_state (cl_connection cl) (awaiting (request_service r))) (request_service r) p results rest)
    as (x & more & -> & Hx).
  - cbn. apply outstanding_awaiting.
  - exact B.
  - cbn [set_state context]. rewrite Ec. exact D.
  - rewrite idle_again in Hx by assumption.
    unfold exchange. cbn [client_send]. unfold client_send_one, draw. fold w. rewrite Ed.
    cbn [set_world cl_connection]. rewrite Es. unfold transport_send. cbn [set_connection cl_world set_world tx]. rewrite T.
    unfold transport_recv. cbn [rx]. rewrite R. cbn [app]. cbn [cl_password cl_connection cl_world tx ctl sent requests draws].
    cbv iota beta. unfold client_next_event. cbn [cl_world cl_connection cl_password rx tx ctl sent requests draws].
    cbn [set_connection set_world cl_connection]. rewrite Hx. reflexivity.
Qed.
Lemma delivers_nonempty ctx srv p results : delivers ctx srv p results -> (1 <= length results)%nat.
Proof.
  intros (noise & parts & last & d & t & -> & _). rewrite map_length, !app_length. cbn. lia.
Qed.
Lemma delivers_service ctx srv p results : delivers ctx srv p results -> srv = pdu_service p.
Proof. intros (noise & parts & last & d & t & _ & _ & _ & _ & _ & _ & D). symmetry. exact (means_service _ _ _ D). Qed.

(** ** reading parameters *)
Definition afters (cl : client) (ts : list bytes) (rest : list (res bytes)) : client :=
  mk_client (cl_password cl) (cl_connection cl)
    (mk_world [] rest (ctl (cl_world cl)) (sent (cl_world cl) ++ ts) (length ts + requests (cl_world cl)) (draws (cl_world cl))).
Lemma after_afters cl t rest : after cl t rest = afters cl [t] rest. Proof. reflexivity. Qed.
Lemma afters_rest ctx cl ts rest : at_rest ctx cl -> at_rest ctx (afters cl ts rest).
Proof. unfold at_rest. cbn. tauto. Qed.
Lemma afters_trans cl ts rest ts' rest' : afters (afters cl ts rest) ts' rest' = afters cl (ts ++ ts') rest'.
Proof. unfold afters. cbn. rewrite app_length, <- app_assoc, Nat.add_assoc, (Nat.add_comm (length ts')). reflexivity. Qed.
Lemma afters_nil cl : tx (cl_world cl) = [] -> afters cl [] (rx (cl_world cl)) = cl.
Proof. intros H. destruct cl as [pw c [t r ct s n d]]. unfold afters. cbn in *. rewrite app_nil_r, H. reflexivity. Qed.

Fixpoint page_reqs (password : str) (n : Z) (pages : list page) : list request :=
  match pages with
  | [] => []
  | pg :: pages' => ReadDeviceParametersRequest password n 1024 :: page_reqs password (n + pg_amount pg) pages'
  end.
Lemma page_reqs_spec password pages : forall n, page_requests password n pages = page_reqs password n pages.
Proof.
  unfold page_requests. induction pages as [|pg pages IH]; intros n; [reflexivity|].
  cbn [length seq map page_reqs]. f_equal; [f_equal; unfold objects_before; cbn; lia|].
  rewrite <- IH, <- seq_shift, map_map. apply map_ext. intros i. f_equal.
  unfold objects_before. cbn [firstn map total fold_right]. unfold total. lia.
Qed.
Lemma page_amount ctx pg : page_ok ctx pg -> 0 <= pg_amount pg.
Proof.
  intros (noise & parts & last & d & t & _ & _ & _ & _ & A & _ & D).
  eapply parameters_bytes; [eapply answers_bytes; exact A|exact D].
Qed.
Lemma page_bytes ctx pg : page_ok ctx pg -> is_bytes (pg_data pg).
Proof.
  intros (noise & parts & last & d & t & _ & _ & _ & _ & A & _ & D). eapply parameters_bytes; [eapply answers_bytes; exact A|exact D].
Qed.
Lemma pages_bytes ctx pages : Forall (page_ok ctx) pages -> is_bytes (concat (map pg_data pages)).
Proof.
  induction 1 as [|pg pages P _ IH]; [constructor|]. cbn [map concat]. apply is_bytes_app. split; [eapply page_bytes; exact P|exact IH].
Qed.
Lemma misfit_parameters password n : latin1 password -> 0 <= n <= 65535 ->
  encodable (ReadDeviceParametersRequest password n 1024).
Proof.
  intros L H. split; [|exact I]. cbn [request_misfit].
  assert (forallb (fun c => (0 <=? c) && (c <=? 255)) password = true) as ->.
  { apply forallb_forall. intros c Hc. apply (proj1 (Forall_forall _ _) L) in Hc. lia. }
  assert ((0 <=? n) && (n <=? 65535) = true) as -> by lia. reflexivity.
Qed.
Lemma page_exchange ctx cl n pg rest : at_rest ctx cl -> page_ok ctx pg -> latin1 (cl_password cl) -> 0 <= n <= 65535 ->
  rx (cl_world cl) = pg_results pg ++ rest ->
  exists t, exchange cl (ReadDeviceParametersRequest (cl_password cl) n 1024) =
    (Done (Ok (ReadDeviceParametersResponse (pg_data pg) (pg_number pg) (pg_amount pg) (pg_end pg))), after cl t rest) /\
    line_from (cl_connection cl) (ReadDeviceParametersRequest (cl_password cl) n 1024) t.
Proof.
  intros R P L H E. apply (exchange_ok ctx cl _ _ (pg_results pg) rest); auto.
  - apply misfit_parameters; assumption.
  - intros p Hp. cbn in Hp. congruence.
Qed.
Lemma pages_read ctx front : forall last cl n acc rest fuel r,
  at_rest ctx cl -> Forall (page_ok ctx) (front ++ [last]) -> Forall (fun pg => pg_end pg = false) front -> pg_end last = true ->
  latin1 (cl_password cl) -> 0 <= n -> n + total (map pg_amount front) <= 65535 ->
  rx (cl_world cl) = concat (map pg_results (front ++ [last])) ++ rest -> (length front < fuel)%nat ->
  parse None (Some (acc ++ concat (map pg_data (front ++ [last])))) = Some r ->
  exists ts, read_parameters_loop fuel cl n acc = (Done r, afters cl ts rest) /\
    Forall2 (line_from (cl_connection cl)) (page_reqs (cl_password cl) n (front ++ [last])) ts.
Proof.
  induction front as [|pg front IH]; intros last cl n acc rest fuel r R P F El L Hn Ht E Hf Pr;
    (destruct fuel as [|fuel]; [cbn in Hf; lia|]).
  - cbn [app map concat total fold_right] in *. rewrite app_nil_r in *.
    apply Forall_inv in P. destruct (page_exchange ctx cl n last rest R P L ltac:(lia) E) as (t & Ex & Hl).
    exists [t]. cbn [read_parameters_loop page_reqs]. rewrite Ex, El. cbv zeta. cbv iota. rewrite Pr. 
    split; [reflexivity|]. repeat constructor. exact Hl.
  - cbn [app map concat total fold_right length] in *. apply Forall_cons_iff in P as [P1 P]. apply Forall_cons_iff in F as [F1 F].
    rewrite <- app_assoc in E. pose proof (page_amount ctx pg P1) as Ha.
    assert (0 <= total (map pg_amount front)) as Hs.
    { clear - P. apply Forall_app in P as [P _]. unfold total. induction P as [|x l H _ IH]; [cbn; lia|].
      apply page_amount in H. cbn. lia. }
    unfold total in *. 
    destruct (page_exchange ctx cl n pg _ R P1 L ltac:(lia) E) as (t & Ex & Hl).
    cbn [read_parameters_loop page_reqs]. rewrite Ex, F1. cbv zeta. cbv iota.
    rewrite app_assoc in Pr.
    destruct (IH last (after cl t (concat (map pg_results (front ++ [last])) ++ rest)) (n + pg_amount pg) (acc ++ pg_data pg) rest fuel r)
      as (ts & Ets & Fts); auto; try lia.
    + apply after_rest. exact R.
    + exists (t :: ts). rewrite Ets, after_afters, afters_trans. split; [reflexivity|]. constructor; [exact Hl|exact Fts].
Qed.
Lemma pages_results ctx pages : Forall (page_ok ctx) pages -> (length pages <= length (concat (map pg_results pages)))%nat.
Proof.
  induction 1 as [|pg pages H _ IH]; [cbn; lia|]. cbn [map concat length]. rewrite app_length.
  apply delivers_nonempty in H. lia.
Qed.
Lemma parameters_read ctx cl n pages rest r :
  at_rest ctx cl -> Forall (page_ok ctx) pages -> complete pages -> latin1 (cl_password cl) -> 0 <= n ->
  n + total (map pg_amount (removelast pages)) <= 65535 ->
  rx (cl_world cl) = concat (map pg_results pages) ++ rest ->
  reads (concat (map pg_data pages)) r ->
  exists ts, client_read_parameters cl n = (Done r, afters cl ts rest) /\
    Forall2 (line_from (cl_connection cl)) (page_requests (cl_password cl) n pages) ts.
Proof.
  intros R P (front & last & -> & F & El) L Hn Ht E Pr.
  apply reads_iff in Pr; [|eapply pages_bytes; exact P].
  rewrite removelast_last in Ht. rewrite page_reqs_spec. unfold client_read_parameters.
  apply pages_read with (ctx := ctx) (r := r); auto.
  apply pages_results in P. rewrite app_length in P. cbn in P. rewrite E, app_length. lia.
Qed.

(** ** C40: conversations *)
Lemma exchange_operation ctx cl o r p v results rest : at_rest ctx cl -> asks (cl_password cl) o = Some r -> encodable r ->
  delivers ctx (request_service r) p results -> gives o p v -> rx (cl_world cl) = results ++ rest ->
  exists t, operate cl o = (Done (Ok v), afters cl [t] rest) /\ line_from (cl_connection cl) r t.
Proof.
  intros R A En D G E.
  destruct (exchange_ok ctx cl r p results rest R En) as (t & Ex & Hl); auto.
  { destruct o; inversion A; subst; intros q Hq; cbn in Hq; congruence. }
  exists t. split; [|exact Hl]. rewrite after_afters in Ex.
  destruct G; inversion A; subst; cbn [operate];
    unfold client_read_instantaneous_values, client_read_time, client_write_time, client_read_archive, client_read_archive_by_time;
    rewrite Ex; reflexivity.
Qed.
Lemma conversation ctx password os results rs vs : converses ctx password os results rs vs ->
  forall cl rest, at_rest ctx cl -> cl_password cl = password -> rx (cl_world cl) = results ++ rest ->
  exists ts, session cl os = (vs, afters cl ts rest) /\ Forall2 (line_from (cl_connection cl)) rs ts.
Proof.
  induction 1 as [|o r p v results os results' rs vs A En D G _ IH|n pages out os results' rs vs P C L Hn Ht Pr _ IH];
    intros cl rest R Ep E; subst password.
  - exists []. cbn. cbn in E. rewrite <- E, afters_nil by apply R. split; [reflexivity|constructor].
  - rewrite <- app_assoc in E. destruct (exchange_operation ctx cl o r p v results _ R A En D G E) as (t & Eo & Hl).
    destruct (IH (afters cl [t] (results' ++ rest)) rest) as (ts & Es & Fs); auto; [apply afters_rest; exact R|].
    exists (t :: ts). cbn [session]. rewrite Eo, Es, afters_trans. split; [reflexivity|]. constructor; assumption.
  - rewrite <- app_assoc in E. destruct (parameters_read ctx cl n pages _ out R P C L Hn Ht E Pr) as (t & Eo & Hl).
    destruct (IH (afters cl t (results' ++ rest)) rest) as (ts & Es & Fs); auto; [apply afters_rest; exact R|].
    exists (t ++ ts). cbn [session operate]. rewrite Eo. split; [|apply Forall2_app; assumption].
    destruct out; cbn [answer_map]; rewrite Es, afters_trans; reflexivity.
Qed.
Lemma made_config pw pid k id w cl : make_client pw pid k id w = Ok cl -> client_config (client_context k id) cl.
Proof. intros H. apply make_client_inv in H. apply H. Qed.
Lemma made_at_rest pw pid k id w cl : make_client pw pid k id w = Ok cl -> usable_context (client_context k id) -> tx w = [] ->
  at_rest (client_context k id) cl /\ cl_password cl = pw /\ cl_world cl = w.
Proof.
  intros H U T. apply make_client_inv in H as (H1 & H2 & H3 & H4 & H5 & H6). apply client_sane in H4. subst. unfold at_rest, ready.
  assert (len (cl_password cl) <= 65000) by lia. tauto.
Qed.
Lemma client_conversation pw pid k id w cl os results rs vs rest :
  make_client pw pid k id w = Ok cl -> usable_context (client_context k id) -> tx w = [] -> sent w = [] ->
  converses (client_context k id) pw os results rs vs -> rx w = results ++ rest ->
  exists cl', session cl os = (vs, cl') /\ Forall2 (request_line (client_context k id)) rs (sent (cl_world cl')) /\
    rx (cl_world cl') = rest /\ elgas_state (cl_connection cl') = IDLE /\ buffer (cl_connection cl') = [].
Proof.
  intros H U T Hs C E. destruct (made_at_rest _ _ _ _ _ _ H U T) as (R & Ep & Ew). subst w.
  destruct (conversation _ _ _ _ _ _ C cl rest R Ep E) as (ts & Es & Fs).
  rewrite (line_zero _ _ (made_config _ _ _ _ _ _ H)) in Fs. eexists. split; [exact Es|]. cbn. rewrite Hs. cbn. destruct R as (_ & _ & _ & S & B & _). auto.
Qed.

(** ** what an exchange does in every case *)
Lemma next_event_some c p c' : next_event c = (Ok (Some p), c') ->
  outstanding (elgas_state c) = Some (pdu_service p) /\ c' = set_buffer (set_state c IDLE) [].
Proof.
  intros E. unfold next_event in E. destruct (buffer c) as [|z l]; [congruence|].
  destruct (index_of 13 (z :: l)); [|congruence].
  cbv zeta in E. destruct (interpret _ _) as [f|x]; [|destruct (is_value_error x); congruence].
  destruct (pdu_from_response f) as [q|x]; [|congruence].
  rewrite process_response in E. destruct (outstanding (elgas_state c)) as [s|]; [|congruence].
  destruct (service_eq_dec s (pdu_service q)) as [->|]; [|congruence]. injection E as <- <-. auto.
Qed.
Lemma loop_outcome rx : forall c r c' rx', next_event_loop rx c = (r, c', rx') ->
  config c' = config c /\ (length rx' <= length rx)%nat /\
  match r with
  | Done (Ok p) => outstanding (elgas_state c) = Some (pdu_service p) /\ elgas_state c' = IDLE /\ buffer c' = []
  | _ => elgas_state c' = elgas_state c
  end.
Proof.
  induction rx as [|x rx IH]; intros c r c' rx' H; cbn [next_event_loop] in H;
    destruct (next_event c) as [[[p|]|e] c1] eqn:E.
  - injection H as <- <- <-. apply next_event_some in E as [O ->]. auto.
  - injection H as <- <- <-. apply next_event_kept in E; [|congruence]. subst. auto.
  - injection H as <- <- <-. apply next_event_kept in E; [|congruence]. subst. auto.
  - injection H as <- <- <-. apply next_event_some in E as [O ->]. auto.
  - apply next_event_kept in E; [|congruence]. subst c1. destruct x as [d|e].
    + apply IH in H as (H1 & H2 & H3). rewrite (proj1 (receive_fields c d)) in H3. 
      destruct (receive_fields c d) as (_ & R1 & R2 & R3 & R4 & R5).
      split; [rewrite H1; unfold config; congruence|]. split; [cbn; lia|exact H3].
    + injection H as <- <- <-. cbn. auto.
  - injection H as <- <- <-. apply next_event_kept in E; [|congruence]. subst. auto.
Qed.
Definition refused_client (cl : client) : client :=
  set_world cl (snd (draw (cl_world cl))).
Lemma exchange_refused cl r : elgas_state (cl_connection cl) <> IDLE ->
  exchange cl r = (Done (Err LocalElgasProtocolError), refused_client cl).
Proof.
  intros S. unfold exchange. cbn [client_send]. unfold client_send_one, draw, refused_client.
  destruct (draws (cl_world cl) (requests (cl_world cl))) as [rnd pad] eqn:E. cbn [set_world cl_connection]. rewrite send_request.
  destruct (outstanding (elgas_state (cl_connection cl))) eqn:O.
  - cbn. reflexivity.
  - destruct (elgas_state (cl_connection cl)); try discriminate. contradiction.
Qed.
Lemma transport_send_spec w data : exists o tx', transport_send w data =
  (o, mk_world tx' (rx w) (ctl w) (sent w ++ [data]) (requests w) (draws w)).
Proof. unfold transport_send. destruct (tx w) as [|[e|] l]; eauto. Qed.
(** everything an exchange can do from the idle state *)
Lemma exchange_outcome cl r a cl' : elgas_state (cl_connection cl) = IDLE -> exchange cl r = (a, cl') ->
  cl_password cl' = cl_password cl /\ config (cl_connection cl') = config (cl_connection cl) /\
  (length (rx (cl_world cl')) <= length (rx (cl_world cl)))%nat /\
  match a with
  | Done (Ok p) => pdu_service p = request_service r /\ elgas_state (cl_connection cl') = IDLE /\
                   buffer (cl_connection cl') = [] /\ (length (rx (cl_world cl')) < length (rx (cl_world cl)))%nat
  | _ => elgas_state (cl_connection cl') <> IDLE
  end /\
  let '(rnd, pad) := draws (cl_world cl) (requests (cl_world cl)) in
  match serialise rnd pad (cl_connection cl) r with
  | Ok t => sent (cl_world cl') = sent (cl_world cl) ++ [t]
  | Err e => a = Done (Err e) /\ sent (cl_world cl') = sent (cl_world cl) /\ rx (cl_world cl') = rx (cl_world cl)
  end.
Proof.
  intros I H. unfold exchange in H. cbn [client_send] in H. unfold client_send_one, draw in H.
  destruct (draws (cl_world cl) (requests (cl_world cl))) as [rnd pad] eqn:Ed. cbn [set_world cl_connection] in H.
  rewrite send_request, I in H. cbn [outstanding] in H.
  assert (awaiting (request_service r) <> IDLE) as Aw by (destruct r; discriminate).
  destruct (serialise rnd pad (cl_connection cl) r) as [t|e] eqn:Es.
  - cbn [set_connection cl_world cl_connection cl_password set_world] in H.
    match type of H with context [transport_send ?w t] => destruct (transport_send_spec w t) as (o & tx' & Eo); rewrite Eo in H; clear Eo end.
    cbn [rx ctl sent requests draws] in H. destruct o as [u|e].
    + unfold transport_recv in H. cbn [rx] in H. destruct (rx (cl_world cl)) as [|[d|e] rest] eqn:Er.
      * injection H as <- <-. cbn. repeat (split; [auto; fail|]); auto.
      * cbn [tx ctl sent requests draws cl_connection] in H. unfold client_next_event in H. cbn [cl_world rx cl_connection] in H.
        destruct (next_event_loop rest _) as [[a' c'] rx'] eqn:El. apply loop_outcome in El as (L1 & L2 & L3).
        injection H as <- <-. cbn.
        rewrite (proj1 (receive_fields _ d)) in L3. cbn in L3.
        match type of L1 with _ = config (receive_data ?c d) =>
          assert (config (receive_data c d) = config (cl_connection cl)) as Ec
            by (destruct (receive_fields c d) as (_ & R1 & R2 & R3 & R4 & R5); unfold config; rewrite R1, R2, R3, R4, R5; reflexivity) end.
        split; [reflexivity|]. split; [congruence|]. split; [lia|]. split; [|reflexivity].
        destruct a' as [[p|e]|]; [|congruence|congruence].
        rewrite outstanding_awaiting in L3. destruct L3 as (O & L3 & L4). injection O as O. auto with arith.
      * injection H as <- <-. cbn. repeat (split; [auto; fail|]); auto.
    + injection H as <- <-. cbn. repeat (split; [auto; fail|]); auto.
  - injection H as <- <-. cbn. repeat (split; [auto; fail|]); auto.
Qed.

(** ** the fuel of the parameter loop never runs out *)
Lemma exchange_shrinks cl r p cl' : exchange cl r = (Done (Ok p), cl') ->
  (length (rx (cl_world cl')) < length (rx (cl_world cl)))%nat.
Proof.
  intros H. destruct (elgas_state (cl_connection cl)) eqn:I;
    try (rewrite exchange_refused in H by congruence; discriminate).
  apply exchange_outcome in H; [|exact I]. tauto.
Qed.
Lemma enough_fuel fuel : forall cl n acc fuel', (length (rx (cl_world cl)) < fuel)%nat -> (length (rx (cl_world cl)) < fuel')%nat ->
  read_parameters_loop fuel cl n acc = read_parameters_loop fuel' cl n acc.
Proof.
  induction fuel as [|fuel IH]; intros cl n acc fuel' H H'; [lia|]. destruct fuel' as [|fuel']; [lia|].
  cbn [read_parameters_loop]. destruct (exchange cl _) as [[[p|e]|] cl'] eqn:E; try reflexivity.
  apply exchange_shrinks in E. destruct p; try reflexivity. cbv zeta. destruct is_end; [reflexivity|]. apply IH; lia.
Qed.

(** ** C42 *)
Lemma parse_total (l : list Z) : exists r, parse None (@Some (list Z) l) = Some r.
Proof. destruct l as [|b l]; [eexists; reflexivity|]. eapply (proj2 (parse_any_fuel (length (b :: l)) (b :: l) ltac:(discriminate) (le_n _))). Qed.
Lemma exchange_misfit cl r e : elgas_state (cl_connection cl) = IDLE -> request_times_valid r -> request_misfit r = Some e ->
  exists cl', exchange cl r = (Done (Err e), cl') /\ rx (cl_world cl') = rx (cl_world cl) /\ sent (cl_world cl') = sent (cl_world cl).
Proof.
  intros I V M. destruct (exchange cl r) as [a cl'] eqn:E. apply exchange_outcome in E as (_ & _ & _ & _ & E); [|exact I].
  destruct (draws _ _) as [rnd pad]. pose proof (pdu_to_bytes_error rnd r V) as P. rewrite M in P.
  unfold serialise in E. rewrite P in E. cbn [bind] in E. destruct E as (-> & E2 & E3). eauto.
Qed.
Lemma parameters_misfit password n : (exists e, request_misfit (ReadDeviceParametersRequest password n 1024) = Some e) \/
  (latin1 password /\ 0 <= n <= 65535).
Proof.
  cbn [request_misfit]. destruct (forallb _ password) eqn:L; [|left; eauto].
  destruct ((0 <=? n) && (n <=? 65535)) eqn:E; [|left; eauto]. right. split; [|lia].
  apply Forall_forall. intros c Hc. eapply forallb_forall in L; [|exact Hc]. cbn beta in L. lia.
Qed.
Lemma map_seq_S {A} (f : nat -> A) j : map f (seq 0 (S j)) = f 0%nat :: map (fun i => f (S i)) (seq 0 j).
Proof. cbn [seq map]. rewrite <- seq_shift, map_map. reflexivity. Qed.
Lemma pages_bounded ctx pw : forall m (dev : nat -> page) n,
  (forall i, page_ok ctx (dev i) /\ 1 <= pg_amount (dev i)) -> 65536 - n <= Z.of_nat m ->
  exists j, (j <= m)%nat /\ forall cl acc rest fuel, at_rest ctx cl -> cl_password cl = pw ->
    rx (cl_world cl) = concat (map pg_results (map dev (seq 0 j))) ++ rest -> (j < fuel)%nat ->
    exists r cl', read_parameters_loop fuel cl n acc = (Done r, cl') /\ rx (cl_world cl') = rest /\
      length (sent (cl_world cl')) = (length (sent (cl_world cl)) + j)%nat.
Proof.
  induction m as [|m IH]; intros dev n D H.
  - exists 0%nat. split; [lia|]. intros cl acc rest fuel R Ep E F. destruct fuel as [|fuel]; [lia|].
    destruct (parameters_misfit pw n) as [[e M]|[_ X]]; [|lia].
    destruct (exchange_misfit cl (ReadDeviceParametersRequest pw n 1024) e) as (cl' & Ex & E1 & E2); [apply R|exact I|exact M|].
    exists (Err e), cl'. cbn [read_parameters_loop]. rewrite Ep, Ex, E1, E2. cbn in E. split; [reflexivity|]. split; [exact E|lia].
  - destruct (parameters_misfit pw n) as [[e M]|[L X]].
    + exists 0%nat. split; [lia|]. intros cl acc rest fuel R Ep E F. destruct fuel as [|fuel]; [lia|].
      destruct (exchange_misfit cl (ReadDeviceParametersRequest pw n 1024) e) as (cl' & Ex & E1 & E2); [apply R|exact I|exact M|].
      exists (Err e), cl'. cbn [read_parameters_loop]. rewrite Ep, Ex, E1, E2. cbn in E. split; [reflexivity|]. split; [exact E|lia].
    + destruct (D 0%nat) as [D1 D2].
      destruct (pg_end (dev 0%nat)) eqn:En.
      * exists 1%nat. split; [lia|]. intros cl acc rest fuel R Ep E F. destruct fuel as [|fuel]; [lia|].
        cbn [seq map concat] in E. rewrite app_nil_r in E. subst pw.
        destruct (page_exchange ctx cl n (dev 0%nat) rest R D1 L X E) as (t & Ex & _).
        cbn [read_parameters_loop]. rewrite Ex, En. cbv zeta. cbv iota.
        match goal with |- context [parse None (Some ?x)] => destruct (parse_total x) as [r Er]; rewrite Er end.
        exists r, (after cl t rest). split; [reflexivity|]. cbn. rewrite app_length. cbn. split; [reflexivity|lia].
      * destruct (IH (fun i => dev (S i)) (n + pg_amount (dev 0%nat))) as (j & Hj & IHj); [intros i; apply D|lia|].
        exists (S j). split; [lia|]. intros cl acc rest fuel R Ep E F. destruct fuel as [|fuel]; [lia|].
        rewrite map_seq_S in E. cbn [map concat] in E. rewrite <- app_assoc in E. subst pw.
        destruct (page_exchange ctx cl n (dev 0%nat) _ R D1 L X E) as (t & Ex & _).
        cbn [read_parameters_loop]. rewrite Ex, En. cbv zeta. cbv iota.
        destruct (IHj (after cl t (concat (map pg_results (map (fun i => dev (S i)) (seq 0 j))) ++ rest)) (acc ++ pg_data (dev 0%nat)) rest fuel)
          as (r & cl' & E1 & E2 & E3); [apply after_rest; exact R|reflexivity|reflexivity|lia|].
        exists r, cl'. split; [exact E1|]. split; [exact E2|]. rewrite E3. cbn. rewrite app_length. cbn. lia.
Qed.
Lemma parameters_bounded pw pid k id dev n : usable_context (client_context k id) -> 0 <= n ->
  (forall i, page_ok (client_context k id) (dev i) /\ 1 <= pg_amount (dev i)) ->
  exists j, Z.of_nat j <= 65536 /\ forall w cl rest, make_client pw pid k id w = Ok cl -> tx w = [] ->
    rx w = concat (map pg_results (map dev (seq 0 j))) ++ rest ->
    exists r cl', client_read_parameters cl n = (Done r, cl') /\ rx (cl_world cl') = rest /\
      length (sent (cl_world cl')) = (length (sent w) + j)%nat.
Proof.
  intros U Hn D. set (big := Z.to_nat 65536). assert (Z.of_nat big = 65536) as Hbig by (unfold big; rewrite Z2Nat.id by lia; reflexivity). clearbody big.
  destruct (pages_bounded (client_context k id) pw big dev n D ltac:(lia)) as (j & Hj & Ij).
  exists j. split; [lia|]. intros w cl rest H T E.
  destruct (made_at_rest _ _ _ _ _ _ H U T) as (R & Ep & Ew). subst w. unfold client_read_parameters. apply Ij; auto.
  assert (Forall (page_ok (client_context k id)) (map dev (seq 0 j))) as P.
  { apply Forall_forall. intros x Hx. apply in_map_iff in Hx as (i & <- & _). apply D. }
  apply pages_results in P. rewrite map_length, seq_length in P. rewrite E, app_length. lia.
Qed.
Lemma exchange_waits ctx cl r : at_rest ctx cl -> encodable r -> password_of (cl_password cl) r -> rx (cl_world cl) = [] ->
  exists t cl', exchange cl r = (Waiting, cl') /\ sent (cl_world cl') = sent (cl_world cl) ++ [t] /\ line_from (cl_connection cl) r t.
Proof.
  intros (C & U & L & I & B & T) En Pw R. set (w := cl_world cl) in *. 
  destruct (draws w (requests w)) as [rnd pad] eqn:Ed.
  destruct (request_sent ctx rnd pad (cl_connection cl) r C U I En) as (t & Es & Hl).
  { intros q Hq. rewrite (Pw q Hq). exact L. }
  exists t. eexists. split; [|split; [|exact Hl]].
  - unfold exchange. cbn [client_send]. unfold client_send_one, draw. fold w. rewrite Ed.
    cbn [set_world cl_connection]. rewrite Es. unfold transport_send. cbn [set_connection cl_world set_world tx]. rewrite T.
    unfold transport_recv. cbn [rx]. rewrite R. reflexivity.
  - reflexivity.
Qed.
Lemma endless_pages ctx pg n : page_ok ctx pg -> pg_amount pg = 0 -> pg_end pg = false -> 0 <= n <= 65535 ->
  forall j cl acc fuel, at_rest ctx cl -> latin1 (cl_password cl) -> rx (cl_world cl) = concat (repeat (pg_results pg) j) -> (j < fuel)%nat ->
  exists ts cl', read_parameters_loop fuel cl n acc = (Waiting, cl') /\ sent (cl_world cl') = sent (cl_world cl) ++ ts /\
    length ts = S j /\ Forall (line_from (cl_connection cl) (ReadDeviceParametersRequest (cl_password cl) n 1024)) ts.
Proof.
  intros P A En Hn. induction j as [|j IH]; intros cl acc fuel R L E F; (destruct fuel as [|fuel]; [lia|]).
  - destruct (exchange_waits ctx cl (ReadDeviceParametersRequest (cl_password cl) n 1024)) as (t & cl' & Ex & Es & Hl); auto.
    { apply misfit_parameters; assumption. }
    { intros p Hp. cbn in Hp. congruence. }
    exists [t], cl'. cbn [read_parameters_loop]. rewrite Ex. repeat (split; [auto; fail|]). repeat constructor; assumption.
  - cbn [repeat concat] in E. destruct (page_exchange ctx cl n pg _ R P L Hn E) as (t & Ex & Hl).
    cbn [read_parameters_loop]. rewrite Ex, A, En, Z.add_0_r. cbv zeta. cbv iota.
    destruct (IH (after cl t (concat (repeat (pg_results pg) j))) (acc ++ pg_data pg) fuel) as (ts & cl' & E1 & E2 & E3 & E4); auto.
    { apply after_rest. exact R. } { lia. }
    exists (t :: ts), cl'. split; [exact E1|]. split; [rewrite E2; cbn; rewrite <- app_assoc; reflexivity|].
    split; [cbn; congruence|]. constructor; assumption.
Qed.
Lemma parameters_endless pw pid k id w cl pg n j : make_client pw pid k id w = Ok cl -> usable_context (client_context k id) ->
  tx w = [] -> sent w = [] -> latin1 pw -> 0 <= n <= 65535 ->
  page_ok (client_context k id) pg -> pg_amount pg = 0 -> pg_end pg = false ->
  rx w = concat (repeat (pg_results pg) j) ->
  exists cl', client_read_parameters cl n = (Waiting, cl') /\ length (sent (cl_world cl')) = S j /\
    Forall (request_line (client_context k id) (ReadDeviceParametersRequest pw n 1024)) (sent (cl_world cl')).
Proof.
  intros H U T Es L Hn P A En E. destruct (made_at_rest _ _ _ _ _ _ H U T) as (R & Ep & Ew). subst w pw.
  destruct (endless_pages _ pg n P A En Hn j cl [] (S (length (rx (cl_world cl)))) R L E) as (ts & cl' & E1 & E2 & E3 & E4).
  { rewrite E. assert (j = length (repeat (pg_results pg) j)) as Hj by (symmetry; apply repeat_length). rewrite Hj at 1.
    clear Hj E. apply delivers_nonempty in P. induction j as [|j IH]; [cbn; lia|]. cbn [repeat concat length]. rewrite app_length. lia. }
  rewrite (line_zero _ _ (made_config _ _ _ _ _ _ H)) in E4.
  rewrite Es in E2. cbn in E2. exists cl'. rewrite E2. auto.
Qed.

(** ** C63 *)
Lemma transport_control_spec w : exists r ctl', transport_control w = (r, mk_world (tx w) (rx w) ctl' (sent w) (requests w) (draws w)).
Proof. unfold transport_control. destruct w as [t r [|x c] s n d]; cbn; eauto. Qed.
Lemma operate_refused cl o : elgas_state (cl_connection cl) <> IDLE ->
  exists a cl', operate cl o = (Done a, cl') /\ (communicates o -> a = Err LocalElgasProtocolError) /\
    elgas_state (cl_connection cl') <> IDLE /\ sent (cl_world cl') = sent (cl_world cl).
Proof.
  intros S. assert (forall r, exchange cl r = (Done (Err LocalElgasProtocolError), refused_client cl)) as X
    by (intros r; apply exchange_refused; exact S).
  destruct o; cbn [operate];
    unfold client_connect, client_disconnect, client_read_instantaneous_values, client_read_time, client_write_time,
      client_read_parameters, client_read_archive, client_read_archive_by_time; cbn [read_parameters_loop]; rewrite ?X; cbn [answer_map].
  1,2: destruct (transport_control_spec (cl_world cl)) as (r & ct & ->); destruct r; cbn [answer_map];
       do 2 eexists; (split; [reflexivity|]); (split; [intros [C1 C2]; contradiction|]); auto.
  all: do 2 eexists; (split; [reflexivity|]); auto.
Qed.
Lemma session_refused os : forall cl, elgas_state (cl_connection cl) <> IDLE ->
  all_refused os (fst (session cl os)) /\ sent (cl_world (snd (session cl os))) = sent (cl_world cl).
Proof.
  induction os as [|o os IH]; intros cl S; [split; [constructor|reflexivity]|].
  destruct (operate_refused cl o S) as (a & cl' & E & C & S' & Es). cbn [session]. rewrite E.
  destruct (IH cl' S') as [I1 I2]. destruct (session cl' os) as [rs cl'']. cbn [fst snd] in *.
  split; [constructor; [intros H; rewrite (C H); reflexivity|exact I1]|congruence].
Qed.
Lemma exchange_err_stuck cl r x cl' : exchange cl r = (Done (Err x), cl') -> elgas_state (cl_connection cl') <> IDLE.
Proof.
  intros H. destruct (elgas_state (cl_connection cl)) eqn:I;
    try (rewrite exchange_refused in H by congruence; injection H as _ <-; cbn; congruence).
  apply exchange_outcome in H; [|exact I]. tauto.
Qed.
Lemma exchange_service cl r p cl' : exchange cl r = (Done (Ok p), cl') -> pdu_service p = request_service r.
Proof.
  intros H. destruct (elgas_state (cl_connection cl)) eqn:I;
    try (rewrite exchange_refused in H by congruence; discriminate).
  apply exchange_outcome in H; [|exact I]. tauto.
Qed.
Lemma parameters_err fuel : forall cl n acc x cl', read_parameters_loop fuel cl n acc = (Done (Err x), cl') ->
  elgas_state (cl_connection cl') <> IDLE \/ exists data, parse None (Some data) = Some (Err x).
Proof.
  induction fuel as [|fuel IH]; intros cl n acc x cl' H; [discriminate|]. cbn [read_parameters_loop] in H.
  destruct (exchange cl _) as [[[p|e]|] cl1] eqn:E; [|injection H as -> ->; left; eapply exchange_err_stuck; exact E|discriminate].
  pose proof (exchange_service _ _ _ _ E) as Sv. destruct p; try discriminate. cbv zeta in H.
  destruct is_end; [|eapply IH; exact H]. right.
  destruct (parse None _) as [r|] eqn:P; [|discriminate]. injection H as -> _. eauto.
Qed.
Lemma operate_err cl o x cl' : communicates o -> operate cl o = (Done (Err x), cl') ->
  elgas_state (cl_connection cl') <> IDLE \/
  (exists n data, o = OpReadParameters n /\ parse None (Some data) = Some (Err x)).
Proof.
  intros [C1 C2] H. destruct o; try contradiction; cbn [operate] in H;
    unfold client_read_instantaneous_values, client_read_time, client_write_time,
      client_read_archive, client_read_archive_by_time in H;
  try (match type of H with context [exchange cl ?r] => destruct (exchange cl r) as [[[p|e]|] cl1] eqn:E end;
       cbn [answer_map] in H; [|injection H as -> ->; left; eapply exchange_err_stuck; exact E|discriminate]);
  try discriminate.
  - pose proof (exchange_service _ _ _ _ E) as Sv. destruct p; discriminate.
  - unfold client_read_parameters in H. destruct (read_parameters_loop _ _ _ _) as [[[p|e]|] cl1] eqn:E; cbn [answer_map] in H; try discriminate.
    injection H as -> ->. apply parameters_err in E as [E|[data E]]; eauto.
Qed.
Lemma no_recovery cl o x cl' os : communicates o -> operate cl o = (Done (Err x), cl') ->
  (forall n data, o = OpReadParameters n -> parse None (Some data) <> Some (Err x)) ->
  all_refused os (fst (session cl' os)) /\ sent (cl_world (snd (session cl' os))) = sent (cl_world cl').
Proof.
  intros C H P. apply session_refused. destruct (operate_err _ _ _ _ C H) as [S|(n & data & -> & E)]; [exact S|].
  exfalso. exact (P n data eq_refl E).
Qed.

(** ** C64: a corrupted telegram *)
Lemma bad_silent c w t : on_line w t -> response_factory w = Err ValueError -> first_telegram t (buffer c) ->
  next_event c = (Ok None, c).
Proof. intros Ho R (rest & E). rewrite (next_event_read c w t rest Ho E), (interpret_reads _ _ _ Ho), R. reflexivity. Qed.
Lemma bad_loop w t : on_line w t -> response_factory w = Err ValueError -> forall rx c, first_telegram t (buffer c) ->
  waits_or_fails (fst (fst (next_event_loop rx c))) rx.
Proof.
  intros Ho R. induction rx as [|x rx IH]; intros c F; cbn [next_event_loop]; rewrite (bad_silent c w t Ho R F).
  - left. reflexivity.
  - destruct x as [d|e].
    + destruct (IH (receive_data c d)) as [->|(x & -> & I)].
      * apply appended; [exact F|eapply on_line_nonempty; exact Ho].
      * left; reflexivity.
      * right. exists x. split; [reflexivity|right; exact I].
    + right. exists e. split; [reflexivity|left; reflexivity].
Qed.
Lemma bad_arrives w t : on_line w t -> t <> [13] -> response_factory w = Err ValueError ->
  forall pieces more c s, t = buffer c ++ s -> s <> [] -> first_telegram s (concat pieces) ->
  waits_or_fails (fst (fst (next_event_loop (map Ok pieces ++ more) c))) more.
Proof.
  intros Ho Nt R. pose proof Ho as (q & Eq & Hq & _).
  assert (forall l more, waits_or_fails (A := response_pdu) l (map Ok (@nil bytes) ++ more) -> waits_or_fails l more) as _ by auto.
  induction pieces as [|x pieces IH]; intros more c s Es Ns (rest & Er).
  - destruct s; [contradiction|discriminate].
  - assert (next_event c = (Ok None, c)) as Hc.
    { apply next_event_uncut. rewrite Eq in Es. destruct (exists_last Ns) as (s' & y & ->). rewrite app_assoc in Es.
      apply app_inj_tail in Es as [-> _]. intros I. apply Hq. apply in_or_app. left. exact I. }
    cbn [map app next_event_loop]. rewrite Hc. cbn [concat] in Er.
    destruct (list_eq_dec Z.eq_dec x []) as [->|Nx].
    { rewrite receive_nil. apply (IH more c s Es Ns). exists rest. exact Er. }
    assert (receive_data c x = set_buffer c (buffer c ++ x)) as ->.
    { apply receive_nonend; [exact Nx|]. destruct (buffer c) as [|b0 b] eqn:B; [left|right; discriminate].
      intros ->. cbn [app] in Es, Er. subst s. destruct q as [|q0 q]; [rewrite Eq in Nt; apply Nt; reflexivity|].
      rewrite Eq in Er. cbn [app] in Er. injection Er as E0 _. apply Hq. left. symmetry. exact E0. }
    apply app_eq_app in Er as (m & [[E1 E2]|[E1 E2]]).
    + destruct m as [|m0 m].
      * rewrite app_nil_r in E1. cbn in E2. subst x.
        assert (first_telegram t (buffer (set_buffer c (buffer c ++ s)))) as F by (exists []; cbn; rewrite app_nil_r; symmetry; exact Es).
        pose proof (bad_loop w t Ho R (map Ok pieces ++ more) _ F) as [Hw|(e & He & Hi)]; [left; exact Hw|].
        right. exists e. split; [exact He|]. apply in_app_or in Hi as [Hi|Hi]; [|exact Hi].
        apply in_map_iff in Hi as (? & ? & _). discriminate.
      * assert (first_telegram t (buffer (set_buffer c (buffer c ++ x)))) as F.
        { exists (m0 :: m). cbn. rewrite E1, Es, <- app_assoc. reflexivity. }
        pose proof (bad_loop w t Ho R (map Ok pieces ++ more) _ F) as [Hw|(e & He & Hi)]; [left; exact Hw|].
        right. exists e. split; [exact He|]. apply in_app_or in Hi as [Hi|Hi]; [|exact Hi].
        apply in_map_iff in Hi as (? & ? & _). discriminate.
    + destruct m as [|m0 m].
      * rewrite app_nil_r in E1. subst s.
        assert (first_telegram t (buffer (set_buffer c (buffer c ++ x)))) as F by (exists []; cbn; rewrite app_nil_r; symmetry; exact Es).
        pose proof (bad_loop w t Ho R (map Ok pieces ++ more) _ F) as [Hw|(e & He & Hi)]; [left; exact Hw|].
        right. exists e. split; [exact He|]. apply in_app_or in Hi as [Hi|Hi]; [|exact Hi].
        apply in_map_iff in Hi as (? & ? & _). discriminate.
      * apply (IH more (set_buffer c (buffer c ++ x)) (m0 :: m)).
        -- cbn. rewrite Es, E1, <- app_assoc. reflexivity.
        -- discriminate.
        -- exists rest. exact E2.
Qed.
Lemma changed_rejected w w' t : telegram w -> one_byte_changed w w' -> is_bytes t -> on_line w' t ->
  response_factory w' = Err ValueError /\ t <> [13].
Proof.
  intros T C Hb Ho. destruct (changed_not_telegram w w' T C) as [L N]. split.
  - apply not_telegram_rejected; auto. destruct Ho as (_ & _ & _ & U). eapply unesc_bytes; eauto.
  - intros ->. destruct Ho as (p & _ & _ & U). inversion U; subst. inversion H3; subst. unfold len in L. cbn in L. lia.
Qed.
Lemma exchange_corrupted ctx cl r w t pieces more : at_rest ctx cl -> encodable r -> password_of (cl_password cl) r ->
  on_line w t -> t <> [13] -> response_factory w = Err ValueError -> first_telegram t (concat pieces) ->
  rx (cl_world cl) = map Ok pieces ++ more ->
  waits_or_fails (fst (exchange cl r)) more.
Proof.
  intros (C & U & L & I & B & T) En Pw Ho Nt R F E. set (wd := cl_world cl) in *. 
  destruct (draws wd (requests wd)) as [rnd pad] eqn:Ed.
  destruct (request_sent ctx rnd pad (cl_connection cl) r C U I En) as (out & Es & Hl).
  { intros q Hq. rewrite (Pw q Hq). exact L. }
  unfold exchange. cbn [client_send]. unfold client_send_one, draw. fold wd. rewrite Ed.
  cbn [set_world cl_connection]. rewrite Es. unfold transport_send. cbn [set_connection cl_world set_world tx]. rewrite T.
  unfold transport_recv. cbn [rx]. rewrite E.
  set (c := set_state (cl_connection cl) (awaiting (request_service r))).
  destruct pieces as [|x pieces].
  { destruct F as (rest & F). destruct Ho as (p & Ep & _). rewrite Ep in F. destruct p; discriminate. }
  cbn [map app cl_password cl_connection cl_world tx ctl sent requests draws].
  unfold client_next_event. cbn [cl_world cl_connection cl_password rx tx ctl sent requests draws set_connection set_world].
  pose proof (bad_arrives w t Ho Nt R (x :: pieces) more c t) as X. cbn [map app next_event_loop] in X.
  fold c. rewrite next_event_uncut in X by (unfold c; cbn; rewrite B; intros []).
  destruct (next_event_loop (map Ok pieces ++ more) (receive_data c x)) as [[a c'] rx'] eqn:El. cbn [fst] in *. apply X; auto.
  - unfold c. cbn. rewrite B. reflexivity.
  - eapply on_line_nonempty; exact Ho.
Qed.
Lemma opens_password cl o r : opens (cl_password cl) o = Some r -> password_of (cl_password cl) r.
Proof. destruct o; cbn; intros A; inversion A; subst; intros q Hq; cbn in Hq; congruence. Qed.
Lemma operate_corrupted ctx cl o r w t pieces more : at_rest ctx cl -> opens (cl_password cl) o = Some r -> encodable r ->
  on_line w t -> t <> [13] -> response_factory w = Err ValueError -> first_telegram t (concat pieces) ->
  rx (cl_world cl) = map Ok pieces ++ more ->
  waits_or_fails (fst (operate cl o)) more.
Proof.
  intros R A En Ho Nt Rj F E. pose proof (exchange_corrupted ctx cl r w t pieces more R En (opens_password _ _ _ A) Ho Nt Rj F E) as X.
  destruct o; cbn in A; inversion A; subst r; cbn [operate];
    unfold client_read_instantaneous_values, client_read_time, client_write_time, client_read_parameters,
      client_read_archive, client_read_archive_by_time; cbn [read_parameters_loop];
    destruct (exchange cl _) as [a cl']; cbn [fst] in X; destruct X as [->|(x & -> & Hi)]; cbn [answer_map fst];
    first [left; reflexivity|right; exists x; split; [reflexivity|exact Hi]].
Qed.
Lemma session_app os : forall cl vs cl' o, session cl os = (vs, cl') -> ~ In Waiting vs ->
  session cl (os ++ [o]) = (vs ++ [fst (operate cl' o)], snd (operate cl' o)).
Proof.
  induction os as [|o' os IH]; intros cl vs cl' o H N.
  - injection H as <- <-. cbn. destruct (operate cl o) as [[r|] cl'']; reflexivity.
  - cbn [session app] in *. destruct (operate cl o') as [[r|] cl1].
    + destruct (session cl1 os) as [rs cl2] eqn:S. injection H as <- <-.
      rewrite (IH cl1 rs cl2 o S) by (intros I; apply N; right; exact I). reflexivity.
    + injection H as <- <-. exfalso. apply N. left. reflexivity.
Qed.
Lemma converses_done ctx pw os results rs vs : converses ctx pw os results rs vs -> ~ In Waiting vs.
Proof. induction 1 as [|? ? ? ? ? ? ? ? ? ? ? ? ? _ IH|? ? ? ? ? ? ? ? ? ? ? ? ? _ IH]; [auto|..]; (intros [H'|H']; [discriminate|exact (IH H')]). Qed.
Lemma corrupted_answer pw pid k id wd cl os results rs vs o r w t pieces more :
  make_client pw pid k id wd = Ok cl -> usable_context (client_context k id) -> tx wd = [] ->
  converses (client_context k id) pw os results rs vs ->
  opens pw o = Some r -> encodable r ->
  is_bytes t -> on_line w t -> 16 <= len w -> ~ telegram w -> first_telegram t (concat pieces) ->
  rx wd = results ++ map Ok pieces ++ more ->
  exists last cl', session cl (os ++ [o]) = (vs ++ [last], cl') /\ waits_or_fails last more.
Proof.
  intros H U T C A En Hb Ho Hl N F E. destruct (made_at_rest _ _ _ _ _ _ H U T) as (R & Ep & Ew). subst wd pw.
  destruct (conversation _ _ _ _ _ _ C cl _ R eq_refl E) as (ts & Es & _).
  rewrite (session_app os cl vs _ o Es (converses_done _ _ _ _ _ _ C)).
  do 2 eexists. split; [reflexivity|].
  apply (operate_corrupted (client_context k id) _ o r w t pieces more); auto.
  - apply afters_rest. exact R.
  - intros ->. destruct Ho as (p & _ & _ & U'). inversion U'; subst. inversion H4; subst. unfold len in Hl. cbn in Hl. lia.
  - apply not_telegram_rejected; auto. destruct Ho as (_ & _ & _ & U'). eapply unesc_bytes; eauto.
Qed.

(** ** C65: everything that is ever sent *)
Lemma unesc_bytes_back t w : unesc t w -> is_bytes w -> is_bytes t.
Proof.
  unfold is_bytes. induction 1; intros B; try (apply Forall_cons_iff in B as [B1 B2]); repeat (constructor; [try exact B1; unfold is_byte; lia|]); auto.
  apply Forall_cons_iff in B2 as [B3 B4]. constructor; [exact B3|auto].
Qed.
Lemma made_bytes T f t : is_byte T -> is_bytes (f_data f) -> (w <- request_to_bytes T f ;; escape_characters w) = Ok t -> is_bytes t.
Proof.
  intros HT B H. apply bind_ok in H as (w & E & H). apply FramesProofs.request_to_bytes_sealed in E as (R & -> & BR); auto.
  destruct (escape_sealed R) as (out & Eo & p & Ep & _ & U). rewrite Eo in H. injection H as <-. apply (unesc_bytes_back _ _ U). apply LineProofs.sealed_is_bytes, BR.
Qed.
Lemma serialise_bytes rnd pad c r t : match context c with Some x => is_bytes (key x) | None => True end -> serialise rnd pad c r = Ok t -> is_bytes t.
Proof.
  intros Hk H. unfold serialise in H. destruct (pdu_to_bytes rnd r) as [app|] eqn:E; cbn [bind] in H; [|discriminate].
  pose proof (pdu_bytes _ _ _ E) as Hb. destruct (context c) as [[id k]|].
  - cbn [key] in Hk. destruct (context_encrypt pad (mk_context id k) app) as [p|] eqn:Ee; cbn [bind] in H; [|discriminate].
    pose proof (SecurityProofs.encrypt_errors pad id k app Hb) as X. rewrite Ee in X. rewrite Z.gtb_ltb in X.
    destruct (Z.ltb_spec 65535 (len app)); [discriminate|].
    destruct (Z.leb_spec 0 id), (Z.leb_spec id 255); cbn [andb negb] in X; try discriminate.
    destruct (Z.eqb_spec (len k) 16); cbn [negb] in X; [|discriminate].
    destruct (SecurityProofs.encrypt_payload pad id k app ltac:(split; assumption) Hb ltac:(lia) ltac:(lia)) as (p' & pd & E1 & _ & Bp & _).
    rewrite Ee in E1. injection E1 as <-. eapply made_bytes; [| |exact H]; [unfold is_byte, ENCRYPTED_REQUEST_TYPE; lia|exact Bp].
  - eapply made_bytes; [| |exact H]; [unfold is_byte, REQUEST_TYPE; lia|exact Hb].
Qed.
Definition sent_ok (c : connection) (pw : str) (t : bytes) : Prop :=
  is_bytes t /\ exists r, password_of pw r /\ line_from c r t.
Definition clean (c : connection) (cl : client) : Prop :=
  config (cl_connection cl) = config c /\ (sane c /\ match context c with Some x => is_bytes (key x) | None => True end) /\
  Forall (sent_ok c (cl_password cl)) (sent (cl_world cl)).
Lemma serialise_line rnd pad c c0 r t : config c = config c0 -> sane c0 /\ match context c0 with Some x => is_bytes (key x) | None => True end ->
  serialise rnd pad c r = Ok t -> line_from c0 r t.
Proof.
  unfold config. intros C [Sc K] Et. injection C as C1 C2 C3 C4 C5.
  apply serialise_inv in Et; [|unfold sane; rewrite C1, C2, C3, C4; exact Sc|rewrite C5; exact K].
  destruct Et as (app & E & X). exists app. split; [eapply pdu_data; exact E|]. unfold sends in X. rewrite C1, C2, C3, C4, C5, function_code_ok in X.
  destruct X as [[-> X]|(i & k & q & -> & _ & _ & Sq & _ & X)]; [exact X|eauto].
Qed.
Lemma exchange_clean c cl r a cl' : clean c cl -> password_of (cl_password cl) r -> exchange cl r = (a, cl') ->
  clean c cl' /\ cl_password cl' = cl_password cl.
Proof.
  intros (C & K & F) Pw H. destruct (elgas_state (cl_connection cl)) eqn:I.
  2-7: rewrite exchange_refused in H by congruence; injection H as _ <-; split; [|reflexivity]; split; [exact C|split; [exact K|exact F]].
  apply exchange_outcome in H as (H1 & H2 & _ & _ & H3); [|exact I]. split; [|exact H1].
  unfold clean. rewrite H1, H2. split; [exact C|]. split; [exact K|].
  destruct (draws _ _) as [rnd pad]. destruct (serialise rnd pad _ r) as [t|e] eqn:Es.
  - rewrite H3. apply Forall_app. split; [exact F|]. constructor; [|constructor].
    split; [eapply serialise_bytes; [|exact Es]; destruct K as [_ K]; unfold config in C; injection C as _ _ _ _ ->; exact K|].
    exists r. split; [exact Pw|]. eapply serialise_line; eauto.
  - destruct H3 as (_ & -> & _). exact F.
Qed.
Lemma parameters_clean c fuel : forall cl n acc a cl', clean c cl -> read_parameters_loop fuel cl n acc = (a, cl') ->
  clean c cl' /\ cl_password cl' = cl_password cl.
Proof.
  induction fuel as [|fuel IH]; intros cl n acc a cl' C H; [injection H as _ <-; auto|].
  cbn [read_parameters_loop] in H. destruct (exchange cl _) as [a1 cl1] eqn:E.
  apply (exchange_clean c) in E as [C1 P1]; [|exact C|intros p Hp; cbn in Hp; congruence].
  destruct a1 as [[p|e]|]; [|injection H as _ <-; auto|injection H as _ <-; auto].
  destruct p; try (injection H as _ <-; auto; fail). cbv zeta in H.
  destruct is_end; [injection H as _ <-; auto|]. apply IH in H as [C2 P2]; [|exact C1]. split; [exact C2|congruence].
Qed.
Lemma operate_clean c cl o : clean c cl ->
  clean c (snd (operate cl o)) /\ cl_password (snd (operate cl o)) = cl_password cl.
Proof.
  intros C. assert (forall A B (f : A -> B) (x : answer A * client), snd (answer_map f x) = snd x) as Am
    by (intros A B f [[[?|?]|] ?]; reflexivity).
  assert (forall r, password_of (cl_password cl) r ->
    clean c (snd (exchange cl r)) /\ cl_password (snd (exchange cl r)) = cl_password cl) as X.
  { intros r Pr. destruct (exchange cl r) as [a cl'] eqn:E. eapply exchange_clean; eauto. }
  assert (clean c (snd (client_connect cl)) /\ cl_password (snd (client_connect cl)) = cl_password cl) as Y.
  { unfold client_connect. destruct (transport_control_spec (cl_world cl)) as (r & ct & ->). cbn. split; [exact C|reflexivity]. }
  destruct o; cbn [operate]; rewrite Am;
    unfold client_read_instantaneous_values, client_read_time, client_write_time, client_read_archive, client_read_archive_by_time;
    [exact Y|exact Y| | | | | |];
    try (match goal with |- context [exchange _ ?r] => specialize (X r ltac:(intros q Hq; cbn in Hq; congruence)); destruct (exchange cl r) as [[[p|e]|] cl1] end;
         cbn [snd] in *; try exact X; destruct p; exact X).
  unfold client_read_parameters. destruct (read_parameters_loop _ _ _ _) as [a cl'] eqn:E. eapply parameters_clean; eauto.
Qed.
Lemma session_clean c os : forall cl, clean c cl ->
  clean c (snd (session cl os)) /\ cl_password (snd (session cl os)) = cl_password cl.
Proof.
  induction os as [|o os IH]; intros cl C; [auto|]. cbn [session].
  pose proof (operate_clean c cl o C) as [C1 P1]. destruct (operate cl o) as [[r|] cl1]; cbn [snd] in *; [|auto].
  destruct (IH cl1 C1) as [C2 P2]. destruct (session cl1 os) as [rs cl2]. cbn [snd] in *. split; [exact C2|congruence].
Qed.
Lemma sent_all pw pid k id w cl os : make_client pw pid k id w = Ok cl -> key_bytes k -> sent w = [] ->
  Forall (fun t => is_bytes t /\ exists r, (forall p, request_password r = Some p -> p = pw) /\ request_line (client_context k id) r t)
    (sent (cl_world (snd (session cl os)))).
Proof.
  intros H K S. apply make_client_inv in H as (_ & <- & <- & C & _ & _).
  destruct (client_sane _ _ C) as [Sc Ec].
  assert (clean (cl_connection cl) cl) as Cl.
  { split; [reflexivity|]. split; [|rewrite S; constructor]. split; [exact Sc|]. rewrite Ec. destruct k as [[|b k]|], id; cbn; try exact I. exact K. }
  destruct (session_clean _ os cl Cl) as [(_ & _ & F) P]. rewrite P in F. unfold sent_ok in F. rewrite (line_zero _ _ C) in F. exact F.
Qed.
Lemma sent_lines pw pid k id w cl os : make_client pw pid k id w = Ok cl -> key_bytes k -> sent w = [] ->
  Forall (fun t => exists r, (forall p, request_password r = Some p -> p = pw) /\ request_line (client_context k id) r t)
    (sent (cl_world (snd (session cl os)))).
Proof. intros H K S. eapply Forall_impl; [|eapply sent_all; eauto]. intros t [_ X]. exact X. Qed.
Lemma sent_types pw pid k id w cl os : make_client pw pid k id w = Ok cl -> key_bytes k -> sent w = [] ->
  Forall (fun t => exists w0 tail, on_line w0 t /\
      w0 = [2; 254; match client_context k id with Some _ => 133 | None => 132 end] ++ tail)
    (sent (cl_world (snd (session cl os)))).
Proof.
  intros H K S. eapply Forall_impl; [|eapply sent_lines; eauto].
  intros t (r & _ & app & _ & L). destruct (client_context k id) as [[i key]|].
  - destruct L as (p & _ & O). destruct (wire_type be2 133 (function_code r) 0 0 0 0 p) as (tail & E).
    unfold request_wire in O. rewrite E in O. eauto.
  - destruct (wire_type be2 132 (function_code r) 0 0 0 0 app) as (tail & E).
    unfold request_wire in L. rewrite E in L. eauto.
Qed.
Lemma sent_passwords pw pid k id w cl os : make_client pw pid k id w = Ok cl -> key_bytes k -> sent w = [] ->
  client_context k id = None ->
  Forall (fun t => exists w0, on_line w0 t /\
      ((exists tail, w0 = [2; 254; 132; 108] ++ tail) \/ (exists before after, w0 = [2; 254; 132] ++ before ++ pw ++ after)))
    (sent (cl_world (snd (session cl os)))).
Proof.
  intros H K S N. pose proof (sent_lines pw pid k id w cl os H K S) as F. rewrite N in F. eapply Forall_impl; [|exact F].
  intros t (r & Pw & ap & E & L). eexists. split; [exact L|].
  destruct (request_password r) as [p|] eqn:Ep.
  - right. rewrite (Pw p eq_refl) in *. destruct (data_password _ _ _ Ep E) as (s & ->).
    unfold request_wire, wire, sealed. rewrite <- !app_assoc. cbn [app].
    exists (function_code r :: le2 (len (pw ++ s) + 15) ++ be2 0 ++ [0] ++ be2 0 ++ [0]).
    eexists. unfold le2. cbn [app]. reflexivity.
  - left. destruct r; try discriminate. unfold request_wire, wire, sealed. cbn [app]. eexists. reflexivity.
Qed.

(** ** C66 *)
Lemma stale_answer pw pid k id w cl t1 dar dst dev extra first again rest :
  make_client pw pid k id w = Ok cl -> usable_context (client_context k id) -> tx w = [] ->
  delivers (client_context k id) READ_DEVICE_TIME (ReadTimeResponse t1 dar dst dev extra) first ->
  delivers (client_context k id) READ_DEVICE_TIME (ReadTimeResponse t1 dar dst dev extra) again ->
  rx w = first ++ again ++ rest ->
  exists cl', session cl [OpReadTime; OpReadTime] = ([Done (Ok (RTime t1)); Done (Ok (RTime t1))], cl') /\
    rx (cl_world cl') = rest.
Proof.
  intros H U T D1 D2 E. destruct (made_at_rest _ _ _ _ _ _ H U T) as (R & Ep & Ew). subst w.
  assert (converses (client_context k id) pw [OpReadTime; OpReadTime] (first ++ again ++ [])
     [ReadTimeRequest; ReadTimeRequest] [Done (Ok (RTime t1)); Done (Ok (RTime t1))]) as C.
  { eapply conv_exchange; [reflexivity|split; [reflexivity|exact I]|exact D1|constructor|].
    eapply conv_exchange; [reflexivity|split; [reflexivity|exact I]|exact D2|constructor|]. constructor. }
  destruct (conversation _ _ _ _ _ _ C cl rest R Ep) as (ts & Es & _).
  - rewrite app_nil_r, <- app_assoc. exact E.
  - eexists. split; [exact Es|reflexivity].
Qed.
Lemma other_archive pw pid k id w cl a n i b j data results rest :
  make_client pw pid k id w = Ok cl -> usable_context (client_context k id) -> tx w = [] ->
  encodable (ReadArchiveRequest pw a n i) ->
  delivers (client_context k id) READ_ARCHIVES (ReadArchiveResponse b j data) results -> rx w = results ++ rest ->
  fst (operate cl (OpReadArchive a n i)) = Done (Ok (RPdu (ReadArchiveResponse b j data))).
Proof.
  intros H U T En D E. destruct (made_at_rest _ _ _ _ _ _ H U T) as (R & Ep & Ew). subst w pw.
  destruct (exchange_operation (client_context k id) cl (OpReadArchive a n i) _ (ReadArchiveResponse b j data) (RPdu (ReadArchiveResponse b j data)) results rest R eq_refl En D (gives_archive _ _ _ _) E)
    as (t & -> & _). reflexivity.
Qed.

(** ** statements over a fresh client *)
Lemma client_parameters pw pid k id w cl n pages rest r :
  make_client pw pid k id w = Ok cl -> usable_context (client_context k id) -> tx w = [] -> sent w = [] -> latin1 pw ->
  Forall (page_ok (client_context k id)) pages -> complete pages -> 0 <= n ->
  n + total (map pg_amount (removelast pages)) <= 65535 ->
  rx w = concat (map pg_results pages) ++ rest ->
  reads (concat (map pg_data pages)) r ->
  exists cl', client_read_parameters cl n = (Done r, cl') /\ rx (cl_world cl') = rest /\
    Forall2 (request_line (client_context k id)) (page_requests pw n pages) (sent (cl_world cl')).
Proof.
  intros H U T Es L P C Hn Ht E Pr. destruct (made_at_rest _ _ _ _ _ _ H U T) as (R & Ep & Ew). subst w pw.
  destruct (parameters_read _ cl n pages rest r R P C L Hn Ht E Pr) as (ts & E1 & F).
  rewrite (line_zero _ _ (made_config _ _ _ _ _ _ H)) in F.
  eexists. split; [exact E1|]. split; [reflexivity|]. cbn. rewrite Es. exact F.
Qed.
