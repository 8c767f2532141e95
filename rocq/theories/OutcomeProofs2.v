(** Proofs: what the calls of a client make of any bytes that arrive; whole sessions. *)
From Coq Require Import Lia.
From Verif Require Import PyFacts SpecUtils UtilsProofs SpecFrames FramesProofs SpecSecurity SecurityProofs SpecConnection SpecApplication SpecPdu SpecText.
From Verif Require Import Connection ConnectionProofs ParamLang Parameters ParserProofs Client SpecClient ClientProofs SpecErrors.
From Verif Require Import Transport SpecTransport TransportProofs SpecStack StackProofs Stack SpecSession SessionProofs SessionProofs2 TimedProofs SpecIndep IndepProofs SpecDecode SpecBlock BlockProofs SpecOutcome OutcomeProofs.
Open Scope list_scope.
Open Scope Z_scope.

(** ** one exchange *)
Record standing (ctx : option cipher_context) (s : stack) : Prop := mk_standing {
  sd_ready : ready ctx (st_connection s);
  sd_usable : usable_context ctx;
  sd_password : len (st_password s) <= 65000;
  sd_idle : elgas_state (st_connection s) = IDLE;
  sd_buffer : buffer (st_connection s) = [];
  sd_open : is_open (st_transport s) = true;
  sd_outcomes : outcomes (env (st_transport s)) = [];
  sd_bytes : stream_bytes (stream (incoming (env (st_transport s)))) }.
Definition arriving_at (s : stack) : list (res Z) := stream (incoming (env (st_transport s))).
Definition calls_of (s : stack) : list socket_call := log (env (st_transport s)).

Lemma heard_rest ctx srv bs a rest : heard ctx srv bs a rest -> stream_bytes bs -> stream_bytes rest.
Proof.
  intros H. induction H as [bs a rest H IH|d N|d x rest N|d w p rest D L V|d w x rest D L V|d w more D L V|d w more x rest D L V]; intros B.
  - inversion B; auto.
  - constructor.
  - apply stream_bytes_app in B as [_ B]. inversion B; auto.
  - apply stream_bytes_app in B. tauto.
  - apply stream_bytes_app in B. tauto.
  - constructor.
  - apply stream_bytes_app in B as [_ B]. inversion B; auto.
Qed.
(** the data of a parameter answer is bytes *)
Lemma heard_bytes ctx bs data number amount e rest : usable_context ctx -> stream_bytes bs ->
  heard ctx READ_SCADA_PARAMETERS bs (Done (Ok (ReadDeviceParametersResponse data number amount e))) rest -> is_bytes data.
Proof.
  intros U B H. remember (Done (Ok (ReadDeviceParametersResponse data number amount e))) as a eqn:E.
  induction H as [bs a rest H IH| | |d w p rest D L V| | | ]; try discriminate.
  - apply IH; [inversion B; assumption|exact E].
  - injection E as ->. inversion V as [d0 p S N M| | | | | | | | ]; subst. apply stream_bytes_app in B as [B _]. apply stream_bytes_map in B.
    pose proof (says_bytes _ _ U _ _ S) as Bd. inversion M; subst. repeat (apply is_bytes_app in Bd as [_ Bd]). exact Bd.
Qed.
Definition count (bs : list (res Z)) : nat := length (filter (fun r => match r with Ok _ => true | Err _ => false end) bs).
Lemma count_app a b : count (a ++ b) = (count a + count b)%nat.
Proof. unfold count. rewrite filter_app, app_length. reflexivity. Qed.
Lemma heard_less ctx srv bs p rest : heard ctx srv bs (Done (Ok p)) rest -> (count rest < count bs)%nat.
Proof.
  remember (Done (Ok p)) as a eqn:E. intros H. induction H as [bs a rest H IH| | |d w q rest D L V| | | ]; try discriminate.
  - specialize (IH E). unfold count in *. cbn. lia.
  - rewrite count_app, map_app, count_app. unfold count at 3. cbn. lia.
Qed.
(** the part of one exchange after the request is written *)
Lemma receive_hears c t t' q n pw dr b s' : is_open t = true -> rest_of t' = rest_of t -> needs c -> took (stream (incoming (env t))) q (stream (incoming (env t'))) ->
  match match
    match match q with Done (Err x) => Done (Err (wrapped x)) | r => r end with
    | Waiting => (Waiting, mk_stack pw c t' n dr)
    | Done (Err e) => (Done (Err e), mk_stack pw c t' n dr)
    | Done (Ok response_data) => (Done (Ok tt), mk_stack pw (receive_data c response_data) t' n dr)
    end with
    | (Done (Ok _), s) => (Done (Ok tt), s)
    | (r, s) => (r, s)
    end with
  | (Waiting, s) => (Waiting, s)
  | (Done (Err e), s) => (Done (Err e), s)
  | (Done (Ok _), s) => stack_next_event s
  end = (b, s') ->
  rest_of (st_transport s') = rest_of t /\ st_password s' = pw /\
  exists c', hear c (stream (incoming (env t))) = (b, c', arriving_at s') /\
    bare (st_connection s') = bare c' /\ (forall p, b = Done (Ok p) -> st_connection s' = c').
Proof.
  intros Ot Rt Nd Tk E. pose proof (hear_took _ _ _ _ Nd Tk) as H. unfold arriving_at. destruct q as [[d|x]|].
  - unfold stack_next_event in E. apply loop_hears in E; [|cbn [st_transport]; injection Rt as _ X _ _; rewrite X; exact Ot|apply Nat.lt_succ_diag_r].
    cbn [st_transport st_connection st_password st_draws st_requests] in E. rewrite <- H in E. rewrite <- Rt. destruct E as (E1 & E2 & _ & _ & E3). auto.
  - injection E as <- <-. destruct H as (c' & H & B). cbn [st_transport st_connection st_password st_draws st_requests].
    split; [exact Rt|]. split; [reflexivity|]. exists c'. split; [exact H|]. split; [symmetry; exact B|discriminate].
  - injection E as <- <-. destruct H as (c' & H & B). cbn [st_transport st_connection st_password st_draws st_requests].
    split; [exact Rt|]. split; [reflexivity|]. exists c'. split; [exact H|]. split; [symmetry; exact B|discriminate].
Qed.
Lemma awaiting_busy r : awaiting (request_service r) <> IDLE.
Proof. destruct r; discriminate. Qed.
Lemma exchange_heard ctx s r a s' : standing ctx s -> password_of (st_password s) r -> request_times_valid r -> stack_exchange s r = (a, s') ->
  st_password s' = st_password s /\
  match request_misfit r with
  | Some x => a = Done (Err x) /\ st_transport s' = st_transport s /\ elgas_state (st_connection s') <> IDLE
  | None => exists line, line_from (st_connection s) r line /\ calls_of s' = calls_of s ++ [SWrite line] /\
      heard ctx (request_service r) (arriving_at s) a (arriving_at s') /\
      match a with
      | Done (Ok p) => standing ctx s' /\ st_connection s' = st_connection s /\ pdu_service p = request_service r
      | _ => elgas_state (st_connection s') <> IDLE
      end
  end.
Proof.
  intros [C U L I B Op Out By] Pw V. unfold stack_exchange. cbn [stack_send]. unfold stack_send_one.
  destruct (st_draws s (st_requests s)) as [rnd pad]. cbn [st_connection].
  destruct (request_misfit r) as [x|] eqn:M.
  { destruct (failed_send_stuck rnd pad (st_connection s) r x I V M) as (c' & -> & Nc & _). unfold st_set_connection.
    cbn [st_password st_transport st_connection]. intros E. injection E as <- <-. auto. }
  destruct (request_sent ctx rnd pad (st_connection s) r C U I (conj M V)) as (line & -> & Hl).
  { intros p Hp. rewrite (Pw p Hp). exact L. }
  unfold st_set_connection, st_set_transport. cbn [st_password st_transport st_connection st_requests st_draws].
  unfold transport_write. rewrite Op. unfold perform. rewrite Out. cbn [st_transport].
  match goal with |- context[transport_read ?u] => set (t1 := u); destruct (transport_read t1) as [q t2] eqn:R end.
  assert (is_open t1 = true) as O1 by exact Op. destruct (read_took _ _ _ O1 R) as (Rt & q' & Tk & ->).
  set (c := set_state (st_connection s) (awaiting (request_service r))).
  assert (outstanding (elgas_state c) = Some (request_service r)) as Oc by apply outstanding_awaiting.
  assert (buffer c = []) as Bc by exact B. assert (context c = ctx) as Cc by apply C.
  assert (needs c) as Nd by (apply waits_needs; exact Bc).
  intros E. apply (receive_hears c t1 t2 q') in E; auto. destruct E as (E1 & E2 & c' & E3 & E4 & E5). split; [exact E2|].
  change (stream (incoming (env t1))) with (arriving_at s) in E3.
  destruct (hear_heard c (request_service r) Oc Bc) with (bs := arriving_at s) as (a' & c'' & rest & H1 & H2 & H3); [rewrite Cc; exact U|exact By|].
  rewrite E3 in H1. injection H1 as <- <- <-. rewrite Cc in H2. exists line. split; [exact Hl|]. injection E1 as F1 F2 F3 F4. split; [exact F4|]. split; [exact H2|].
  destruct a as [[p|x]|].
  - destruct H3 as [H3 H4]. specialize (E5 p eq_refl). rewrite H3 in E5.
    assert (st_connection s' = st_connection s) as Ec by (rewrite E5; unfold c; apply idle_again; assumption).
    split; [|auto]. apply mk_standing; rewrite ?Ec, ?E2; [exact C|exact U|exact L|exact I|exact B|rewrite F2; exact Op|exact F3|].
    eapply heard_rest; [exact H2|exact By].
  - rewrite H3 in E4. apply bare_eq in E4 as (E4 & _). rewrite E4. apply awaiting_busy.
  - rewrite H3 in E4. apply bare_eq in E4 as (E4 & _). rewrite E4. apply awaiting_busy.
Qed.

(** ** after an exception *)
Lemma exchange_refused s r : elgas_state (st_connection s) <> IDLE ->
  exists s', stack_exchange s r = (Done (Err LocalElgasProtocolError), s') /\ st_transport s' = st_transport s /\ st_connection s' = st_connection s.
Proof.
  intros B. unfold stack_exchange. cbn [stack_send]. unfold stack_send_one. destruct (st_draws s (st_requests s)) as [rnd pad].
  cbn [st_connection]. rewrite send_request. destruct (outstanding (elgas_state (st_connection s))) as [q|] eqn:O.
  - eexists. split; [reflexivity|]. split; reflexivity.
  - destruct (elgas_state (st_connection s)); cbn in O; try discriminate. contradiction.
Qed.
Lemma operate_refused s o : elgas_state (st_connection s) <> IDLE -> communicates o ->
  exists s', stack_operate s o = (Done (Err LocalElgasProtocolError), s') /\ st_transport s' = st_transport s /\ st_connection s' = st_connection s.
Proof.
  intros B [C1 C2]. destruct o; try contradiction; cbn [stack_operate];
    unfold stack_read_instantaneous_values, stack_read_time, stack_write_time, stack_read_parameters, stack_read_archive, stack_read_archive_by_time;
    cbn [stack_read_parameters_loop];
    match goal with |- context[stack_exchange s ?r] => destruct (exchange_refused s r B) as (s' & -> & E) end; exists s'; auto.
Qed.
Lemma session_refusals os : forall s, elgas_state (st_connection s) <> IDLE -> Forall communicates os ->
  exists s', stack_session s os = (refused os, s') /\ st_transport s' = st_transport s.
Proof.
  induction os as [|o os IH]; intros s B F; cbn [stack_session refused map]; [exists s; auto|]. inversion F as [|? ? Co F']; subst.
  destruct (operate_refused s o B Co) as (s1 & -> & T & C). destruct (IH s1) as (s2 & E & T2); [rewrite C; exact B|exact F'|].
  rewrite E. exists s2. split; [reflexivity|congruence].
Qed.

(** ** parameter reads *)
Lemma parse_some l : exists r, parse None (Some l) = Some r.
Proof. destruct l as [|b l]; [eexists; vm_compute; reflexivity|]. apply (parse_any_fuel (length (b :: l)) (b :: l)); [discriminate|apply Nat.le_refl]. Qed.
Lemma parameters_paged ctx fuel : forall s n acc a s', is_bytes acc -> standing ctx s -> (count (arriving_at s) < fuel)%nat ->
  stack_read_parameters_loop fuel s n acc = (a, s') ->
  st_password s' = st_password s /\
  exists e rs lines, paged ctx (st_password s) n acc (arriving_at s) e rs (arriving_at s') /\
    Forall2 (line_from (st_connection s)) rs lines /\ calls_of s' = calls_of s ++ map SWrite lines /\
    a = match e with Parsed r => Done r | Failed x => Done (Err x) | Hanging => Waiting end /\
    match e with Parsed _ => standing ctx s' /\ st_connection s' = st_connection s | _ => elgas_state (st_connection s') <> IDLE end.
Proof.
  induction fuel as [|fuel IH]; intros s n acc a s' Ba S F E; [lia|]. cbn [stack_read_parameters_loop] in E.
  destruct (stack_exchange s _) as [b s1] eqn:X.
  apply (exchange_heard ctx) in X; [|exact S|intros p Hp; injection Hp; congruence|exact I]. destruct X as [Pw X].
  destruct (request_misfit _) as [x|] eqn:M.
  { destruct X as (-> & T & B). injection E as <- <-. split; [exact Pw|]. exists (Failed x), [], [].
    unfold arriving_at, calls_of. rewrite T. split; [apply page_misfit; exact M|]. split; [constructor|]. split; [rewrite app_nil_r; reflexivity|]. auto. }
  destruct X as (line & Hl & Lg & H & K). destruct b as [[p|x]|].
  - destruct K as (S1 & Ec & Es). destruct p as [| | |data number amount [|]| |]; try (cbn in Es; discriminate); cbv beta iota zeta in E;
      pose proof (heard_bytes ctx _ _ _ _ _ _ (sd_usable _ _ S) (sd_bytes _ _ S) H) as Bd; assert (is_bytes (acc ++ data)) as Bn by (apply is_bytes_app; auto).
    + destruct (parse_some (acc ++ data)) as (r & P). match type of E with (match ?X with _ => _ end, _) = _ => change (X = Some r) in P; rewrite P in E end. injection E as <- <-. split; [exact Pw|].
      exists (Parsed r), [page_request (st_password s) n], [line]. split; [eapply page_last; eauto; apply reads_iff; assumption|]. split; [repeat constructor; exact Hl|]. split; [exact Lg|]. auto.
    + apply heard_less in H as Hless. apply IH in E; [|exact Bn|exact S1|lia]. destruct E as (Pw' & e & rs & lines & G & Ls & Lg' & Ea & K).
      split; [congruence|]. exists e, (page_request (st_password s) n :: rs), (line :: lines). rewrite Pw in G.
      split; [eapply page_next; eauto|]. rewrite <- Ec in *. split; [constructor; assumption|]. split; [rewrite Lg', Lg, <- app_assoc; reflexivity|]. auto.
  - injection E as <- <-. split; [exact Pw|]. exists (Failed x), [page_request (st_password s) n], [line].
    split; [apply page_fails; assumption|]. split; [repeat constructor; exact Hl|]. auto.
  - injection E as <- <-. split; [exact Pw|]. exists Hanging, [page_request (st_password s) n], [line].
    split; [apply page_waits; assumption|]. split; [repeat constructor; exact Hl|]. auto.
Qed.

(** ** sessions *)
Lemma asks_valid pw o r : asks pw o = Some r -> operation_times_valid o -> request_times_valid r /\ password_of pw r.
Proof. destruct o; cbn; intros E; try discriminate; injection E as <-; intros V; (split; [exact V || exact I|intros p Hp; cbn in Hp; congruence]). Qed.
Lemma operate_asked s o r : asks (st_password s) o = Some r -> exists k : answer response_pdu -> answer returned,
  (forall a s', stack_exchange s r = (a, s') -> stack_operate s o = (k a, s')) /\
  (forall x, k (Done (Err x)) = Done (Err x)) /\ k Waiting = Waiting /\
  (forall p, pdu_service p = request_service r -> exists v, k (Done (Ok p)) = Done (Ok v) /\ gives o p v).
Proof.
  assert (forall (f : answer response_pdu -> answer returned), f = f) as _ by reflexivity.
  destruct o; cbn [asks]; intros E; try discriminate; injection E as <-.
  - exists (fun a => match a with Done (Ok p) => Done (Ok (RPdu p)) | Done (Err e) => Done (Err e) | Waiting => Waiting end).
    split; [|split; [reflexivity|split; [reflexivity|intros p _; eexists; split; [reflexivity|constructor]]]].
    intros a s' X. cbn [stack_operate]. unfold stack_read_instantaneous_values. rewrite X. destruct a as [[?|?]|]; reflexivity.
  - exists (fun a => match a with Done (Ok (ReadTimeResponse time _ _ _ _)) => Done (Ok (RTime time)) | Done (Ok _) => Done (Err AttributeError) | Done (Err e) => Done (Err e) | Waiting => Waiting end).
    split; [|split; [reflexivity|split; [reflexivity|]]].
    + intros a s' X. cbn [stack_operate]. unfold stack_read_time. rewrite X. destruct a as [[p|?]|]; [destruct p|..]; reflexivity.
    + intros p Hp. destruct p; try discriminate Hp. eexists. split; [reflexivity|constructor].
  - eexists (fun a => match a with Done (Ok p) => Done (Ok RNothing) | Done (Err e) => Done (Err e) | Waiting => Waiting end).
    split; [|split; [reflexivity|split; [reflexivity|intros p _; eexists; split; [reflexivity|constructor]]]].
    intros a s' X. cbn [stack_operate]. unfold stack_write_time. rewrite X. destruct a as [[?|?]|]; reflexivity.
  - exists (fun a => match a with Done (Ok p) => Done (Ok (RPdu p)) | Done (Err e) => Done (Err e) | Waiting => Waiting end).
    split; [|split; [reflexivity|split; [reflexivity|intros p _; eexists; split; [reflexivity|constructor]]]].
    intros a s' X. cbn [stack_operate]. unfold stack_read_archive. rewrite X. destruct a as [[?|?]|]; reflexivity.
  - exists (fun a => match a with Done (Ok p) => Done (Ok (RPdu p)) | Done (Err e) => Done (Err e) | Waiting => Waiting end).
    split; [|split; [reflexivity|split; [reflexivity|intros p _; eexists; split; [reflexivity|constructor]]]].
    intros a s' X. cbn [stack_operate]. unfold stack_read_archive_by_time. rewrite X. destruct a as [[?|?]|]; reflexivity.
Qed.
Lemma session_foretold ctx os : forall s vs s', standing ctx s -> Forall communicates os -> Forall operation_times_valid os ->
  stack_session s os = (vs, s') ->
  exists rs lines, foretold ctx (st_password s) os (arriving_at s) vs rs (arriving_at s') /\
    Forall2 (line_from (st_connection s)) rs lines /\ calls_of s' = calls_of s ++ map SWrite lines.
Proof.
  induction os as [|o os IH]; intros s vs s' S Co Ti E; cbn [stack_session] in E.
  { injection E as <- <-. exists [], []. split; [constructor|]. split; [constructor|]. rewrite app_nil_r. reflexivity. }
  inversion Co as [|? ? C1 C2]; subst. inversion Ti as [|? ? T1 T2]; subst.
  assert (forall s1, elgas_state (st_connection s1) <> IDLE -> forall vs s', (let '(rs, s) := stack_session s1 os in (rs, s)) = (vs, s') ->
    vs = refused os /\ st_transport s' = st_transport s1) as Rf.
  { intros s1 B vs1 s2 X. destruct (session_refusals os s1 B C2) as (s3 & Y & T). rewrite Y in X. injection X as <- <-. auto. }
  destruct (asks (st_password s) o) as [r|] eqn:A.
  - destruct (asks_valid _ _ _ A T1) as [V P]. destruct (operate_asked s o r A) as (k & Kx & Ke & Kw & Kv).
    destruct (stack_exchange s r) as [a s1] eqn:X. rewrite (Kx _ _ eq_refl) in E.
    apply (exchange_heard ctx) in X; auto. destruct X as [Pw X]. destruct (request_misfit r) as [x|] eqn:M.
    + destruct X as (-> & T & B). rewrite Ke in E. destruct (stack_session s1 os) as [ws s2] eqn:Y. injection E as <- <-.
      destruct (Rf s1 B ws s2) as [-> T']; [rewrite Y; reflexivity|].
      exists [], []. unfold arriving_at, calls_of. rewrite T', T. split; [eapply call_misfit; eauto|]. split; [constructor|]. rewrite app_nil_r. reflexivity.
    + destruct X as (line & Hl & Lg & H & K). destruct a as [[p|x]|].
      * destruct K as (S1 & Ec & Es). destruct (Kv p Es) as (v & Ev & G). rewrite Ev in E. destruct (stack_session s1 os) as [ws s2] eqn:Y. injection E as <- <-.
        destruct (IH _ _ _ S1 C2 T2 Y) as (rs & lines & Fo & Ls & Lg'). exists (r :: rs), (line :: lines). rewrite Pw, Ec in *.
        split; [eapply call_gives; eauto|]. split; [constructor; assumption|]. rewrite Lg', Lg, <- app_assoc. reflexivity.
      * rewrite Ke in E. destruct (stack_session s1 os) as [ws s2] eqn:Y. injection E as <- <-. destruct (Rf s1 K ws s2) as [-> T']; [rewrite Y; reflexivity|].
        exists [r], [line]. unfold arriving_at, calls_of in *. rewrite T'. split; [eapply call_fails; eauto|]. split; [repeat constructor; exact Hl|exact Lg].
      * rewrite Kw in E. injection E as <- <-. exists [r], [line]. split; [eapply call_waits; eauto|]. split; [repeat constructor; exact Hl|exact Lg].
  - destruct o; try discriminate A; try (destruct C1; contradiction). rename read_from into n || idtac.
    cbn [stack_operate] in E. unfold stack_read_parameters in E.
    match type of E with context[stack_read_parameters_loop ?f s ?m []] => destruct (stack_read_parameters_loop f s m []) as [a s1] eqn:X end.
    apply (parameters_paged ctx) in X; [|constructor|exact S|unfold arriving_at, count; rewrite <- available_stream; apply Nat.lt_succ_diag_r].
    destruct X as (Pw & e & rs & lines & G & Ls & Lg & -> & K). destruct e as [outcome|x|].
    + destruct K as [S1 Ec]. assert (stack_map RObjects (Done outcome, s1) = (Done (match outcome with Ok l => Ok (RObjects l) | Err x => Err x end), s1)) as Em by (destruct outcome; reflexivity).
      rewrite Em in E. destruct (stack_session s1 os) as [ws s2] eqn:Y. injection E as <- <-.
      destruct (IH _ _ _ S1 C2 T2 Y) as (rs' & lines' & Fo & Ls' & Lg'). exists (rs ++ rs'), (lines ++ lines'). rewrite Pw, Ec in *.
      split; [eapply parameters_parsed; eauto|]. split; [apply Forall2_app; assumption|]. rewrite Lg', Lg, map_app, <- app_assoc. reflexivity.
    + cbn [stack_map] in E. destruct (stack_session s1 os) as [ws s2] eqn:Y. injection E as <- <-. destruct (Rf s1 K ws s2) as [-> T']; [rewrite Y; reflexivity|].
      exists rs, lines. unfold arriving_at, calls_of in *. rewrite T'. split; [eapply parameters_fail; eauto|]. auto.
    + cbn [stack_map] in E. injection E as <- <-. exists rs, lines. split; [eapply parameters_wait; eauto|]. auto.
Qed.

(** ** only one outcome *)
Lemma heard_once ctx r bs a rest a' rest' : usable_context ctx -> stream_bytes bs ->
  heard ctx (request_service r) bs a rest -> heard ctx (request_service r) bs a' rest' -> a = a' /\ rest = rest'.
Proof.
  intros U B H H'. set (c := mk_connection 0 0 0 0 [] 801 None None [] (awaiting (request_service r)) ctx).
  destruct (heard_hear c (request_service r) (outstanding_awaiting r) eq_refl U _ _ _ H B) as (c1 & E1).
  destruct (heard_hear c (request_service r) (outstanding_awaiting r) eq_refl U _ _ _ H' B) as (c2 & E2).
  rewrite E1 in E2. injection E2 as -> _ ->. auto.
Qed.
Lemma paged_once ctx pw n got bs e rs rest : usable_context ctx -> stream_bytes bs -> is_bytes got -> paged ctx pw n got bs e rs rest ->
  forall e' rs' rest', paged ctx pw n got bs e' rs' rest' -> e = e' /\ rs = rs' /\ rest = rest'.
Proof.
  intros U B G H. induction H as [n got bs x M|n got bs rest M Hd|n got bs x rest M Hd|n got bs data number amount rest outcome M Hd P|n got bs data number amount rest e rs rest' M Hd H IH];
    intros e2 rs2 rest2 H2; inversion H2; subst; try congruence;
    try match goal with H1 : heard _ _ _ _ _, H2 : heard _ _ _ _ _ |- _ =>
      destruct (heard_once ctx (page_request pw n) _ _ _ _ _ U B H1 H2) as [Ea Er]; try discriminate Ea end.
  - assert (x = x0) by congruence. subst. auto.
  - subst. auto.
  - injection Ea as ->. subst. auto.
  - injection Ea as -> -> ->. subst. assert (outcome = outcome0) by (eapply reads_once; [|eassumption..]; apply is_bytes_app; split; [assumption|eapply heard_bytes; eassumption]). subst. auto.
  - injection Ea as -> -> ->. subst. match goal with X : paged _ _ _ _ _ e2 _ _ |- _ => apply IH in X; [|eapply heard_rest; eassumption|apply is_bytes_app; split; [assumption|eapply heard_bytes; eassumption]] end.
    destruct H0 as (-> & -> & ->) || idtac. match goal with X : _ /\ _ /\ _ |- _ => destruct X as (-> & -> & ->) end. auto.
Qed.
Lemma gives_once o p v v' : gives o p v -> gives o p v' -> v = v'.
Proof. intros H H'. inversion H; subst; inversion H'; subst; reflexivity. Qed.
Lemma paged_rest ctx pw n got bs e rs rest : paged ctx pw n got bs e rs rest -> stream_bytes bs -> stream_bytes rest.
Proof. intros H. induction H; intros B; eauto using heard_rest. Qed.
Lemma asks_no_parameters pw n r : asks pw (OpReadParameters n) = Some r -> False.
Proof. discriminate. Qed.
Lemma foretold_once ctx pw os bs vs rs rest : usable_context ctx -> stream_bytes bs -> foretold ctx pw os bs vs rs rest ->
  forall vs' rs' rest', foretold ctx pw os bs vs' rs' rest' -> vs = vs' /\ rs = rs' /\ rest = rest'.
Proof.
  intros U B H. induction H as [bs|o r x os bs A M|o r os bs rest A M Hd|o r x os bs rest A M Hd|o r p v os bs rest vs rs rest' A M Hd G H IH|
    n os bs rs rest P|n x os bs rs rest P|n outcome os bs rs rest vs rs' rest' P H IH];
    intros vs2 rs2 rest2 H2; inversion H2; subst; try discriminate; try congruence;
    try match goal with A1 : asks _ _ = Some ?r1, A2 : asks _ _ = Some ?r2 |- _ =>
      rewrite A1 in A2; injection A2 as A2; subst r2; try congruence end;
    try match goal with H1 : heard _ (request_service ?q) _ _ _, H2 : heard _ _ _ _ _ |- _ =>
      destruct (heard_once ctx q _ _ _ _ _ U B H1 H2) as [Ea Er]; try discriminate Ea end;
    try match goal with H1 : paged _ _ _ _ _ _ _ _, H2 : paged _ _ _ _ _ _ _ _ |- _ =>
      destruct (paged_once _ _ _ _ _ _ _ _ U B (Forall_nil _) H1 _ _ _ H2) as (Ea & Es & Er); try discriminate Ea end.
  all: try (subst; auto; fail).
  - replace x0 with x by congruence. auto.
  - injection Ea as ->. subst. auto.
  - injection Ea as ->. subst. match goal with X : gives _ _ v0 |- _ => rewrite (gives_once _ _ _ _ G X) end.
    match goal with X : foretold _ _ _ _ ?u _ _, Y : foretold _ _ _ _ vs _ _ |- _ => apply IH in X; [|eapply heard_rest; eassumption] end.
    match goal with X : _ /\ _ /\ _ |- _ => destruct X as (-> & -> & ->) end. auto.
  - injection Ea as ->. subst. auto.
  - injection Ea as ->. subst. match goal with X : foretold _ _ _ _ ?u _ _, Y : foretold _ _ _ _ vs _ _ |- _ => apply IH in X; [|eapply paged_rest; eassumption] end.
    match goal with X : _ /\ _ /\ _ |- _ => destruct X as (-> & -> & ->) end. auto.
Qed.

Lemma one_verdict ctx srv w t : on_line w t -> is_bytes t -> usable_context ctx ->
  exists j, verdict ctx srv w j /\ forall j', verdict ctx srv w j' -> j' = j.
Proof.
  intros O B U. exists (judge ctx srv t). split; [apply judgement_is; assumption|]. intros j' V. symmetry. eapply judged; eassumption.
Qed.

(** ** the client of a user *)
Lemma arriving_bytes e : bytes_arrive e -> stream_bytes (stream (incoming e)).
Proof.
  unfold bytes_arrive, stream. induction 1 as [|r l H F IH]; [constructor|]. cbn [flat_map]. apply stream_bytes_app. split; [|exact IH].
  destruct r as [d|x]; [apply stream_bytes_map; exact H|repeat constructor].
Qed.
Lemma every_session t pw pid k id dr s os vs s' : make_stack t pw pid k id dr = Ok s -> usable_context (client_context k id) ->
  is_open t = true -> outcomes (env t) = [] -> bytes_arrive (env t) ->
  Forall communicates os -> Forall operation_times_valid os -> stack_session s os = (vs, s') ->
  exists rs ts, foretold (client_context k id) pw os (stream (incoming (env t))) vs rs (stream (incoming (env (st_transport s')))) /\
    Forall2 (request_line (client_context k id)) rs ts /\ log (env (st_transport s')) = log (env t) ++ map SWrite ts.
Proof.
  intros M U Op Out By Co Ti E. destruct (make_stack_inv _ _ _ _ _ _ _ M) as [Et Mc]. specialize (Mc [] [] [] []).
  destruct (made_at_rest _ _ _ _ _ _ Mc U eq_refl) as ((R & _ & L & I & B & _) & Ep & _). pose proof (line_zero _ _ (made_config _ _ _ _ _ _ Mc)) as Lz.
  cbn [as_client cl_connection cl_password] in *.
  assert (standing (client_context k id) s) as St by (apply mk_standing; rewrite ?Et; auto using arriving_bytes).
  destruct (session_foretold _ _ _ _ _ St Co Ti E) as (rs & ts & Fo & Fl & Lg). unfold arriving_at, calls_of in *. rewrite Lz in Fl. rewrite Et, Ep in *. eauto.
Qed.
