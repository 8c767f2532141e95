(** Proofs: the whole life of a client. *)
From Coq Require Import Lia.
From Verif Require Import PyFacts SpecUtils UtilsProofs SpecFrames FramesProofs SpecSecurity SecurityProofs SpecConnection SpecApplication ApplicationProofs SpecPdu SpecText.
From Verif Require Import Connection ConnectionProofs ParamLang Parameters ParserProofs Client SpecClient ClientProofs SpecErrors ErrorProofs.
From Verif Require Import Transport SpecTransport TransportProofs SpecStack StackProofs Stack SpecSession SessionProofs SessionProofs2 TimedProofs SpecIndep IndepProofs SpecBlock BlockProofs.
From Verif Require Import SpecOutcome OutcomeProofs OutcomeProofs2 SpecLife.
Open Scope list_scope.
Open Scope Z_scope.

Definition idle_of (s : stack) : bool := match elgas_state (st_connection s) with IDLE => true | _ => false end.
Definition life_at (s : stack) : life := life_of (idle_of s) (st_transport s).
Record fit (ctx : option cipher_context) (s : stack) : Prop := mk_fit {
  ft_ready : ready ctx (st_connection s);
  ft_lines : line_from (st_connection s) = request_line ctx;
  ft_key : match ctx with Some y => is_bytes (key y) | None => True end;
  ft_password : len (st_password s) <= 6;
  ft_buffer : buffer (st_connection s) = [] }.
Definition living (ctx : option cipher_context) (s : stack) : Prop :=
  stream_bytes (arriving_at s) /\ (idle_of s = true -> fit ctx s).

Lemma idle_true s : idle_of s = true <-> elgas_state (st_connection s) = IDLE.
Proof. unfold idle_of. destruct (elgas_state (st_connection s)); split; congruence. Qed.
Lemma idle_false s : idle_of s = false <-> elgas_state (st_connection s) <> IDLE.
Proof. unfold idle_of. destruct (elgas_state (st_connection s)); split; congruence. Qed.
Lemma fate_of e c : exists f, fate (outcomes e) f (outcomes (snd (perform e c))) /\ fst (perform e c) = match f with None => Ok tt | Some x => Err x end /\
  incoming (snd (perform e c)) = incoming e /\ log (snd (perform e c)) = log e ++ [c].
Proof.
  unfold perform. destruct (outcomes e) as [|o os]; cbn; [exists None|exists o]; (split; [constructor|auto]).
Qed.

(** ** one exchange *)
Definition told (ctx : option cipher_context) (s s' : stack) (P : list deed -> Prop) : Prop :=
  st_password s' = st_password s /\ t_kind (st_transport s') = t_kind (st_transport s) /\ living ctx s' /\
  exists ds cs, P ds /\ Forall2 (done ctx) ds cs /\ calls_of s' = calls_of s ++ cs.
Lemma told_nothing ctx s s' (P : list deed -> Prop) : st_password s' = st_password s -> t_kind (st_transport s') = t_kind (st_transport s) ->
  living ctx s' -> calls_of s' = calls_of s -> P [] -> told ctx s s' P.
Proof. intros H1 H2 H3 H4 H5. repeat (split; auto). exists [], []. rewrite app_nil_r. repeat split; auto. Qed.
Lemma living_stuck ctx s s' : living ctx s -> incoming (env (st_transport s')) = incoming (env (st_transport s)) -> idle_of s' = false -> living ctx s'.
Proof. intros [B _] E F. split; [unfold arriving_at; rewrite E; exact B|congruence]. Qed.
Lemma bad_key_refused ctx rnd pad c r : ready ctx c -> match ctx with Some y => is_bytes (key y) | None => True end ->
  ~ usable_context ctx -> elgas_state c = IDLE -> request_misfit r = None -> request_times_valid r ->
  (forall p, request_password r = Some p -> len p <= 6) ->
  send rnd pad c (Request r) = (Err ValueError, set_state c (awaiting (request_service r))).
Proof.
  intros [Sn Cx] K U S M V P. rewrite send_request, S. cbn [outstanding]. f_equal. unfold serialise.
  pose proof (pdu_to_bytes_error rnd r V) as X. rewrite M in X. destruct X as [d X]. rewrite X. cbn [bind].
  pose proof (pdu_len rnd r d V X P) as L. rewrite Cx. destruct ctx as [y|]; [|exfalso; apply U; exact I].
  rewrite (unusable_refused pad y d K U (pdu_bytes _ _ _ X) ltac:(lia)). reflexivity.
Qed.
Lemma exchange_life ctx s r a s' : living ctx s -> password_of (st_password s) r -> request_times_valid r -> stack_exchange s r = (a, s') ->
  told ctx s s' (fun ds => asked ctx r (life_at s) a ds (life_at s')) /\ (forall p, a = Done (Ok p) -> pdu_service p = request_service r).
Proof.
  intros L P V E. destruct (idle_of s) eqn:Id.
  2:{ destruct (exchange_refused s r (proj1 (idle_false s) Id)) as (s1 & E1 & T & C). rewrite E1 in E. injection E as <- <-.
      split; [|intros p X; discriminate].
      assert (st_password s1 = st_password s) as Pw.
      { clear -E1 Id. unfold stack_exchange in E1. cbn [stack_send] in E1. unfold stack_send_one in E1.
        destruct (st_draws s (st_requests s)) as [rnd pad]. cbn [st_connection] in E1. destruct (send _ _ _ _) as [[d|x] c] eqn:X; [exfalso|].
        - rewrite send_request in X. apply idle_false in Id. destruct (outstanding (elgas_state (st_connection s))) eqn:O; [discriminate|].
          destruct (elgas_state (st_connection s)); cbn in O; try discriminate. contradiction.
        - injection E1 as _ <-. reflexivity. }
      apply told_nothing; rewrite ?T; auto.
      - apply (living_stuck ctx s); [exact L|rewrite T; reflexivity|]. unfold idle_of in *. rewrite C. exact Id.
      - unfold calls_of. rewrite T. reflexivity.
      - unfold life_at, life_of. unfold idle_of in *. rewrite T, C, Id. constructor. }
  pose proof (proj1 (idle_true s) Id) as St. destruct L as [By Ft]. specialize (Ft Id). destruct Ft as [Rd Ln Ky Pl Bf].
  assert (forall p, request_password r = Some p -> len p <= 6) as Pl6 by (intros p Hp; rewrite (P p Hp); exact Pl).
  unfold stack_exchange in E. cbn [stack_send] in E. unfold stack_send_one in E.
  destruct (st_draws s (st_requests s)) as [rnd pad]. cbn [st_connection] in E.
  assert (forall c', (forall x, elgas_state c' = awaiting (request_service r) -> idle_of (mk_stack (st_password s) c' (st_transport s) x (st_draws s)) = false)) as Busy.
  { intros c' x X. apply idle_false. cbn [st_connection]. rewrite X. apply awaiting_busy. }
  destruct (request_misfit r) as [x|] eqn:M.
  { pose proof (pdu_to_bytes_error rnd r V) as X. rewrite M in X. rewrite send_request, St in E. cbn [outstanding] in E.
    unfold serialise in E. rewrite X in E. cbn [bind] in E. unfold st_set_connection in E. cbn [st_password st_connection st_transport st_requests st_draws] in E.
    injection E as <- <-. split; [|intros p Y; discriminate]. apply told_nothing; try reflexivity.
    - apply (living_stuck ctx s); [split; [exact By|intros _; constructor; assumption]|reflexivity|apply Busy; reflexivity].
    - unfold life_at. rewrite Id, Busy by reflexivity. apply asked_misfit. exact M. }
  destruct (usable_dec ctx Ky) as [U|U].
  2:{ rewrite (bad_key_refused ctx rnd pad (st_connection s) r Rd Ky U St M V Pl6) in E. unfold st_set_connection in E. cbn [st_password st_connection st_transport st_requests st_draws] in E.
      injection E as <- <-. split; [|intros p Y; discriminate]. apply told_nothing; try reflexivity.
      - apply (living_stuck ctx s); [split; [exact By|intros _; constructor; assumption]|reflexivity|apply Busy; reflexivity].
      - unfold life_at. rewrite Id, Busy by reflexivity. apply asked_bad_key; assumption. }
  destruct (request_sent ctx rnd pad (st_connection s) r Rd U St (conj M V)) as (line & Es & Hl).
  { intros p Hp. specialize (Pl6 p Hp). lia. }
  rewrite Es in E. clear Es. unfold st_set_connection, st_set_transport in E. cbn [st_password st_transport st_connection st_requests st_draws] in E.
  unfold transport_write in E. destruct (is_open (st_transport s)) eqn:Op.
  2:{ injection E as <- <-. split; [|intros p Y; discriminate]. apply told_nothing; try reflexivity.
      - apply (living_stuck ctx s); [split; [exact By|intros _; constructor; assumption]|reflexivity|apply Busy; reflexivity].
      - unfold life_at, life_of. cbn [st_transport]. rewrite Id, Busy, Op by reflexivity. apply asked_offline; assumption. }
  destruct (fate_of (env (st_transport s)) (SWrite line)) as (f & Hf & Er & Ei & El). destruct (perform (env (st_transport s)) (SWrite line)) as [rw e] eqn:Pf.
  cbn [fst snd] in *. rewrite Ln in Hl. destruct f as [x|]; rewrite Er in E; cbn [st_transport st_connection st_password st_requests st_draws] in E.
  { injection E as <- <-. split; [|intros p Y; discriminate]. split; [reflexivity|]. split; [reflexivity|]. split.
    - apply (living_stuck ctx s); [split; [exact By|intros _; constructor; assumption]|exact Ei|apply idle_false; apply awaiting_busy].
    - exists [Ask r], [SWrite line]. split; [|split; [repeat constructor; exact Hl|exact El]].
      unfold life_at, life_of. cbn [st_transport set_env env is_open]. rewrite Id, Op, Ei.
      match goal with |- asked _ _ _ _ _ (mk_life (idle_of ?u) _ _ _) => replace (idle_of u) with false by (symmetry; apply idle_false; apply awaiting_busy) end.
      rewrite wrapped_relayed. apply asked_unwritten; assumption. }
  set (t1 := set_env (st_transport s) e) in E. destruct (transport_read t1) as [q t2] eqn:R.
  assert (is_open t1 = true) as O1 by exact Op. destruct (read_took _ _ _ O1 R) as (Rt & q' & Tk & ->).
  set (c := set_state (st_connection s) (awaiting (request_service r))) in E.
  assert (outstanding (elgas_state c) = Some (request_service r)) as Oc by apply outstanding_awaiting.
  assert (buffer c = []) as Bc by exact Bf. assert (context c = ctx) as Cc by apply Rd.
  assert (needs c) as Nd by (apply waits_needs; exact Bc).
  apply (receive_hears c t1 t2 q') in E; auto. destruct E as (E1 & E2 & c' & E3 & E4 & E5).
  assert (stream (incoming (env t1)) = arriving_at s) as Ea by (unfold arriving_at, t1; cbn [set_env env]; rewrite Ei; reflexivity).
  rewrite Ea in E3.
  destruct (hear_heard c (request_service r) Oc Bc) with (bs := arriving_at s) as (a' & c'' & rest & H1 & H2 & H3); [rewrite Cc; exact U|exact By|].
  rewrite E3 in H1. injection H1 as <- <- <-. rewrite Cc in H2. injection E1 as F1 F2 F3 F4.
  pose proof (heard_rest _ _ _ _ _ H2 By) as By'.
  assert (idle_of s' = succeeds a /\ (succeeds a = true -> st_connection s' = st_connection s)) as [Ids Cs].
  { destruct a as [[p|x]|]; cbn [succeeds].
    - destruct H3 as [H3 _]. specialize (E5 p eq_refl). rewrite H3 in E5.
      assert (st_connection s' = st_connection s) as Ec by (rewrite E5; unfold c; apply idle_again; assumption).
      split; [apply idle_true; congruence|auto].
    - rewrite H3 in E4. apply bare_eq in E4 as (E4 & _). split; [apply idle_false; rewrite E4; apply awaiting_busy|discriminate].
    - rewrite H3 in E4. apply bare_eq in E4 as (E4 & _). split; [apply idle_false; rewrite E4; apply awaiting_busy|discriminate]. }
  split.
  - split; [exact E2|]. split; [exact F1|]. split.
    + split; [exact By'|]. intros X. rewrite Ids in X. specialize (Cs X). constructor; rewrite ?Cs, ?E2; assumption.
    + exists [Ask r], [SWrite line]. split; [|split; [repeat constructor; exact Hl|unfold calls_of; rewrite F4; exact El]].
      unfold life_at, life_of. rewrite Id, Ids, Op, F2, F3. unfold t1. cbn [set_env is_open env]. rewrite Op.
      apply asked_heard; assumption.
  - intros p ->. apply H3.
Qed.
Lemma asked_less ctx r l p ds l' : asked ctx r l (Done (Ok p)) ds l' -> (count (coming l') < count (coming l))%nat.
Proof. remember (Done (Ok p)) as a eqn:E. intros H. destruct H; try discriminate. subst. cbn [coming]. eapply heard_less. eassumption. Qed.
Lemma told_more ctx s s1 s2 (P Q R : list deed -> Prop) : told ctx s s1 P -> told ctx s1 s2 Q ->
  (forall ds ds', P ds -> Q ds' -> R (ds ++ ds')) -> told ctx s s2 R.
Proof.
  intros (A1 & A2 & A3 & ds & cs & A4 & A5 & A6) (B1 & B2 & B3 & ds' & cs' & B4 & B5 & B6) H.
  split; [congruence|]. split; [congruence|]. split; [exact B3|]. exists (ds ++ ds'), (cs ++ cs').
  split; [auto|]. split; [apply Forall2_app; assumption|]. rewrite B6, A6, app_assoc. reflexivity.
Qed.
Lemma told_weak ctx s s' (P Q : list deed -> Prop) : told ctx s s' P -> (forall ds, P ds -> Q ds) -> told ctx s s' Q.
Proof. intros (A1 & A2 & A3 & ds & cs & A4 & A5) H. repeat (split; auto). exists ds, cs. auto. Qed.
Lemma told_living ctx s s' P : told ctx s s' P -> living ctx s'.
Proof. intros H. apply H. Qed.
Lemma asked_bytes ctx pw n l data number amount e ds l' : stream_bytes (coming l) ->
  asked ctx (page_request pw n) l (Done (Ok (ReadDeviceParametersResponse data number amount e))) ds l' -> is_bytes data.
Proof. intros B H. inversion H; subst. eapply heard_bytes; eassumption. Qed.
Lemma read_life ctx fuel : forall s n acc a s', is_bytes acc -> living ctx s -> (count (arriving_at s) < fuel)%nat ->
  stack_read_parameters_loop fuel s n acc = (a, s') ->
  told ctx s s' (fun ds => read_on ctx (st_password s) n acc (life_at s) a ds (life_at s')).
Proof.
  induction fuel as [|fuel IH]; intros s n acc a s' Ba S F E; [lia|]. cbn [stack_read_parameters_loop] in E.
  destruct (stack_exchange s _) as [b s1] eqn:X.
  apply (exchange_life ctx) in X; [|exact S|intros p Hp; injection Hp; congruence|exact I]. destruct X as [X Sv].
  change (ReadDeviceParametersRequest (st_password s) n 1024) with (page_request (st_password s) n) in *.
  destruct b as [[p|x]|].
  - specialize (Sv p eq_refl). destruct p as [| | |data number amount [|]| |]; try (cbn in Sv; discriminate); cbv beta iota zeta in E;
      (assert (is_bytes (acc ++ data)) as Bn by (apply is_bytes_app; split; [exact Ba|]; destruct X as (_ & _ & _ & ds0 & cs0 & X0 & _); eapply asked_bytes; [|exact X0]; apply S)).
    + destruct (parse_some (acc ++ data)) as (r & P). match type of E with (match ?X with _ => _ end, _) = _ => change (X = Some r) in P; rewrite P in E end. injection E as <- <-.
      eapply told_weak; [exact X|]. intros ds H. eapply read_last; [exact H|apply reads_iff; assumption].
    + assert (count (arriving_at s1) < count (arriving_at s))%nat as Hless.
      { destruct X as (_ & _ & _ & ds & cs & X & _). exact (asked_less _ _ _ _ _ _ X). }
      assert (st_password s1 = st_password s) as Pw by apply X.
      apply IH in E; [|exact Bn|apply (told_living _ _ _ _ X)|lia]. rewrite Pw in E. eapply told_more; [exact X|exact E|].
      intros ds ds' H1 H2. eapply read_next; [exact H1|exact H2].
  - injection E as <- <-. eapply told_weak; [exact X|]. intros ds H. apply read_fails. exact H.
  - injection E as <- <-. eapply told_weak; [exact X|]. intros ds H. apply read_waits. exact H.
Qed.

(** ** one call *)
Lemma fit_moved ctx s t : living ctx s -> stream_bytes (stream (incoming (env t))) -> living ctx (st_set_transport s t).
Proof. intros [_ F] B. split; [exact B|]. intros X. destruct (F X). constructor; assumption. Qed.
Lemma idle_moved s t : idle_of (st_set_transport s t) = idle_of s.
Proof. reflexivity. Qed.
Lemma operate_life ctx s o a s' : living ctx s -> operation_times_valid o -> stack_operate s o = (a, s') ->
  told ctx s s' (fun ds => does ctx (st_password s) (t_kind (st_transport s)) o (life_at s) a ds (life_at s')).
Proof.
  intros L V E. destruct (asks (st_password s) o) as [r|] eqn:A.
  { destruct (asks_valid _ _ _ A V) as [V' P]. destruct (operate_asked s o r A) as (k & Kx & Ke & Kw & Kv).
    destruct (stack_exchange s r) as [b s1] eqn:X. rewrite (Kx _ _ eq_refl) in E. injection E as <- <-.
    apply (exchange_life ctx) in X; auto. destruct X as [X Sv]. destruct b as [[p|x]|].
    - destruct (Kv p (Sv p eq_refl)) as (v & Ev & G). rewrite Ev. eapply told_weak; [exact X|]. intros ds H. eapply asks_gives; [exact A|exact H|exact G].
    - rewrite Ke. eapply told_weak; [exact X|]. intros ds H. eapply asks_fails; [exact A|exact H].
    - rewrite Kw. eapply told_weak; [exact X|]. intros ds H. eapply asks_waits; [exact A|exact H]. }
  pose proof L as L'. destruct L as [By Ft].
  destruct o as [| | | | | n | |]; try discriminate A.
  - cbn [stack_operate] in E. unfold stack_connect, transport_connect in E. destruct (is_open (st_transport s)) eqn:Op.
    + cbn [stack_map] in E. injection E as <- <-. apply told_nothing; try reflexivity; [exact (fit_moved _ _ _ L' By)|].
      unfold life_at. rewrite idle_moved. unfold life_of. cbn [st_transport st_set_transport]. rewrite Op. apply connect_twice.
    + destruct (fate_of (env (st_transport s)) SOpen) as (f & Hf & Er & Ei & El). destruct (perform (env (st_transport s)) SOpen) as [rw e] eqn:Pf.
      cbn [fst snd] in *. destruct f as [x|]; rewrite Er in E; cbn [stack_map] in E; injection E as <- <-;
        (split; [reflexivity|]; split; [reflexivity|]; split; [apply fit_moved; [exact L'|cbn [set_open set_env env]; rewrite Ei; exact By]|]);
        exists [Open], [SOpen]; (split; [|split; [repeat constructor|exact El]]);
        unfold life_at; rewrite idle_moved; unfold life_of; cbn [st_transport st_set_transport set_open set_env is_open env]; rewrite Op, Ei.
      * rewrite wrapped_relayed. apply connect_fails. exact Hf.
      * apply connect_good. exact Hf.
  - cbn [stack_operate] in E. unfold stack_disconnect, transport_disconnect in E. destruct (is_open (st_transport s)) eqn:Op.
    2:{ cbn [stack_map] in E. injection E as <- <-. apply told_nothing; try reflexivity; [exact (fit_moved _ _ _ L' By)|].
        unfold life_at. rewrite idle_moved. unfold life_of. cbn [st_transport st_set_transport]. rewrite Op. apply disconnect_idle. }
    cbv zeta in E. destruct (t_kind (st_transport s)) eqn:Kd.
    + destruct (fate_of (env (st_transport s)) SShutdown) as (f & Hf & Er & Ei & El). destruct (perform (env (st_transport s)) SShutdown) as [rw e] eqn:Pf.
      cbn [fst snd] in *. destruct f as [x|]; rewrite Er in E.
      { cbn [stack_map] in E. injection E as <- <-.
        split; [reflexivity|]; split; [reflexivity|]; split; [apply fit_moved; [exact L'|cbn [set_open set_env env]; rewrite Ei; exact By]|].
        exists [Shutdown], [SShutdown]. split; [|split; [repeat constructor|exact El]].
        unfold life_at; rewrite idle_moved; unfold life_of; cbn [st_transport st_set_transport set_open set_env is_open env]; rewrite Op, Ei.
        rewrite wrapped_relayed, up_relayed. apply disconnect_tcp_shutdown; [reflexivity|exact Hf]. }
      destruct (fate_of e SClose) as (g & Hg & Er' & Ei' & El'). destruct (perform e SClose) as [rw' e'] eqn:Pf'. cbn [fst snd] in *.
      destruct g as [x|]; rewrite Er' in E; cbn [stack_map] in E; injection E as <- <-;
        (split; [reflexivity|]; split; [reflexivity|]; split; [apply fit_moved; [exact L'|cbn [set_open set_env env]; rewrite Ei', Ei; exact By]|]);
        exists [Shutdown; Close], [SShutdown; SClose]; (split; [|split; [repeat constructor|unfold calls_of; cbn [st_transport st_set_transport set_open set_env env]; rewrite El', El, <- app_assoc; reflexivity]]);
        unfold life_at; rewrite idle_moved; unfold life_of; cbn [st_transport st_set_transport set_open set_env is_open env]; rewrite Op, Ei', Ei.
      * rewrite wrapped_relayed, up_relayed. eapply disconnect_tcp_close; [reflexivity|exact Hf|exact Hg].
      * eapply disconnect_tcp; [reflexivity|exact Hf|exact Hg].
    + destruct (fate_of (env (st_transport s)) SClose) as (f & Hf & Er & Ei & El). destruct (perform (env (st_transport s)) SClose) as [rw e] eqn:Pf.
      cbn [fst snd] in *. destruct f as [x|]; rewrite Er in E; cbn [stack_map] in E; injection E as <- <-;
        (split; [reflexivity|]; split; [reflexivity|]; split; [apply fit_moved; [exact L'|cbn [set_open set_env env]; rewrite Ei; exact By]|]);
        exists [Close], [SClose]; (split; [|split; [repeat constructor|exact El]]);
        unfold life_at; rewrite idle_moved; unfold life_of; cbn [st_transport st_set_transport set_open set_env is_open env]; rewrite Op, Ei.
      * rewrite wrapped_relayed, up_relayed. apply disconnect_serial_close; [reflexivity|exact Hf].
      * apply disconnect_serial; [reflexivity|exact Hf].
  - cbn [stack_operate] in E. unfold stack_read_parameters in E.
    match type of E with context[stack_read_parameters_loop ?f s ?m []] => destruct (stack_read_parameters_loop f s m []) as [b s1] eqn:X end.
    apply (read_life ctx) in X; [|constructor|exact L'|unfold arriving_at, count; rewrite <- available_stream; apply Nat.lt_succ_diag_r].
    assert (a = match b with Done (Ok values) => Done (Ok (RObjects values)) | Done (Err x) => Done (Err x) | Waiting => Waiting end /\ s' = s1) as [-> ->].
    { destruct b as [[v|x]|]; cbn [stack_map] in E; injection E as <- <-; auto. }
    eapply told_weak; [exact X|]. intros ds H. apply reads_parameters. exact H.
Qed.
Lemma session_life ctx os : forall s vs s', living ctx s -> Forall operation_times_valid os -> stack_session s os = (vs, s') ->
  told ctx s s' (fun ds => lives ctx (st_password s) (t_kind (st_transport s)) os (life_at s) vs ds (life_at s')).
Proof.
  induction os as [|o os IH]; intros s vs s' L V E; cbn [stack_session] in E.
  { injection E as <- <-. apply told_nothing; auto. apply lives_end. }
  inversion V as [|? ? V1 V2]; subst. destruct (stack_operate s o) as [a s1] eqn:X. apply (operate_life ctx) in X; auto.
  destruct a as [v|].
  - destruct (stack_session s1 os) as [ws s2] eqn:Y. apply IH in Y; [|apply (told_living _ _ _ _ X)|exact V2].
    assert (st_password s1 = st_password s /\ t_kind (st_transport s1) = t_kind (st_transport s)) as [Pw Kd] by (split; apply X).
    rewrite Pw, Kd in Y. injection E as <- <-. eapply told_more; [exact X|exact Y|]. intros ds ds' H1 H2. eapply lives_on; [exact H1|exact H2].
  - injection E as <- <-. eapply told_weak; [exact X|]. intros ds H. apply lives_waits. exact H.
Qed.
Lemma every_life t pw pid k id dr s os vs s' : make_stack t pw pid k id dr = Ok s -> key_bytes k -> bytes_arrive (env t) ->
  Forall operation_times_valid os -> stack_session s os = (vs, s') ->
  exists i ds cs, lives (client_context k id) pw (t_kind t) os (life_of true t) vs ds (life_of i (st_transport s')) /\
    Forall2 (done (client_context k id)) ds cs /\ log (env (st_transport s')) = log (env t) ++ cs.
Proof.
  intros M K By Ti E. destruct (make_stack_inv _ _ _ _ _ _ _ M) as [Et Mc]. specialize (Mc [] [] [] []).
  pose proof (made_config _ _ _ _ _ _ Mc) as Cf. pose proof (line_zero _ _ Cf) as Lz.
  apply make_client_inv in Mc as (H1 & H2 & H3 & H4 & H5 & H6). cbn [as_client cl_connection cl_password] in *.
  assert (idle_of s = true) as Id by (apply idle_true; exact H5).
  assert (living (client_context k id) s) as L.
  { split; [unfold arriving_at; rewrite Et; apply arriving_bytes; exact By|]. intros _. constructor; try assumption.
    - apply client_sane in Cf. exact Cf.
    - unfold client_context. destruct k as [[|b k]|]; destruct id as [id|]; try exact I. exact K.
    - subst pw. lia. }
  destruct (session_life _ _ _ _ _ L Ti E) as (_ & _ & _ & ds & cs & Hl & Hd & Hc). exists (idle_of s'), ds, cs.
  unfold life_at in Hl. rewrite Id, Et in Hl. subst pw. split; [exact Hl|]. split; [exact Hd|]. unfold calls_of in Hc. rewrite Et in Hc. exact Hc.
Qed.

(** ** only one life *)
Lemma fate_once fs f fs' g gs : fate fs f fs' -> fate fs g gs -> f = g /\ fs' = gs.
Proof. intros H H'. inversion H; subst; inversion H'; subst; auto. Qed.
Ltac fates := repeat match goal with
  | H : fate ?fs ?f ?x, H' : fate ?fs ?g ?y |- _ => destruct (fate_once _ _ _ _ _ H H') as [? ?]; subst; clear H'; try discriminate
  | H : Some _ = Some _ |- _ => injection H as H; subst
  end.
Lemma asked_once ctx r l a ds l' : stream_bytes (coming l) -> asked ctx r l a ds l' ->
  forall b es l'', asked ctx r l b es l'' -> a = b /\ ds = es /\ l' = l''.
Proof.
  intros B H b es l'' H'. inversion H; subst; inversion H'; subst; fates; try congruence; try contradiction; auto.
  - assert (x = x0) by congruence. subst. auto.
  - cbn [coming] in B. match goal with U : usable_context ctx, H1 : heard _ _ _ a _, H2 : heard _ _ _ _ _ |- _ =>
      destruct (heard_once ctx r _ _ _ _ _ U B H1 H2) as [-> ->] end. auto.
Qed.
Lemma asked_rest ctx r l a ds l' : asked ctx r l a ds l' -> stream_bytes (coming l) -> stream_bytes (coming l').
Proof. intros H B. inversion H; subst; auto. cbn [coming] in *. eapply heard_rest; eassumption. Qed.
Lemma read_on_once ctx pw n got l a ds l' : read_on ctx pw n got l a ds l' -> stream_bytes (coming l) -> is_bytes got ->
  forall b es l'', read_on ctx pw n got l b es l'' -> a = b /\ ds = es /\ l' = l''.
Proof.
  intros H. induction H as [n got l x ds l' A|n got l ds l' A|n got l data number amount ds l' outcome A P|n got l data number amount ds l' a ds' l'' A H IH];
    intros B Bg b es m H'; inversion H'; subst;
    match goal with X : asked _ _ _ _ _ _ |- _ => destruct (asked_once _ _ _ _ _ _ B A _ _ _ X) as (Ea & Ed & El); try discriminate Ea; subst end.
  - injection Ea as ->. auto.
  - auto.
  - injection Ea as -> -> ->. assert (outcome = outcome0) by (eapply reads_once; [|eassumption..]; apply is_bytes_app; split; [assumption|eapply asked_bytes; eassumption]). subst. auto.
  - injection Ea as -> -> ->. match goal with X : read_on _ _ _ _ _ b _ _ |- _ => apply IH in X; [|eapply asked_rest; eassumption|apply is_bytes_app; split; [assumption|eapply asked_bytes; eassumption]]; destruct X as (-> & -> & ->) end. auto.
Qed.
Lemma read_on_rest ctx pw n got l a ds l' : read_on ctx pw n got l a ds l' -> stream_bytes (coming l) -> stream_bytes (coming l').
Proof. intros H. induction H; intros B; eauto using asked_rest. Qed.
Lemma does_rest ctx pw kd o l a ds l' : does ctx pw kd o l a ds l' -> stream_bytes (coming l) -> stream_bytes (coming l').
Proof. intros H B. inversion H; subst; eauto using asked_rest, read_on_rest. Qed.
Lemma does_once ctx pw kd o l a ds l' : stream_bytes (coming l) -> does ctx pw kd o l a ds l' ->
  forall b es l'', does ctx pw kd o l b es l'' -> a = b /\ ds = es /\ l' = l''.
Proof.
  intros B H b es m H'.
  inversion H; subst; inversion H'; subst; try discriminate; fates; auto;
    try (match goal with X : asks _ _ = Some _, Y : asks _ _ = Some _ |- _ => rewrite X in Y; injection Y as Y; subst end;
         match goal with X : asked _ _ _ _ ds _, Y : asked _ _ _ _ _ _ |- _ => destruct (asked_once _ _ _ _ _ _ B X _ _ _ Y) as (Ea & -> & ->) end;
         try discriminate Ea; auto).
  - injection Ea as ->. auto.
  - injection Ea as ->. match goal with X : gives _ _ v, Y : gives _ _ v0 |- _ => rewrite (gives_once _ _ _ _ X Y) end. auto.
  - match goal with X : read_on _ _ _ _ _ _ ds _, Y : read_on _ _ _ _ _ _ _ _ |- _ => destruct (read_on_once _ _ _ _ _ _ _ _ X B (Forall_nil _) _ _ _ Y) as (-> & -> & ->) end. auto.
Qed.
Lemma lives_once ctx pw kd os l vs ds l' : lives ctx pw kd os l vs ds l' -> stream_bytes (coming l) ->
  forall ws es l'', lives ctx pw kd os l ws es l'' -> vs = ws /\ ds = es /\ l' = l''.
Proof.
  intros H. induction H as [l|o os l ds l' D|o os l v ds l' vs ds' l'' D H IH]; intros B ws es m H'; inversion H'; subst; auto;
    match goal with X : does _ _ _ _ _ _ _ _ |- _ => destruct (does_once _ _ _ _ _ _ _ _ B D _ _ _ X) as (Ea & Ed & El); try discriminate Ea; subst end; auto.
  injection Ea as ->. match goal with X : lives _ _ _ _ _ _ _ _ |- _ => apply IH in X; [|eapply does_rest; eassumption]; destruct X as (-> & -> & ->) end. auto.
Qed.
