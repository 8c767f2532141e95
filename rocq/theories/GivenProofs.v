(** Proofs about clients on a connection that the user made. *)
From Verif Require Import PyFacts SpecUtils SpecFrames SpecText SpecApplication SpecPdu SpecSecurity SpecConnection.
From Verif Require Import ApplicationProofs Connection ConnectionProofs ParamLang Parameters ParserProofs Client SpecClient ClientProofs SpecGiven.
Open Scope list_scope.
Open Scope Z_scope.

Lemma make_with_inv s1 s2 d1 d2 pc pidc kc idc st gc c : make_connection_with s1 s2 d1 d2 pc pidc kc idc st gc = Ok c ->
  addresses d1 d2 s1 s2 /\ config c = (s1, s2, d1, d2, connection_context kc idc gc) /\
  elgas_state c = match st with Some s => s | None => IDLE end /\ buffer c = [].
Proof.
  unfold make_connection_with, validate. destruct (_ && _) eqn:E; [|discriminate]. intros H. injection H as <-.
  rewrite !andb_true_iff in E. split; [unfold addresses; repeat split; lia|]. unfold config. cbn.
  split; [f_equal; destruct gc, kc, idc; reflexivity|]. split; reflexivity.
Qed.
Lemma given_ready s1 s2 d1 d2 ctx c : addresses d1 d2 s1 s2 -> config c = (s1, s2, d1, d2, ctx) ->
  ready ctx c /\ line_from c = request_line_at d1 d2 s1 s2 ctx.
Proof.
  unfold config, ready, sane, line_from. intros A H. injection H as -> -> -> -> ->. split; [split; [exact A|reflexivity]|reflexivity].
Qed.
Lemma given_conversation s1 s2 d1 d2 pc pidc kc idc st gc c pw pid k id w cl os results rs vs rest ctx :
  make_connection_with s1 s2 d1 d2 pc pidc kc idc st gc = Ok c -> st = None \/ st = Some IDLE ->
  ctx = connection_context kc idc gc ->
  make_client_with pw pid k id (Some c) w = Ok cl -> usable_context ctx -> len pw <= 65000 -> tx w = [] -> sent w = [] ->
  converses ctx pw os results rs vs -> rx w = results ++ rest ->
  exists cl', session cl os = (vs, cl') /\ Forall2 (request_line_at d1 d2 s1 s2 ctx) rs (sent (cl_world cl')) /\
    rx (cl_world cl') = rest /\ elgas_state (cl_connection cl') = IDLE /\ buffer (cl_connection cl') = [].
Proof.
  intros M St Ec Mc U L T S C E. apply make_with_inv in M as (A & Cf & Es & B).
  injection Mc as <-. rewrite <- Ec in Cf. destruct (given_ready _ _ _ _ _ _ A Cf) as [R Li].
  assert (elgas_state c = IDLE) as I by (rewrite Es; destruct St as [->| ->]; reflexivity).
  assert (at_rest ctx (mk_client pw c w)) as Re by (unfold at_rest; cbn; auto 10).
  destruct (conversation _ _ _ _ _ _ C (mk_client pw c w) rest Re eq_refl E) as (ts & X & F).
  cbn [cl_connection] in F. rewrite Li in F. eexists. split; [exact X|]. cbn. rewrite S. auto.
Qed.
Lemma given_lines s1 s2 d1 d2 pc pidc kc idc st gc c ks pw pid k id w cl os ctx :
  make_connection_with s1 s2 d1 d2 pc pidc kc idc st gc = Ok c -> ctx = connection_context kc idc gc -> context_bytes ctx ->
  make_client_with pw pid k id (Some (snd (run c ks))) w = Ok cl -> sent w = [] ->
  Forall (fun t => exists r, (forall p, request_password r = Some p -> p = pw) /\ request_line_at d1 d2 s1 s2 ctx r t)
    (sent (cl_world (snd (session cl os)))).
Proof.
  intros M Ec K Mc S. apply make_with_inv in M as (A & Cf & _ & _). injection Mc as <-.
  rewrite <- Ec in Cf. rewrite <- (run_config ks c) in Cf. destruct (given_ready _ _ _ _ _ _ A Cf) as [[R1 R2] Li].
  assert (clean (snd (run c ks)) (mk_client pw (snd (run c ks)) w)) as Cl.
  { split; [reflexivity|]. split; [|cbn; rewrite S; constructor]. split; [exact R1|]. rewrite R2. destruct ctx as [[i q]|]; exact K. }
  destruct (session_clean _ os _ Cl) as [(_ & _ & F) P]. rewrite P in F. unfold sent_ok in F. rewrite Li in F. eapply Forall_impl; [|exact F]. intros t [_ X]. exact X.
Qed.
Lemma given_key_ignored s1 s2 d1 d2 pc pidc kc idc st gc c ks pw pid k id w cl os :
  make_connection_with s1 s2 d1 d2 pc pidc kc idc st gc = Ok c -> connection_context kc idc gc = None ->
  make_client_with pw pid k id (Some (snd (run c ks))) w = Ok cl -> sent w = [] ->
  Forall (fun t => exists w0, on_line w0 t /\
      ((exists tail, w0 = [2; 254; 132; 108] ++ tail) \/ (exists before after, w0 = [2; 254; 132] ++ before ++ pw ++ after)))
    (sent (cl_world (snd (session cl os)))).
Proof.
  intros M N Mc S.
  pose proof (given_lines _ _ _ _ _ _ _ _ _ _ _ ks pw pid k id w cl os _ M eq_refl) as F. rewrite N in F. specialize (F I Mc S).
  eapply Forall_impl; [|exact F].
  intros t (r & Pw & ap & E & L). eexists. split; [exact L|].
  destruct (request_password r) as [p|] eqn:Ep.
  - right. rewrite (Pw p eq_refl) in *. destruct (data_password _ _ _ Ep E) as (s & ->).
    unfold request_wire, wire, sealed. rewrite <- !app_assoc. cbn [app].
    exists (function_code r :: le2 (len (pw ++ s) + 15) ++ be2 d1 ++ [d2] ++ be2 s1 ++ [s2]).
    eexists. unfold le2, be2. cbn [app]. reflexivity.
  - left. destruct r; try discriminate. unfold request_wire, wire, sealed. cbn [app]. eexists. reflexivity.
Qed.
Lemma given_long_password s1 s2 d1 d2 pc pidc kc idc st gc c pw pid k id w :
  make_connection_with s1 s2 d1 d2 pc pidc kc idc st gc = Ok c -> st = None \/ st = Some IDLE ->
  usable_context (connection_context kc idc gc) -> latin1 pw -> len pw <= 65000 -> tx w = [] -> rx w = [] -> sent w = [] ->
  exists cl t cl', make_client_with pw pid k id (Some c) w = Ok cl /\ session cl [OpReadValues] = ([Waiting], cl') /\
    sent (cl_world cl') = [t] /\
    request_line_at d1 d2 s1 s2 (connection_context kc idc gc) (ReadInstantaneousValuesRequest pw) t.
Proof.
  intros M St U La L T R S. apply make_with_inv in M as (A & Cf & Es & B).
  destruct (given_ready _ _ _ _ _ _ A Cf) as [Rd Li].
  assert (elgas_state c = IDLE) as I by (rewrite Es; destruct St as [->| ->]; reflexivity).
  destruct (exchange_waits (connection_context kc idc gc) (mk_client pw c w) (ReadInstantaneousValuesRequest pw)) as (t & cl' & E & E2 & Hl).
  - unfold at_rest. cbn. auto 10.
  - split; [|exact Logic.I]. cbn [request_misfit].
    assert (forallb (fun x => (0 <=? x) && (x <=? 255)) pw = true) as ->; [|reflexivity].
    apply forallb_forall. intros x Hx. apply (proj1 (Forall_forall _ _) La) in Hx. lia.
  - intros p Hp. cbn in Hp. cbn. congruence.
  - exact R.
  - eexists _, t, cl'. split; [reflexivity|]. cbn [session operate]. unfold client_read_instantaneous_values. cbn [cl_password].
    rewrite E. cbn [answer_map]. split; [reflexivity|]. cbn in E2. rewrite S in E2. split; [exact E2|].
    cbn [cl_connection] in Hl. rewrite Li in Hl. exact Hl.
Qed.
