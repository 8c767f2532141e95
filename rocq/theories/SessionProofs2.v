(** Proofs about the client over a transport as one machine: consequences. *)
From Coq Require Import Lia.
From Verif Require Import PyFacts SpecUtils SpecFrames SpecSecurity SpecConnection SpecApplication SpecPdu SpecText.
From Verif Require Import Connection ConnectionProofs ParamLang Parameters Client SpecClient ClientProofs.
From Verif Require Import Transport SpecTransport TransportProofs SpecStack StackProofs Stack SpecErrors ErrorProofs SpecSession SessionProofs.
Open Scope list_scope.
Open Scope Z_scope.

Lemma make_stack_inv t pw pid k id dr s : make_stack t pw pid k id dr = Ok s ->
  st_transport s = t /\ forall tx rx ctl sent, make_client pw pid k id (mk_world tx rx ctl sent 0 dr) = Ok (as_client s tx rx ctl sent).
Proof.
  unfold make_stack, make_client. destruct (make_connection _ _ _ _ _ _ _ _) as [c|e]; [|discriminate].
  cbn [bind]. intros E. injection E as <-. split; reflexivity.
Qed.
Lemma make_client_stack t pw pid k id w cl : make_client pw pid k id w = Ok cl -> exists s, make_stack t pw pid k id (draws w) = Ok s.
Proof.
  unfold make_stack, make_client. destruct (make_connection _ _ _ _ _ _ _ _) as [c|e]; [|discriminate]. cbn [bind]. eauto.
Qed.

(** ** refinement *)
Lemma stack_refines t pw pid k id dr s os vs s' : make_stack t pw pid k id dr = Ok s -> stack_session s os = (vs, s') ->
  exists h cl cl', happens t h (st_transport s') /\
    make_client pw pid k id (mk_world (send_results h) (recv_results h) (control_results h) [] 0 dr) = Ok cl /\
    session cl os = (vs, cl') /\ sent (cl_world cl') = sends h /\ rx (cl_world cl') = [] /\
    cl_connection cl' = st_connection s'.
Proof.
  intros M E. apply make_stack_inv in M as [<- M].
  destruct (session_mimics _ _ _ _ E) as (h & H & _ & _ & _ & _ & C).
  exists h, (as_client s (send_results h) (recv_results h) (control_results h) []), (as_client s' [] [] [] (sends h)).
  split; [exact H|]. split; [apply M|]. split; [|split; [reflexivity|split; reflexivity]].
  specialize (C (send_results h) [] [] [] [] (fun _ => eq_refl) (takes_all _)). rewrite !app_nil_r in C. exact C.
Qed.
Lemma stack_waits t pw pid k id dr s os vs s' : make_stack t pw pid k id dr = Ok s -> stack_session s os = (vs, s') ->
  In Waiting vs -> exists h, happens t (h ++ [(TRecv, Waiting)]) (st_transport s').
Proof.
  intros M E W. apply make_stack_inv in M as [<- M]. destruct (session_mimics _ _ _ _ E) as (h & H & _ & X & _).
  destruct (X W) as (h0 & -> & _). eauto.
Qed.

(** ** what is written *)
Lemma happens_inv t c r h t' : happens t ((c, r) :: h) t' ->
  exists t1, transport_step t c = (r, t1) /\ (happens t1 h t' \/ (r = Waiting /\ h = [] /\ t' = t1)).
Proof.
  unfold happens. cbn [map fst transport_run]. destruct (transport_step t c) as [[a|] t1] eqn:E.
  - destruct (transport_run t1 (map fst h)) as [h' t''] eqn:R. intros X. injection X as -> -> ->. exists t1. auto.
  - intros X. injection X as <- <- <-. exists t1. auto 6.
Qed.
Lemma perform_log e c r e' : perform e c = (r, e') -> log e' = log e ++ [c] /\ incoming e' = incoming e /\ now e' = now e /\ ticks e' = ticks e.
Proof. unfold perform. destruct (outcomes e); intros E; injection E as _ <-; cbn; auto. Qed.
Lemma step_log t c r t' : transport_step t c = (r, t') ->
  exists calls, log (env t') = log (env t) ++ calls /\ incl (written calls) (sends [(c, r)]).
Proof.
  destruct c as [| |data|]; cbn [transport_step]; intros E.
  - unfold transport_connect in E. destruct (is_open t); [injection E as _ <-; exists []; rewrite app_nil_r; split; [reflexivity|intros x []]|].
    destruct (perform (env t) SOpen) as [o e] eqn:P. apply perform_log in P as [P _]. exists [SOpen].
    destruct o; injection E as _ <-; cbn [env set_open set_env]; (split; [exact P|intros x []]).
  - unfold transport_disconnect in E. destruct (is_open t); [|injection E as _ <-; exists []; rewrite app_nil_r; split; [reflexivity|intros x []]].
    destruct (t_kind t).
    + destruct (perform (env t) SShutdown) as [o e] eqn:P. apply perform_log in P as [P _]. destruct o.
      * destruct (perform e SClose) as [o e2] eqn:P2. apply perform_log in P2 as [P2 _]. rewrite P, <- app_assoc in P2.
        exists [SShutdown; SClose]. destruct o; injection E as _ <-; cbn [env set_open set_env]; (split; [exact P2|intros x []]).
      * exists [SShutdown]. injection E as _ <-; cbn [env set_open set_env]; (split; [exact P|intros x []]).
    + destruct (perform (env t) SClose) as [o e] eqn:P. apply perform_log in P as [P _]. exists [SClose].
      destruct o; injection E as _ <-; cbn [env set_open set_env]; (split; [exact P|intros x []]).
  - unfold transport_write in E. destruct (is_open t); [|injection E as _ <-; exists []; rewrite app_nil_r; split; [reflexivity|intros x []]].
    destruct (perform (env t) (SWrite data)) as [o e] eqn:P. apply perform_log in P as [P _]. exists [SWrite data].
    destruct o; injection E as _ <-; cbn [env set_open set_env]; (split; [exact P|apply incl_refl]).
  - exists []. rewrite app_nil_r. split; [|intros x []]. unfold transport_read, recv_until in E. destruct (make_timeout _ _ _) as [timer n].
    destruct (recv_until_loop _ _ _ _ _ _ _ _ _) as [[[[d|x]|] n'] inc']; injection E as _ <-; reflexivity.
Qed.
Lemma written_app a b : written (a ++ b) = written a ++ written b. Proof. apply flat_map_app. Qed.
Lemma happens_log h : forall t t', happens t h t' ->
  exists calls, log (env t') = log (env t) ++ calls /\ incl (written calls) (sends h).
Proof.
  induction h as [|[c r] h IH]; intros t t' H.
  - injection H as <-. exists []. rewrite app_nil_r. split; [reflexivity|intros x []].
  - apply happens_inv in H as (t1 & E & [H|(-> & -> & ->)]).
    + destruct (step_log _ _ _ _ E) as (c1 & L1 & I1). destruct (IH _ _ H) as (c2 & L2 & I2).
      exists (c1 ++ c2). rewrite L2, L1, app_assoc. split; [reflexivity|]. change ((c, r) :: h) with ([(c, r)] ++ h). rewrite written_app, sends_app.
      apply incl_app; [apply incl_appl; exact I1|apply incl_appr; exact I2].
    + apply step_log in E. exact E.
Qed.
Lemma written_lines t pw pid k id dr s os : make_stack t pw pid k id dr = Ok s -> key_bytes k ->
  exists calls, log (env (st_transport (snd (stack_session s os)))) = log (env t) ++ calls /\
  Forall (fun line => exists r, (forall p, request_password r = Some p -> p = pw) /\ request_line (client_context k id) r line) (written calls).
Proof.
  intros M K. destruct (stack_session s os) as [vs s'] eqn:E. destruct (stack_refines _ _ _ _ _ _ _ _ _ _ M E) as (h & cl & cl' & H & Mc & Es & Sn & _).
  destruct (happens_log _ _ _ H) as (calls & L & I). exists calls. split; [exact L|].
  pose proof (sent_lines _ _ _ _ _ _ os Mc K eq_refl) as F. rewrite Es in F. cbn [snd] in F. rewrite Sn in F.
  apply Forall_forall. intros x Hx. rewrite Forall_forall in F. apply F, I, Hx.
Qed.

(** ** an open connection *)
Lemma write_open t data a t' : transport_write t data = (a, t') ->
  is_open t' = is_open t /\ t_timeout t' = t_timeout t /\ incoming (env t') = incoming (env t) /\ now (env t') = now (env t) /\ ticks (env t') = ticks (env t) /\
  log (env t') = log (env t) ++ (if is_open t then [SWrite data] else []) /\
  (outcomes (env t) = [] -> outcomes (env t') = [] /\ (is_open t = true -> a = Done (Ok tt))).
Proof.
  unfold transport_write. destruct (is_open t) eqn:O.
  - destruct (perform (env t) (SWrite data)) as [r e] eqn:P. pose proof (perform_log _ _ _ _ P) as (L1 & L2 & L3 & L4).
    destruct r as [u|x]; intros E; injection E as <- <-; cbn [is_open t_timeout set_env env]; do 6 (split; [first [assumption|reflexivity]|]);
      intros N; unfold perform in P; rewrite N in P; injection P; intros; subst; [|discriminate].
    cbn. auto.
  - intros E. injection E as <- <-. rewrite app_nil_r. rewrite O. do 6 (split; [reflexivity|]). intros N. split; [exact N|discriminate].
Qed.
Definition alike (t u : transport) : Prop :=
  is_open t = is_open u /\ t_timeout t = t_timeout u /\ incoming (env t) = incoming (env u) /\ now (env t) = now (env u) /\ ticks (env t) = ticks (env u).
Lemma read_alike t u a t' : alike t u -> transport_read t = (a, t') ->
  exists u', transport_read u = (a, u') /\ alike t' u' /\ is_open t' = is_open t /\ outcomes (env t') = outcomes (env t) /\ log (env t') = log (env t).
Proof.
  intros (A1 & A2 & A3 & A4 & A5). unfold transport_read, recv_until. rewrite A1, A2, A3, A4, A5.
  destruct (make_timeout _ _ _) as [timer n]. destruct (recv_until_loop _ _ _ _ _ _ _ _ _) as [[[[d|x]|] n'] inc']; intros E; injection E as <- <-;
    eexists; (split; [reflexivity|]); (split; [unfold alike; cbn; auto|]); cbn; auto.
Qed.
Lemma alike_refl t : alike t t. Proof. unfold alike. auto. Qed.
Lemma alike_write t u data a t' : alike t u -> transport_write t data = (a, t') -> alike t' u.
Proof. intros (A1 & A2 & A3 & A4 & A5) W. apply write_open in W as (W1 & W2 & W3 & W4 & W5 & _). unfold alike. repeat split; congruence. Qed.
Lemma talking_open h : forall t t', happens t h t' -> Forall talking h ->
  is_open t' = is_open t /\ log (env t') = log (env t) ++ (if is_open t then map SWrite (sends h) else []) /\
  (outcomes (env t) = [] -> outcomes (env t') = [] /\ (is_open t = true -> Forall (fun o => o = None) (send_results h))).
Proof.
  induction h as [|[c r] h IH]; intros t t' H F.
  - injection H as <-. cbn. destruct (is_open t); rewrite app_nil_r; auto.
  - apply Forall_cons_iff in F as [Fc F]. apply happens_inv in H as (t1 & E & H).
    assert (is_open t1 = is_open t /\ log (env t1) = log (env t) ++ (if is_open t then map SWrite (sends [(c, r)]) else []) /\
      (outcomes (env t) = [] -> outcomes (env t1) = [] /\ (is_open t = true -> Forall (fun o => o = None) (send_results [(c, r)])))) as (S1 & S2 & S3).
    { destruct c; try contradiction; cbn [transport_step] in E.
      - destruct (transport_write t data) as [a u] eqn:W. apply write_open in W as (W1 & _ & _ & _ & _ & W6 & W7).
        destruct a as [[[]|x]|]; injection E as <- <-; (split; [exact W1|]); (split; [exact W6|]); intros N; destruct (W7 N) as [W8 W9];
          (split; [exact W8|]); intros O; specialize (W9 O); try discriminate. repeat constructor.
      - destruct (transport_read t) as [a u] eqn:W. destruct (read_alike t t a u (alike_refl t) W) as (_ & _ & _ & W1 & W2 & W3).
        destruct a as [[d|x]|]; injection E as <- <-; (split; [exact W1|]); (split; [rewrite W3; cbn; destruct (is_open t); rewrite app_nil_r; reflexivity|]);
          intros N; (split; [congruence|]); intros _; constructor. }
    destruct H as [H|(-> & -> & ->)]; [|auto].
    destruct (IH _ _ H F) as (I1 & I2 & I3). split; [congruence|]. split.
    + change ((c, r) :: h) with ([(c, r)] ++ h). rewrite I2, S2, S1, <- app_assoc, sends_app. destruct (is_open t); [|reflexivity]. rewrite map_app. reflexivity.
    + intros N. destruct (S3 N) as [S4 S5]. destruct (I3 S4) as [I4 I5]. split; [exact I4|]. intros O.
      change ((c, r) :: h) with ([(c, r)] ++ h). rewrite send_results_app. apply Forall_app. split; [auto|]. apply I5. congruence.
Qed.
(** the reads of a history are the reads of the same transport without the writes *)
Lemma talking_reads h : forall t u t', happens t h t' -> Forall talking h -> finished h -> alike t u ->
  exists u', receives u (length (recv_results h)) = (map (fun r => Done r) (recv_results h), u') /\ alike t' u'.
Proof.
  induction h as [|[c r] h IH]; intros t u t' H F Fi A.
  - injection H as <-. exists u. split; [reflexivity|exact A].
  - apply Forall_cons_iff in F as [Fc F]. assert (finished h) as Fh by (intros X; apply Fi; right; exact X).
    apply happens_inv in H as (t1 & E & [H|(-> & _)]); [|exfalso; apply Fi; left; reflexivity].
    destruct c; try contradiction; cbn [transport_step] in E.
    + destruct (transport_write t data) as [a v] eqn:W. apply (alike_write _ u) in W; [|exact A].
      destruct a as [[[]|x]|]; injection E as <- <-; cbn [recv_results flat_map app]; eapply IH; eauto.
    + destruct (transport_read t) as [a v] eqn:W. destruct (read_alike t u a v A W) as (u1 & R & A1 & _).
      destruct a as [[d|x]|]; injection E as <- <-; [| |exfalso; apply Fi; left; reflexivity];
        destruct (IH _ u1 _ H F Fh A1) as (u2 & R2 & A2); exists u2; (split; [|exact A2]);
        cbn [recv_results flat_map app length receives map];
        fold (recv_results h); rewrite R, R2; reflexivity.
Qed.

(** ** a conversation *)
Lemma receives_split a : forall b t t1 t2, reading t a t1 -> reading t (a ++ b) t2 -> reading t1 b t2.
Proof.
  unfold reading. intros b t t1 t2 A B. rewrite app_length, receives_app, A in B. destruct (receives t1 (length b)) as [q t3].
  injection B as B ->. rewrite map_app in B. apply app_inv_head in B. subst. reflexivity.
Qed.
Lemma receives_length k : forall t, length (fst (receives t k)) = k.
Proof.
  induction k as [|k IH]; intros t; [reflexivity|]. cbn [receives]. destruct (transport_read t) as [r u]. specialize (IH u).
  destruct (receives u k). cbn in *. congruence.
Qed.
Lemma map_done_inj {A} (a b : list (res A)) : map (fun r => Done r) a = map (fun r => Done r) b -> a = b.
Proof. revert b. induction a as [|x a IH]; intros [|y b] E; try discriminate; [reflexivity|]. injection E as -> E. rewrite (IH b E). reflexivity. Qed.
Lemma receives_prefix a b t t1 t2 : reading t a t1 -> reading t b t2 -> (length a <= length b)%nat -> exists x, b = a ++ x /\ reading t1 x t2.
Proof.
  intros A B L. assert (firstn (length a) b = a) as E.
  { unfold reading in *. replace (length b) with (length a + (length b - length a))%nat in B by lia. rewrite receives_app, A in B.
    destruct (receives t1 (length b - length a)) as [q t3] eqn:R. injection B as B ->.
    apply (f_equal (firstn (length (map (fun r : res bytes => Done r) a)))) in B. rewrite firstn_app, firstn_all, Nat.sub_diag in B. cbn [firstn] in B. rewrite app_nil_r, map_length, firstn_map in B.
    apply map_done_inj in B. auto. }
  exists (skipn (length a) b). assert (b = a ++ skipn (length a) b) as Eb by (rewrite <- E at 1; symmetry; apply firstn_skipn).
  split; [exact Eb|]. rewrite Eb in B. eapply receives_split; eauto.
Qed.
Lemma asks_communicates pw o r : asks pw o = Some r -> communicating o.
Proof. destruct o; try discriminate; split; discriminate. Qed.
Lemma talks_communicates ctx pw os lines rs vs : talks ctx pw os lines rs vs -> Forall communicating os.
Proof. induction 1; constructor; auto; [eapply asks_communicates; eauto|split; discriminate]. Qed.
Lemma waiting_dec {A} (l : list (answer A)) : In Waiting l \/ ~ In Waiting l.
Proof.
  induction l as [|[r|] l IH]; [right; intros []| |left; left; reflexivity].
  destruct IH as [IH|IH]; [left; right; exact IH|right; intros [X|X]; [discriminate|contradiction]].
Qed.
Lemma happens_split h1 : forall t h2 t2, happens t (h1 ++ h2) t2 -> finished h1 -> exists t1, happens t h1 t1 /\ happens t1 h2 t2.
Proof.
  induction h1 as [|[c r] h1 IH]; intros t h2 t2 H F.
  - exists t. split; [apply happens_nil|exact H].
  - cbn [app] in H. apply happens_inv in H as (t1 & E & [H|(-> & _)]); [|exfalso; apply F; left; reflexivity].
    destruct (IH _ _ _ H) as (t3 & A & B); [intros X; apply F; right; exact X|]. exists t3. split; [|exact B].
    apply (happens_app [(c, r)] t t1 h1 t3); [apply happens_one; exact E| |exact A].
    intros [X|[]]. apply F. left. exact X.
Qed.
Lemma step_kind t c r t' : transport_step t c = (r, t') -> t_kind t' = t_kind t.
Proof.
  destruct c as [| |data|]; cbn [transport_step]; intros E.
  - unfold transport_connect in E. destruct (is_open t); [injection E as _ <-; reflexivity|].
    destruct (perform _ _) as [[?|?] e]; injection E as _ <-; reflexivity.
  - unfold transport_disconnect in E. destruct (is_open t); [|injection E as _ <-; reflexivity].
    destruct (t_kind t) eqn:K.
    + destruct (perform _ SShutdown) as [[?|?] e]; [destruct (perform _ SClose) as [[?|?] e2]|]; injection E as _ <-; exact K.
    + destruct (perform _ SClose) as [[?|?] e2]; injection E as _ <-; exact K.
  - unfold transport_write in E. destruct (is_open t); [|injection E as _ <-; reflexivity].
    destruct (perform _ _) as [[?|?] e]; injection E as _ <-; reflexivity.
  - unfold transport_read, recv_until in E. destruct (make_timeout _ _ _) as [timer n].
    destruct (recv_until_loop _ _ _ _ _ _ _ _ _) as [[[[d|x]|] n'] inc']; injection E as _ <-; reflexivity.
Qed.
Lemma happens_kind h : forall t t', happens t h t' -> t_kind t' = t_kind t.
Proof.
  induction h as [|[c r] h IH]; intros t t' H; [injection H as <-; reflexivity|].
  apply happens_inv in H as (t1 & E & [H|(_ & _ & ->)]); apply step_kind in E; [apply IH in H; congruence|exact E].
Qed.
Lemma stack_talks t pw pid k id dr s os lines rs vs rest later : make_stack t pw pid k id dr = Ok s ->
  usable_context (client_context k id) -> talks (client_context k id) pw os lines rs vs ->
  is_open t = true -> outcomes (env t) = [] -> arriving (incoming (env t)) (concat lines ++ rest) later ->
  exists ts s', stack_session s os = (vs, s') /\ Forall2 (request_line (client_context k id)) rs ts /\
    log (env (st_transport s')) = log (env t) ++ map SWrite ts /\
    arriving (incoming (env (st_transport s'))) rest later /\
    is_open (st_transport s') = true /\ outcomes (env (st_transport s')) = [] /\
    t_kind (st_transport s') = t_kind t.
Proof.
  intros M U T O N A. destruct (talks_converses _ _ _ _ _ _ T t rest later O A) as (results & t' & R & C & A' & _).
  destruct (stack_session s os) as [vs1 s1] eqn:E. destruct (session_mimics _ _ _ _ E) as (h & H & Hf & Hw & Hq & _ & X).
  pose proof (make_stack_inv _ _ _ _ _ _ _ M) as [Et Mc]. rewrite Et in H.
  specialize (Hq (talks_communicates _ _ _ _ _ _ T)). destruct (talking_open _ _ _ H Hq) as (O1 & L1 & N1). rewrite O in *.
  destruct (N1 N) as [N2 N3]. specialize (N3 eq_refl). apply takes_none in N3.
  assert (forall more, exists cl', session (as_client s [] (results ++ more) (control_results h ++ []) []) os = (vs, cl') /\
    Forall2 (request_line (client_context k id)) rs (sent (cl_world cl')) /\ rx (cl_world cl') = more) as Cv.
  { intros more. destruct (client_conversation pw pid k id _ _ os results rs vs more (Mc [] (results ++ more) (control_results h ++ []) []) U eq_refl eq_refl C eq_refl) as (cl' & Q1 & Q2 & Q3 & _). eauto. }
  destruct (waiting_dec vs1) as [W|W].
  - exfalso. destruct (Hw W) as (h0 & -> & F0). pose proof Hq as Hq0. apply Forall_app in Hq0 as [Hq0 _].
    assert (recv_results (h0 ++ [(TRecv, Waiting)]) = recv_results h0) as Er by (rewrite recv_results_app; cbn; apply app_nil_r).
    specialize (X [] [] [] [] [] (fun _ => eq_refl) N3). rewrite Er, app_nil_r in X.
    destruct (happens_split _ _ _ _ H F0) as (tm & H0 & Hl). apply happens_inv in Hl as (tw & Sw & _).
    destruct (talking_reads _ t t _ H0 Hq0 F0 (alike_refl t)) as (u & Ru & Au).
    cbn [transport_step] in Sw. destruct (transport_read tm) as [aw tw'] eqn:Rw. destruct aw as [[d|y]|]; try discriminate.
    destruct (read_alike _ u _ _ Au Rw) as (u' & Rw' & _).
    destruct (Nat.le_gt_cases (length results) (length (recv_results h0))) as [L|L].
    + destruct (receives_prefix _ _ _ _ _ R Ru L) as (x & Ex & _). rewrite Ex in X. destruct (Cv x) as (cl' & Q1 & _ & Q3). rewrite Q1 in X.
      injection X as -> _. exact (converses_done _ _ _ _ _ _ C W).
    + destruct (receives_prefix _ _ _ _ _ Ru R (Nat.lt_le_incl _ _ L)) as ([|x xs] & Ex & Rx).
      * apply (f_equal (@length _)) in Ex. rewrite app_nil_r in Ex. lia.
      * unfold reading in Rx. cbn [length receives] in Rx. rewrite Rw' in Rx. destruct (receives u' (length xs)). discriminate.
  - specialize (Hf W). destruct (talking_reads _ t t _ H Hq Hf (alike_refl t)) as (u & Ru & Au).
    assert (recv_results h = results /\ u = t') as [Er ->].
    { destruct (Nat.le_gt_cases (length results) (length (recv_results h))) as [L|L].
      - destruct (receives_prefix _ _ _ _ _ R Ru L) as (x & Ex & Rx). specialize (X [] [] [] [] [] (fun _ => eq_refl) N3). rewrite Ex, app_nil_r in X.
        destruct (Cv x) as (cl' & Q1 & _ & Q3). rewrite Q1 in X. injection X as _ ->. cbn in Q3. subst x. injection Rx as ->.
        rewrite app_nil_r in Ex. auto.
      - destruct (receives_prefix _ _ _ _ _ Ru R (Nat.lt_le_incl _ _ L)) as (x & Ex & Rx).
        specialize (X [] [] x [] [] ltac:(contradiction) N3). rewrite <- Ex in X. destruct (Cv []) as (cl' & Q1 & _ & Q3). rewrite app_nil_r in Q1. rewrite Q1 in X.
        injection X as _ ->. cbn in Q3. subst x. injection Rx as ->. rewrite app_nil_r in Ex. auto. }
    specialize (X [] [] [] [] [] (fun _ => eq_refl) N3). rewrite Er in X. destruct (Cv []) as (cl' & Q1 & Q2 & Q3). rewrite Q1 in X. injection X as -> ->.
    cbn in Q2. exists (sends h), s1. split; [reflexivity|]. split; [exact Q2|]. split; [exact L1|]. split; [|split; [exact O1|split; [exact N2|]]].
    + destruct Au as (_ & _ & -> & _). exact A'.
    + exact (happens_kind _ _ _ H).
Qed.
Lemma stack_session_app os : forall s vs s' os', stack_session s os = (vs, s') -> ~ In Waiting vs ->
  stack_session s (os ++ os') = (vs ++ fst (stack_session s' os'), snd (stack_session s' os')).
Proof.
  induction os as [|o os IH]; intros s vs s' os' E W; cbn [app stack_session] in *.
  - injection E as <- <-. destruct (stack_session s os'); reflexivity.
  - destruct (stack_operate s o) as [[r|] s1]; [|injection E as <- <-; exfalso; apply W; left; reflexivity].
    destruct (stack_session s1 os) as [rs s2] eqn:E1. injection E as <- <-.
    rewrite (IH _ _ _ os' E1) by (intros X; apply W; right; exact X). reflexivity.
Qed.
Lemma talks_done ctx pw os lines rs vs : talks ctx pw os lines rs vs -> ~ In Waiting vs.
Proof. induction 1; [intros []| |]; (intros [X|X]; [discriminate|contradiction]). Qed.
Lemma stack_whole kd to e pw pid k id dr s os lines rs vs rest later : make_stack (make_transport kd to e) pw pid k id dr = Ok s ->
  usable_context (client_context k id) -> talks (client_context k id) pw os lines rs vs ->
  outcomes e = [] -> arriving (incoming e) (concat lines ++ rest) later ->
  exists ts s', stack_session s (OpConnect :: os ++ [OpDisconnect]) = (Done (Ok RNothing) :: vs ++ [Done (Ok RNothing)], s') /\
    Forall2 (request_line (client_context k id)) rs ts /\
    log (env (st_transport s')) = log e ++ [SOpen] ++ map SWrite ts ++ closing kd /\
    arriving (incoming (env (st_transport s'))) rest later.
Proof.
  intros M U T N A. pose (t1 := mk_transport kd to true (mk_environment [] (incoming e) (now e) (ticks e) (log e ++ [SOpen]))).
  assert (st_transport s = make_transport kd to e) as Et by apply (make_stack_inv _ _ _ _ _ _ _ M).
  assert (make_stack t1 pw pid k id dr = Ok (st_set_transport s t1)) as M1.
  { unfold make_stack in *. destruct (make_connection _ _ _ _ _ _ _ _); [|discriminate]. cbn [bind] in *. injection M as <-. reflexivity. }
  destruct (stack_talks t1 pw pid k id dr _ os lines rs vs rest later M1 U T eq_refl eq_refl A) as (ts & s2 & E & F & L & A2 & O2 & N2 & K2).
  assert (stack_operate s OpConnect = (Done (Ok RNothing), st_set_transport s t1)) as Ec.
  { cbn [stack_operate]. unfold stack_connect. rewrite Et. unfold transport_connect, perform. cbn [is_open make_transport env]. rewrite N. reflexivity. }
  assert (exists e3, stack_operate s2 OpDisconnect = (Done (Ok RNothing), st_set_transport s2 (set_open (set_env (st_transport s2) e3) false)) /\
    log e3 = log (env (st_transport s2)) ++ closing kd /\ incoming e3 = incoming (env (st_transport s2))) as (e3 & Ed & L3 & I3).
  { cbn [stack_operate]. unfold stack_disconnect, transport_disconnect. rewrite O2, K2. cbn [t_kind t1]. destruct kd.
    - unfold perform at 1. rewrite N2. unfold perform. cbn [outcomes]. eexists. split; [reflexivity|]. cbn. rewrite <- app_assoc. auto.
    - unfold perform. rewrite N2. eexists. split; [reflexivity|]. cbn. auto. }
  exists ts. eexists. split; [|split; [exact F|]].
  - cbn [stack_session]. rewrite Ec. rewrite (stack_session_app _ _ _ _ [OpDisconnect] E (talks_done _ _ _ _ _ _ T)).
    cbn [stack_session]. rewrite Ed. cbn [fst snd]. reflexivity.
  - cbn [st_transport st_set_transport env set_open set_env]. rewrite L3, L, I3. cbn [t1 env log]. rewrite <- !app_assoc. auto.
Qed.

(** ** after a failure *)
Lemma incl_nothing (ws : list bytes) : incl ws [] -> ws = [].
Proof. destruct ws as [|x ws]; [reflexivity|]. intros I. destruct (I x (or_introl eq_refl)). Qed.
Lemma stack_refused s os : elgas_state (st_connection s) <> IDLE ->
  all_refused os (fst (stack_session s os)) /\
  exists calls, log (env (st_transport (snd (stack_session s os)))) = log (env (st_transport s)) ++ calls /\ written calls = [].
Proof.
  intros St. destruct (stack_session s os) as [vs s'] eqn:E. cbn [fst snd].
  destruct (session_mimics _ _ _ _ E) as (h & H & _ & _ & _ & _ & X).
  specialize (X (send_results h) [] [] [] [] (fun _ => eq_refl) (takes_all _)).
  destruct (session_refused os _ (St : elgas_state (cl_connection (as_client s (send_results h) (recv_results h ++ []) (control_results h ++ []) [])) <> IDLE)) as [F Sn].
  rewrite X in F, Sn. cbn [fst snd cl_world as_client sent] in F, Sn. cbn [app] in Sn. split; [exact F|].
  destruct (happens_log _ _ _ H) as (calls & L & I). exists calls. split; [exact L|]. rewrite Sn in I. apply incl_nothing, I.
Qed.
Lemma stack_no_recovery s o x s' os : communicates o -> stack_operate s o = (Done (Err x), s') ->
  (forall n data, o = OpReadParameters n -> parse None (Some data) <> Some (Err x)) ->
  all_refused os (fst (stack_session s' os)) /\
  exists calls, log (env (st_transport (snd (stack_session s' os)))) = log (env (st_transport s')) ++ calls /\ written calls = [].
Proof.
  intros C E P. apply stack_refused. apply operate_mimics in E as (h & [_ _ _ _ _ X]).
  specialize (X (send_results h) [] [] [] [] ltac:(discriminate) (takes_all _)). cbn beta in X.
  destruct (operate_err _ _ _ _ C X) as [Y|(n & data & -> & Y)]; [exact Y|]. exfalso. exact (P n data eq_refl Y).
Qed.
Lemma stack_exchange_closed ctx s r : is_open (st_transport s) = false -> at_rest ctx (as_client s [] [] [] []) ->
  encodable r -> password_of (st_password s) r ->
  exists s', stack_exchange s r = (Done (Err RuntimeError), s') /\ st_transport s' = st_transport s /\ elgas_state (st_connection s') <> IDLE.
Proof.
  intros O (C & U & L & I & B & _) En Pw. unfold stack_exchange. cbn [stack_send]. unfold stack_send_one.
  destruct (st_draws s (st_requests s)) as [rnd pad]. cbn [st_connection].
  destruct (request_sent ctx rnd pad (st_connection s) r C U I En) as (t & -> & _).
  { intros p Hp. rewrite (Pw p Hp). exact L. }
  unfold st_set_connection. cbn [st_transport]. unfold transport_write. rewrite O. eexists. split; [reflexivity|]. split; [reflexivity|]. destruct r; discriminate.
Qed.
Lemma never_connected kd to e pw pid k id dr s o r os : make_stack (make_transport kd to e) pw pid k id dr = Ok s ->
  usable_context (client_context k id) -> opens pw o = Some r -> encodable r ->
  exists s', stack_operate s o = (Done (Err RuntimeError), s') /\ log (env (st_transport s')) = log e /\
    all_refused os (fst (stack_session s' os)) /\
    exists calls, log (env (st_transport (snd (stack_session s' os)))) = log e ++ calls /\ written calls = [].
Proof.
  intros M U Op En. destruct (make_stack_inv _ _ _ _ _ _ _ M) as [Et Mc].
  destruct (made_at_rest _ _ _ _ _ _ (Mc [] [] [] []) U eq_refl) as (R & Ep & _). cbn in Ep.
  assert (exists s', stack_operate s o = (Done (Err RuntimeError), s') /\ st_transport s' = st_transport s /\ elgas_state (st_connection s') <> IDLE) as (s' & E & Es & St).
  { destruct (stack_exchange_closed _ s r ltac:(rewrite Et; reflexivity) R En) as (s' & E & Es & St).
    { rewrite Ep. intros p Hp. destruct o; cbn in Op; try discriminate; injection Op as <-; cbn in Hp; congruence. }
    exists s'. split; [|auto].
    destruct o; cbn in Op; try discriminate; injection Op as <-; cbn [stack_operate];
      unfold stack_read_instantaneous_values, stack_read_time, stack_write_time, stack_read_parameters, stack_read_archive, stack_read_archive_by_time;
      cbn [stack_read_parameters_loop]; rewrite ?Ep, E; reflexivity. }
  exists s'. split; [exact E|]. rewrite Es, Et. split; [reflexivity|].
  replace (log e) with (log (env (st_transport s'))) by (rewrite Es, Et; reflexivity).
  apply stack_refused. exact St.
Qed.

(** ** exceptions *)
Lemma one_byte_bytes inc a inc' : Forall result_bytes inc -> one_byte inc = (a, inc') ->
  Forall result_bytes inc' /\ (forall d, a = Done (Ok d) -> is_bytes d).
Proof.
  revert a inc'. induction inc as [|[[|b [|b' rest]]|x] inc IH]; intros a inc' F E; cbn [one_byte] in E.
  - injection E as <- <-. split; [constructor|discriminate].
  - apply Forall_cons_iff in F as [_ F]. eapply IH; eauto.
  - apply Forall_cons_iff in F as [H F]. injection E as <- <-. split; [exact F|]. intros d X. injection X as <-. exact H.
  - apply Forall_cons_iff in F as [H F]. injection E as <- <-. cbn in H. inversion H; subst.
    split; [constructor; [assumption|exact F]|]. intros d X. injection X as <-. constructor; [assumption|constructor].
  - apply Forall_cons_iff in F as [_ F]. injection E as <- <-. split; [exact F|discriminate].
Qed.
Lemma recv_loop_bytes now expected size : forall fuel inc line timer n r n' inc', Forall result_bytes inc -> is_bytes line ->
  recv_until_loop fuel true now expected size line timer n inc = (r, n', inc') ->
  Forall result_bytes inc' /\ (forall d, r = Done (Ok d) -> is_bytes d).
Proof.
  induction fuel as [|fuel IH]; intros inc line timer n r n' inc' F Hl E; cbn [recv_until_loop] in E.
  - injection E as <- <- <-. split; [exact F|discriminate].
  - rewrite recv_one in E. destruct (one_byte inc) as [a inc2] eqn:O. destruct (one_byte_bytes _ _ _ F O) as [F2 X]. destruct a as [[c|x]|].
    + destruct (one_byte_result _ _ _ O) as (b & ->). specialize (X _ eq_refl).
      assert (is_bytes (line ++ [b])) as Hb by (apply is_bytes_app; auto).
      destruct (list_eqb _ _); [injection E as <- <- <-; split; [exact F2|intros d Y; injection Y as <-; exact Hb]|].
      destruct (match size with Some s => _ | None => _ end); [injection E as <- <- <-; split; [exact F2|intros d Y; injection Y as <-; exact Hb]|].
      destruct (expired now n timer) as [[[[|]|x] t'] n2].
      * injection E as <- <- <-; split; [exact F2|intros d Y; injection Y as <-; exact Hb].
      * eapply IH; eauto.
      * injection E as <- <- <-; split; [exact F2|discriminate].
    + injection E as <- <- <-. split; [exact F2|discriminate].
    + injection E as <- <- <-. split; [exact F2|discriminate].
Qed.
Lemma step_incoming t c r t' : Forall result_bytes (incoming (env t)) -> transport_step t c = (r, t') ->
  Forall result_bytes (incoming (env t')) /\ Forall result_bytes (recv_results [(c, r)]).
Proof.
  intros F. destruct c as [| |data|]; cbn [transport_step]; intros E.
  - assert (incoming (env t') = incoming (env t)) as ->; [|split; [exact F|destruct r as [[[|]|]|]; constructor]].
    unfold transport_connect in E. destruct (is_open t); [injection E as _ <-; reflexivity|].
    destruct (perform _ _) as [[?|?] e] eqn:P; apply perform_log in P as (_ & P & _); injection E as _ <-; exact P.
  - assert (incoming (env t') = incoming (env t)) as ->; [|split; [exact F|destruct r as [[[|]|]|]; constructor]].
    unfold transport_disconnect in E. destruct (is_open t); [|injection E as _ <-; reflexivity]. destruct (t_kind t).
    + destruct (perform _ SShutdown) as [[?|?] e] eqn:P; apply perform_log in P as (_ & P & _); [|injection E as _ <-; exact P].
      destruct (perform _ SClose) as [[?|?] e2] eqn:P2; apply perform_log in P2 as (_ & P2 & _); injection E as _ <-; cbn; congruence.
    + destruct (perform _ SClose) as [[?|?] e] eqn:P; apply perform_log in P as (_ & P & _); injection E as _ <-; exact P.
  - assert (incoming (env t') = incoming (env t)) as ->; [|split; [exact F|destruct r as [[[|]|]|]; constructor]].
    unfold transport_write in E. destruct (is_open t); [|injection E as _ <-; reflexivity].
    destruct (perform _ _) as [[?|?] e] eqn:P; apply perform_log in P as (_ & P & _); injection E as _ <-; exact P.
  - unfold transport_read, recv_until in E. destruct (make_timeout _ _ _) as [timer n].
    destruct (recv_until_loop _ _ _ _ _ _ _ _ _) as [[a n'] inc'] eqn:R.
    assert (Forall result_bytes inc' /\ (forall d, a = Done (Ok d) -> is_bytes d)) as [F2 X].
    { destruct (is_open t).
      - eapply recv_loop_bytes; [exact F|constructor|exact R].
      - cbn [recv_until_loop recv_bytes] in R. injection R as <- <- <-. split; [exact F|discriminate]. }
    destruct a as [[d|x]|]; injection E as <- <-; (split; [exact F2|]); cbn; repeat constructor. exact (X _ eq_refl).
Qed.
Lemma happens_bytes h : forall t t', happens t h t' -> Forall result_bytes (incoming (env t)) ->
  Forall result_bytes (incoming (env t')) /\ Forall result_bytes (recv_results h).
Proof.
  induction h as [|[c r] h IH]; intros t t' H F; [injection H as <-; split; [exact F|constructor]|].
  apply happens_inv in H as (t1 & E & H). destruct (step_incoming _ _ _ _ F E) as [F1 R1].
  destruct H as [H|(-> & -> & ->)]; [|auto]. destruct (IH _ _ H F1) as [F2 R2]. split; [exact F2|].
  change ((c, r) :: h) with ([(c, r)] ++ h). rewrite recv_results_app. apply Forall_app. auto.
Qed.
Lemma talking_errors h : forall t t', happens t h t' -> Forall talking h -> only_os_errors (env t) ->
  only_os_errors (env t') /\ is_open t' = is_open t /\ control_results h = [] /\
  (forall x, In (Some x) (send_results h) \/ In (Err x) (recv_results h) -> x = if is_open t then CommunicationError else RuntimeError).
Proof.
  induction h as [|[c r] h IH]; intros t t' H F G.
  - injection H as <-. split; [exact G|]. split; [reflexivity|]. split; [reflexivity|]. intros x [[]|[]].
  - apply Forall_cons_iff in F as [Fc F]. apply happens_inv in H as (t1 & E & H).
    destruct (step_lawful _ _ _ _ G E) as (L & G1 & O1).
    assert (is_open t1 = is_open t) as O by (rewrite O1; destruct c; try contradiction; reflexivity).
    assert (forall x, In (Some x) (send_results [(c, r)]) \/ In (Err x) (recv_results [(c, r)]) -> x = if is_open t then CommunicationError else RuntimeError) as X.
    { intros x I. destruct c; try contradiction; cbn in L; destruct (is_open t).
      - destruct L as [[->| ->] _]; destruct I as [I|[]]; cbn in I; destruct I as [I|[]]; congruence.
      - destruct L as [-> _]; destruct I as [I|[]]; cbn in I; destruct I as [I|[]]; congruence.
      - destruct L as [[->|[(d & _ & ->)| ->]] _]; cbn in I; destruct I as [[]|I]; [destruct I|destruct I as [I|[]]; discriminate|destruct I as [I|[]]; congruence].
      - destruct L as [-> _]; cbn in I; destruct I as [[]|[I|[]]]; congruence. }
    assert (control_results [(c, r)] = []) as Cc by (destruct c; try contradiction; destruct r as [[?|?]|]; reflexivity).
    destruct H as [H|(-> & -> & ->)].
    + destruct (IH _ _ H F G1) as (G2 & O2 & C2 & X2). split; [exact G2|]. split; [congruence|].
      change ((c, r) :: h) with ([(c, r)] ++ h). rewrite control_results_app, send_results_app, recv_results_app, Cc, C2. split; [reflexivity|].
      intros x I. rewrite O in X2.
      destruct I as [I|I]; apply in_app_or in I as [I|I]; eauto.
    + split; [exact G1|]. split; [exact O|]. split; [exact Cc|exact X].
Qed.
Lemma explained_quiet pw ctx w o x : explained pw ctx w o x -> transport_raises w x \/ explained pw ctx no_trouble o x.
Proof.
  intros [H|H1 H2|r H1 H2|H1 H2 H3|H1 H2]; [left; exact H|right; apply by_refusal; assumption|right; eapply by_arguments; eassumption|
    right; apply by_key; assumption|right; apply by_device; assumption].
Qed.
(** between two calls *)
Definition in_order (pw : str) (ctx : option cipher_context) (up : bool) (s : stack) : Prop :=
  st_password s = pw /\ config (st_connection s) = (0, 0, 0, 0, ctx) /\ is_bytes (buffer (st_connection s)) /\
  only_os_errors (env (st_transport s)) /\ Forall result_bytes (incoming (env (st_transport s))) /\ is_open (st_transport s) = up.
Lemma operate_in_order pw ctx up s o a s' : match ctx with Some y => is_bytes (key y) | None => True end -> len pw <= 6 ->
  in_order pw ctx up s -> operation_times_valid o -> stack_operate s o = (a, s') ->
  in_order pw ctx (connected_after up (o, a)) s' /\ forall x, a = Done (Err x) -> stack_explained pw ctx up o x.
Proof.
  intros K L (P & C & B & G & F & O) V E.
  assert (communicating o -> in_order pw ctx (connected_after up (o, a)) s' /\ forall x, a = Done (Err x) -> stack_explained pw ctx up o x) as Cm.
  { intros Co. apply operate_mimics in E as (h & [H _ _ Hq [P1 _] X]). specialize (Hq Co).
    destruct (talking_errors _ _ _ H Hq G) as (G1 & O1 & Ct & Er). destruct (happens_bytes _ _ _ H F) as [F1 Rb].
    specialize (X (send_results h) [] [] [] [] (fun _ => eq_refl) (takes_all _)). rewrite Ct, app_nil_r in X. cbn [app] in X.
    pose (w0 := mk_world (send_results h) (recv_results h) [] [] 0 (st_draws s)).
    assert (tame pw ctx w0 (as_client s (send_results h) (recv_results h) [] [])) as Tm.
    { split; [exact P|]. split; [exact C|]. split; [exact B|]. split; [apply incl_refl|]. split; apply incl_refl. }
    destruct (operate_reason pw ctx w0 _ o a _ K L Rb Tm V X) as [(_ & T2 & T3 & _) Ex].
    assert (connected_after up (o, a) = up) as -> by (destruct Co; destruct o; try contradiction; reflexivity).
    split.
    - split; [congruence|]. split; [exact T2|]. split; [exact T3|]. split; [exact G1|]. split; [exact F1|congruence].
    - intros x Hx. specialize (Ex x Hx). apply explained_quiet in Ex as [Tr|Ex]; [|apply not_the_transport; exact Ex].
      assert (x = if is_open (st_transport s) then CommunicationError else RuntimeError) as Y.
      { apply Er. destruct Tr as [Tr|[[]|Tr]]; auto. }
      rewrite O in Y. destruct up; [apply connection_failed|apply not_connected]; auto. }
  assert (forall c t r, (o = OpConnect /\ c = TConnect) \/ (o = OpDisconnect /\ c = TDisconnect) ->
    transport_step (st_transport s) c = (Done r, t) -> s' = st_set_transport s t -> a = Done (match r with Ok _ => Ok RNothing | Err e => Err e end) ->
    in_order pw ctx (connected_after up (o, a)) s' /\ forall x, a = Done (Err x) -> stack_explained pw ctx up o x) as Ct.
  { intros c t r Co St -> ->. destruct (step_lawful _ _ _ _ G St) as (Lw & G1 & O1). destruct (step_incoming _ _ _ _ F St) as [F1 _]. rewrite O in *.
    split.
    - split; [exact P|]. split; [exact C|]. split; [exact B|]. split; [exact G1|]. split; [exact F1|]. cbn [st_transport st_set_transport]. rewrite O1.
      destruct Co as [[-> ->]|[-> ->]]; destruct r; reflexivity.
    - intros x X. destruct r as [q|e]; [discriminate|]. injection X as ->.
      destruct Co as [[-> ->]|[-> ->]]; cbn in Lw; destruct up.
      + destruct Lw as [Y _]. injection Y as ->. apply connected_twice; reflexivity.
      + destruct Lw as [[Y|Y] _]; [discriminate|]. injection Y as ->. apply connection_failed; auto.
      + destruct Lw as [[Y|Y] _]; [discriminate|]. injection Y as ->. apply connection_failed; auto.
      + destruct Lw as [Y _]. discriminate. }
  destruct o; try (apply Cm; split; discriminate).
  - cbn [stack_operate] in E. unfold stack_connect in E. destruct (transport_connect (st_transport s)) as [r t] eqn:Q.
    destruct r as [r|].
    + apply (Ct TConnect t (match r with Ok _ => Ok TNothing | Err e => Err e end)); [left; split; reflexivity| | |].
      * cbn. rewrite Q. destruct r; reflexivity.
      * destruct r; injection E as _ <-; reflexivity.
      * destruct r; injection E as <- _; reflexivity.
    + exfalso. pose proof (step_lawful (st_transport s) TConnect Waiting t G) as W. cbn [transport_step] in W. rewrite Q in W. destruct (W eq_refl) as (W1 & _).
      cbn in W1. destruct (is_open _); [destruct W1; discriminate|destruct W1 as [[Y|Y] _]; discriminate].
  - cbn [stack_operate] in E. unfold stack_disconnect in E. destruct (transport_disconnect (st_transport s)) as [r t] eqn:Q.
    destruct r as [r|].
    + apply (Ct TDisconnect t (match r with Ok _ => Ok TNothing | Err e => Err e end)); [right; split; reflexivity| | |].
      * cbn. rewrite Q. destruct r; reflexivity.
      * destruct r; injection E as _ <-; reflexivity.
      * destruct r; injection E as <- _; reflexivity.
    + exfalso. pose proof (step_lawful (st_transport s) TDisconnect Waiting t G) as W. cbn [transport_step] in W. rewrite Q in W. destruct (W eq_refl) as (W1 & _).
      cbn in W1. destruct (is_open _); [destruct W1 as [[Y|Y] _]; discriminate|destruct W1; discriminate].
Qed.
Lemma session_in_order pw ctx : match ctx with Some y => is_bytes (key y) | None => True end -> len pw <= 6 ->
  forall os s up vs s', in_order pw ctx up s -> Forall operation_times_valid os -> stack_session s os = (vs, s') ->
  in_order pw ctx (fold_left connected_after (combine os vs) up) s'.
Proof.
  intros K L. induction os as [|o os IH]; intros s up vs s' I V E; cbn [stack_session] in E.
  - injection E as <- <-. exact I.
  - apply Forall_cons_iff in V as [V Vs]. destruct (stack_operate s o) as [a s1] eqn:Eo.
    destruct (operate_in_order _ _ _ _ _ _ _ K L I V Eo) as [I1 _]. destruct a as [r|].
    + destruct (stack_session s1 os) as [rs s2] eqn:Es. injection E as <- <-. cbn [combine fold_left]. eapply IH; eauto.
    + injection E as <- <-. cbn [combine fold_left]. destruct os; exact I1.
Qed.
Lemma stack_raises kd to e pw pid k id dr s os vs s1 o x s2 : make_stack (make_transport kd to e) pw pid k id dr = Ok s ->
  key_bytes k -> only_os_errors e -> bytes_arrive e -> Forall operation_times_valid os -> operation_times_valid o ->
  stack_session s os = (vs, s1) -> stack_operate s1 o = (Done (Err x), s2) ->
  stack_explained pw (client_context k id) (is_connected os vs) o x.
Proof.
  intros M K G B V Vo E Eo. destruct (make_stack_inv _ _ _ _ _ _ _ M) as [Et Mc].
  specialize (Mc [] [] [] []). apply make_client_inv in Mc as (L & Pw & _ & C & _ & Bf). cbn in Pw, Bf.
  assert (match client_context k id with Some y => is_bytes (key y) | None => True end) as K'.
  { destruct k as [[|b k]|], id; cbn; try exact I. exact K. }
  assert (in_order pw (client_context k id) false s) as I0.
  { split; [exact Pw|]. split; [exact C|]. split; [rewrite Bf; constructor|]. rewrite Et. split; [exact G|]. split; [exact B|reflexivity]. }
  pose proof (session_in_order _ _ K' L os s false vs s1 I0 V E) as I1.
  destruct (operate_in_order _ _ _ _ _ _ _ K' L I1 Vo Eo) as [_ X]. apply X. reflexivity.
Qed.
