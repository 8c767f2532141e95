(** Proofs about the closed loop of the client and a device. *)
From Verif Require Import PyFacts SpecUtils SpecFrames SpecText SpecApplication SpecPdu SpecSecurity SpecMeaning SpecConnection.
From Verif Require Import UtilsProofs FramesProofs TextProofs ApplicationProofs AesProofs SecurityProofs.
From Verif Require Import Connection ConnectionProofs LineProofs MeansProofs ParamLang Parameters SpecBlock BlockProofs Client SpecClient ClientProofs SpecDevice DeviceProofs SpecLoop.
Open Scope list_scope.
Open Scope Z_scope.

(** ** what is sent only grows *)
Definition grows (cl cl' : client) : Prop := exists more, sent (cl_world cl') = sent (cl_world cl) ++ more.
Lemma grows_refl cl : grows cl cl.
Proof. exists []. rewrite app_nil_r. reflexivity. Qed.
Lemma grows_trans a b c : grows a b -> grows b c -> grows a c.
Proof. intros [x X] [y Y]. exists (x ++ y). rewrite Y, X, app_assoc. reflexivity. Qed.
Lemma exchange_grows cl r a cl' : exchange cl r = (a, cl') -> grows cl cl'.
Proof.
  intros H. destruct (elgas_state (cl_connection cl)) eqn:I;
    try (rewrite exchange_refused in H by congruence; injection H as _ <-; exists []; rewrite app_nil_r; reflexivity).
  apply exchange_outcome in H as (_ & _ & _ & _ & H); [|exact I].
  destruct (draws _ _) as [rnd pad]. destruct (serialise rnd pad _ r) as [t|e]; [exists [t]; exact H|].
  destruct H as (_ & H & _). exists []. rewrite app_nil_r. exact H.
Qed.
Lemma parameters_grow fuel : forall cl n acc a cl', read_parameters_loop fuel cl n acc = (a, cl') -> grows cl cl'.
Proof.
  induction fuel as [|fuel IH]; intros cl n acc a cl' H; [injection H as _ <-; apply grows_refl|].
  cbn [read_parameters_loop] in H. destruct (exchange cl _) as [a1 cl1] eqn:E. apply exchange_grows in E.
  destruct a1 as [[p|e]|]; [|injection H as _ <-; exact E|injection H as _ <-; exact E].
  destruct p; try (injection H as _ <-; exact E). cbv zeta in H.
  destruct is_end; [injection H as _ <-; exact E|]. eapply grows_trans; [exact E|]. eapply IH, H.
Qed.
Lemma operate_grows cl o : grows cl (snd (operate cl o)).
Proof.
  assert (forall A B (f : A -> B) (x : answer A * client), snd (answer_map f x) = snd x) as Am
    by (intros A B f [[[?|?]|] ?]; reflexivity).
  assert (forall r, grows cl (snd (exchange cl r))) as X.
  { intros r. destruct (exchange cl r) as [a cl'] eqn:E. eapply exchange_grows; eauto. }
  assert (grows cl (snd (client_connect cl))) as Y.
  { unfold client_connect. destruct (transport_control_spec (cl_world cl)) as (r & ct & ->). exists []. rewrite app_nil_r. reflexivity. }
  destruct o; cbn [operate]; rewrite Am;
    unfold client_read_instantaneous_values, client_read_time, client_write_time, client_read_archive, client_read_archive_by_time;
    [exact Y|exact Y| | | | | |];
    try (match goal with |- context [exchange _ ?r] => specialize (X r); destruct (exchange cl r) as [[[p|e]|] cl1] end;
         cbn [snd] in *; try exact X; destruct p; exact X).
  unfold client_read_parameters. destruct (read_parameters_loop _ _ _ _) as [a cl'] eqn:E. eapply parameters_grow; eauto.
Qed.
Lemma session_grows os : forall cl, grows cl (snd (session cl os)).
Proof.
  induction os as [|o os IH]; intros cl; [apply grows_refl|]. cbn [session].
  pose proof (operate_grows cl o) as G. destruct (operate cl o) as [[r|] cl1]; cbn [snd] in *; [|exact G].
  specialize (IH cl1). destruct (session cl1 os) as [rs cl2]. cbn [snd] in *. eapply grows_trans; eauto.
Qed.

(** ** one line of the device *)
Lemma runs_refl d : runs_on d d.
Proof. exists 0, (dv_clock d). split; [lia|]. split; [constructor|]. destruct d; reflexivity. Qed.
Lemma later_trans n a b : seconds_later n a b -> forall m c, seconds_later m b c -> seconds_later (n + m) a c.
Proof. intros X m c Y. induction Y; [rewrite Z.add_0_r; exact X|]. rewrite Z.add_assoc. econstructor; eauto. Qed.
Lemma runs_trans a b c : runs_on a b -> runs_on b c -> runs_on a c.
Proof.
  intros (n & t & N & L & ->) (m & t' & M & L' & ->). cbn in L'. exists (n + m), t'. split; [lia|].
  split; [eapply later_trans; eauto|reflexivity].
Qed.
Lemma reacts_none ctx pw d results d' : reacts ctx pw d [] results d' -> results = [] /\ runs_on d d'.
Proof.
  intros H. remember [] as l eqn:El. induction H; try discriminate; [split; [reflexivity|apply runs_refl]|].
  destruct (IHreacts El) as [A B]. split; [exact A|]. eapply runs_trans; eauto.
Qed.
Lemma reacts_first ctx pw d t q lines rs d' : hears_only ctx pw q t -> reacts ctx pw d (t :: lines) rs d' ->
  exists d1 p d2 results results', runs_on d d1 /\ performs d1 q p d2 /\ delivers ctx (query_service q) p results /\
    rs = results ++ results' /\ reacts ctx pw d2 lines results' d'.
Proof.
  intros [Hq Ho] H. remember (t :: lines) as l eqn:El. induction H; try discriminate.
  - destruct (IHreacts El) as (d2 & p & d3 & r1 & r2 & A & B & C & D & E). exists d2, p, d3, r1, r2.
    split; [eapply runs_trans; eauto|]. auto.
  - injection El as -> ->. rewrite (Ho _ H) in *. exists d, p, d1, results, results'. split; [apply runs_refl|]. auto.
  - injection El as -> ->. destruct (H _ Hq).
Qed.

(** ** one exchange in the loop *)
Lemma exchange_sends ctx cl r a cl1 : at_rest ctx cl -> encodable r -> password_of (cl_password cl) r -> exchange cl r = (a, cl1) ->
  exists t, sent (cl_world cl1) = sent (cl_world cl) ++ [t] /\ line_from (cl_connection cl) r t.
Proof.
  intros (C & U & L & I & B & T) En Pw H. apply exchange_outcome in H as (_ & _ & _ & _ & H); [|exact I].
  destruct (draws _ _) as [rnd pad].
  destruct (request_sent ctx rnd pad (cl_connection cl) r C U I En) as (t & Es & Hl).
  { intros q Hq. rewrite (Pw q Hq). exact L. }
  rewrite send_request, I in Es. cbn [outstanding] in Es. exists t. split; [|exact Hl].
  destruct (serialise rnd pad _ r) as [t'|e]; [|discriminate]. injection Es as ->. exact H.
Qed.
(** a client that talks to the device *)
Definition in_loop (ctx : option cipher_context) (pw : str) (cl : client) : Prop :=
  at_rest ctx cl /\ cl_password cl = pw /\ latin1 pw /\ len pw <= 6 /\ line_from (cl_connection cl) = request_line ctx.
Lemma loop_afters ctx pw cl ts rest : in_loop ctx pw cl -> in_loop ctx pw (afters cl ts rest).
Proof. intros (A & B & C & D & E). split; [apply afters_rest; exact A|]. auto. Qed.
Lemma exchange_loop ctx pw cl r q a cl1 d lines lines' d' : in_loop ctx pw cl -> encodable r -> password_of pw r -> carries pw q r ->
  request_service r = query_service q -> exchange cl r = (a, cl1) ->
  sent (cl_world cl) ++ lines = sent (cl_world cl1) ++ lines' -> reacts ctx pw d lines (rx (cl_world cl)) d' ->
  exists t d1 p d2 results results', lines = t :: lines' /\ runs_on d d1 /\ performs d1 q p d2 /\ delivers ctx (query_service q) p results /\
    rx (cl_world cl) = results ++ results' /\ reacts ctx pw d2 lines' results' d' /\ a = Done (Ok p) /\ cl1 = afters cl [t] results'.
Proof.
  intros (R & Ep & L & N & Ez) En Pw Ca Sv H Es Re. rewrite <- Ep in Pw.
  destruct (exchange_sends ctx cl r a cl1 R En Pw H) as (t & Et & Hl). rewrite Et, <- app_assoc in Es. apply app_inv_head in Es. subst lines.
  rewrite Ez in Hl. assert (hears_only ctx pw q t) as Hq by (eapply line_heard; eauto; apply R).
  destruct (reacts_first _ _ _ _ _ _ _ _ Hq Re) as (d1 & p & d2 & results & results' & A & B & C & D & E).
  exists t, d1, p, d2, results, results'. split; [reflexivity|]. repeat (split; [assumption|]).
  destruct (exchange_ok ctx cl r p results results' R En Pw) as (t' & Ex & _); [rewrite Sv; exact C|exact D|].
  rewrite H in Ex. injection Ex as -> ->. split; [reflexivity|]. cbn in Et. apply app_inv_head in Et. injection Et as ->. reflexivity.
Qed.

(** ** the pages *)
Lemma performs_clock d t n size p d2 : performs (with_clock d t) (AskParameters n size) p d2 ->
  performs d (AskParameters n size) p d /\ d2 = with_clock d t.
Proof. intros H. inversion H; subst. split; [|reflexivity]. apply do_parameters. assumption. Qed.
Lemma pages_clock ctx d t n qs rs : sends_pages ctx (with_clock d t) n qs rs -> sends_pages ctx d n qs rs.
Proof.
  intros H. induction H as [n number data amount results P D|n number data amount results qs results' P D Sp IH].
  - apply performs_clock in P as [P _]. eapply page_final; eauto.
  - apply performs_clock in P as [P _]. eapply page_more; eauto.
Qed.
Lemma pages_loop ctx pw fuel : forall cl n acc a cl1 d lines lines' d',
  (length (rx (cl_world cl)) < fuel)%nat -> in_loop ctx pw cl -> 0 <= n <= 65535 -> len (dv_memory d) <= 65535 ->
  read_parameters_loop fuel cl n acc = (a, cl1) -> sent (cl_world cl) ++ lines = sent (cl_world cl1) ++ lines' ->
  reacts ctx pw d lines (rx (cl_world cl)) d' ->
  exists ts qs results results' d1, lines = ts ++ lines' /\ rx (cl_world cl) = results ++ results' /\ runs_on d d1 /\
    sends_pages ctx d n qs results /\ reacts ctx pw d1 lines' results' d' /\ cl1 = afters cl ts results' /\
    a = match parse None (Some (acc ++ concat (objects_from d n))) with Some r => Done r | None => Waiting end.
Proof.
  induction fuel as [|fuel IH]; intros cl n acc a cl1 d lines lines' d' Hf Lp Hn Hm H Es Re; [lia|].
  cbn [read_parameters_loop] in H. pose proof Lp as (R & Ep & L & N & Ez). rewrite Ep in H.
  destruct (exchange cl (ReadDeviceParametersRequest pw n 1024)) as [a2 cl2] eqn:E.
  assert (grows cl2 cl1) as [more G].
  { destruct a2 as [[p|e]|]; [|injection H as _ <-; apply grows_refl|injection H as _ <-; apply grows_refl].
    destruct p; try (injection H as _ <-; apply grows_refl). cbv zeta in H.
    destruct is_end; [injection H as _ <-; apply grows_refl|]. eapply parameters_grow, H. }
  rewrite G, <- app_assoc in Es.
  destruct (exchange_loop ctx pw cl (ReadDeviceParametersRequest pw n 1024) (AskParameters n 1024) a2 cl2 d lines (more ++ lines') d' Lp) as
    (t & d1 & p & d2 & results & results' & El & Ru & Pe & De & Er & Re' & -> & Ec); auto.
  { apply misfit_parameters; auto. } { intros q Hq. cbn in Hq. congruence. } { constructor. }
  destruct Ru as (k & c & Hk & Sl & ->). apply performs_clock in Pe as [Pe ->].
  assert (runs_on d (with_clock d c)) as Ru by (exists k, c; auto).
  inversion Pe; subst p n0 size. match goal with F : objects_from d n = _ |- _ => rename F into Eo end. cbv zeta in H.
  destruct later as [|x later].
  - injection H as <- <-. assert (more = []) as -> by (rewrite <- (app_nil_r (sent _)) in G at 1; apply app_inv_head in G; congruence).
    exists [t], [AskParameters n 1024], results, results', (with_clock d c). cbn [app] in El. rewrite Eo, app_nil_r in *.
    split; [exact El|]. split; [exact Er|]. split; [exact Ru|]. split; [eapply page_final; eauto|]. split; [exact Re'|]. split; [exact Ec|reflexivity].
  - pose proof (len_objects d n ltac:(lia)) as Lo. rewrite Eo, len_app, len_cons in Lo. pose proof (len_nonneg here). pose proof (len_nonneg later).
    pose proof (delivers_nonempty _ _ _ _ De) as Ne.
    destruct (IH cl2 (n + len here) (acc ++ concat here) a cl1 (with_clock d c) (more ++ lines') lines' d') as
      (ts & qs & r1 & r2 & d3 & A1 & A2 & A3 & A4 & A5 & A6 & A7); auto.
    + rewrite Ec. cbn [afters cl_world rx]. rewrite Er, app_length in Hf. lia.
    + rewrite Ec. apply loop_afters, Lp.
    + lia.
    + rewrite G, <- app_assoc. reflexivity.
    + rewrite Ec. exact Re'.
    + rewrite Ec in A2. cbn [afters cl_world rx] in A2.
      exists (t :: ts), (AskParameters n 1024 :: qs), (results ++ r1), r2, d3.
      split; [cbn [app]; rewrite El, A1; reflexivity|]. split; [rewrite <- app_assoc, <- A2; exact Er|]. split; [eapply runs_trans; eauto|].
      split; [eapply page_more; [exact Pe|exact De|eapply pages_clock; exact A4]|]. split; [exact A5|].
      split; [rewrite A6, Ec, afters_trans; reflexivity|]. rewrite A7. 
      change (objects_from (with_clock d c) (n + len here)) with (objects_from d (n + len here)).
      rewrite (objects_on d n here (x :: later)) by (auto; lia). rewrite Eo, concat_app, app_assoc. reflexivity.
Qed.

(** ** the session *)
Lemma runs_memory d d' : runs_on d d' -> dv_memory d' = dv_memory d.
Proof. intros (n & t & _ & _ & ->). reflexivity. Qed.
Lemma performs_memory d q p d' : performs d q p d' -> dv_memory d' = dv_memory d.
Proof. intros H. inversion H; reflexivity. Qed.
Lemma performs_gives d o q p d' : meant o q -> performs d q p d' -> exists v, gives o p v.
Proof. intros M H. destruct M; inversion H; subst; eexists; constructor. Qed.
Lemma session_loop ctx pw os : forall cl vs cl' d lines d', in_loop ctx pw cl -> Forall askable os -> len (dv_memory d) <= 65535 ->
  session cl os = (vs, cl') -> sent (cl_world cl') = sent (cl_world cl) ++ lines -> reacts ctx pw d lines (rx (cl_world cl)) d' ->
  exists qs, serves ctx d os (rx (cl_world cl)) qs vs d'.
Proof.
  induction os as [|o os IH]; intros cl vs cl' d lines d' Lp F Hm H Es Re.
  - injection H as <- <-. rewrite <- (app_nil_r (sent _)) in Es at 1. apply app_inv_head in Es. subst lines.
    apply reacts_none in Re as [-> Re]. exists []. eapply serves_tick; [exact Re|]. constructor.
  - inversion F as [|? ? Fo Fs]; subst. cbn [session] in H.
    destruct (operate cl o) as [a cl1] eqn:Eo.
    assert (exists lines', sent (cl_world cl') = sent (cl_world cl1) ++ lines') as [lines' G].
    { destruct a as [r|]; [|injection H as _ <-; exists []; rewrite app_nil_r; reflexivity].
      pose proof (session_grows os cl1) as Gs. destruct (session cl1 os) as [rs cl2]. injection H as _ <-. exact Gs. }
    rewrite G in Es.
    destruct Fo as [o q M|n Hn].
    + pose proof Lp as (R & Ep & L & N & Ez). destruct (meant_asks pw o q L M) as (r & A & E & Ca & Sv).
      assert (exists a1, exchange cl r = (a1, cl1)) as [a1 Ex].
      { destruct (exchange cl r) as [a1 cl2] eqn:Ex. exists a1. f_equal. subst pw.
        destruct M; inversion A; subst; cbn [operate] in Eo;
          unfold client_read_instantaneous_values, client_read_time, client_write_time, client_read_archive, client_read_archive_by_time in Eo;
          rewrite Ex in Eo; destruct a1 as [[p|e]|]; try destruct p; cbn [answer_map] in Eo; injection Eo as _ <-; reflexivity. }
      assert (password_of pw r) as Pw by (destruct M; inversion A; subst; intros p Hp; cbn in Hp; congruence).
      destruct (exchange_loop ctx pw cl r q a1 cl1 d lines lines' d' Lp E Pw Ca Sv Ex ltac:(congruence) Re) as
        (t & d1 & p & d2 & results & results' & El & Ru & Pe & De & Er & Re' & -> & Ec).
      destruct (performs_gives _ _ _ _ _ M Pe) as [v Gv].
      destruct (exchange_operation ctx cl o r p v results results' R ltac:(rewrite Ep; exact A) E ltac:(rewrite Sv; exact De) Gv Er) as (t' & Eo' & _).
      rewrite Eo in Eo'. injection Eo' as -> Ec'.
      destruct (session cl1 os) as [rs cl2] eqn:Es1. injection H as <- <-.
      destruct (IH cl1 rs cl2 d2 lines' d') as [qs Sv']; auto.
      * rewrite Ec. apply loop_afters, Lp.
      * rewrite (performs_memory _ _ _ _ Pe), (runs_memory _ _ Ru). exact Hm.
      * rewrite Ec. exact Re'.
      * exists (q :: qs). rewrite Er. eapply serves_tick; [exact Ru|]. eapply serves_query; eauto. rewrite Ec in Sv'. exact Sv'.
    + cbn [operate] in Eo. unfold client_read_parameters in Eo.
      destruct (read_parameters_loop (S (length (rx (cl_world cl)))) cl n []) as [a1 cl2] eqn:Ep.
      assert (cl2 = cl1) as -> by (destruct a1 as [[?|?]|]; cbn [answer_map] in Eo; injection Eo as _ <-; reflexivity).
      destruct (pages_loop ctx pw (S (length (rx (cl_world cl)))) cl n [] a1 cl1 d lines lines' d' (le_n _) Lp Hn Hm Ep ltac:(congruence) Re) as
        (ts & qs & results & results' & d1 & El & Er & Ru & Sp & Re' & Ec & Ea).
      cbn [app] in Ea.
      destruct (parse_total (concat (objects_from d n))) as [r Er']. 
      assert (reads (concat (objects_from d n)) r) as Rd.
      { apply reads_iff; [|exact Er']. destruct (pages_sent ctx pw d n qs results Sp Hn Hm) as (pages & P1 & _ & _ & P4 & _). rewrite <- P4. eapply pages_bytes; eauto. }
      rewrite Er' in Ea. subst a1.
      destruct (session cl1 os) as [rs cl2] eqn:Es1.
      destruct (IH cl1 rs cl2 d1 lines' d') as [qs' Sv']; auto.
      * rewrite Ec. apply loop_afters, Lp.
      * rewrite (runs_memory _ _ Ru). exact Hm.
      * destruct r; cbn [answer_map] in Eo; injection Eo as <-; injection H as _ <-; exact G.
      * rewrite Ec. exact Re'.
      * exists (qs ++ qs'). rewrite Er. rewrite Ec in Sv'. cbn [afters cl_world rx] in Sv'.
        assert (vs = Done (match r with Ok l => Ok (RObjects l) | Err e => Err e end) :: rs) as ->
          by (destruct r; cbn [answer_map] in Eo; injection Eo as <-; injection H as <- _; reflexivity).
        eapply serves_parameters; eauto. eapply serves_tick; eauto.
Qed.
(** what serves, answers the lines it gets *)
Lemma pages_react ctx pw d : forall n qs results, sends_pages ctx d n qs results -> forall lines lines' results' d',
  Forall2 (hears_only ctx pw) qs lines -> reacts ctx pw d lines' results' d' -> reacts ctx pw d (lines ++ lines') (results ++ results') d'.
Proof.
  induction 1 as [n number data amount results P D|n number data amount results qs results1 P D Sp IH]; intros lines lines' results' d' F R.
  - inversion F as [|? t ? l Ht Fl]; subst. inversion Fl; subst. cbn [app]. eapply reacts_answer; [apply Ht|exact P|exact D|exact R].
  - inversion F as [|? t ? l Ht Fl]; subst. cbn [app]. rewrite <- app_assoc. eapply reacts_answer; [apply Ht|exact P|exact D|]. apply IH; assumption.
Qed.
Lemma serves_reacts ctx pw d os results qs vs d' : serves ctx d os results qs vs d' -> forall lines, Forall2 (hears_only ctx pw) qs lines ->
  reacts ctx pw d lines results d'.
Proof.
  induction 1 as [d|d d1 os results qs vs d' R S IH|d o q p d1 v results os results' qs vs d' M P D G S IH|d n results qs os results' qs' vs d' outcome N Lm Sp Rd S IH]; intros lines F.
  - inversion F; subst. constructor.
  - eapply reacts_tick; [exact R|]. apply IH, F.
  - inversion F as [|? t ? l Ht Fl]; subst. eapply reacts_answer; [apply Ht|exact P|exact D|]. apply IH, Fl.
  - apply Forall2_app_inv_l in F as (l1 & l2 & F1 & F2 & ->). eapply pages_react; eauto.
Qed.
Theorem closed_loop : forall pw pid k id w cl d os vs cl' d',
  make_client pw pid k id w = Ok cl -> usable_context (client_context k id) -> latin1 pw -> tx w = [] -> sent w = [] ->
  Forall askable os -> len (dv_memory d) <= 65535 -> session cl os = (vs, cl') ->
  (reacts (client_context k id) pw d (sent (cl_world cl')) (rx w) d' <-> exists qs, serves (client_context k id) d os (rx w) qs vs d').
Proof.
  intros pw pid k id w cl d os vs cl' d' H U L T Hs F Hm Se. destruct (made_at_rest _ _ _ _ _ _ H U T) as (R & Ep & Ew).
  destruct (make_client_inv _ _ _ _ _ _ H) as (Lp & _ & _ & Cf & _). split.
  - intros Re. rewrite <- Ew in *. apply (session_loop _ pw os cl vs cl' d (sent (cl_world cl')) d'); auto.
    + split; [exact R|]. repeat (split; [assumption|]). eapply line_zero; exact Cf.
    + rewrite Hs. reflexivity.
  - intros [qs Sv]. destruct (client_served _ _ _ _ _ _ _ _ _ _ _ _ [] H U L T Hs Sv ltac:(rewrite app_nil_r; reflexivity)) as (cl2 & Es & Fq & _).
    rewrite Se in Es. injection Es as <-. eapply serves_reacts; eauto.
Qed.
(** in the closed loop no call waits, everything is read, and every line is heard *)
Theorem loop_done : forall pw pid k id w cl d os vs cl' d',
  make_client pw pid k id w = Ok cl -> usable_context (client_context k id) -> latin1 pw -> tx w = [] -> sent w = [] ->
  Forall askable os -> len (dv_memory d) <= 65535 -> session cl os = (vs, cl') ->
  reacts (client_context k id) pw d (sent (cl_world cl')) (rx w) d' ->
  length vs = length os /\ ~ In Waiting vs /\ rx (cl_world cl') = [] /\
  Forall (fun t => exists q, hears_only (client_context k id) pw q t) (sent (cl_world cl')).
Proof.
  intros pw pid k id w cl d os vs cl' d' H U L T Hs F Hm Se Re.
  destruct (proj1 (closed_loop _ _ _ _ _ _ _ _ _ _ _ H U L T Hs F Hm Se) Re) as [qs Sv].
  destruct (client_served _ _ _ _ _ _ _ _ _ _ _ _ [] H U L T Hs Sv ltac:(rewrite app_nil_r; reflexivity)) as (cl2 & Es & Fq & Er).
  rewrite Se in Es. injection Es as <-.
  assert (length vs = length os /\ ~ In Waiting vs) as [A B].
  { clear - Sv. induction Sv; [split; [reflexivity|intros []]|exact IHSv| |]; destruct IHSv as [A B];
      (split; [cbn; congruence|intros [X|X]; [discriminate|auto]]). }
  split; [exact A|]. split; [exact B|]. split; [exact Er|]. clear - Fq. induction Fq; constructor; eauto.
Qed.
(** setting and reading the time, reading the memory, in the closed loop *)
Theorem loop_set_and_read : forall pw pid k id w cl d t cryout vs cl' d',
  make_client pw pid k id w = Ok cl -> usable_context (client_context k id) -> latin1 pw -> tx w = [] -> sent w = [] ->
  encodable_time t -> len (dv_memory d) <= 65535 -> session cl [OpWriteTime t cryout; OpReadTime] = (vs, cl') ->
  reacts (client_context k id) pw d (sent (cl_world cl')) (rx w) d' ->
  exists n t', 0 <= n /\ seconds_later n t t' /\ vs = [Done (Ok RNothing); Done (Ok (RTime t'))].
Proof.
  intros pw pid k id w cl d t cryout vs cl' d' H U L T Hs Et Hm Se Re.
  assert (Forall askable [OpWriteTime t cryout; OpReadTime]) as F
    by (repeat apply Forall_cons; [eapply askable_query; constructor; exact Et|eapply askable_query; constructor|constructor]).
  destruct (proj1 (closed_loop _ _ _ _ _ _ _ _ _ _ _ H U L T Hs F Hm Se) Re) as [qs Sv].
  destruct (loop_done _ _ _ _ _ _ _ _ _ _ _ H U L T Hs F Hm Se Re) as (N & _).
  destruct (set_and_read _ _ _ _ _ _ _ _ _ Sv) as (n & t' & vs' & Hn & Sl & ->).
  exists n, t'. destruct vs'; [auto|discriminate].
Qed.
Theorem loop_memory_read : forall pw pid k id w cl d n vs cl' d',
  make_client pw pid k id w = Ok cl -> usable_context (client_context k id) -> latin1 pw -> tx w = [] -> sent w = [] ->
  0 <= n <= 65535 -> len (dv_memory d) <= 65535 -> session cl [OpReadParameters n] = (vs, cl') ->
  reacts (client_context k id) pw d (sent (cl_world cl')) (rx w) d' ->
  exists outcome, reads (concat (skipn (Z.to_nat n) (dv_memory d))) outcome /\
    vs = [Done (match outcome with Ok l => Ok (RObjects l) | Err e => Err e end)].
Proof.
  intros pw pid k id w cl d n vs cl' d' H U L T Hs Hn Hm Se Re.
  assert (Forall askable [OpReadParameters n]) as F by (repeat apply Forall_cons; [apply askable_parameters; exact Hn|constructor]).
  destruct (proj1 (closed_loop _ _ _ _ _ _ _ _ _ _ _ H U L T Hs F Hm Se) Re) as [qs Sv].
  destruct (loop_done _ _ _ _ _ _ _ _ _ _ _ H U L T Hs F Hm Se Re) as (N & _).
  destruct (memory_read _ _ _ _ _ _ _ _ Sv) as (outcome & vs' & Rd & ->).
  exists outcome. destruct vs'; [auto|discriminate].
Qed.
