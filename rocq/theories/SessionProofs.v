(** Proofs about the client over a transport as one machine. *)
From Coq Require Import Lia.
From Verif Require Import PyFacts SpecUtils SpecFrames SpecSecurity SpecConnection SpecApplication SpecPdu SpecText.
From Verif Require Import Connection ConnectionProofs ParamLang Parameters Client SpecClient ClientProofs.
From Verif Require Import Transport SpecTransport TransportProofs SpecStack StackProofs Stack SpecSession.
Open Scope list_scope.
Open Scope Z_scope.

(** ** histories *)
Definition finished (h : history) : Prop := ~ In Waiting (map snd h).
Lemma finished_app a b : finished a -> finished b -> finished (a ++ b).
Proof. unfold finished. intros A B H. rewrite map_app in H. apply in_app_or in H as [H|H]; auto. Qed.
Lemma finished_nil : finished []. Proof. intros H. exact H. Qed.
Lemma finished_one c r : finished [(c, Done r)]. Proof. intros [H|H]; [discriminate|exact H]. Qed.
Lemma happens_nil t : happens t [] t. Proof. reflexivity. Qed.
Lemma happens_one t c r t' : transport_step t c = (r, t') -> happens t [(c, r)] t'.
Proof. unfold happens. cbn. intros ->. destruct r; reflexivity. Qed.
Lemma happens_app h1 : forall t t1 h2 t2, happens t h1 t1 -> finished h1 -> happens t1 h2 t2 -> happens t (h1 ++ h2) t2.
Proof.
  unfold happens. induction h1 as [|[c r] h1 IH]; intros t t1 h2 t2 A F B; cbn [map app fst transport_run] in *.
  - injection A as <-. exact B.
  - destruct (transport_step t c) as [[a|] t'] eqn:E.
    + destruct (transport_run t' (map fst h1)) as [h' t''] eqn:R. injection A as <- <- ->.
      rewrite (IH t' t1 h2 t2); auto. intros X. apply F. right. exact X.
    + injection A as <- _ _. exfalso. apply F. left. reflexivity.
Qed.
Lemma sends_app a b : sends (a ++ b) = sends a ++ sends b. Proof. apply flat_map_app. Qed.
Lemma send_results_app a b : send_results (a ++ b) = send_results a ++ send_results b. Proof. apply flat_map_app. Qed.
Lemma recv_results_app a b : recv_results (a ++ b) = recv_results a ++ recv_results b. Proof. apply flat_map_app. Qed.
Lemma control_results_app a b : control_results (a ++ b) = control_results a ++ control_results b. Proof. apply flat_map_app. Qed.

(** the results [s] are taken from the script [tx], where nothing means normal returns *)
Inductive takes : list (option exn) -> list (option exn) -> list (option exn) -> Prop :=
| takes_nil tx : takes [] tx tx
| takes_cons o s tx tx' : takes s tx tx' -> takes (o :: s) (o :: tx) tx'
| takes_free s tx' : takes s [] tx' -> takes (None :: s) [] tx'.
Lemma takes_app s1 : forall s2 tx tx', takes (s1 ++ s2) tx tx' -> exists mid, takes s1 tx mid /\ takes s2 mid tx'.
Proof.
  induction s1 as [|o s1 IH]; intros s2 tx tx' H; cbn in H.
  - exists tx. split; [constructor|exact H].
  - inversion H as [|? ? ? ? T|? ? T]; subst; destruct (IH _ _ _ T) as (mid & A & B); exists mid; (split; [constructor|]; auto).
Qed.
Lemma takes_all s : takes s s [].
Proof. induction s; constructor; auto. Qed.
Lemma takes_none s : Forall (fun o => o = None) s -> takes s [] [].
Proof. induction 1 as [|o s -> _ IH]; constructor; auto. Qed.

(** ** the machine as a client over a script *)
Definition as_client (s : stack) (tx : list (option exn)) (rx : list (res bytes)) (ctl : list (option exn)) (sent : list bytes) : client :=
  mk_client (st_password s) (st_connection s) (mk_world tx rx ctl sent (st_requests s) (st_draws s)).
Definition talking (x : transport_call * answer transport_result) : Prop :=
  match fst x with TSend _ | TRecv => True | _ => False end.
(** the calls [h] are those of [g] run on the client, up to one that has not returned *)
Record mimics (only : Prop) {A} (s s' : stack) (a : answer A) (g : client -> answer A * client) (h : history) : Prop := mk_mimics {
  mi_happens : happens (st_transport s) h (st_transport s');
  mi_finished : a <> Waiting -> finished h;
  mi_waiting : a = Waiting -> exists h0, h = h0 ++ [(TRecv, Waiting)] /\ finished h0;
  mi_talking : only -> Forall talking h;
  mi_same : st_password s' = st_password s /\ st_draws s' = st_draws s;
  mi_client : forall tx tx' rx ctl sent, (a = Waiting -> rx = []) -> takes (send_results h) tx tx' ->
    g (as_client s tx (recv_results h ++ rx) (control_results h ++ ctl) sent) = (a, as_client s' tx' rx ctl (sent ++ sends h)) }.

(** ** reading takes bytes *)
Definition left_over (t : transport) : nat := available (incoming (env t)).
Lemma one_byte_less inc a inc' : one_byte inc = (a, inc') -> (available inc' <= available inc)%nat.
Proof.
  revert a inc'. induction inc as [|[[|b [|b' rest]]|x] inc IH]; intros a inc' E; cbn [one_byte] in E;
    try (injection E as <- <-); try (apply IH in E); unfold available in *; cbn [fold_right length]; lia.
Qed.
Lemma loop_available now expected size : forall fuel inc line timer n r n' inc',
  recv_until_loop fuel true now expected size line timer n inc = (r, n', inc') ->
  (available inc' <= available inc)%nat /\ (forall d, r = Done (Ok d) -> (available inc' < available inc)%nat).
Proof.
  induction fuel as [|fuel IH]; intros inc line timer n r n' inc' E; cbn [recv_until_loop] in E.
  - injection E as <- <- <-. split; [lia|discriminate].
  - rewrite recv_one in E. destruct (one_byte inc) as [a inc2] eqn:O. destruct a as [[c|x]|].
    + destruct (one_byte_result _ _ _ O) as (b & ->). pose proof (one_byte_available _ _ _ O) as L.
      destruct (list_eqb _ _); [injection E as <- <- <-; split; intros; lia|].
      destruct (match size with Some s => _ | None => _ end); [injection E as <- <- <-; split; intros; lia|].
      destruct (expired now n timer) as [[[[|]|x] t'] n2]; try (injection E as <- <- <-; split; intros; lia).
      apply IH in E as [E1 E2]. split; [lia|]. intros d Hd. specialize (E2 d Hd). lia.
    + injection E as <- <- <-. split; [apply one_byte_less in O; lia|discriminate].
    + injection E as <- <- <-. split; [apply one_byte_less in O; lia|discriminate].
Qed.
Lemma read_available t a t' : transport_read t = (a, t') ->
  (left_over t' <= left_over t)%nat /\ (forall d, a = Done (Ok d) -> (left_over t' < left_over t)%nat).
Proof.
  unfold transport_read, recv_until, left_over. destruct (make_timeout _ _ _) as [timer n].
  destruct (recv_until_loop _ _ _ _ _ _ _ _ _) as [[r n'] inc'] eqn:R. destruct (is_open t) eqn:O.
  - apply loop_available in R as [R1 R2]. destruct r as [[d|x]|]; intros E; injection E as <- <-; cbn [env set_env incoming] in *.
    + split; [exact R1|]. intros d' _. exact (R2 d eq_refl).
    + split; [exact R1|discriminate].
    + split; [exact R1|discriminate].
  - cbn [recv_until_loop recv_bytes] in R. injection R as <- <- <-. intros E. injection E as <- <-. cbn [env set_env incoming]. split; [lia|discriminate].
Qed.
Lemma perform_incoming e c r e' : perform e c = (r, e') -> incoming e' = incoming e.
Proof. unfold perform. destruct (outcomes e); intros E; injection E as <- <-; reflexivity. Qed.
Lemma write_available t d a t' : transport_write t d = (a, t') -> left_over t' = left_over t /\ a <> Waiting.
Proof.
  unfold transport_write, left_over. destruct (is_open t); [|intros E; injection E as <- <-; split; [reflexivity|discriminate]].
  destruct (perform _ _) as [[u|x] e] eqn:P; apply perform_incoming in P; intros E; injection E as <- <-; cbn; rewrite P; (split; [reflexivity|discriminate]).
Qed.

(** ** send *)
Lemma send_mimics s ev a s' : stack_send_one s ev = (a, s') ->
  exists h, mimics True s s' a (fun cl => client_send_one cl ev) h /\
    (left_over (st_transport s') <= left_over (st_transport s))%nat /\
    (a = Done (Ok tt) -> (left_over (st_transport s') < left_over (st_transport s))%nat).
Proof.
  unfold stack_send_one, client_send_one. destruct s as [pw c t n dr]. cbn [st_draws st_requests st_password st_connection st_transport].
  destruct (dr n) as [rnd pad] eqn:D. destruct (send rnd pad c ev) as [[data|e] c'] eqn:S.
  2:{ intros E. injection E as <- <-. exists []. split; [|cbn; split; [lia|discriminate]].
      split; [apply happens_nil|intros _; apply finished_nil|discriminate|intros _; repeat constructor|split; reflexivity|].
      intros tx tx' rx ctl sent _ T. inversion T; subst. unfold as_client, draw. cbn. rewrite D. cbn. rewrite S, app_nil_r. reflexivity. }
  unfold st_set_connection, st_set_transport. cbn [st_draws st_requests st_password st_connection st_transport].
  destruct (transport_write t data) as [w t1] eqn:W. destruct (write_available _ _ _ _ W) as [L1 Nw].
  destruct w as [[u|x]|]; [| |contradiction].
  2:{ intros E. injection E as <- <-. exists [(TSend data, Done (Err x))]. split; [|cbn [st_transport]; split; [lia|discriminate]].
      split; [apply happens_one; cbn; rewrite W; reflexivity|intros _; apply finished_one|discriminate|intros _; repeat constructor|split; reflexivity|].
      intros tx tx' rx ctl sent _ T. cbn in T. inversion T as [|? ? ? ? T'|]; subst. inversion T'; subst.
      unfold as_client, draw. cbn. rewrite D. cbn. rewrite S. reflexivity. }
  destruct (transport_read t1) as [a2 t2] eqn:R. destruct (read_available _ _ _ R) as [L2 L3]. destruct u.
  assert (happens t [(TSend data, Done (Ok TNothing))] t1) as H1 by (apply happens_one; cbn; rewrite W; reflexivity).
  assert (forall r, lift TData (a2, t2) = (r, t2) -> happens t1 [(TRecv, r)] t2) as H2.
  { intros r Hr. apply happens_one. cbn. rewrite R. exact Hr. }
  destruct a2 as [[d|x]|]; intros E; injection E as <- <-; cbn [st_transport].
  - exists [(TSend data, Done (Ok TNothing)); (TRecv, Done (Ok (TData d)))]. split; [|specialize (L3 d eq_refl); split; [lia|intros _; lia]].
    split; [apply (happens_app _ _ _ _ _ H1 (finished_one _ _)); exact (H2 _ eq_refl)|intros _; apply (finished_app [_] [_]); apply finished_one|discriminate|intros _; repeat constructor|split; reflexivity|].
    intros tx tx' rx ctl sent _ T. cbn in T.
    inversion T as [|? ? ? ? T'|? ? T']; subst; inversion T'; subst; unfold as_client, draw; cbn; rewrite D; cbn; rewrite S; reflexivity.
  - exists [(TSend data, Done (Ok TNothing)); (TRecv, Done (Err x))]. split; [|split; [lia|discriminate]].
    split; [apply (happens_app _ _ _ _ _ H1 (finished_one _ _)); exact (H2 _ eq_refl)|intros _; apply (finished_app [_] [_]); apply finished_one|discriminate|intros _; repeat constructor|split; reflexivity|].
    intros tx tx' rx ctl sent _ T. cbn in T.
    inversion T as [|? ? ? ? T'|? ? T']; subst; inversion T'; subst; unfold as_client, draw; cbn; rewrite D; cbn; rewrite S; reflexivity.
  - exists [(TSend data, Done (Ok TNothing)); (TRecv, Waiting)]. split; [|split; [lia|discriminate]].
    split; [apply (happens_app _ _ _ _ _ H1 (finished_one _ _)); exact (H2 _ eq_refl)|contradiction| |intros _; repeat constructor|split; reflexivity|].
    { intros _. exists [(TSend data, Done (Ok TNothing))]. split; [reflexivity|apply finished_one]. }
    intros tx tx' rx ctl sent Hrx T. rewrite (Hrx eq_refl). cbn in T.
    inversion T as [|? ? ? ? T'|? ? T']; subst; inversion T'; subst; unfold as_client, draw; cbn; rewrite D; cbn; rewrite S; reflexivity.
Qed.

(** ** next_event *)
Lemma loop_mimics fuel : forall s a s', (left_over (st_transport s) < fuel)%nat -> stack_next_event_loop fuel s = (a, s') ->
  exists h, mimics True s s' a client_next_event h /\ (left_over (st_transport s') <= left_over (st_transport s))%nat.
Proof.
  induction fuel as [|fuel IH]; intros s a s' L E; [lia|]. destruct s as [pw c t n dr].
  cbn [stack_next_event_loop st_connection st_transport] in *.
  unfold st_set_connection, st_set_transport in E. cbn [st_draws st_requests st_password st_connection st_transport] in E.
  destruct (next_event c) as [[[p|]|e] c1] eqn:N.
  1,3: injection E as <- <-; exists []; (split; [|cbn; lia]);
      (split; [apply happens_nil|intros _; apply finished_nil|discriminate|intros _; repeat constructor|split; reflexivity|]);
      intros tx tx' rx ctl sent _ T; inversion T; subst; unfold as_client, client_next_event; cbn;
      destruct rx as [|[d|x] rx]; cbn; rewrite N, app_nil_r; reflexivity.
  destruct (transport_read t) as [r t1] eqn:R. destruct (read_available _ _ _ R) as [L1 L2].
  assert (forall q, lift TData (r, t1) = (q, t1) -> happens t [(TRecv, q)] t1) as H1.
  { intros q Hq. apply happens_one. cbn. rewrite R. exact Hq. }
  destruct r as [[d|x]|].
  - apply IH in E as (h & M & L3); [|cbn [st_transport]; specialize (L2 d eq_refl); lia]. cbn [st_transport] in L3.
    exists ((TRecv, Done (Ok (TData d))) :: h). split; [|cbn [st_transport]; lia]. destruct M as [M1 M2 M3 Mq M4 M5]. cbn in M1, M4, M5.
    split.
    + apply (happens_app [_] _ _ _ _ (H1 _ eq_refl) (finished_one _ _)). exact M1.
    + intros W. apply (finished_app [_]); [apply finished_one|auto].
    + intros W. destruct (M3 W) as (h0 & -> & F). exists ((TRecv, Done (Ok (TData d))) :: h0). split; [reflexivity|]. apply (finished_app [_]); [apply finished_one|auto].
    + intros _. constructor; [exact I|exact (Mq I)].
    + exact M4.
    + intros tx tx' rx ctl sent Hrx T. specialize (M5 tx tx' rx ctl sent Hrx T). revert M5. unfold as_client, client_next_event. cbn.
      rewrite N. cbn. auto.
  - injection E as <- <-. exists [(TRecv, Done (Err x))]. split; [|cbn; lia].
    split; [exact (H1 _ eq_refl)|intros _; apply finished_one|discriminate|intros _; repeat constructor|split; reflexivity|].
    intros tx tx' rx ctl sent _ T. inversion T; subst. unfold as_client, client_next_event. cbn. rewrite N, app_nil_r. reflexivity.
  - injection E as <- <-. exists [(TRecv, Waiting)]. split; [|cbn; lia].
    split; [exact (H1 _ eq_refl)|contradiction|intros _; exists []; split; [reflexivity|apply finished_nil]|intros _; repeat constructor|split; reflexivity|].
    intros tx tx' rx ctl sent Hrx T. rewrite (Hrx eq_refl). inversion T; subst. unfold as_client, client_next_event. cbn. rewrite N, app_nil_r. reflexivity.
Qed.

(** ** composition *)
Lemma mimics_bind only {A B} s s1 s2 (x : A) (b : answer B) g k h1 h2 :
  mimics only s s1 (Done (Ok x)) g h1 -> mimics only s1 s2 b (k x) h2 ->
  mimics only s s2 b (fun cl => match g cl with
     | (Waiting, cl) => (Waiting, cl) | (Done (Err e), cl) => (Done (Err e), cl) | (Done (Ok x), cl) => k x cl end) (h1 ++ h2).
Proof.
  intros [A1 A2 _ Aq [A4 A4'] A5] [B1 B2 B3 Bq [B4 B4'] B5]. assert (finished h1) as F by (apply A2; discriminate). split.
  - eapply happens_app; eauto.
  - intros W. apply finished_app; auto.
  - intros W. destruct (B3 W) as (h0 & -> & F0). exists (h1 ++ h0). split; [apply app_assoc|apply finished_app; auto].
  - intros O. apply Forall_app. auto.
  - split; congruence.
  - intros tx tx' rx ctl sent Hrx T. rewrite send_results_app in T. apply takes_app in T as (mid & T1 & T2).
    rewrite recv_results_app, control_results_app, sends_app, <- !app_assoc.
    rewrite (A5 tx mid (recv_results h2 ++ rx) (control_results h2 ++ ctl) sent); [|discriminate|exact T1].
    rewrite (B5 mid tx' rx ctl (sent ++ sends h1)); auto. rewrite <- app_assoc. reflexivity.
Qed.
Lemma mimics_stop only {A B} s s' (a : answer A) (b : answer B) g g' h :
  mimics only s s' a g h -> (a = Waiting <-> b = Waiting) ->
  (forall cl cl', g cl = (a, cl') -> g' cl = (b, cl')) -> mimics only s s' b g' h.
Proof.
  intros [A1 A2 A3 Aq A4 A5] I G. split; auto.
  - intros W. apply A2. intros X. apply W, I, X.
  - intros W. apply A3, I, W.
  - intros tx tx' rx ctl sent Hrx T. apply G, A5; [intros X; apply Hrx, I, X|exact T].
Qed.
Lemma exchange_mimics s r a s' : stack_exchange s r = (a, s') ->
  exists h, mimics True s s' a (fun cl => exchange cl r) h /\
    (left_over (st_transport s') <= left_over (st_transport s))%nat /\
    (forall p, a = Done (Ok p) -> (left_over (st_transport s') < left_over (st_transport s))%nat).
Proof.
  unfold stack_exchange, exchange. cbn [stack_send client_send]. destruct (stack_send_one s (Request r)) as [b s1] eqn:S.
  apply send_mimics in S as (h1 & M1 & L1 & L1').
  destruct b as [[[]|e]|].
  - unfold stack_next_event. intros E. apply loop_mimics in E as (h2 & M2 & L2); [|apply Nat.lt_succ_diag_r].
    exists (h1 ++ h2). specialize (L1' eq_refl). split; [|split; [lia|intros; lia]].
    pose proof (mimics_bind _ _ _ _ _ _ _ (fun _ => client_next_event) _ _ M1 M2) as M. eapply mimics_stop; [exact M|tauto|].
    intros cl cl' X. cbn beta in *. destruct (client_send_one cl (Request r)) as [[[[]|e]|] cl1]; exact X.
  - intros E. injection E as <- <-. exists h1. split; [|split; [lia|discriminate]].
    eapply mimics_stop; [exact M1|split; discriminate|]. intros cl cl' X. cbn beta in *. rewrite X. reflexivity.
  - intros E. injection E as <- <-. exists h1. split; [|split; [lia|discriminate]].
    eapply mimics_stop; [exact M1|split; reflexivity|]. intros cl cl' X. cbn beta in *. rewrite X. reflexivity.
Qed.
Lemma parameters_mimics fuel : forall s n acc a s', (left_over (st_transport s) < fuel)%nat ->
  stack_read_parameters_loop fuel s n acc = (a, s') ->
  exists h, mimics True s s' a (fun cl => read_parameters_loop (S (length (rx (cl_world cl)))) cl n acc) h.
Proof.
  induction fuel as [|fuel IH]; intros s n acc a s' L E; [lia|]. cbn [stack_read_parameters_loop] in E.
  destruct (stack_exchange s _) as [b s1] eqn:X. apply exchange_mimics in X as (h1 & M1 & L1 & L1').
  destruct b as [[p|e]|].
  2:{ injection E as <- <-. exists h1. destruct M1 as [A1 A2 A3 Aq A4 A5]. split; [exact A1|intros _; apply A2; discriminate|discriminate|exact Aq|exact A4|].
      intros tx tx' rx ctl sent Hrx T. cbn [read_parameters_loop as_client cl_password]. fold (as_client s tx (recv_results h1 ++ rx) (control_results h1 ++ ctl) sent).
      rewrite A5 with (tx' := tx'); [reflexivity|discriminate|exact T]. }
  2:{ injection E as <- <-. exists h1. destruct M1 as [A1 A2 A3 Aq A4 A5]. split; [exact A1|contradiction|intros _; exact (A3 eq_refl)|exact Aq|exact A4|].
      intros tx tx' rx ctl sent Hrx T. cbn [read_parameters_loop as_client cl_password]. fold (as_client s tx (recv_results h1 ++ rx) (control_results h1 ++ ctl) sent).
      rewrite A5 with (tx' := tx'); [reflexivity|exact (fun _ => Hrx eq_refl)|exact T]. }
  specialize (L1' p eq_refl).
  assert (forall (b : answer (list value)) tx tx' rx ctl sent cl', takes (send_results h1) tx tx' ->
    match p with
    | ReadDeviceParametersResponse data _ object_amount is_end =>
        if is_end then (match parse None (Some (acc ++ data)) with Some r => Done r | None => Waiting end, as_client s1 tx' rx ctl (sent ++ sends h1))
        else read_parameters_loop (length (recv_results h1 ++ rx)) (as_client s1 tx' rx ctl (sent ++ sends h1)) (n + object_amount) (acc ++ data)
    | _ => (Done (Err AttributeError), as_client s1 tx' rx ctl (sent ++ sends h1))
    end = (b, cl') ->
    read_parameters_loop (S (length (recv_results h1 ++ rx))) (as_client s tx (recv_results h1 ++ rx) (control_results h1 ++ ctl) sent) n acc = (b, cl')) as Step.
  { intros b tx tx' rx ctl sent cl' T Hb. cbn [read_parameters_loop]. destruct M1 as [A1 A2 A3 Aq A4 A5].
    change (cl_password (as_client s tx (recv_results h1 ++ rx) (control_results h1 ++ ctl) sent)) with (st_password s).
    rewrite (A5 tx tx' rx ctl sent); [|discriminate|exact T]. destruct p; exact Hb. }
  assert (forall b, b <> Waiting -> (forall tx tx' rx ctl sent, takes (send_results h1) tx tx' ->
      read_parameters_loop (S (length (recv_results h1 ++ rx))) (as_client s tx (recv_results h1 ++ rx) (control_results h1 ++ ctl) sent) n acc
      = (b, as_client s1 tx' rx ctl (sent ++ sends h1))) ->
    exists h, mimics True s s1 b (fun cl => read_parameters_loop (S (length (rx (cl_world cl)))) cl n acc) h) as Stop.
  { intros b Nb Hb. exists h1. destruct M1 as [A1 A2 A3 Aq A4 A5]. split; [exact A1|intros _; apply A2; discriminate|contradiction|exact Aq|exact A4|].
    intros tx tx' rx ctl sent _ T. apply Hb. exact T. }
  destruct p as [| | | | |];
    try (injection E as <- <-; apply Stop; [discriminate|]; intros; eapply Step; [eassumption|reflexivity]).
  cbv zeta in E. destruct is_end.
  - destruct (parse_total (acc ++ data)) as (q & Pq). rewrite Pq in E. injection E as <- <-. apply Stop; [discriminate|].
    intros. eapply Step; [eassumption|]. cbn beta iota. rewrite Pq. reflexivity.
  - apply IH in E as (h2 & M2); [|lia]. exists (h1 ++ h2).
    assert (finished h1) as F by (apply (mi_finished _ _ _ _ _ _ M1); discriminate).
    pose proof M1 as [A1 A2 A3 Aq [A4 A4'] A5]. destruct M2 as [B1 B2 B3 Bq [B4 B4'] B5]. split.
    + eapply happens_app; eauto.
    + intros W. apply finished_app; auto.
    + intros W. destruct (B3 W) as (h0 & -> & F0). exists (h1 ++ h0). split; [apply app_assoc|apply finished_app; auto].
    + intros O. apply Forall_app. auto.
    + split; congruence.
    + intros tx tx' rx ctl sent Hrx T. rewrite send_results_app in T. apply takes_app in T as (mid & T1 & T2).
      rewrite recv_results_app, control_results_app, sends_app, <- !app_assoc. cbn [cl_world as_client Client.rx].
      eapply Step; [exact T1|]. cbn beta iota.
      specialize (B5 mid tx' rx ctl (sent ++ sends h1) Hrx T2). rewrite <- app_assoc in B5. cbn [cl_world as_client Client.rx] in B5.
      rewrite <- B5. apply enough_fuel.
      * cbn [cl_world as_client Client.rx].
        specialize (A5 tx mid (recv_results h2 ++ rx) (control_results h2 ++ ctl) sent ltac:(discriminate) T1).
        apply exchange_shrinks in A5. exact A5.
      * cbn [cl_world as_client Client.rx]. lia.
Qed.

(** ** the operations *)
Definition communicating (o : operation) : Prop := o <> OpConnect /\ o <> OpDisconnect.
Lemma stack_map_inv {A B} (f : A -> B) x b s' : stack_map f x = (b, s') ->
  exists a, x = (a, s') /\ b = match a with Done (Ok y) => Done (Ok (f y)) | Done (Err e) => Done (Err e) | Waiting => Waiting end.
Proof. destruct x as [[[y|e]|] s]; cbn; intros E; injection E as <- <-; eexists; (split; [reflexivity|reflexivity]). Qed.
Lemma mimics_map only {A B} (f : A -> B) s s' a g h : mimics only s s' a g h ->
  mimics only s s' (match a with Done (Ok y) => Done (Ok (f y)) | Done (Err e) => Done (Err e) | Waiting => Waiting end)
    (fun cl => answer_map f (g cl)) h.
Proof.
  intros M. eapply mimics_stop; [exact M| |].
  - destruct a as [[y|e]|]; split; try discriminate; reflexivity.
  - intros cl cl' X. cbn beta. rewrite X. destruct a as [[y|e]|]; reflexivity.
Qed.
Lemma control_mimics (only : Prop) s c r t : ~ only -> (c = TConnect \/ c = TDisconnect) -> transport_step (st_transport s) c = (Done r, t) ->
  mimics only s (st_set_transport s t) (Done (match r with Ok _ => Ok tt | Err e => Err e end))
    (fun cl => let '(r, w) := transport_control (cl_world cl) in (Done r, set_world cl w)) [(c, Done r)].
Proof.
  intros No C E. split.
  - apply happens_one. exact E.
  - intros _. apply finished_one.
  - discriminate.
  - contradiction.
  - split; reflexivity.
  - intros tx tx' rx ctl sent _ T. destruct C as [-> | ->]; destruct r; inversion T; subst; cbn; rewrite app_nil_r; reflexivity.
Qed.
Lemma operate_mimics s o a s' : stack_operate s o = (a, s') ->
  exists h, mimics (communicating o) s s' a (fun cl => operate cl o) h.
Proof.
  assert (forall r a s', stack_exchange s r = (a, s') -> exists h, mimics (communicating o) s s' a (fun cl => exchange cl r) h) as X.
  { intros r b s1 E. apply exchange_mimics in E as (h & [M1 M2 M3 Mq M4 M5] & _). exists h. split; auto. }
  assert (forall b s1, stack_operate s o = (b, s1) -> o = OpConnect \/ o = OpDisconnect -> exists h, mimics (communicating o) s s1 b (fun cl => operate cl o) h) as Y.
  { intros b s1 E [-> | ->]; cbn [stack_operate] in E; apply stack_map_inv in E as (c & E & ->).
    - unfold stack_connect in E. destruct (transport_connect (st_transport s)) as [r t] eqn:Ec. injection E as <- <-.
      destruct r as [r|]; [|unfold transport_connect in Ec; destruct (is_open _); [discriminate|destruct (perform _ _) as [[?|?] ?]; discriminate]].
      pose proof (control_mimics (communicating OpConnect) s TConnect (match r with Ok _ => Ok TNothing | Err e => Err e end) t ltac:(unfold communicating; tauto) ltac:(auto)) as M.
      cbn [transport_step] in M. rewrite Ec in M. specialize (M ltac:(destruct r; reflexivity)). eexists.
      eapply mimics_stop; [exact M| |].
      + destruct r as [[]|]; split; discriminate.
      + intros cl cl' Z. cbn [operate]. unfold client_connect. cbn beta in Z. rewrite Z. destruct r as [[]|]; reflexivity.
    - unfold stack_disconnect in E. destruct (transport_disconnect (st_transport s)) as [r t] eqn:Ec. injection E as <- <-.
      destruct r as [r|].
      2:{ exfalso. unfold transport_disconnect in Ec. destruct (is_open _); [|discriminate]. destruct (t_kind _).
          - destruct (perform _ SShutdown) as [[?|?] ?]; [destruct (perform _ SClose) as [[?|?] ?]|]; discriminate.
          - destruct (perform _ SClose) as [[?|?] ?]; discriminate. }
      pose proof (control_mimics (communicating OpDisconnect) s TDisconnect (match r with Ok _ => Ok TNothing | Err e => Err e end) t ltac:(unfold communicating; tauto) ltac:(auto)) as M.
      cbn [transport_step] in M. rewrite Ec in M. specialize (M ltac:(destruct r; reflexivity)). eexists.
      eapply mimics_stop; [exact M| |].
      + destruct r as [[]|]; split; discriminate.
      + intros cl cl' Z. cbn [operate]. unfold client_disconnect. cbn beta in Z. rewrite Z. destruct r as [[]|]; reflexivity. }
  intros E. destruct o; [apply Y; auto|apply Y; auto| | | | | |]; clear Y; cbn [stack_operate] in E; apply stack_map_inv in E as (b & E & ->).
  - apply X in E as (h & M). exists h. pose proof M as [_ _ _ _ [Pw _] _].
    pose proof (mimics_map _ RPdu _ _ _ _ _ M) as [M1 M2 M3 Mq M4 M5]. split; auto.
  - unfold stack_read_time in E. destruct (stack_exchange s ReadTimeRequest) as [c s1] eqn:Ex. apply X in Ex as (h & M).
    assert (mimics (communicating OpReadTime) s s1 (match c with Done (Ok (ReadTimeResponse time _ _ _ _)) => Done (Ok time) | Done (Ok _) => Done (Err AttributeError)
       | Done (Err e) => Done (Err e) | Waiting => Waiting end) client_read_time h) as M'.
    { eapply mimics_stop; [exact M| |].
      - destruct c as [[p|e]|]; [destruct p| |]; split; try discriminate; reflexivity.
      - intros cl cl' Z. unfold client_read_time. cbn beta in Z. rewrite Z. destruct c as [[p|e]|]; [destruct p| |]; reflexivity. }
    exists h. apply (mimics_map _ RTime) in M'.
    destruct c as [[p|e]|]; [destruct p| |]; injection E as <- <-; exact M'.
  - unfold stack_write_time in E. destruct (stack_exchange s _) as [c s1] eqn:Ex. apply X in Ex as (h & M).
    exists h. destruct c as [[p|e]|]; injection E as <- <-.
    all: destruct M as [M1 M2 M3 Mq M4 M5]; split; auto; try discriminate; try (intros _; apply M2; discriminate).
    all: intros tx tx' rx ctl sent Hrx T; cbn [operate]; unfold client_write_time; cbn [as_client cl_password];
      fold (as_client s tx (recv_results h ++ rx) (control_results h ++ ctl) sent); rewrite (M5 tx tx' rx ctl sent); [reflexivity| |exact T];
      try discriminate; intros _; exact (Hrx eq_refl).
  - unfold stack_read_parameters in E. apply parameters_mimics in E as (h & M); [|apply Nat.lt_succ_diag_r].
    exists h. apply (mimics_map _ RObjects) in M as [M1 M2 M3 Mq M4 M5]. split; auto.
  - apply X in E as (h & M). exists h. pose proof (mimics_map _ RPdu _ _ _ _ _ M) as [M1 M2 M3 Mq M4 M5]. split; auto.
  - apply X in E as (h & M). exists h. pose proof (mimics_map _ RPdu _ _ _ _ _ M) as [M1 M2 M3 Mq M4 M5]. split; auto.
Qed.
Lemma session_mimics os : forall s vs s', stack_session s os = (vs, s') ->
  exists h, happens (st_transport s) h (st_transport s') /\
    (~ In Waiting vs -> finished h) /\
    (In Waiting vs -> exists h0, h = h0 ++ [(TRecv, Waiting)] /\ finished h0) /\
    (Forall communicating os -> Forall talking h) /\
    (st_password s' = st_password s /\ st_draws s' = st_draws s) /\
    forall tx tx' rx ctl sent, (In Waiting vs -> rx = []) -> takes (send_results h) tx tx' ->
      session (as_client s tx (recv_results h ++ rx) (control_results h ++ ctl) sent) os = (vs, as_client s' tx' rx ctl (sent ++ sends h)).
Proof.
  induction os as [|o os IH]; intros s vs s' E; cbn [stack_session] in E.
  - injection E as <- <-. exists []. split; [apply happens_nil|]. split; [intros _; apply finished_nil|]. split; [intros []|].
    split; [constructor|]. split; [split; reflexivity|]. intros tx tx' rx ctl sent _ T. inversion T; subst. cbn. rewrite app_nil_r. reflexivity.
  - destruct (stack_operate s o) as [a s1] eqn:O. apply operate_mimics in O as (h1 & M). destruct a as [r|].
    + destruct (stack_session s1 os) as [rs s2] eqn:Es. injection E as <- <-.
      destruct (IH _ _ _ Es) as (h2 & B1 & B2 & B3 & Bq & [B4 B4'] & B5). destruct M as [A1 A2 A3 Aq [A4 A4'] A5].
      assert (finished h1) as F by (apply A2; discriminate). exists (h1 ++ h2).
      split; [eapply happens_app; eauto|]. split; [intros W; apply finished_app; [exact F|apply B2; intros X; apply W; right; exact X]|].
      split; [|split; [|split; [split; congruence|]]].
      * intros [W|W]; [discriminate|]. destruct (B3 W) as (h0 & -> & F0). exists (h1 ++ h0). split; [apply app_assoc|apply finished_app; auto].
      * intros C. inversion C; subst. apply Forall_app. auto.
      * intros tx tx' rx ctl sent Hrx T. rewrite send_results_app in T. apply takes_app in T as (mid & T1 & T2).
        rewrite recv_results_app, control_results_app, sends_app, <- !app_assoc. cbn [session].
        rewrite (A5 tx mid (recv_results h2 ++ rx) (control_results h2 ++ ctl) sent); [|discriminate|exact T1].
        rewrite (B5 mid tx' rx ctl (sent ++ sends h1)); [|intros W; apply Hrx; right; exact W|exact T2].
        rewrite <- app_assoc. reflexivity.
    + injection E as <- <-. destruct M as [A1 A2 A3 Aq A4 A5]. exists h1. split; [exact A1|].
      split; [intros W; exfalso; apply W; left; reflexivity|]. split; [intros _; exact (A3 eq_refl)|].
      split; [intros C; inversion C; subst; auto|]. split; [exact A4|].
      intros tx tx' rx ctl sent Hrx T. cbn [session]. rewrite (A5 tx tx' rx ctl sent); [reflexivity|intros _; apply Hrx; left; reflexivity|exact T].
Qed.
