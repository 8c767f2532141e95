(** Proofs about the time that receiving takes. *)
From Coq Require Import Lia.
From Verif Require Import PyFacts SpecUtils SpecFrames SpecSecurity SpecConnection SpecApplication SpecPdu SpecText.
From Verif Require Import Connection ConnectionProofs ParamLang Parameters Client SpecClient ClientProofs.
From Verif Require Import Transport SpecTransport TransportProofs SpecStack StackProofs Stack SpecErrors ErrorProofs SpecSession SessionProofs SessionProofs2 SpecTimed.
Open Scope list_scope.
Open Scope Z_scope.

Lemma spent_app a b : spent (a ++ b) = spent a + spent b.
Proof. unfold spent. rewrite map_app. induction a as [|x a IH]; cbn [map app fold_right]; lia. Qed.
Lemma spent_forward r : forward r -> 0 <= spent r.
Proof. unfold spent. induction 1; cbn [map fold_right]; lia. Qed.
Lemma spent_one x : spent [x] = fst x.
Proof. unfold spent. cbn. lia. Qed.
Lemma unfinished_nil T : unfinished T [].
Proof. split; [constructor|]. intros [|x u] rest E N; [contradiction|discriminate]. Qed.
Lemma prefix_snoc {A} (u r l : list A) x : l ++ [x] = u ++ r -> u = l ++ [x] \/ exists r', l = u ++ r'.
Proof.
  intros E. destruct r as [|y r _] using rev_ind.
  - rewrite app_nil_r in E. left. auto.
  - rewrite app_assoc in E. apply app_inj_tail in E as [E _]. right. eauto.
Qed.
Lemma unfinished_snoc T front d b : unfinished T front -> b <> 13 -> spent (front ++ [(d, Ok b)]) < T -> unfinished T (front ++ [(d, Ok b)]).
Proof.
  intros [F1 F2] B S. split.
  - apply Forall_app. split; [exact F1|]. constructor; [|constructor]. cbn. eauto.
  - intros used rest E N. apply prefix_snoc in E as [->|(r' & E)]; [exact S|]. exact (F2 _ _ E N).
Qed.
Lemma unfinished_spent T r : 0 < T -> unfinished T r -> spent r < T.
Proof. intros H [_ F]. destruct r as [|x r]; [cbn; lia|]. apply (F _ []); [rewrite app_nil_r; reflexivity|discriminate]. Qed.

Lemma ends_13 line b : list_eqb (slice_from (- len [13]) (line ++ [b])) [13] = (b =? 13).
Proof.
  rewrite slice_from_neg_app; [|reflexivity|reflexivity]. cbn. destruct (b =? 13) eqn:E; reflexivity.
Qed.

(** ** one call of recv *)
Lemma timed_loop now n0 T reads : 0 <= T -> forward reads -> shows now n0 reads ->
  forall todo before line fuel a n' inc', reads = before ++ todo -> unfinished T before -> map snd before = map Ok line ->
  (available (map as_read todo) < fuel)%nat ->
  recv_until_loop fuel true now [13] None line (mk_timeout false (T =? 0) (Some T) (Some (now n0 + T))) (n0 + S (length before)) (map as_read todo) = (a, n', inc') ->
  exists used rest, reads = used ++ rest /\ inc' = map as_read rest /\
    in_time T used rest (match a with Done (Err x) => Done (Err (wrapped x)) | r => r end).
Proof.
  intros HT Fw Sh. induction todo as [|[d r] todo IH]; intros before line fuel a n' inc' R U M F E;
    (destruct fuel as [|fuel]; [lia|]); cbn [recv_until_loop map] in E; rewrite recv_one in E.
  - cbn [one_byte] in E. injection E as <- <- <-. exists reads, []. rewrite app_nil_r in R. subst before.
    split; [symmetry; apply app_nil_r|]. split; [reflexivity|]. split; [reflexivity|exact U].
  - destruct r as [b|x].
    + unfold as_read at 1 in E. cbn [snd one_byte] in E. rewrite ends_13 in E.
      assert (reads = (before ++ [(d, Ok b)]) ++ todo) as R' by (rewrite <- app_assoc; exact R).
      assert (map snd (before ++ [(d, Ok b)]) = map Ok (line ++ [b])) as M' by (rewrite !map_app, M; reflexivity).
      destruct (b =? 13) eqn:B.
      { injection E as <- <- <-. exists (before ++ [(d, Ok b)]), todo. split; [exact R'|]. split; [reflexivity|]. split; [exact M'|].
        exists before, (d, Ok b). split; [reflexivity|]. split; [exact U|]. left. cbn. f_equal. lia. }
      pose proof (Sh _ _ R') as Now. rewrite app_length in Now. cbn [length] in Now. rewrite Nat.add_1_r in Now.
      assert (0 <= spent (before ++ [(d, Ok b)])) as P.
      { apply spent_forward. rewrite R' in Fw. apply Forall_app in Fw as [Fw _]. exact Fw. }
      unfold expired, time_left in E. cbn [target_time is_non_blocking is_infinite duration] in E.
      destruct (T =? 0) eqn:T0.
      { cbn in E. injection E as <- <- <-. exists (before ++ [(d, Ok b)]), todo. split; [exact R'|]. split; [reflexivity|]. split; [exact M'|].
        exists before, (d, Ok b). split; [reflexivity|]. split; [exact U|]. right. lia. }
      replace (now n0 + T - now (n0 + S (length before))%nat) with (T - spent (before ++ [(d, Ok b)])) in E by lia.
      replace (T - spent (before ++ [(d, Ok b)]) >? T) with false in E by lia.
      destruct (Z.max 0 (T - spent (before ++ [(d, Ok b)])) <=? 0) eqn:X.
      { injection E as <- <- <-. exists (before ++ [(d, Ok b)]), todo. split; [exact R'|]. split; [reflexivity|]. split; [exact M'|].
        exists before, (d, Ok b). split; [reflexivity|]. split; [exact U|]. right. lia. }
      replace (S (n0 + S (length before))) with (n0 + S (length (before ++ [(d, Ok b)])))%nat in E by (rewrite app_length; cbn [length]; lia).
      apply IH in E; [exact E|exact R'| |exact M'|].
      * apply unfinished_snoc; [exact U|lia|lia].
      * unfold available in F |- *. cbn in F. lia.
    + unfold as_read at 1 in E. cbn [snd one_byte] in E. injection E as <- <- <-.
      exists (before ++ [(d, Err x)]), todo. split; [rewrite <- app_assoc; exact R|]. split; [reflexivity|].
      exists before, d, x. auto using wrapped_relayed.
Qed.
Lemma recv_timed t T reads a t' : is_open t = true -> t_timeout t = Some T -> 0 <= T -> forward reads ->
  incoming (env t) = map as_read reads -> shows (now (env t)) (ticks (env t)) reads -> transport_read t = (a, t') ->
  exists used rest, reads = used ++ rest /\ incoming (env t') = map as_read rest /\ in_time T used rest a.
Proof.
  intros O Ht HT Fw I Sh. unfold transport_read, recv_until. rewrite Ht, make_timeout_some, O, I.
  destruct (recv_until_loop _ _ _ _ _ _ _ _ _) as [[r n'] inc'] eqn:E.
  intros X.
  assert (exists used rest, reads = used ++ rest /\ inc' = map as_read rest /\
    in_time T used rest (match r with Done (Err x) => Done (Err (wrapped x)) | r => r end)) as (used & rest & R & -> & Q).
  { eapply (timed_loop (now (env t)) (ticks (env t)) T reads HT Fw Sh reads [] []); [reflexivity|apply unfinished_nil|reflexivity| |].
    2:{ cbn [length]. rewrite Nat.add_1_r. exact E. }
    lia. }
  exists used, rest. split; [exact R|]. destruct r as [[d|x]|]; injection X as <- <-; split; try reflexivity; exact Q.
Qed.
Lemma recv_duration t T reads a t' : is_open t = true -> t_timeout t = Some T -> 0 < T -> punctual T reads ->
  incoming (env t) = map as_read reads -> shows (now (env t)) (ticks (env t)) reads -> transport_read t = (a, t') ->
  exists used rest, reads = used ++ rest /\ incoming (env t') = map as_read rest /\
    match a with Done _ => spent used < 2 * T | Waiting => rest = [] /\ spent used < T end.
Proof.
  intros O Ht HT Pu I Sh E.
  assert (forward reads) as Fw by (eapply Forall_impl; [|exact Pu]; cbn; intros; lia).
  destruct (recv_timed t T reads a t' O Ht ltac:(lia) Fw I Sh E) as (used & rest & R & Ri & Q). exists used, rest.
  split; [exact R|]. split; [exact Ri|].
  assert (forall front last, used = front ++ [last] -> unfinished T front -> spent used < 2 * T) as B.
  { intros front last -> U. rewrite spent_app, spent_one. apply (unfinished_spent T front HT) in U.
    rewrite R in Pu. apply Forall_app in Pu as [Pu _]. apply Forall_app in Pu as [_ Pu]. inversion Pu; subst. lia. }
  destruct a as [[data|x]|].
  - destruct Q as (_ & front & last & Eu & U & _). exact (B _ _ Eu U).
  - destruct Q as (front & d & y & Eu & U & _). exact (B _ _ Eu U).
  - destruct Q as [Q U]. split; [exact Q|]. exact (unfinished_spent T used HT U).
Qed.

(** ** an exception of the socket ends the call *)
Lemma breaks_byte inc x more a inc' : breaks inc x more -> one_byte inc = (a, inc') ->
  (exists b, a = Done (Ok [b]) /\ breaks inc' x more) \/ (a = Done (Err x) /\ inc' = more).
Proof.
  intros (chunks & ->). induction chunks as [|[|b [|b' l]] chunks IH]; cbn [map app one_byte]; intros E; auto; injection E as <- <-.
  - right. auto.
  - left. exists b. split; [reflexivity|]. exists chunks. reflexivity.
  - left. exists b. split; [reflexivity|]. exists ((b' :: l) :: chunks). reflexivity.
Qed.
Lemma breaks_loop now x more : forall fuel inc line timer n a n' inc', timer_ok timer -> breaks inc x more -> (available inc < fuel)%nat ->
  recv_until_loop fuel true now [13] None line timer n inc = (a, n', inc') ->
  (exists d, a = Done (Ok d) /\ breaks inc' x more) \/ (a = Done (Err x) /\ inc' = more).
Proof.
  induction fuel as [|fuel IH]; intros inc line timer n a n' inc' T B F E; [lia|]. cbn [recv_until_loop] in E. rewrite recv_one in E.
  destruct (one_byte inc) as [r inc2] eqn:O. destruct (breaks_byte _ _ _ _ _ B O) as [(b & -> & B2)|[-> ->]].
  - apply one_byte_available in O. destruct (list_eqb _ _); [injection E as <- <- <-; left; eauto|].
    destruct (timer_step now n timer T) as (y & timer' & n2 & Ex & T' & _). rewrite Ex in E. destruct y; [injection E as <- <- <-; left; eauto|].
    apply IH in E; auto. lia.
  - injection E as <- <- <-. right. auto.
Qed.
(** what is left after a call: the exception has not come yet, or it has ended the call *)
Definition held {A} (x : exn) (more : list (res bytes)) (a : answer A) (t : transport) : Prop :=
  (exists r, a = Done r /\ breaks (incoming (env t)) x more) \/ (a = Done (Err (wrapped x)) /\ incoming (env t) = more).
Lemma breaks_read t x more a t' : breaks (incoming (env t)) x more -> transport_read t = (a, t') -> held x more a t'.
Proof.
  intros B. unfold transport_read, recv_until. destruct (make_timeout _ _ _) as [timer n] eqn:M.
  destruct (make_timer_ok _ _ _ _ _ M) as [T _].
  destruct (recv_until_loop _ _ _ _ _ _ _ _ _) as [[r n'] inc'] eqn:R. destruct (is_open t).
  - apply breaks_loop with (x := x) (more := more) in R; [|exact T|exact B|lia].
    destruct R as [(d & -> & B2)|[-> ->]]; intros E; injection E as <- <-; [left|right; split; reflexivity].
    eexists. split; [reflexivity|exact B2].
  - cbn [recv_until_loop recv_bytes] in R. injection R as <- <- <-. intros E. injection E as <- <-. left. eexists. split; [reflexivity|exact B].
Qed.
Lemma breaks_write t d x more a t' : breaks (incoming (env t)) x more -> transport_write t d = (a, t') -> a <> Waiting /\ breaks (incoming (env t')) x more.
Proof.
  unfold transport_write. intros B. destruct (is_open t); [|intros E; injection E as <- <-; split; [discriminate|exact B]].
  destruct (perform _ _) as [[u|y] e] eqn:P; apply perform_incoming in P; intros E; injection E as <- <-; cbn; rewrite P; (split; [discriminate|exact B]).
Qed.
Lemma held_done {A B} x more (a : answer A) (b : answer B) t : held x more a t -> (forall e, a = Done (Err e) -> b = Done (Err e)) ->
  (a <> Waiting -> b <> Waiting) -> held x more b t.
Proof.
  intros [(r & -> & H)|[-> H]] He Hw.
  - left. destruct b as [r'|]; [|exfalso; apply Hw; [discriminate|reflexivity]]. eauto.
  - right. split; [apply He; reflexivity|exact H].
Qed.
Lemma breaks_send s ev x more a s' : breaks (incoming (env (st_transport s))) x more -> stack_send_one s ev = (a, s') -> held x more a (st_transport s').
Proof.
  intros B. unfold stack_send_one. destruct (st_draws s (st_requests s)) as [rnd pad]. cbn [st_connection].
  destruct (send rnd pad _ ev) as [[data|e] c']; unfold st_set_connection, st_set_transport; cbn [st_transport].
  2:{ intros E. injection E as <- <-. left. eexists. split; [reflexivity|exact B]. }
  destruct (transport_write _ data) as [w t1] eqn:W. destruct (breaks_write _ _ _ _ _ _ B W) as [N B1].
  destruct w as [[u|y]|]; [|intros E; injection E as <- <-; left; eexists; split; [reflexivity|exact B1]|contradiction].
  destruct (transport_read t1) as [r t2] eqn:R. pose proof (breaks_read _ _ _ _ _ B1 R) as H.
  destruct r as [[d|y]|]; intros E; injection E as <- <-; cbn [st_transport]; eapply held_done; [exact H| | |exact H| | |exact H| |]; try discriminate; try congruence.
Qed.
Lemma breaks_events fuel x more : forall s a s', breaks (incoming (env (st_transport s))) x more -> (left_over (st_transport s) < fuel)%nat ->
  stack_next_event_loop fuel s = (a, s') -> held x more a (st_transport s').
Proof.
  induction fuel as [|fuel IH]; intros s a s' B L E; [lia|]. cbn [stack_next_event_loop] in E.
  unfold st_set_connection, st_set_transport in E. cbn [st_draws st_requests st_password st_connection st_transport] in E.
  destruct (next_event (st_connection s)) as [[[p|]|e] c1].
  1,3: injection E as <- <-; left; eexists; (split; [reflexivity|exact B]).
  destruct (transport_read (st_transport s)) as [r t1] eqn:R. pose proof (breaks_read _ _ _ _ _ B R) as H. destruct (read_available _ _ _ R) as [L1 L2].
  destruct r as [[d|y]|].
  - destruct H as [(r & _ & H)|[H _]]; [|discriminate]. apply IH in E; [exact E|exact H|]. specialize (L2 d eq_refl). cbn [st_transport]. lia.
  - injection E as <- <-. eapply held_done; [exact H|congruence|discriminate].
  - injection E as <- <-. eapply held_done; [exact H|discriminate|congruence].
Qed.
Lemma breaks_exchange s r x more a s' : breaks (incoming (env (st_transport s))) x more -> stack_exchange s r = (a, s') -> held x more a (st_transport s').
Proof.
  intros B. unfold stack_exchange. cbn [stack_send]. destruct (stack_send_one s (Request r)) as [b s1] eqn:S. pose proof (breaks_send _ _ _ _ _ _ B S) as H.
  destruct b as [[[]|e]|].
  - destruct H as [(q & _ & H)|[H _]]; [|discriminate]. apply breaks_events; [exact H|]. apply Nat.lt_succ_diag_r.
  - intros E. injection E as <- <-. eapply held_done; [exact H|congruence|discriminate].
  - intros E. injection E as <- <-. eapply held_done; [exact H|discriminate|congruence].
Qed.
Lemma breaks_parameters fuel x more : forall s n acc a s', breaks (incoming (env (st_transport s))) x more -> (left_over (st_transport s) < fuel)%nat ->
  stack_read_parameters_loop fuel s n acc = (a, s') -> held x more a (st_transport s').
Proof.
  induction fuel as [|fuel IH]; intros s n acc a s' B L E; [lia|]. cbn [stack_read_parameters_loop] in E.
  destruct (stack_exchange s _) as [b s1] eqn:X. pose proof (breaks_exchange _ _ _ _ _ _ B X) as H.
  apply exchange_mimics in X as (_ & _ & L1 & L2).
  destruct b as [[p|e]|].
  2,3: injection E as <- <-; eapply held_done; [exact H| |]; try congruence; discriminate.
  destruct H as [(q & _ & H)|[H _]]; [|discriminate]. specialize (L2 p eq_refl).
  assert (forall r, held x more (@Done (list value) r) (st_transport s1)) as Stop by (intros r; left; eauto).
  destruct p; try (injection E as <- <-; apply Stop). cbv zeta in E. destruct is_end.
  - destruct (parse_total (acc ++ data)) as (q' & Pq). rewrite Pq in E. injection E as <- <-. apply Stop.
  - apply IH in E; [exact E|exact H|lia].
Qed.
Lemma breaks_map {A B} (f : A -> B) y x more b s' : (forall a s1, y = (a, s1) -> held x more a (st_transport s1)) ->
  stack_map f y = (b, s') -> held x more b (st_transport s').
Proof.
  intros H E. apply stack_map_inv in E as (a & -> & ->). specialize (H a s' eq_refl). eapply held_done; [exact H| |].
  - intros e ->. reflexivity.
  - destruct a as [[?|?]|]; congruence.
Qed.
Lemma failure_ends s o a s' x more : breaks (incoming (env (st_transport s))) x more -> stack_operate s o = (a, s') ->
  (exists r, a = Done r /\ breaks (incoming (env (st_transport s'))) x more) \/
  (a = Done (Err (relayed x)) /\ incoming (env (st_transport s')) = more).
Proof.
  intros B. rewrite <- wrapped_relayed. change (stack_operate s o = (a, s') -> held x more a (st_transport s')).
  assert (forall c (u : answer unit) t, (c = TConnect \/ c = TDisconnect) -> transport_step (st_transport s) c = (match u with Done (Ok _) => Done (Ok TNothing) | Done (Err e) => Done (Err e) | Waiting => Waiting end, t) ->
    held x more u t) as Ctl.
  { intros c u t C E. unfold held. left.
    assert (incoming (env t) = incoming (env (st_transport s)) /\ u <> Waiting) as [-> N].
    { destruct C as [-> | ->]; cbn [transport_step] in E; unfold lift in E.
      - unfold transport_connect in E. destruct (is_open _); [|destruct (perform _ _) as [[?|?] ?] eqn:P; apply perform_incoming in P];
          injection E as Eu <-; cbn; (split; [assumption || reflexivity|]); destruct u as [[?|?]|]; congruence.
      - unfold transport_disconnect in E. destruct (is_open _).
        2:{ injection E as Eu <-. split; [reflexivity|]. destruct u as [[?|?]|]; congruence. }
        destruct (t_kind _).
        + destruct (perform _ SShutdown) as [[?|?] ?] eqn:P; apply perform_incoming in P.
          * destruct (perform _ SClose) as [[?|?] ?] eqn:P2; apply perform_incoming in P2; injection E as Eu <-; cbn; (split; [congruence|]); destruct u as [[?|?]|]; congruence.
          * injection E as Eu <-; cbn; (split; [congruence|]); destruct u as [[?|?]|]; congruence.
        + destruct (perform _ SClose) as [[?|?] ?] eqn:P; apply perform_incoming in P; injection E as Eu <-; cbn; (split; [congruence|]); destruct u as [[?|?]|]; congruence. }
    destruct u as [r|]; [|contradiction]. eauto. }
  destruct o; cbn [stack_operate]; apply breaks_map; intros b s1 E.
  - unfold stack_connect in E. destruct (transport_connect (st_transport s)) as [u t] eqn:Et. injection E as <- <-. apply (Ctl TConnect); [auto|].
    cbn [transport_step]. rewrite Et. destruct u as [[?|?]|]; reflexivity.
  - unfold stack_disconnect in E. destruct (transport_disconnect (st_transport s)) as [u t] eqn:Et. injection E as <- <-. apply (Ctl TDisconnect); [auto|].
    cbn [transport_step]. rewrite Et. destruct u as [[?|?]|]; reflexivity.
  - eapply breaks_exchange; eauto.
  - unfold stack_read_time in E. destruct (stack_exchange s _) as [c s2] eqn:X. apply (breaks_exchange _ _ _ _ _ _ B) in X.
    destruct c as [[p|e]|]; [destruct p| |]; injection E as <- <-; eapply held_done; try exact X; congruence.
  - unfold stack_write_time in E. destruct (stack_exchange s _) as [c s2] eqn:X. apply (breaks_exchange _ _ _ _ _ _ B) in X.
    destruct c as [[p|e]|]; injection E as <- <-; eapply held_done; try exact X; congruence.
  - unfold stack_read_parameters in E. eapply breaks_parameters; [exact B| |exact E]. apply Nat.lt_succ_diag_r.
  - eapply breaks_exchange; eauto.
  - eapply breaks_exchange; eauto.
Qed.

(** ** bytes without an end of telegram *)
Lemma endless_loop now : forall fuel data inc line timer n a n' inc', timer_ok timer -> ~ In 13 data -> arriving inc data [] -> (available inc < fuel)%nat ->
  recv_until_loop fuel true now [13] None line timer n inc = (a, n', inc') ->
  (exists d rest, a = Done (Ok (line ++ d)) /\ data = d ++ rest /\ arriving inc' rest []) \/ (a = Waiting /\ inc' = []).
Proof.
  induction fuel as [|fuel IH]; intros data inc line timer n a n' inc' T N A F E; [lia|]. cbn [recv_until_loop] in E. rewrite recv_one in E.
  destruct data as [|b data].
  - rewrite (one_byte_silent _ _ A) in E. cbn [one_byte] in E. injection E as <- <- <-. right. auto.
  - destruct (one_byte_arriving _ _ _ _ A) as (inc2 & O & A2). rewrite O in E. apply one_byte_available in O. rewrite ends_13 in E.
    destruct (b =? 13) eqn:B; [exfalso; apply N; left; lia|].
    destruct (timer_step now n timer T) as (y & timer' & n2 & Ex & T' & _). rewrite Ex in E. destruct y.
    + injection E as <- <- <-. left. exists [b], data. auto.
    + apply (IH data) in E; [|exact T'|intros X; apply N; right; exact X|exact A2|lia].
      destruct E as [(d & rest & -> & -> & A3)|E]; [|right; exact E]. left. exists (b :: d), rest. rewrite <- app_assoc. auto.
Qed.
Lemma endless_read t data a t' : is_open t = true -> ~ In 13 data -> arriving (incoming (env t)) data [] -> transport_read t = (a, t') ->
  is_open t' = true /\
  ((exists d rest, a = Done (Ok d) /\ data = d ++ rest /\ arriving (incoming (env t')) rest []) \/ (a = Waiting /\ incoming (env t') = [])).
Proof.
  intros O N A. unfold transport_read, recv_until. destruct (make_timeout _ _ _) as [timer n] eqn:M.
  destruct (make_timer_ok _ _ _ _ _ M) as [T _]. rewrite O.
  destruct (recv_until_loop _ _ _ _ _ _ _ _ _) as [[r n'] inc'] eqn:R.
  apply (endless_loop _ _ data) in R; [|exact T|exact N|exact A|lia].
  destruct R as [(d & rest & -> & -> & A2)|[-> ->]]; intros E; injection E as <- <-; (split; [exact O|]).
  - left. exists d, rest. auto.
  - right. auto.
Qed.
Lemma receive_without_end c d : ~ In 13 (buffer c) -> ~ In 13 d -> ~ In 13 (buffer (receive_data c d)).
Proof.
  intros B D. unfold receive_data. destruct d as [|b d]; [exact B|]. destruct (_ && _); [exact B|].
  cbn [buffer set_buffer]. intros X. apply in_app_or in X as [X|X]; auto.
Qed.
Lemma endless_events fuel : forall s data a s', is_open (st_transport s) = true -> ~ In 13 data -> arriving (incoming (env (st_transport s))) data [] ->
  ~ In 13 (buffer (st_connection s)) -> (left_over (st_transport s) < fuel)%nat -> stack_next_event_loop fuel s = (a, s') ->
  a = Waiting /\ incoming (env (st_transport s')) = [].
Proof.
  induction fuel as [|fuel IH]; intros s data a s' O N A B L E; [lia|]. cbn [stack_next_event_loop] in E.
  rewrite next_event_uncut in E by exact B.
  unfold st_set_connection, st_set_transport in E. cbn [st_draws st_requests st_password st_connection st_transport] in E.
  destruct (transport_read (st_transport s)) as [r t1] eqn:R. destruct (endless_read _ _ _ _ O N A R) as [O1 H]. destruct (read_available _ _ _ R) as [L1 L2].
  destruct H as [(d & rest & -> & -> & A2)|[-> I]].
  - apply (IH _ rest) in E; [exact E|exact O1| |exact A2| |].
    + intros X. apply N, in_or_app. auto.
    + apply receive_without_end; [exact B|]. intros X. apply N, in_or_app. auto.
    + specialize (L2 d eq_refl). cbn [st_transport]. lia.
  - injection E as <- <-. auto.
Qed.
Lemma endless_exchange ctx s r data : is_open (st_transport s) = true -> outcomes (env (st_transport s)) = [] -> at_rest ctx (as_client s [] [] [] []) ->
  encodable r -> password_of (st_password s) r -> ~ In 13 data -> arriving (incoming (env (st_transport s))) data [] ->
  exists s', stack_exchange s r = (Waiting, s') /\ incoming (env (st_transport s')) = [].
Proof.
  intros O Out (C & U & L & I & B & _) En Pw N A. unfold stack_exchange. cbn [stack_send]. unfold stack_send_one.
  destruct (st_draws s (st_requests s)) as [rnd pad]. cbn [st_connection].
  destruct (request_sent ctx rnd pad (st_connection s) r C U I En) as (t & -> & _).
  { intros p Hp. rewrite (Pw p Hp). exact L. }
  unfold st_set_connection, st_set_transport. cbn [st_transport st_connection]. unfold transport_write. rewrite O. unfold perform. rewrite Out. cbn [st_transport].
  match goal with |- context[transport_read ?u] => destruct (transport_read u) as [a t1] eqn:R end.
  pose proof (fun Ho Ha => endless_read _ data _ _ Ho N Ha R) as X. destruct (X O A) as [O1 H]. clear X.
  destruct H as [(d & rest & -> & -> & A2)|[-> X]].
  - match goal with |- context[stack_next_event ?u] => destruct (stack_next_event u) as [a s'] eqn:E end.
    apply (endless_events _ _ rest) in E as [-> E].
    + eauto.
    + exact O1.
    + intros X. apply N, in_or_app. auto.
    + exact A2.
    + apply receive_without_end.
      * cbn. change (buffer (st_connection s)) with (buffer (cl_connection (as_client s [] [] [] []))). rewrite B. intros X. exact X.
      * intros X. apply N, in_or_app. auto.
    + apply Nat.lt_succ_diag_r.
  - eauto.
Qed.
Lemma endless_call t pw pid k id dr s o r data : make_stack t pw pid k id dr = Ok s ->
  usable_context (client_context k id) -> opens pw o = Some r -> encodable r -> is_open t = true -> outcomes (env t) = [] ->
  ~ In 13 data -> arriving (incoming (env t)) data [] ->
  exists s', stack_operate s o = (Waiting, s') /\ incoming (env (st_transport s')) = [].
Proof.
  intros M U Op En O Out N A. destruct (make_stack_inv _ _ _ _ _ _ _ M) as [Et Mc].
  destruct (made_at_rest _ _ _ _ _ _ (Mc [] [] [] []) U eq_refl) as (R & Ep & _). cbn in Ep.
  destruct (endless_exchange _ s r data ltac:(rewrite Et; exact O) ltac:(rewrite Et; exact Out) R En) as (s' & E & Es); auto.
  { rewrite Ep. intros p Hp. destruct o; cbn in Op; try discriminate; injection Op as <-; cbn in Hp; congruence. }
  { rewrite Et. exact A. }
  exists s'. split; [|auto].
  destruct o; cbn in Op; try discriminate; injection Op as <-; cbn [stack_operate];
    unfold stack_read_instantaneous_values, stack_read_time, stack_write_time, stack_read_parameters, stack_read_archive, stack_read_archive_by_time;
    cbn [stack_read_parameters_loop]; rewrite ?Ep, E; reflexivity.
Qed.
Lemma slow_reads n : arriving (map as_read (repeat (1, Ok 65) n)) (repeat 65 n) [].
Proof.
  exists (repeat [65] n). rewrite app_nil_r. split.
  - induction n as [|n IH]; [reflexivity|]. cbn [repeat map]. rewrite IH. reflexivity.
  - induction n as [|n IH]; [reflexivity|]. cbn [repeat concat app]. rewrite IH. reflexivity.
Qed.
Lemma slow_spent n : spent (repeat (1, Ok 65) n) = Z.of_nat n.
Proof.
  unfold spent. induction n as [|n IH]; [reflexivity|]. cbn [repeat map fold_right fst]. rewrite IH. lia.
Qed.
Lemma slow_device t pw pid k id dr s o r n : make_stack t pw pid k id dr = Ok s ->
  usable_context (client_context k id) -> opens pw o = Some r -> encodable r -> is_open t = true -> outcomes (env t) = [] ->
  incoming (env t) = map as_read (repeat (1, Ok 65) n) ->
  punctual 1 (repeat (1, Ok 65) n) /\ spent (repeat (1, Ok 65) n) = Z.of_nat n /\
  exists s', stack_operate s o = (Waiting, s') /\ incoming (env (st_transport s')) = [].
Proof.
  intros M U Op En O Out I. split; [|split; [apply slow_spent|]].
  - apply Forall_forall. intros x X. apply repeat_spec in X. subst x. cbn. lia.
  - eapply endless_call; eauto; [|rewrite I; apply slow_reads]. intros X. apply repeat_spec in X. discriminate.
Qed.
(** the last read may begin just before the time is over *)
Lemma duration_reached k T os l : 0 < T ->
  exists e reads t', let t := mk_transport k (Some T) true e in
    outcomes e = os /\ log e = l /\ punctual T reads /\ incoming e = map as_read reads /\ shows (now e) (ticks e) reads /\
    transport_read t = (Done (Ok [65; 65]), t') /\ incoming (env t') = [] /\ spent reads = 2 * T - 1.
Proof.
  intros HT. set (now := fun n => match n with O => 0 | 1%nat => T - 1 | _ => 2 * T - 1 end).
  exists (mk_environment os [Ok [65]; Ok [65]] now 0 l), [(T - 1, Ok 65); (T, Ok 65)].
  eexists. cbv zeta. split; [reflexivity|]. split; [reflexivity|]. split.
  { repeat constructor; cbn; lia. }
  split; [reflexivity|]. split.
  { intros used rest E. cbn [env ticks]. destruct used as [|x [|y [|z used]]]; cbn in E.
    - unfold spent. cbn. lia.
    - injection E as <- _. unfold spent, now. cbn. lia.
    - injection E as <- <- _. unfold spent, now. cbn. lia.
    - discriminate. }
  split; [|split].
  - unfold transport_read, recv_until. cbn [t_timeout env]. rewrite make_timeout_some. cbn [Transport.now ticks is_open].
    cbn [available fold_right incoming length Nat.add]. cbn [recv_until_loop]. rewrite recv_one. cbn [one_byte].
    rewrite ends_13. change (65 =? 13) with false. cbn iota. unfold expired, time_left. cbn [target_time is_non_blocking is_infinite duration].
    replace (T =? 0) with false by lia. unfold now at 1 2 3 4 5. 
    replace (0 + T - (T - 1) >? T) with false by lia. replace (Z.max 0 (0 + T - (T - 1)) <=? 0) with false by lia.
    rewrite recv_one. cbn [one_byte]. rewrite ends_13. change (65 =? 13) with false. cbn iota. cbn [target_time is_non_blocking is_infinite duration].
    unfold now. cbn iota. replace (0 + T - (2 * T - 1) >? T) with false by lia. replace (Z.max 0 (0 + T - (2 * T - 1)) <=? 0) with true by lia.
    reflexivity.
  - reflexivity.
  - unfold spent. cbn. lia.
Qed.
