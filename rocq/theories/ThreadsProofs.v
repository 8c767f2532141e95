(** Proofs about overlapping calls. *)
From Verif Require Import PyFacts SpecUtils SpecFrames SpecText SpecApplication SpecPdu SpecSecurity SpecConnection.
From Verif Require Import ApplicationProofs Connection ConnectionProofs ParamLang Parameters ParserProofs Client SpecClient ClientProofs Group SpecGroup GroupProofs.
From Verif Require Import Threads SpecThreads.
Open Scope list_scope.
Open Scope Z_scope.

(** ** An exchange that is not interrupted is the exchange of Client.v *)
Fixpoint alone (r : request) (n : nat) (x : access) : access :=
  match n with
  | O => x
  | S n' => match x with Goes q c w => alone r n' (exchange_step r q c w) | _ => x end
  end.

Lemma next_event_look c : next_event c =
  match look_at_buffer c with
  | Err x => (Err x, c)
  | Ok None => (Ok None, c)
  | Ok (Some (p, s)) => (Ok (Some p), set_buffer (set_state c s) [])
  end.
Proof.
  unfold next_event, look_at_buffer. destruct (buffer c) as [|b l] eqn:B; [reflexivity|]. rewrite <- B.
  destruct (index_of 13 (buffer c)) as [i|]; [|reflexivity].
  destruct (interpret (context c) (slice_to (i + 1) (buffer c))) as [f|x]; [|destruct (is_value_error x); reflexivity].
  destruct (pdu_from_response f) as [p|x]; [|reflexivity]. cbn [bind].
  destruct (process_event (elgas_state c) (Response p)) as [s|x]; reflexivity.
Qed.
Lemma send_encode rnd pad c r s : process_event (elgas_state c) (Request r) = Ok s ->
  send rnd pad c (Request r) = (encode_request rnd pad c r, set_state c s).
Proof. intros E. unfold send. rewrite E. destruct c; reflexivity. Qed.
Lemma idle_process r : process_event IDLE (Request r) = Ok (match r with
  | ReadInstantaneousValuesRequest _ => AWAITING_READ_ACTUAL_VALUES_RESPONSE
  | ReadDeviceParametersRequest _ _ _ => AWAITING_READ_DEVICE_PARAMETERS_RESPONSE
  | ReadTimeRequest => AWAITING_READ_TIME_RESPONSE
  | ReadArchiveByTimeRequest _ _ _ _ => AWAITING_READ_ARCHIVE_BY_TIME_RESPONSE
  | ReadArchiveRequest _ _ _ _ => AWAITING_READ_ARCHIVE_RESPONSE
  | WriteTimeRequest _ _ _ => AWAITING_WRITE_TIME_RESPONSE end).
Proof. destruct r; reflexivity. Qed.
Lemma request_accepted s r s' : process_event s (Request r) = Ok s' -> s = IDLE /\ s' <> IDLE.
Proof. destruct s, r; cbn; intros H; try discriminate; split; auto; injection H as <-; discriminate. Qed.
Lemma request_refused s r : s <> IDLE -> process_event s (Request r) = Err LocalElgasProtocolError.
Proof. destruct s, r; cbn; intros H; try reflexivity; contradiction. Qed.
Lemma response_accepted s p s' : process_event s (Response p) = Ok s' -> s <> IDLE /\ s' = IDLE.
Proof. destruct s, p; cbn; intros H; try discriminate; split; try discriminate; congruence. Qed.
Lemma look_some c p s : look_at_buffer c = Ok (Some (p, s)) -> s = IDLE /\ elgas_state c <> IDLE.
Proof.
  unfold look_at_buffer. intros H. destruct (buffer c) as [|b l] eqn:B; [discriminate|]. rewrite <- B in H.
  destruct (index_of 13 (buffer c)) as [i|]; [|discriminate].
  destruct (interpret (context c) (slice_to (i + 1) (buffer c))) as [f|x]; [|destruct (is_value_error x); discriminate].
  destruct (pdu_from_response f) as [q|x]; [|discriminate]. cbn [bind] in H.
  destruct (process_event (elgas_state c) (Response q)) as [s'|x] eqn:P; [|discriminate]. cbn [bind] in H. injection H as <- <-.
  apply response_accepted in P. tauto.
Qed.

Definition with_rx (w : world) (rx' : list (res bytes)) : world := mk_world (tx w) rx' (ctl w) (sent w) (requests w) (draws w).
Lemma with_rx_id w : with_rx w (rx w) = w.
Proof. destruct w; reflexivity. Qed.
Lemma alone_ends r n a c w : alone r n (Ends a c w) = Ends a c w.
Proof. destruct n; reflexivity. Qed.
Lemma alone_blocks r n : alone r n Blocks = Blocks.
Proof. destruct n; reflexivity. Qed.
Lemma alone_plus r n m x : alone r (n + m) x = alone r m (alone r n x).
Proof.
  revert x. induction n as [|n IH]; intros x; [reflexivity|]. cbn [Nat.add alone]. destruct x as [q c w| |a c w]; [apply IH| |].
  - symmetry. apply alone_blocks.
  - symmetry. apply alone_ends.
Qed.

(** the loop of next_event *)
Lemma loop_big r n : forall c w a c' w', alone r n (Goes Checking c w) = Ends a c' w' ->
  next_event_loop (rx w) c = (Done a, c', rx w') /\ w' = with_rx w (rx w').
Proof.
  induction n as [n IH] using lt_wf_ind. intros c w a c' w' H.
  destruct n as [|n]; [discriminate|]. cbn [alone exchange_step] in H.
  assert (forall l, next_event_loop l c = match next_event c with
    | (Err e, c) => (Done (Err e), c, l)
    | (Ok (Some event), c) => (Done (Ok event), c, l)
    | (Ok None, c) => match l with [] => (Waiting, c, []) | Err e :: rx' => (Done (Err e), c, rx') | Ok data :: rx' => next_event_loop rx' (receive_data c data) end
    end) as L by (intros [|? ?]; reflexivity).
  rewrite L, next_event_look. destruct (look_at_buffer c) as [[[p s]|]|x].
  - destruct n as [|[|n]]; try discriminate. cbn [alone exchange_step] in H. rewrite alone_ends in H. injection H as <- <- <-.
    rewrite with_rx_id. auto.
  - destruct n as [|n]; [discriminate|]. cbn [alone exchange_step] in H. unfold transport_recv in H. destruct (rx w) as [|[data|x] rx'] eqn:R.
    + rewrite alone_blocks in H. discriminate.
    + destruct n as [|n]; [discriminate|]. cbn [alone exchange_step] in H.
      apply IH in H as [H1 H2]; [|lia]. cbn [rx] in H1. rewrite H1. split; [reflexivity|]. rewrite H2. reflexivity.
    + rewrite alone_ends in H. injection H as <- <- <-. split; reflexivity.
  - rewrite alone_ends in H. injection H as <- <- <-. rewrite with_rx_id. auto.
Qed.
Lemma loop_small r l : forall c w a c' l', next_event_loop l c = (Done a, c', l') -> rx w = l ->
  exists n, alone r n (Goes Checking c w) = Ends a c' (with_rx w l').
Proof.
  induction l as [|x l IH]; intros c w a c' l' H R; cbn [next_event_loop] in H; rewrite next_event_look in H;
    destruct (look_at_buffer c) as [[[p s]|]|e] eqn:E.
  - injection H as <- <- <-. exists 3%nat. cbn [alone exchange_step]. rewrite E. cbn [alone exchange_step]. rewrite <- R, with_rx_id. reflexivity.
  - discriminate.
  - injection H as <- <- <-. exists 1%nat. cbn [alone exchange_step]. rewrite E, <- R, with_rx_id. reflexivity.
  - injection H as <- <- <-. exists 3%nat. cbn [alone exchange_step]. rewrite E. cbn [alone exchange_step]. rewrite <- R, with_rx_id. reflexivity.
  - destruct x as [data|e].
    + destruct (IH _ (with_rx w l) _ _ _ H eq_refl) as [n Hn]. exists (3 + n)%nat. rewrite alone_plus. cbn [alone exchange_step]. rewrite E.
      cbn [alone exchange_step]. unfold transport_recv. rewrite R. cbn [alone exchange_step]. exact Hn.
    + injection H as <- <- <-. exists 2%nat. cbn [alone exchange_step]. rewrite E. cbn [alone exchange_step]. unfold transport_recv. rewrite R. reflexivity.
  - injection H as <- <- <-. exists 1%nat. cbn [alone exchange_step]. rewrite E, <- R, with_rx_id. reflexivity.
Qed.

(** the whole exchange *)
Lemma big r n pw c w a c' w' : elgas_state c = IDLE -> alone r n (Goes Looking c w) = Ends a c' w' ->
  exchange (mk_client pw c w) r = (Done a, mk_client pw c' w').
Proof.
  intros I H. unfold exchange. cbn [client_send]. unfold client_send_one. cbn [cl_world set_world cl_connection].
  destruct n as [|n]; [discriminate|]. cbn [alone exchange_step] in H. rewrite I in H.
  pose proof (idle_process r) as P. destruct (process_event IDLE (Request r)) as [s|] eqn:Es; [|discriminate].
  destruct n as [|n]; [discriminate|]. cbn [alone exchange_step] in H.
  destruct (draw w) as [[rnd pad] w1] eqn:D. cbn [cl_connection set_world cl_world]. rewrite (send_encode rnd pad c r s) by (rewrite I; exact Es).
  destruct (encode_request rnd pad c r) as [data|x]; [|rewrite alone_ends in H; injection H as <- <- <-; reflexivity].
  cbn [set_connection cl_world cl_connection cl_password set_world].
  destruct n as [|n]; [discriminate|]. cbn [alone exchange_step] in H.
  destruct (transport_send w1 data) as [[u|x] w2]; [|rewrite alone_ends in H; injection H as <- <- <-; reflexivity].
  destruct n as [|n]; [discriminate|]. cbn [alone exchange_step] in H.
  destruct (transport_recv w2) as [[[d|x]|] w3]; [| |rewrite alone_blocks in H; discriminate].
  - destruct n as [|n]; [discriminate|]. cbn [alone exchange_step] in H. apply loop_big in H as [H1 H2].
    unfold client_next_event. cbn [cl_world cl_connection cl_password]. rewrite H1. unfold with_rx in H2. rewrite <- H2. reflexivity.
  - rewrite alone_ends in H. injection H as <- <- <-. reflexivity.
Qed.
Lemma small r pw c w a cl' : elgas_state c = IDLE -> exchange (mk_client pw c w) r = (Done a, cl') ->
  exists n, alone r n (Goes Looking c w) = Ends a (cl_connection cl') (cl_world cl').
Proof.
  intros I H. unfold exchange in H. cbn [client_send] in H. unfold client_send_one in H. cbn [cl_world set_world cl_connection] in H.
  pose proof (idle_process r) as P. destruct (process_event IDLE (Request r)) as [s|] eqn:Es; [|discriminate].
  assert (forall n, alone r (S n) (Goes Looking c w) = alone r n (Goes (Changing s) c w)) as A1 by (intros n; cbn [alone exchange_step]; rewrite I, Es; reflexivity).
  destruct (draw w) as [[rnd pad] w1] eqn:D. cbn [cl_connection set_world cl_world] in H. rewrite (send_encode rnd pad c r s) in H by (rewrite I; exact Es).
  destruct (encode_request rnd pad c r) as [data|x] eqn:En;
    [|injection H as <- <-; exists 2%nat; rewrite A1; cbn [alone exchange_step]; rewrite D, En; reflexivity].
  assert (forall n, alone r (S (S n)) (Goes Looking c w) = alone r n (Goes (Writing data) (set_state c s) w1)) as A2
    by (intros n; rewrite A1; cbn [alone exchange_step]; rewrite D, En; reflexivity).
  cbn [set_connection cl_world cl_connection cl_password set_world] in H.
  destruct (transport_send w1 data) as [[u|x] w2] eqn:T;
    [|injection H as <- <-; exists 3%nat; rewrite A2; cbn [alone exchange_step]; rewrite T; reflexivity].
  assert (forall n, alone r (S (S (S n))) (Goes Looking c w) = alone r n (Goes Reading (set_state c s) w2)) as A3
    by (intros n; rewrite A2; cbn [alone exchange_step]; rewrite T; reflexivity).
  destruct (transport_recv w2) as [[[d|x]|] w3] eqn:R; [| |discriminate].
  - unfold client_next_event in H. cbn [cl_world cl_connection cl_password] in H.
    destruct (next_event_loop (rx w3) (receive_data (set_state c s) d)) as [[a' c'] l'] eqn:N. injection H as -> <-.
    destruct (loop_small r _ _ w3 _ _ _ N eq_refl) as [n Hn]. exists (3 + (2 + n))%nat.
    change (3 + (2 + n))%nat with (S (S (S (2 + n)))). rewrite A3. change (2 + n)%nat with (S (S n)). cbn [alone exchange_step]. rewrite R. exact Hn.
  - injection H as <- <-. exists 4%nat. rewrite A3. cbn [alone exchange_step]. rewrite R. reflexivity.
Qed.

(** ** One exchange at a time *)
(** the position of a thread outside of an open exchange *)
Definition waiting_to_ask (c : connection) (t : thread) : Prop :=
  match th_call t with
  | None => True
  | Some k => match ca_position k with
              | Looking => True
              | Changing s => process_event (elgas_state c) (Request (ca_request k)) = Ok s
              | _ => False
              end
  end.
Definition not_asking (t : thread) : Prop :=
  match th_call t with None => True | Some k => ca_position k = Looking end.
Definition state_ok (q : position) (c : connection) : Prop :=
  match q with
  | Looking | Changing _ => False
  | Closing _ s => elgas_state c <> IDLE /\ s = IDLE
  | Clearing _ => elgas_state c = IDLE
  | _ => elgas_state c <> IDLE
  end.
(** [cl]: the client after the exchanges that have ended *)
Definition situation (ci wi : nat) (inv : nat -> Prop) (g : objects) (ts : nat -> thread) (opened : option (nat * request)) (broken : bool) (cl : client) : Prop :=
  (forall i, inv i -> m_connection (th_member (ts i)) = ci /\ m_transport (th_member (ts i)) = wi /\ Forall communicates (th_calls (ts i))) /\
  match opened with
  | None =>
      connections g ci = cl_connection cl /\ transports g wi = cl_world cl /\
      (if broken then elgas_state (cl_connection cl) <> IDLE else elgas_state (cl_connection cl) = IDLE) /\
      (forall i, inv i -> waiting_to_ask (connections g ci) (ts i))
  | Some (i, r) =>
      inv i /\ broken = false /\ elgas_state (cl_connection cl) = IDLE /\
      (exists k n, th_call (ts i) = Some k /\ ca_request k = r /\ state_ok (ca_position k) (connections g ci) /\
         alone r n (Goes Looking (cl_connection cl) (cl_world cl)) = Goes (ca_position k) (connections g ci) (transports g wi)) /\
      (forall j, inv j -> j <> i -> not_asking (ts j))
  end.

(** what one access of a thread does to its situation, by its labels *)
Definition situation_after (opened : option (nat * request)) (broken : bool) (cl : client) (h : list (nat * label))
    (opened' : option (nat * request)) (broken' : bool) (cl' : client) : Prop :=
  (forall h', one_at_a_time opened' broken' h' -> one_at_a_time opened broken (h ++ h')) /\
  (forall h', still_open opened (h ++ h') = still_open opened' h') /\
  exists rs, (forall h', served (h ++ h') = rs ++ served h') /\
    (forall rs' l cl2, exchanges cl' rs' = (l, cl2) -> exchanges cl (map fst rs ++ rs') = (map Done (map snd rs) ++ l, cl2)).

Lemma after_nothing opened broken cl : situation_after opened broken cl [] opened broken cl.
Proof. split; [auto|]. split; [reflexivity|]. exists []. split; [reflexivity|]. auto. Qed.
Lemma after_returned opened broken cl h opened' broken' cl' i o a :
  situation_after opened broken cl h opened' broken' cl' -> situation_after opened broken cl (h ++ [(i, Returned o a)]) opened' broken' cl'.
Proof.
  intros (A & B & rs & C & D). split; [|split].
  - intros h' H. rewrite <- app_assoc. apply A. exact H.
  - intros h'. rewrite <- app_assoc, B. reflexivity.
  - exists rs. split; [|exact D]. intros h'. rewrite <- app_assoc, C. reflexivity.
Qed.
Lemma after_asked i r cl : situation_after None false cl [(i, Asked r)] (Some (i, r)) false cl.
Proof. split; [cbn; auto|]. split; [reflexivity|]. exists []. split; [reflexivity|]. auto. Qed.
Lemma after_refused opened broken cl i r : (exists j r', opened = Some (j, r') /\ j <> i) \/ broken = true ->
  situation_after opened broken cl [(i, Refused r)] opened broken cl.
Proof. intros H. split; [cbn; auto|]. split; [reflexivity|]. exists []. split; [reflexivity|]. auto. Qed.
Lemma after_answered i r a broken cl cl' : exchange cl r = (Done a, cl') ->
  situation_after (Some (i, r)) broken cl [(i, Answered r a)] None (failed a) cl'.
Proof.
  intros E. split; [cbn; auto|]. split; [reflexivity|]. exists [(r, a)]. split; [reflexivity|].
  intros rs' l cl2 H. cbn. rewrite E, H. reflexivity.
Qed.
Lemma after_both o1 b1 cl1 h1 o2 b2 cl2 h2 o3 b3 cl3 : situation_after o1 b1 cl1 h1 o2 b2 cl2 -> situation_after o2 b2 cl2 h2 o3 b3 cl3 ->
  situation_after o1 b1 cl1 (h1 ++ h2) o3 b3 cl3.
Proof.
  intros (A1 & B1 & rs1 & C1 & D1) (A2 & B2 & rs2 & C2 & D2). split; [|split].
  - intros h' H. rewrite <- app_assoc. apply A1, A2, H.
  - intros h'. rewrite <- app_assoc, B1. apply B2.
  - exists (rs1 ++ rs2). split; [intros h'; rewrite <- app_assoc, C1, C2, app_assoc; reflexivity|].
    intros rs' l cl2' H. rewrite !map_app, <- !app_assoc. apply D1, D2, H.
Qed.

Lemma first_request_some pw o : communicates o -> exists r, first_request pw o = Some r.
Proof. intros [H1 H2]. destruct o; try (eexists; reflexivity); contradiction. Qed.

(** membership after an access of thread [i] *)
Lemma members_after ci wi (inv : nat -> Prop) (ts : nat -> thread) i t :
  (forall i, inv i -> m_connection (th_member (ts i)) = ci /\ m_transport (th_member (ts i)) = wi /\ Forall communicates (th_calls (ts i))) ->
  inv i -> th_member t = th_member (ts i) -> (forall o, In o (th_calls t) -> In o (th_calls (ts i))) ->
  forall j, inv j -> m_connection (th_member (update ts i t j)) = ci /\ m_transport (th_member (update ts i t j)) = wi /\ Forall communicates (th_calls (update ts i t j)).
Proof.
  intros M Hi Em Ec j Hj. unfold update. destruct (Nat.eqb_spec j i) as [->|N]; [|apply M; exact Hj].
  rewrite Em. destruct (M i Hi) as (A & B & C). repeat split; auto. apply Forall_forall. intros o Ho. eapply Forall_forall in C; [exact C|]. auto.
Qed.

Lemma state_steps r q c w q' c' w' : state_ok q c -> exchange_step r q c w = Goes q' c' w' -> state_ok q' c'.
Proof.
  intros S H. destruct q as [|s|data| |data| |p s|p]; cbn [exchange_step state_ok] in *.
  - contradiction.
  - contradiction.
  - destruct (transport_send w data) as [[u|x] w2]; [|discriminate]. injection H as <- <- <-. exact S.
  - destruct (transport_recv w) as [[[d|x]|] w2]; try discriminate. injection H as <- <- <-. exact S.
  - injection H as <- <- <-. unfold receive_data. destruct data as [|d data]; [exact S|]. destruct (list_eqb (d :: data) [13] && (len (buffer c) =? 0)); exact S.
  - destruct (look_at_buffer c) as [[[p s]|]|x] eqn:L; try discriminate; injection H as <- <- <-; cbn [state_ok]; [|exact S].
    split; [exact S|]. apply look_some in L. tauto.
  - injection H as <- <- <-. cbn. destruct S as [_ ->]. reflexivity.
  - discriminate.
Qed.
Lemma state_ends r q c w a c' w' : state_ok q c -> exchange_step r q c w = Ends a c' w' ->
  if failed a then elgas_state c' <> IDLE else elgas_state c' = IDLE.
Proof.
  intros S H. destruct q as [|s|data| |data| |p s|p]; cbn [exchange_step state_ok] in *.
  - contradiction.
  - contradiction.
  - destruct (transport_send w data) as [[u|x] w2]; [discriminate|]. injection H as <- <- <-. exact S.
  - destruct (transport_recv w) as [[[d|x]|] w2]; try discriminate. injection H as <- <- <-. exact S.
  - discriminate.
  - destruct (look_at_buffer c) as [[[p s]|]|x] eqn:L; try discriminate; injection H as <- <- <-; exact S.
  - discriminate.
  - injection H as <- <- <-. cbn. exact S.
Qed.

Lemma start_situation ci wi inv g ts opened broken cl i g1 t l :
  situation ci wi inv g ts opened broken cl -> inv i -> th_call (ts i) = None -> (forall r, opened <> Some (i, r)) ->
  thread_step g (ts i) = (g1, t, l) ->
  l = [] /\ situation ci wi inv g1 (update ts i t) opened broken cl.
Proof.
  intros (M & Sit) Hi Ec No E. unfold thread_step in E. rewrite Ec in E. destruct (M i Hi) as (Mc & Mt & Mo).
  destruct (th_calls (ts i)) as [|o os] eqn:Eo.
  - injection E as <- <- <-. split; [reflexivity|].
    assert (forall j, update ts i (ts i) j = ts j) as U by (intros j; unfold update; destruct (Nat.eqb_spec j i); congruence).
    split; [intros j Hj; rewrite U; auto|]. destruct opened as [[i0 r]|]; repeat setoid_rewrite U; exact Sit.
  - unfold start_step in E. destruct (first_request_some (m_password (th_member (ts i))) o) as [r Er]; [inversion Mo; assumption|]. rewrite Er in E.
    injection E as <- <- <-. split; [reflexivity|].
    assert (Forall communicates (th_calls (mk_thread (th_member (ts i)) os (Some (mk_call o r Looking (first_count o) []))))) as Cs by (cbn; inversion Mo; assumption).
    split.
    { apply members_after; auto. intros o' Ho. rewrite Eo. right. exact Ho. }
    rewrite Mt. destruct opened as [[i0 r0]|]; cbn [connections transports].
    + destruct Sit as (I0 & B & S & (k & n & K1 & K2 & K3 & K4) & Oth). repeat split; auto.
      * exists k, n. rewrite update_other by (intros ->; apply (No r0); reflexivity). rewrite update_same. repeat split; auto.
      * intros j Hj Nj. unfold update. destruct (Nat.eqb_spec j i); [reflexivity|]. auto.
    + rewrite update_same. destruct Sit as (A1 & A2 & A3 & A4). repeat split; auto.
      intros j Hj. unfold update. destruct (Nat.eqb_spec j i); [exact Logic.I|]. auto.
Qed.

Lemma step_situation ci wi inv g ts opened broken cl i g1 t l :
  situation ci wi inv g ts opened broken cl -> inv i -> (forall j, inside (ts j) -> j = i) ->
  thread_step g (ts i) = (g1, t, l) ->
  exists opened' broken' cl', situation ci wi inv g1 (update ts i t) opened' broken' cl' /\
    situation_after opened broken cl (map (pair i) l) opened' broken' cl'.
Proof.
  intros Sit Hi Und E.
  destruct (th_call (ts i)) as [k|] eqn:Ec.
  2: { assert (forall r, opened <> Some (i, r)) as No.
       { intros r ->. destruct Sit as (_ & _ & _ & _ & (k & n & K & _) & _). congruence. }
       destruct (start_situation _ _ _ _ _ _ _ _ _ _ _ _ Sit Hi Ec No E) as (-> & Sit'). exists opened, broken, cl. split; [exact Sit'|apply after_nothing]. }
  destruct Sit as (M & Sit). destruct (M i Hi) as (Mc & Mt & Mo).
  unfold thread_step in E. rewrite Ec, Mc, Mt in E. unfold call_step in E.
  destruct opened as [[i0 r0]|].
  - destruct Sit as (I0 & B & Sd & (k0 & n & K1 & K2 & K3 & K4) & Oth).
    destruct (Nat.eq_dec i i0) as [<-|Ni].
    + rewrite Ec in K1. injection K1 as <-. subst r0.
      assert (alone (ca_request k) (S n) (Goes Looking (cl_connection cl) (cl_world cl)) =
              exchange_step (ca_request k) (ca_position k) (connections g ci) (transports g wi)) as An.
      { replace (S n) with (n + 1)%nat by lia. rewrite alone_plus, K4. reflexivity. }
      assert (match ca_position k with Changing _ => [Asked (ca_request k)] | _ => [] end = []) as Na by (destruct (ca_position k); try reflexivity; contradiction).
      rewrite Na in E.
      assert ((match ca_position k with Looking => [Refused (ca_request k)] | _ => [] ++ [Answered (ca_request k) (Err LocalElgasProtocolError)] end) =
              [Answered (ca_request k) (Err LocalElgasProtocolError)]) as _ by (destruct (ca_position k); try reflexivity; contradiction).
      destruct (exchange_step (ca_request k) (ca_position k) (connections g ci) (transports g wi)) as [q c w| |[p|x] c w] eqn:X.
      * injection E as <- <- <-. exists (Some (i, ca_request k)), broken, cl. split; [|apply after_nothing].
        split; [apply members_after; auto|]. cbn [connections transports]. rewrite update_same. repeat split; auto.
        -- eexists _, (S n). split; [reflexivity|]. cbn [ca_request ca_position]. rewrite !update_same. split; [reflexivity|].
           split; [apply (state_steps _ _ _ _ _ _ _ K3 X)|exact An].
        -- intros j Hj Nj. rewrite update_other by exact Nj. auto.
      * injection E as <- <- <-. exists (Some (i, ca_request k)), broken, cl. split; [|apply after_nothing].
        split; [apply members_after; auto|]. cbn [connections transports]. rewrite !update_same. repeat split; auto.
        -- exists k, n. repeat split; auto.
        -- intros j Hj Nj. rewrite update_other by exact Nj. auto.
      * pose proof (big (ca_request k) (S n) (cl_password cl) _ _ _ _ _ Sd An) as Big.
        assert (mk_client (cl_password cl) (cl_connection cl) (cl_world cl) = cl) as Ecl by (destruct cl; reflexivity). rewrite Ecl in Big.
        pose proof (after_answered i (ca_request k) (Ok p) broken cl _ Big) as Aft.
        pose proof (state_ends _ _ _ _ _ _ _ K3 X) as Se. cbn [failed] in Se.
        exists None, false, (mk_client (cl_password cl) c w).
        destruct (after_response (ca_operation k) (object_count k) (total_parameter_data k) p) as [n' d'|a] eqn:Ar; injection E as <- <- <-.
        -- split; [|exact Aft]. split; [apply members_after; auto|]. cbn [connections transports cl_connection cl_world]. rewrite !update_same. repeat split; auto.
           intros j Hj. unfold update. destruct (Nat.eqb_spec j i) as [->|Nj]; [exact Logic.I|]. specialize (Oth j Hj Nj). unfold not_asking, waiting_to_ask in *. destruct (th_call (ts j)) as [k'|]; [|exact Logic.I]. rewrite Oth. exact Logic.I.
        -- split; [|apply (after_returned _ _ _ [(i, Answered (ca_request k) (Ok p))]); exact Aft].
           split; [apply members_after; auto|]. cbn [connections transports cl_connection cl_world]. rewrite !update_same. repeat split; auto.
           intros j Hj. unfold update. destruct (Nat.eqb_spec j i) as [->|Nj]; [exact Logic.I|]. specialize (Oth j Hj Nj). unfold not_asking, waiting_to_ask in *. destruct (th_call (ts j)) as [k'|]; [|exact Logic.I]. rewrite Oth. exact Logic.I.
      * pose proof (big (ca_request k) (S n) (cl_password cl) _ _ _ _ _ Sd An) as Big.
        assert (mk_client (cl_password cl) (cl_connection cl) (cl_world cl) = cl) as Ecl by (destruct cl; reflexivity). rewrite Ecl in Big.
        pose proof (after_answered i (ca_request k) (Err x) broken cl _ Big) as Aft.
        pose proof (state_ends _ _ _ _ _ _ _ K3 X) as Se. cbn [failed] in Se.
        assert ((match ca_position k with Looking => [Refused (ca_request k)] | _ => [] ++ [Answered (ca_request k) (Err x)] end) =
                [Answered (ca_request k) (Err x)]) as Nl by (destruct (ca_position k); try reflexivity; contradiction).
        rewrite Nl in E. injection E as <- <- <-. exists None, true, (mk_client (cl_password cl) c w).
        split; [|apply (after_returned _ _ _ [(i, Answered (ca_request k) (Err x))]); exact Aft].
        split; [apply members_after; auto|]. cbn [connections transports cl_connection cl_world]. rewrite !update_same. repeat split; auto.
        intros j Hj. unfold update. destruct (Nat.eqb_spec j i) as [->|Nj]; [exact Logic.I|]. specialize (Oth j Hj Nj). unfold not_asking, waiting_to_ask in *. destruct (th_call (ts j)) as [k'|]; [|exact Logic.I]. rewrite Oth. exact Logic.I.
    + pose proof (Oth i Hi Ni) as Lk. unfold not_asking in Lk. rewrite Ec in Lk. rewrite Lk in E. cbn [exchange_step] in E.
      assert (elgas_state (connections g ci) <> IDLE) as Ns.
      { assert (~ inside (ts i0)) as Nin by (intros X; apply Und in X; congruence). unfold inside in Nin. rewrite K1 in Nin.
        destruct (ca_position k0); cbn [state_ok] in K3; tauto. }
      rewrite (request_refused _ _ Ns) in E. injection E as <- <- <-. cbn [map app].
      exists (Some (i0, r0)), broken, cl. split.
      * split; [apply members_after; auto|]. cbn [connections transports]. rewrite !update_same. repeat split; auto.
        -- exists k0, n. rewrite update_other by congruence. repeat split; auto.
        -- intros j Hj Nj. unfold update. destruct (Nat.eqb_spec j i); [exact Logic.I|]. auto.
      * apply (after_returned _ _ _ [(i, Refused (ca_request k))]). apply after_refused. left. exists i0, r0. auto.
  - destruct Sit as (A1 & A2 & A3 & A4). pose proof (A4 i Hi) as Wi. unfold waiting_to_ask in Wi. rewrite Ec in Wi.
    destruct (ca_position k) as [|s|data| |data| |p s|p] eqn:Ep; try contradiction; cbn [exchange_step] in E.
    + destruct (process_event (elgas_state (connections g ci)) (Request (ca_request k))) as [s|x] eqn:Pe.
      * injection E as <- <- <-. exists None, broken, cl. split; [|apply after_nothing].
        split; [apply members_after; auto|]. cbn [connections transports]. rewrite !update_same. repeat split; auto.
        intros j Hj. unfold update. destruct (Nat.eqb_spec j i) as [->|Nj]; [exact Pe|]. auto.
      * assert (broken = true) as ->.
        { destruct broken; [reflexivity|]. rewrite A1, A3, idle_process in Pe. discriminate. }
        assert (x = LocalElgasProtocolError) as -> by (rewrite request_refused in Pe by (rewrite A1; exact A3); congruence).
        injection E as <- <- <-. exists None, true, cl. split.
        -- split; [apply members_after; auto|]. cbn [connections transports]. rewrite !update_same. repeat split; auto.
           intros j Hj. unfold update. destruct (Nat.eqb_spec j i) as [->|Nj]; [exact Logic.I|]. auto.
        -- cbn [map app]. apply (after_returned _ _ _ [(i, Refused (ca_request k))]). apply after_refused. right. reflexivity.
    + destruct (request_accepted _ _ _ Wi) as (Is & Ns). rewrite A1 in Is, Wi.
      assert (broken = false) as -> by (destruct broken; [contradiction|reflexivity]).
      rewrite A1, A2 in E.
      assert (alone (ca_request k) 2 (Goes Looking (cl_connection cl) (cl_world cl)) = exchange_step (ca_request k) (Changing s) (cl_connection cl) (cl_world cl)) as An.
      { cbn [alone]. cbn [exchange_step]. rewrite Wi. reflexivity. }
      cbn [exchange_step] in An. destruct (draw (cl_world cl)) as [[rnd pad] w1] eqn:D.
      assert (forall j, inv j -> j <> i -> not_asking (ts j)) as Oth.
      { intros j Hj Nj. specialize (A4 j Hj). unfold waiting_to_ask, not_asking in *. assert (~ inside (ts j)) as Nin by (intros X; apply Und in X; congruence).
        unfold inside in Nin. destruct (th_call (ts j)) as [k'|]; [|exact Logic.I]. destruct (ca_position k'); tauto. }
      destruct (encode_request rnd pad (cl_connection cl) (ca_request k)) as [data|x] eqn:En.
      * injection E as <- <- <-. exists (Some (i, ca_request k)), false, cl. split; [|apply after_asked].
        split; [apply members_after; auto|]. cbn [connections transports]. rewrite !update_same. repeat split; auto.
        -- eexists _, 2%nat. split; [reflexivity|]. cbn [ca_request ca_position state_ok]. split; [reflexivity|]. split; [exact Ns|]. exact An.
        -- intros j Hj Nj. rewrite update_other by exact Nj. auto.
      * injection E as <- <- <-. cbn [map app].
        pose proof (big (ca_request k) 2 (cl_password cl) _ _ _ _ _ Is An) as Big.
        assert (mk_client (cl_password cl) (cl_connection cl) (cl_world cl) = cl) as Ecl by (destruct cl; reflexivity). rewrite Ecl in Big.
        exists None, true, (mk_client (cl_password cl) (set_state (cl_connection cl) s) w1). split.
        -- split; [apply members_after; auto|]. cbn [connections transports cl_connection cl_world]. rewrite !update_same. repeat split; auto.
           intros j Hj. unfold update. destruct (Nat.eqb_spec j i) as [->|Nj]; [exact Logic.I|]. specialize (Oth j Hj Nj). unfold not_asking, waiting_to_ask in *. destruct (th_call (ts j)) as [k'|]; [|exact Logic.I]. rewrite Oth. exact Logic.I.
        -- apply (after_returned _ _ _ [(i, Asked (ca_request k)); (i, Answered (ca_request k) (Err x))]).
           apply (after_both _ _ _ [(i, Asked (ca_request k))] _ _ _ [(i, Answered (ca_request k) (Err x))] _ _ _ (after_asked i (ca_request k) cl)).
           apply (after_answered i (ca_request k) (Err x)). exact Big.
Qed.


Lemma run_situation ci wi inv schedule : forall g ts opened broken cl g' ts' h,
  situation ci wi inv g ts opened broken cl -> Forall inv schedule -> undivided g ts schedule ->
  interleave g ts schedule = (g', ts', h) ->
  exists opened' broken' cl', situation ci wi inv g' ts' opened' broken' cl' /\ situation_after opened broken cl h opened' broken' cl'.
Proof.
  induction schedule as [|i schedule IH]; intros g ts opened broken cl g' ts' h Sit F U E.
  - injection E as <- <- <-. exists opened, broken, cl. split; [exact Sit|apply after_nothing].
  - cbn [interleave undivided] in *. destruct U as [Ui U]. inversion F as [|? ? Hi F']; subst.
    destruct (thread_step g (ts i)) as [[g1 t] l] eqn:St. destruct (interleave g1 (update ts i t) schedule) as [[g2 ts2] h2] eqn:Ei. injection E as <- <- <-.
    destruct (step_situation _ _ _ _ _ _ _ _ _ _ _ _ Sit Hi Ui St) as (o1 & b1 & cl1 & Sit1 & A1).
    destruct (IH _ _ _ _ _ _ _ _ Sit1 F' U Ei) as (o2 & b2 & cl2 & Sit2 & A2).
    exists o2, b2, cl2. split; [exact Sit2|]. apply (after_both _ _ _ _ _ _ _ _ _ _ _ A1 A2).
Qed.
Lemma start_sharing ci wi g ts schedule pw : Forall (sharing ci wi ts) schedule -> (forall i, fresh (ts i)) -> elgas_state (connections g ci) = IDLE ->
  situation ci wi (fun i => In i schedule) g ts None false (mk_client pw (connections g ci) (transports g wi)).
Proof.
  intros F Fr I. split; [intros i Hi; eapply Forall_forall in F; [exact F|exact Hi]|]. cbn. repeat split; auto.
  intros i _. unfold waiting_to_ask. rewrite (Fr i). exact Logic.I.
Qed.

Theorem serialised ci wi g ts schedule g' ts' h : Forall (sharing ci wi ts) schedule -> (forall i, fresh (ts i)) -> elgas_state (connections g ci) = IDLE ->
  undivided g ts schedule -> interleave g ts schedule = (g', ts', h) ->
  one_at_a_time None false h /\
  forall pw, exists cl', exchanges (mk_client pw (connections g ci) (transports g wi)) (map fst (served h)) = (map Done (map snd (served h)), cl') /\
    (still_open None h = None -> connections g' ci = cl_connection cl' /\ transports g' wi = cl_world cl').
Proof.
  intros F Fr I U E.
  assert (Forall (fun i => In i schedule) schedule) as Fi by (apply Forall_forall; auto).
  split.
  - destruct (run_situation _ _ _ _ _ _ _ _ _ _ _ _ (start_sharing ci wi g ts schedule [] F Fr I) Fi U E) as (o & b & cl & Sit & A & _).
    specialize (A [] Logic.I). rewrite app_nil_r in A. exact A.
  - intros pw. destruct (run_situation _ _ _ _ _ _ _ _ _ _ _ _ (start_sharing ci wi g ts schedule pw F Fr I) Fi U E) as (o & b & cl & Sit & A & B & rs & C & D).
    specialize (B []). specialize (C []). rewrite app_nil_r in B, C. cbn [served] in C. rewrite app_nil_r in C. rewrite C.
    exists cl. specialize (D [] [] cl eq_refl). rewrite !app_nil_r in D. split; [exact D|]. cbn [still_open] in B. intros So. rewrite So in B. subst o.
    destruct Sit as (_ & Sit). cbn iota in Sit. destruct Sit as (A1 & A2 & _). auto.
Qed.

(** ** The open exchange ends *)
Definition remaining (ci wi : nat) (g : objects) (t : thread) (r : request) (a : res response_pdu) (m : nat) : Prop :=
  exists k c' w', th_call t = Some k /\ ca_request k = r /\ ca_position k <> Looking /\ alone r m (Goes (ca_position k) (connections g ci) (transports g wi)) = Ends a c' w'.

Lemma ends_run ci wi inv i r a schedule : forall g ts broken cl g' ts' h m,
  situation ci wi inv g ts (Some (i, r)) broken cl -> Forall inv schedule -> undivided g ts schedule ->
  remaining ci wi g (ts i) r a m -> (m <= count_occ Nat.eq_dec schedule i)%nat ->
  interleave g ts schedule = (g', ts', h) -> In (i, Answered r a) h.
Proof.
  induction schedule as [|j schedule IH]; intros g ts broken cl g' ts' h m Sit F U Rem Cnt E.
  - cbn in Cnt. assert (m = 0%nat) as -> by lia. destruct Rem as (k & c' & w' & _ & _ & _ & X). discriminate.
  - cbn [interleave undivided] in *. destruct U as [Uj U]. inversion F as [|? ? Hj F']; subst.
    destruct (thread_step g (ts j)) as [[g1 t] l] eqn:St. destruct (interleave g1 (update ts j t) schedule) as [[g2 ts2] h2] eqn:Ei. injection E as <- <- <-.
    destruct (step_situation _ _ _ _ _ _ _ _ _ _ _ _ Sit Hj Uj St) as (o1 & b1 & cl1 & Sit1 & A1).
    destruct Rem as (k & c' & w' & K1 & K2 & K3 & K4). destruct Sit as (M & I0 & B & Sd & (k0 & n0 & K01 & _ & Ok0 & _) & Oth).
    rewrite K1 in K01. injection K01 as <-.
    destruct (M j Hj) as (Mc & Mt & Mo). cbn [count_occ] in Cnt.
    apply in_or_app.
    destruct (Nat.eq_dec j i) as [->|Nj].
    + destruct m as [|m]; [discriminate|]. cbn [alone] in K4.
      unfold thread_step in St. rewrite K1, Mc, Mt in St. unfold call_step in St. rewrite K2 in St.
      destruct (exchange_step r (ca_position k) (connections g ci) (transports g wi)) as [q c w| |[p|x] c w] eqn:X.
      * assert (match ca_position k with Changing _ => [Asked r] | _ => [] end = []) as Na by (destruct (ca_position k); try reflexivity; contradiction).
        rewrite Na in St.
        injection St as <- <- <-. right. cbn [map app] in A1.
        assert (o1 = Some (i, r) /\ b1 = broken) as (-> & ->).
        { destruct A1 as (_ & Bq & _). specialize (Bq []). cbn in Bq. subst o1. split; [reflexivity|]. destruct Sit1 as (_ & _ & -> & _). symmetry. exact B. }
        eapply (IH _ _ _ _ _ _ _ m Sit1 F' U); [|lia|exact Ei].
        rewrite update_same. eexists _, c', w'. split; [reflexivity|]. split; [reflexivity|]. cbn [ca_position connections transports]. rewrite !update_same. split; [|exact K4].
        destruct (ca_position k) as [|s|data| |data| |p s|p]; cbn [exchange_step] in X; cbn [state_ok] in Ok0; try contradiction; try congruence.
        -- destruct (transport_send (transports g wi) data) as [[u|x] w2]; congruence.
        -- destruct (transport_recv (transports g wi)) as [[[d|x]|] w2]; congruence.
        -- destruct (look_at_buffer (connections g ci)) as [[[p s]|]|x]; congruence.
      * rewrite alone_blocks in K4. discriminate.
      * rewrite alone_ends in K4. injection K4 as <- <- <-. left.
        destruct (after_response (ca_operation k) (object_count k) (total_parameter_data k) p); injection St as <- <- <-; left; reflexivity.
      * rewrite alone_ends in K4. injection K4 as <- <- <-. left.
        injection St as <- <- <-. apply in_map. apply in_or_app. left. destruct (ca_position k) as [|s|data| |data| |p s|p]; try (left; reflexivity); [congruence|right; left; reflexivity].
    + right.
      (* another thread changes nothing *)
      assert (o1 = Some (i, r) /\ b1 = broken /\ connections g1 ci = connections g ci /\ transports g1 wi = transports g wi) as (-> & -> & Cg & Wg).
      { assert (still_open (Some (i, r)) (map (pair j) l) = Some (i, r) /\ connections g1 ci = connections g ci /\ transports g1 wi = transports g wi) as (So & Cg & Wg).
        { unfold thread_step in St. rewrite Mc, Mt in St. pose proof (Oth j Hj Nj) as Lk. unfold not_asking in Lk. destruct (th_call (ts j)) as [kj|].
          - unfold call_step in St. rewrite Lk in St. cbn [exchange_step] in St.
            destruct (process_event (elgas_state (connections g ci)) (Request (ca_request kj))); injection St as <- <- <-; cbn [connections transports]; rewrite !update_same; auto.
          - destruct (th_calls (ts j)) as [|o os]; [injection St as <- <- <-; auto|].
            unfold start_step in St. destruct (first_request_some (m_password (th_member (ts j))) o) as [r' Er]; [inversion Mo; assumption|]. rewrite Er in St.
            injection St as <- <- <-. cbn [connections transports]. rewrite update_same. auto. }
        destruct A1 as (_ & Bq & _). specialize (Bq []). rewrite app_nil_r in Bq. cbn in Bq. rewrite So in Bq. subst o1.
        split; [reflexivity|]. split; [|auto]. destruct Sit1 as (_ & _ & -> & _). symmetry. exact B. }
      destruct (Nat.eq_dec j i); [contradiction|].
      eapply (IH _ _ _ _ _ _ _ m Sit1 F' U); [|exact Cnt|exact Ei].
      exists k, c', w'. rewrite update_other by congruence. rewrite Cg, Wg. auto.
Qed.

Theorem served_ends ci wi g ts s1 g1 ts1 h1 i r pw l cl1 a cl2 :
  Forall (sharing ci wi ts) s1 -> (forall i, fresh (ts i)) -> elgas_state (connections g ci) = IDLE ->
  undivided g ts s1 -> interleave g ts s1 = (g1, ts1, h1) -> still_open None h1 = Some (i, r) ->
  exchanges (mk_client pw (connections g ci) (transports g wi)) (map fst (served h1)) = (l, cl1) -> exchange cl1 r = (Done a, cl2) ->
  exists n, forall s2, Forall (sharing ci wi ts) s2 -> undivided g1 ts1 s2 -> (n <= count_occ Nat.eq_dec s2 i)%nat ->
    In (i, Answered r a) (snd (interleave g1 ts1 s2)).
Proof.
  intros F Fr I U E So Ex Ex2.
  assert (situation ci wi (sharing ci wi ts) g ts None false (mk_client pw (connections g ci) (transports g wi))) as S0.
  { split; [auto|]. cbn. repeat split; auto. intros j _. unfold waiting_to_ask. rewrite (Fr j). exact Logic.I. }
  destruct (run_situation _ _ _ _ _ _ _ _ _ _ _ _ S0 F U E) as (o & b & cl & Sit & A & B & rs & C & D).
  specialize (B []). specialize (C []). rewrite app_nil_r in B, C. cbn [served] in C. rewrite app_nil_r in C. cbn [still_open] in B. rewrite So in B. subst o.
  specialize (D [] [] cl eq_refl). rewrite !app_nil_r in D. rewrite <- C, Ex in D. injection D as _ ->.
  pose proof Sit as (M & I0 & Bq & Sd & (k & n0 & K1 & K2 & K3 & K4) & Oth).
  assert (mk_client (cl_password cl) (cl_connection cl) (cl_world cl) = cl) as Ecl by (destruct cl; reflexivity). rewrite <- Ecl in Ex2.
  destruct (small r _ _ _ _ _ Sd Ex2) as [n Hn].
  assert (exists m, n = (n0 + m)%nat) as [m ->].
  { destruct (Nat.le_gt_cases n0 n) as [Le|Gt]; [exists (n - n0)%nat; lia|]. exfalso.
    replace n0 with (n + (n0 - n))%nat in K4 by lia. rewrite alone_plus, Hn, alone_ends in K4. discriminate. }
  rewrite alone_plus, K4 in Hn. exists m. intros s2 F2 U2 Cn.
  destruct (interleave g1 ts1 s2) as [[g2 ts2] h2] eqn:E2. cbn [snd].
  refine (ends_run ci wi _ i r a s2 g1 ts1 b cl g2 ts2 h2 m Sit F2 U2 _ Cn E2).
  exists k, (cl_connection cl2), (cl_world cl2). split; [exact K1|]. split; [exact K2|]. split; [|exact Hn].
  intros X. rewrite X in K3. exact K3.
Qed.

(** ** What a call returns *)
(** the labels of the current call so far *)
Definition call_so_far (m : member) (k : call) (l : list label) : Prop :=
  exists l0, l = l0 ++ (match ca_position k with Looking | Changing _ => [] | _ => [Asked (ca_request k)] end) /\
  match ca_operation k with
  | OpReadParameters from => ca_request k = ReadDeviceParametersRequest (m_password m) (object_count k) 1024 /\
      pages_seen (m_password m) from (object_count k) (total_parameter_data k) l0
  | o => asks (m_password m) o = Some (ca_request k) /\ l0 = []
  end.
Definition thread_so_far (m : member) (ops : list operation) (t : thread) (l : list label) : Prop :=
  th_member t = m /\
  match th_call t with
  | None => exists os css, ops = os ++ th_calls t /\ Forall2 (whole_call (m_password m)) os css /\ l = concat css
  | Some k => exists os css l1, ops = os ++ ca_operation k :: th_calls t /\ Forall2 (whole_call (m_password m)) os css /\ l = concat css ++ l1 /\
                call_so_far m k l1
  end.
Definition prefix_of_calls (pw : str) (ops : list operation) (l : list label) : Prop :=
  exists os rest css more, ops = os ++ rest /\ Forall2 (whole_call pw) os css /\ l ++ more = concat css.

Lemma looking_error c r q w x c' w' : q = Looking -> exchange_step r q c w = Ends (Err x) c' w' -> x = LocalElgasProtocolError.
Proof.
  intros -> H. cbn [exchange_step] in H. destruct (process_event (elgas_state c) (Request r)) as [s|y] eqn:P; [discriminate|]. injection H as <- _ _.
  unfold process_event in P. destruct (transition (elgas_state c) (Request r)); congruence.
Qed.
Lemma position_moves r q c w q' c' w' : exchange_step r q c w = Goes q' c' w' ->
  match q with Looking => exists s, q' = Changing s | Changing _ => exists d, q' = Writing d | _ => match q' with Looking | Changing _ => False | _ => True end end.
Proof.
  intros X. destruct q as [|s|data| |data| |p s|p]; cbn [exchange_step] in X.
  - destruct (process_event (elgas_state c) (Request r)); [|discriminate]. injection X as <- _ _. eauto.
  - destruct (draw w) as [[rnd pad] w1]. destruct (encode_request rnd pad c r); [|discriminate]. injection X as <- _ _. eauto.
  - destruct (transport_send w data) as [[u|x] w2]; [|discriminate]. injection X as <- _ _. exact Logic.I.
  - destruct (transport_recv w) as [[[d|x]|] w2]; try discriminate. injection X as <- _ _. exact Logic.I.
  - injection X as <- _ _. exact Logic.I.
  - destruct (look_at_buffer c) as [[[p s]|]|x]; try discriminate; injection X as <- _ _; exact Logic.I.
  - injection X as <- _ _. exact Logic.I.
  - discriminate.
Qed.
Lemma ok_clearing r q c w p c' w' : exchange_step r q c w = Ends (Ok p) c' w' -> q = Clearing p.
Proof.
  intros X. destruct q as [|s|data| |data| |p' s|p']; cbn [exchange_step] in X.
  - destruct (process_event (elgas_state c) (Request r)); discriminate.
  - destruct (draw w) as [[rnd pad] w1]. destruct (encode_request rnd pad c r); discriminate.
  - destruct (transport_send w data) as [[u|x] w2]; discriminate.
  - destruct (transport_recv w) as [[[d|x]|] w2]; discriminate.
  - discriminate.
  - destruct (look_at_buffer c) as [[[p' s]|]|x]; discriminate.
  - discriminate.
  - congruence.
Qed.

Lemma parse_answers l : exists r, parse None (Some l) = Some r.
Proof. destruct l as [|b l]; [eexists; reflexivity|]. destruct (parse_any_fuel (length (b :: l)) (b :: l)) as [_ H]; [discriminate|lia|exact H]. Qed.

(** a call that ends with a response *)
Lemma call_answered m k l p : call_so_far m k l -> (match ca_position k with Looking | Changing _ => False | _ => True end) ->
  match after_response (ca_operation k) (object_count k) (total_parameter_data k) p with
  | Again n d => call_so_far m (mk_call (ca_operation k) (ReadDeviceParametersRequest (m_password m) n 1024) Looking n d) (l ++ [Answered (ca_request k) (Ok p)])
  | Returns a => whole_call (m_password m) (ca_operation k) (l ++ [Answered (ca_request k) (Ok p); Returned (ca_operation k) a])
  end.
Proof.
  intros (l0 & -> & C) Q. destruct k as [o r q n d]. cbn [ca_operation ca_request ca_position object_count total_parameter_data] in *.
  assert (match q with Looking | Changing _ => [] | _ => [Asked r] end = [Asked r]) as -> by (destruct q; try reflexivity; contradiction).
  destruct o as [| | | |t cry|from|a amount i|a amount t]; cbn [after_response].
  - destruct C as [X _]. discriminate.
  - destruct C as [X _]. discriminate.
  - destruct C as [X ->]. cbn [app]. apply single; [exact X|constructor].
  - destruct C as [X ->]. cbn [app]. destruct p; try (apply other_class; [intros v G; inversion G|cbn in X; congruence]). apply single; [exact X|constructor].
  - destruct C as [X ->]. cbn [app]. apply single; [exact X|constructor].
  - destruct C as [-> P]. destruct p as [| | |d' kk amount is_end| |];
      try (rewrite <- app_assoc; cbn [app]; apply (paged_other_class _ _ n d); [exact P|reflexivity|intros; discriminate]).
    destruct is_end.
    + match goal with |- context[parse None (Some ?x)] => destruct (parse_answers x) as [res Hr]; set (y := parse None (Some x)); assert (y = Some res) as Hy by exact Hr; rewrite Hy; clear y Hy end. rewrite <- app_assoc. cbn [app].
      pose proof (paged (m_password m) from n d l0 d' kk amount _ res P eq_refl Hr) as W. destruct res; exact W.
    + eexists. split; [rewrite <- app_assoc; cbn [ca_position app]; rewrite app_nil_r; reflexivity|]. cbn [ca_operation ca_request object_count total_parameter_data]. split; [reflexivity|].
      cbn [app]. apply next_page; [exact P|reflexivity].
  - destruct C as [X ->]. cbn [app]. apply single; [exact X|constructor].
  - destruct C as [X ->]. cbn [app]. apply single; [exact X|constructor].
Qed.
Lemma call_raised m k l x : call_so_far m k l ->
  whole_call (m_password m) (ca_operation k)
    (l ++ (match ca_position k with Looking => [Refused (ca_request k)] | _ => (match ca_position k with Changing _ => [Asked (ca_request k)] | _ => [] end) ++ [Answered (ca_request k) (Err x)] end)
       ++ [Returned (ca_operation k) (Done (Err (match ca_position k with Looking => LocalElgasProtocolError | _ => x end)))]).
Proof.
  intros (l0 & -> & C). destruct k as [o r q n d]. cbn [ca_operation ca_request ca_position object_count total_parameter_data] in *.
  assert (forall o', asks (m_password m) o' = Some r -> whole_call (m_password m) o' [Refused r; Returned o' (Done (Err LocalElgasProtocolError))]) as W1 by (intros; apply not_accepted; assumption).
  assert (forall o', asks (m_password m) o' = Some r -> whole_call (m_password m) o' [Asked r; Answered r (Err x); Returned o' (Done (Err x))]) as W2 by (intros; apply raised; assumption).
  destruct o as [| | | |t cry|from|a amount i|a amount t];
    try (destruct C as [X ->]; destruct q; cbn [app]; (apply W1 || apply W2); exact X).
  destruct C as [-> P]. rewrite <- app_assoc. destruct q; cbn [app];
    first [apply (paged_not_accepted _ _ n d); [exact P|reflexivity] | apply (paged_raised _ _ n d); [exact P|reflexivity]].
Qed.

Lemma thread_advances g t g' t' l m ops done : thread_so_far m ops t done -> thread_step g t = (g', t', l) -> thread_so_far m ops t' (done ++ l).
Proof.
  intros (Em & H) E. unfold thread_step in E. destruct (th_call t) as [k|] eqn:Ec.
  - destruct H as (os & css & l1 & Eo & W & -> & C). unfold call_step in E. rewrite Em in E.
    destruct (exchange_step (ca_request k) (ca_position k) (connections g (m_connection m)) (transports g (m_transport m))) as [q c w| |[p|x] c w] eqn:X.
    + injection E as <- <- <-. split; [reflexivity|]. cbn [th_call th_calls]. exists os, css. eexists. cbn [ca_operation].
      split; [exact Eo|]. split; [exact W|]. split; [rewrite <- app_assoc; reflexivity|].
      destruct C as (l0 & -> & C). exists l0. cbn [ca_operation ca_request ca_position object_count total_parameter_data]. split; [|exact C].
      pose proof (position_moves _ _ _ _ _ _ _ X) as P. rewrite <- app_assoc. f_equal.
      destruct (ca_position k); try (destruct P as [? ->]; reflexivity); destruct q; try contradiction; reflexivity.
    + injection E as <- <- <-. split; [reflexivity|]. cbn [th_call th_calls]. exists os, css, l1. rewrite app_nil_r. auto.
    + pose proof (ok_clearing _ _ _ _ _ _ _ X) as Q.
      pose proof (call_answered m k l1 p C) as A. rewrite Q in A. specialize (A Logic.I).
      destruct (after_response (ca_operation k) (object_count k) (total_parameter_data k) p) as [n' d'|a].
      * injection E as <- <- <-. split; [reflexivity|]. cbn [th_call th_calls]. exists os, css. eexists. cbn [ca_operation].
        split; [exact Eo|]. split; [exact W|]. split; [rewrite <- app_assoc; reflexivity|exact A].
      * injection E as <- <- <-. split; [reflexivity|]. cbn [th_call th_calls]. exists (os ++ [ca_operation k]), (css ++ [l1 ++ [Answered (ca_request k) (Ok p); Returned (ca_operation k) a]]).
        split; [rewrite <- app_assoc; exact Eo|]. split; [apply Forall2_app; [exact W|constructor; [exact A|constructor]]|].
        rewrite concat_app. cbn [concat]. rewrite app_nil_r, <- app_assoc. reflexivity.
    + pose proof (call_raised m k l1 x C) as A.
      assert (match ca_position k with Looking => LocalElgasProtocolError | _ => x end = x) as Ex.
      { destruct (ca_position k) eqn:Q; try reflexivity. symmetry. eapply looking_error; [reflexivity|exact X]. }
      rewrite Ex in A. injection E as <- <- <-. split; [reflexivity|]. cbn [th_call th_calls].
      eexists (os ++ [ca_operation k]), (css ++ [_]). split; [rewrite <- app_assoc; exact Eo|].
      split; [apply Forall2_app; [exact W|constructor; [exact A|constructor]]|].
      rewrite concat_app. cbn [concat]. rewrite app_nil_r, <- app_assoc. reflexivity.
  - destruct H as (os & css & Eo & W & ->). destruct (th_calls t) as [|o os'] eqn:Et.
    + injection E as <- <- <-. split; [exact Em|]. rewrite Ec. exists os, css. rewrite app_nil_r, Et. auto.
    + unfold start_step in E. rewrite Em in E. destruct (first_request (m_password m) o) as [r|] eqn:Er.
      * injection E as <- <- <-. split; [reflexivity|]. cbn [th_call th_calls]. exists os, css, []. cbn [ca_operation].
        split; [exact Eo|]. split; [exact W|]. split; [reflexivity|]. exists []. split; [reflexivity|].
        cbn [ca_operation ca_request object_count total_parameter_data first_count]. destruct o; cbn in Er; try discriminate; injection Er as <-; cbn; try (split; reflexivity).
        split; [reflexivity|constructor].
      * destruct (transport_control (transports g (m_transport m))) as [a w']. injection E as <- <- <-. split; [reflexivity|]. cbn [th_call th_calls].
        exists (os ++ [o]), (css ++ [[Returned o (Done (match a with Ok _ => Ok RNothing | Err x => Err x end))]]).
        split; [rewrite <- app_assoc; exact Eo|]. split; [|rewrite concat_app; reflexivity].
        apply Forall2_app; [exact W|]. constructor; [|constructor]. apply control. destruct o; cbn in Er; try discriminate; auto.
Qed.
Lemma run_threads schedule : forall g ts g' ts' h i m ops done,
  interleave g ts schedule = (g', ts', h) -> thread_so_far m ops (ts i) done -> thread_so_far m ops (ts' i) (done ++ seen_of i h).
Proof.
  induction schedule as [|j schedule IH]; intros g ts g' ts' h i m ops done E H.
  - injection E as <- <- <-. cbn. rewrite app_nil_r. exact H.
  - cbn [interleave] in E. destruct (thread_step g (ts j)) as [[g1 t] l] eqn:St. destruct (interleave g1 (update ts j t) schedule) as [[g2 ts2] h2] eqn:Ei. injection E as <- <- <-.
    assert (seen_of i (map (pair j) l ++ h2) = (if Nat.eqb j i then l else []) ++ seen_of i h2) as Es.
    { clear. induction l as [|x l IH]; cbn [map app seen_of]; [destruct (Nat.eqb j i); reflexivity|]. rewrite IH. destruct (Nat.eqb j i); reflexivity. }
    rewrite Es, app_assoc. eapply IH; [exact Ei|]. unfold update. rewrite (Nat.eqb_sym i j). destruct (Nat.eqb_spec j i) as [->|N].
    + eapply thread_advances; eauto.
    + rewrite app_nil_r. exact H.
Qed.
Theorem own_answers g ts schedule g' ts' h i : fresh (ts i) -> interleave g ts schedule = (g', ts', h) ->
  exists os rest css more, th_calls (ts i) = os ++ rest /\ Forall2 (whole_call (m_password (th_member (ts i)))) os css /\ seen_of i h ++ more = concat css /\
    (th_call (ts' i) = None -> more = [] /\ th_calls (ts' i) = rest).
Proof.
  intros Fr E. assert (thread_so_far (th_member (ts i)) (th_calls (ts i)) (ts i) []) as H0.
  { split; [reflexivity|]. rewrite Fr. exists [], []. repeat split; constructor. }
  destruct (run_threads _ _ _ _ _ _ _ _ _ _ E H0) as (Em & H). cbn [app] in H. destruct (th_call (ts' i)) as [k|].
  - destruct H as (os & css & l1 & Eo & W & El & C). pose proof (call_raised _ _ _ ValueError C) as A.
    match type of A with whole_call _ _ (l1 ++ ?x) => exists (os ++ [ca_operation k]), (th_calls (ts' i)), (css ++ [l1 ++ x]), x end. split; [rewrite <- app_assoc; exact Eo|].
    split; [apply Forall2_app; [exact W|constructor; [exact A|constructor]]|]. split; [|discriminate].
    rewrite concat_app. cbn [concat]. rewrite app_nil_r, El, <- app_assoc. reflexivity.
  - destruct H as (os & css & Eo & W & El). exists os, (th_calls (ts' i)), css, []. rewrite app_nil_r. auto.
Qed.

(** ** Threads that share nothing *)
Lemma thread_member g t g' t' l : thread_step g t = (g', t', l) -> th_member t' = th_member t.
Proof.
  unfold thread_step. destruct (th_call t) as [k|].
  - destruct (call_step (th_member t) k (connections g (m_connection (th_member t))) (transports g (m_transport (th_member t)))) as [[[k' c'] w'] l0]. intros E. injection E as <- <- <-. reflexivity.
  - destruct (th_calls t) as [|o os]; [intros E; injection E as <- <- <-; reflexivity|].
    destruct (start_step (th_member t) o (transports g (m_transport (th_member t)))) as [[k' w'] l0]. intros E. injection E as <- <- <-. reflexivity.
Qed.
(** an access touches the two objects of the thread only, and depends on nothing else *)
Lemma thread_local g1 g2 t g1' t' l : thread_step g1 t = (g1', t', l) ->
  connections g1 (m_connection (th_member t)) = connections g2 (m_connection (th_member t)) ->
  transports g1 (m_transport (th_member t)) = transports g2 (m_transport (th_member t)) ->
  exists g2', thread_step g2 t = (g2', t', l) /\
    (forall i, connections g1 i = connections g2 i -> connections g1' i = connections g2' i) /\
    (forall i, transports g1 i = transports g2 i -> transports g1' i = transports g2' i).
Proof.
  unfold thread_step. intros E Ec Ew. rewrite <- Ec, <- Ew. destruct (th_call t) as [k|].
  - destruct (call_step (th_member t) k (connections g1 (m_connection (th_member t))) (transports g1 (m_transport (th_member t)))) as [[[k' c'] w'] l0]. injection E as <- <- <-.
    eexists. split; [reflexivity|]. cbn [connections transports]. unfold update. split; intros i Hi; match goal with |- context[Nat.eqb ?a ?b] => destruct (Nat.eqb a b) end; auto.
  - destruct (th_calls t) as [|o os]; [injection E as <- <- <-; exists g2; auto|].
    destruct (start_step (th_member t) o (transports g1 (m_transport (th_member t)))) as [[k' w'] l0]. injection E as <- <- <-.
    eexists. split; [reflexivity|]. cbn [connections transports]. unfold update. split; [auto|]. intros i Hi; match goal with |- context[Nat.eqb ?a ?b] => destruct (Nat.eqb a b) end; auto.
Qed.
Lemma thread_elsewhere g t g' t' l : thread_step g t = (g', t', l) ->
  (forall i, i <> m_connection (th_member t) -> connections g' i = connections g i) /\
  (forall i, i <> m_transport (th_member t) -> transports g' i = transports g i).
Proof.
  unfold thread_step. intros E. destruct (th_call t) as [k|].
  - destruct (call_step (th_member t) k (connections g (m_connection (th_member t))) (transports g (m_transport (th_member t)))) as [[[k' c'] w'] l0]. injection E as <- <- <-.
    cbn [connections transports]. split; intros i Hi; apply update_other; exact Hi.
  - destruct (th_calls t) as [|o os]; [injection E as <- <- <-; auto|].
    destruct (start_step (th_member t) o (transports g (m_transport (th_member t)))) as [[k' w'] l0]. injection E as <- <- <-.
    cbn [connections transports]. split; [auto|]. intros i Hi; apply update_other; exact Hi.
Qed.
Lemma apart_run p (who : nat -> Prop) schedule : forall g1 g2 ts1 ts2 g1' ts1' h,
  Forall who schedule ->
  (forall i j, who i -> who j -> p i = true -> p j = false -> apart (th_member (ts1 i)) (th_member (ts1 j))) ->
  (forall i, p i = true -> ts1 i = ts2 i) ->
  (forall i, who i -> p i = true -> connections g1 (m_connection (th_member (ts1 i))) = connections g2 (m_connection (th_member (ts1 i))) /\
    transports g1 (m_transport (th_member (ts1 i))) = transports g2 (m_transport (th_member (ts1 i)))) ->
  interleave g1 ts1 schedule = (g1', ts1', h) ->
  exists g2' ts2', interleave g2 ts2 (filter p schedule) = (g2', ts2', filter (fun x => p (fst x)) h) /\
    (forall i, p i = true -> ts1' i = ts2' i) /\
    (forall i, who i -> p i = true -> connections g1' (m_connection (th_member (ts1 i))) = connections g2' (m_connection (th_member (ts1 i))) /\
      transports g1' (m_transport (th_member (ts1 i))) = transports g2' (m_transport (th_member (ts1 i)))).
Proof.
  induction schedule as [|i schedule IH]; intros g1 g2 ts1 ts2 g1' ts1' h Fw Ap Et Eg E.
  - injection E as <- <- <-. exists g2, ts2. split; [reflexivity|]. split; [exact Et|]. exact Eg.
  - inversion Fw as [|? ? Wi Fw']; subst. cbn [interleave] in E. destruct (thread_step g1 (ts1 i)) as [[h1 t] l] eqn:St. destruct (interleave h1 (update ts1 i t) schedule) as [[h2 ts2'] hh] eqn:Ei. injection E as <- <- <-.
    pose proof (thread_member _ _ _ _ _ St) as Tm.
    assert (forall j, th_member (update ts1 i t j) = th_member (ts1 j)) as Um by (intros j; unfold update; destruct (Nat.eqb_spec j i) as [->|N]; auto).
    assert (filter (fun x : nat * label => p (fst x)) (map (pair i) l) = if p i then map (pair i) l else []) as Fl.
    { clear. induction l as [|x l IH]; cbn [map filter fst]; [destruct (p i); reflexivity|]. rewrite IH. destruct (p i); reflexivity. }
    rewrite filter_app, Fl. cbn [filter]. destruct (p i) eqn:Pi.
    + destruct (Eg i Wi Pi) as [Ec Ew].
      destruct (thread_local g1 g2 (ts1 i) h1 t l St Ec Ew) as (k2 & St2 & Lc & Lw).
      destruct (IH h1 k2 (update ts1 i t) (update ts2 i t) h2 ts2' hh) as (g2' & ts2'' & E2 & Et2 & Eg2); auto.
      * intros a b Ha Hb Pa Pb. rewrite !Um. apply Ap; assumption.
      * intros j Pj. unfold update. destruct (Nat.eqb j i); auto.
      * intros j Hj Pj. rewrite Um. destruct (Eg j Hj Pj) as [A B]. split; [apply Lc; exact A|apply Lw; exact B].
      * exists g2', ts2''. cbn [interleave]. rewrite <- (Et i Pi), St2, E2. split; [reflexivity|]. split; [exact Et2|].
        intros j Hj Pj. specialize (Eg2 j Hj Pj). rewrite Um in Eg2. exact Eg2.
    + destruct (thread_elsewhere _ _ _ _ _ St) as [Oc Ow].
      destruct (IH h1 g2 (update ts1 i t) ts2 h2 ts2' hh) as (g2' & ts2'' & E2 & Et2 & Eg2); auto.
      * intros a b Ha Hb Pa Pb. rewrite !Um. apply Ap; assumption.
      * intros j Pj. rewrite update_other by congruence. auto.
      * intros j Hj Pj. rewrite Um. destruct (Ap j i Hj Wi Pj Pi) as [N1 N2]. rewrite Oc, Ow by assumption. apply Eg; assumption.
      * exists g2', ts2''. cbn [app]. split; [exact E2|]. split; [exact Et2|]. intros j Hj Pj. specialize (Eg2 j Hj Pj). rewrite Um in Eg2. exact Eg2.
Qed.
Theorem threads_apart p schedule g ts g' ts' h :
  (forall i j, In i schedule -> In j schedule -> p i = true -> p j = false -> apart (th_member (ts i)) (th_member (ts j))) ->
  interleave g ts schedule = (g', ts', h) ->
  exists g2' ts2', interleave g ts (filter p schedule) = (g2', ts2', filter (fun x => p (fst x)) h) /\
    (forall i, p i = true -> ts' i = ts2' i) /\
    (forall i, In i schedule -> p i = true -> connections g' (m_connection (th_member (ts i))) = connections g2' (m_connection (th_member (ts i))) /\
      transports g' (m_transport (th_member (ts i))) = transports g2' (m_transport (th_member (ts i)))).
Proof.
  intros Ap E. apply (apart_run p (fun i => In i schedule) schedule g g ts ts g' ts' h); auto. apply Forall_forall. auto.
Qed.

(** ** A call that is not interrupted *)
Fixpoint call_alone (m : member) (n : nat) (k : option call) (c : connection) (w : world) : option call * connection * world * list label :=
  match n, k with
  | S n', Some k => let '(k', c', w', l) := call_step m k c w in
                    let '(k2, c2, w2, l2) := call_alone m n' k' c' w' in (k2, c2, w2, l ++ l2)
  | _, _ => (k, c, w, [])
  end.
Lemma call_alone_none m n c w : call_alone m n None c w = (None, c, w, []).
Proof. destruct n; reflexivity. Qed.
Lemma call_alone_plus m n1 n2 k c w : call_alone m (n1 + n2) k c w =
  let '(k1, c1, w1, l1) := call_alone m n1 k c w in let '(k2, c2, w2, l2) := call_alone m n2 k1 c1 w1 in (k2, c2, w2, l1 ++ l2).
Proof.
  revert k c w. induction n1 as [|n1 IH]; intros k c w.
  - cbn [Nat.add call_alone]. destruct (call_alone m n2 k c w) as [[[? ?] ?] ?]. reflexivity.
  - destruct k as [k|]; [|cbn [Nat.add call_alone]; rewrite call_alone_none; reflexivity].
    cbn [Nat.add call_alone]. destruct (call_step m k c w) as [[[k1 c1] w1] l1]. rewrite IH.
    destruct (call_alone m n1 k1 c1 w1) as [[[k2 c2] w2] l2]. destruct (call_alone m n2 k2 c2 w2) as [[[k3 c3] w3] l3]. rewrite app_assoc. reflexivity.
Qed.
Lemma alone_state r n : forall q c w a c' w', state_ok q c -> alone r n (Goes q c w) = Ends a c' w' -> if failed a then elgas_state c' <> IDLE else elgas_state c' = IDLE.
Proof.
  induction n as [|n IH]; intros q c w a c' w' S H; [discriminate|]. cbn [alone] in H.
  destruct (exchange_step r q c w) as [q1 c1 w1| |a1 c1 w1] eqn:X.
  - eapply IH; [eapply state_steps; eauto|exact H].
  - rewrite alone_blocks in H. discriminate.
  - rewrite alone_ends in H. injection H as <- <- <-. eapply state_ends; eauto.
Qed.
Lemma alone_idle r n c w p c' w' : elgas_state c = IDLE -> alone r n (Goes Looking c w) = Ends (Ok p) c' w' -> elgas_state c' = IDLE.
Proof.
  intros I H. destruct n as [|n]; [discriminate|]. cbn [alone exchange_step] in H. rewrite I in H.
  destruct (process_event IDLE (Request r)) as [s|x] eqn:P; [|rewrite alone_ends in H; discriminate].
  apply request_accepted in P as [_ Ns]. destruct n as [|n]; [discriminate|]. cbn [alone exchange_step] in H.
  destruct (draw w) as [[rnd pad] w1]. destruct (encode_request rnd pad c r) as [data|x]; [|rewrite alone_ends in H; discriminate].
  refine (alone_state r n _ _ _ _ _ _ _ H). exact Ns.
Qed.
Lemma call_exchange m o r cnt d n : forall q c w a c' w', alone r n (Goes q c w) = Ends a c' w' ->
  exists n' l, call_alone m n' (Some (mk_call o r q cnt d)) c w =
    match a with
    | Err x => (None, c', w', l ++ [Returned o (Done (Err x))])
    | Ok p => match after_response o cnt d p with
              | Again n2 d2 => (Some (mk_call o (ReadDeviceParametersRequest (m_password m) n2 1024) Looking n2 d2), c', w', l)
              | Returns x => (None, c', w', l ++ [Returned o x])
              end
    end.
Proof.
  induction n as [|n IH]; intros q c w a c' w' H; [discriminate|]. cbn [alone] in H.
  destruct (exchange_step r q c w) as [q1 c1 w1| |a1 c1 w1] eqn:X.
  - destruct (IH _ _ _ _ _ _ H) as (n' & l & E). exists (S n'). eexists (_ ++ l). cbn [call_alone]. unfold call_step. cbn [ca_operation ca_request ca_position object_count total_parameter_data].
    rewrite X, E. destruct a as [p|x]; [destruct (after_response o cnt d p)|]; rewrite ?app_assoc; reflexivity.
  - rewrite alone_blocks in H. discriminate.
  - rewrite alone_ends in H. injection H as -> -> ->. exists 1%nat. cbn [call_alone]. unfold call_step. cbn [ca_operation ca_request ca_position object_count total_parameter_data].
    rewrite X. destruct a as [p|x].
    + destruct (after_response o cnt d p); [exists [Answered r (Ok p)]; reflexivity|]. exists [Answered r (Ok p)]. reflexivity.
    + eexists. rewrite app_nil_r. reflexivity.
Qed.
Lemma call_single m o r c w a cl' f : elgas_state c = IDLE ->
  (forall p, after_response o 0 [] p = Returns (Done (f p))) ->
  exchange (mk_client (m_password m) c w) r = (Done a, cl') ->
  exists n l, call_alone m n (Some (mk_call o r Looking 0 [])) c w =
    (None, cl_connection cl', cl_world cl', l ++ [Returned o (Done (match a with Ok p => f p | Err x => Err x end))]).
Proof.
  intros I F E. destruct (small r _ _ _ _ _ I E) as [n Hn]. destruct (call_exchange m o r 0 [] n _ _ _ _ _ _ Hn) as (n' & l & H). exists n', l. rewrite H.
  destruct a as [p|x]; [rewrite F|]; reflexivity.
Qed.
Lemma call_pages m from fuel : forall c w cnt d a cl', elgas_state c = IDLE ->
  read_parameters_loop fuel (mk_client (m_password m) c w) cnt d = (Done a, cl') ->
  exists n l, call_alone m n (Some (mk_call (OpReadParameters from) (ReadDeviceParametersRequest (m_password m) cnt 1024) Looking cnt d)) c w =
    (None, cl_connection cl', cl_world cl', l ++ [Returned (OpReadParameters from) (Done (match a with Ok x => Ok (RObjects x) | Err x => Err x end))]).
Proof.
  induction fuel as [|fuel IH]; intros c w cnt d a cl' I H; [discriminate|]. cbn [read_parameters_loop cl_password] in H.
  destruct (exchange (mk_client (m_password m) c w) (ReadDeviceParametersRequest (m_password m) cnt 1024)) as [[b|] cl1] eqn:E; [|discriminate].
  destruct (small _ _ _ _ _ _ I E) as [n Hn].
  destruct (call_exchange m (OpReadParameters from) _ cnt d n _ _ _ _ _ _ Hn) as (n' & l & C).
  destruct b as [p|x].
  - pose proof (big _ _ (m_password m) _ _ _ _ _ I Hn) as B2. rewrite E in B2. injection B2 as Ecl.
    destruct p as [| | |d' kk amount is_end| |]; try (injection H as <- <-; exists n', l; exact C).
    destruct is_end; cbn [after_response] in C.
    + injection H as Ha <-. exists n', l. rewrite C. clear - Ha. change (@app Z d d') with (d ++ d') in *. destruct (parse None (Some (d ++ d'))) as [r|]; [|discriminate].
      injection Ha as ->. destruct a; reflexivity.
    + pose proof (alone_idle _ _ _ _ _ _ _ I Hn) as I1. rewrite Ecl in H.
      destruct (IH _ _ _ _ _ _ I1 H) as (n2 & l2 & C2). exists (n' + n2)%nat, (l ++ l2). rewrite call_alone_plus, C, C2, app_assoc. reflexivity.
  - injection H as <- <-. exists n', l. exact C.
Qed.
Lemma call_operates m o c w r a cl' : elgas_state c = IDLE -> first_request (m_password m) o = Some r ->
  operate (mk_client (m_password m) c w) o = (Done a, cl') ->
  exists n l, call_alone m n (Some (mk_call o r Looking (first_count o) [])) c w = (None, cl_connection cl', cl_world cl', l ++ [Returned o (Done a)]).
Proof.
  intros I F H. destruct o as [| | | |t cry|from|ar amount i|ar amount t]; cbn [first_request] in F; try discriminate; injection F as <-; cbn [first_count operate] in *.
  - unfold client_read_instantaneous_values in H. cbn [cl_password] in H. destruct (exchange (mk_client (m_password m) c w) (ReadInstantaneousValuesRequest (m_password m))) as [[b|] cl1] eqn:E; [|discriminate].
    destruct (call_single m OpReadValues _ c w b cl1 (fun p => Ok (RPdu p)) I (fun _ => eq_refl) E) as (n & l & C). exists n, l. destruct b; cbn [answer_map] in H; injection H as <- <-; exact C.
  - unfold client_read_time in H. destruct (exchange (mk_client (m_password m) c w) ReadTimeRequest) as [[b|] cl1] eqn:E; [|discriminate].
    destruct (call_single m OpReadTime _ c w b cl1 (fun p => match p with ReadTimeResponse time _ _ _ _ => Ok (RTime time) | _ => Err AttributeError end) I (fun _ => eq_refl) E) as (n & l & C).
    exists n, l. destruct b as [[]|]; cbn [answer_map] in H; injection H as <- <-; exact C.
  - unfold client_write_time in H. cbn [cl_password] in H. destruct (exchange (mk_client (m_password m) c w) (WriteTimeRequest (m_password m) t cry)) as [[b|] cl1] eqn:E; [|discriminate].
    destruct (call_single m (OpWriteTime t cry) _ c w b cl1 (fun p => Ok RNothing) I (fun _ => eq_refl) E) as (n & l & C). exists n, l. destruct b; cbn [answer_map] in H; injection H as <- <-; exact C.
  - unfold client_read_parameters in H. destruct (read_parameters_loop (S (length (rx (cl_world (mk_client (m_password m) c w))))) (mk_client (m_password m) c w) from []) as [[b|] cl1] eqn:E; [|discriminate].
    destruct (call_pages m from _ _ _ _ _ _ _ I E) as (n & l & C). exists n, l. destruct b; cbn [answer_map] in H; injection H as <- <-; exact C.
  - unfold client_read_archive in H. cbn [cl_password] in H. destruct (exchange (mk_client (m_password m) c w) (ReadArchiveRequest (m_password m) ar amount i)) as [[b|] cl1] eqn:E; [|discriminate].
    destruct (call_single m (OpReadArchive ar amount i) _ c w b cl1 (fun p => Ok (RPdu p)) I (fun _ => eq_refl) E) as (n & l & C). exists n, l. destruct b; cbn [answer_map] in H; injection H as <- <-; exact C.
  - unfold client_read_archive_by_time in H. cbn [cl_password] in H. destruct (exchange (mk_client (m_password m) c w) (ReadArchiveByTimeRequest (m_password m) ar amount t)) as [[b|] cl1] eqn:E; [|discriminate].
    destruct (call_single m (OpReadArchiveByTime ar amount t) _ c w b cl1 (fun p => Ok (RPdu p)) I (fun _ => eq_refl) E) as (n & l & C). exists n, l. destruct b; cbn [answer_map] in H; injection H as <- <-; exact C.
Qed.
(** the thread makes all the accesses *)
Lemma call_interleaved n : forall g ts i k c' w' l, th_call (ts i) = Some k ->
  call_alone (th_member (ts i)) n (Some k) (connections g (m_connection (th_member (ts i)))) (transports g (m_transport (th_member (ts i)))) = (None, c', w', l) ->
  exists n' g' ts', interleave g ts (repeat i n') = (g', ts', map (pair i) l) /\ th_call (ts' i) = None /\ th_calls (ts' i) = th_calls (ts i) /\
    (forall j, connections g' j = update (connections g) (m_connection (th_member (ts i))) c' j) /\
    (forall j, transports g' j = update (transports g) (m_transport (th_member (ts i))) w' j).
Proof.
  induction n as [|n IH]; intros g ts i k c' w' l Ek H; [discriminate|]. cbn [call_alone] in H.
  destruct (call_step (th_member (ts i)) k (connections g (m_connection (th_member (ts i)))) (transports g (m_transport (th_member (ts i))))) as [[[k1 c1] w1] l1] eqn:Sc.
  set (g1 := mk_objects (update (connections g) (m_connection (th_member (ts i))) c1) (update (transports g) (m_transport (th_member (ts i))) w1)).
  set (t1 := mk_thread (th_member (ts i)) (th_calls (ts i)) k1).
  assert (thread_step g (ts i) = (g1, t1, l1)) as St by (unfold thread_step; rewrite Ek, Sc; reflexivity).
  destruct k1 as [k1|].
  - destruct (call_alone (th_member (ts i)) n (Some k1) c1 w1) as [[[k2 c2] w2] l2] eqn:A. injection H as -> -> -> <-.
    destruct (IH g1 (update ts i t1) i k1 c' w' l2) as (n' & g' & ts' & E & N & Cs & Gc & Gw).
    + rewrite update_same. reflexivity.
    + rewrite update_same. unfold t1, g1. cbn [th_member connections transports]. rewrite !update_same. exact A.
    + exists (S n'), g', ts'. cbn [repeat interleave]. rewrite St, E, map_app. split; [reflexivity|]. rewrite update_same in *. unfold t1, g1 in *. cbn [th_member th_calls connections transports] in *.
      split; [exact N|]. split; [exact Cs|]. split; intros j; [rewrite Gc|rewrite Gw]; unfold update; destruct (Nat.eqb j _); reflexivity.
  - rewrite call_alone_none in H. injection H as <- <- <-. exists 1%nat, g1, (update ts i t1). cbn [repeat interleave]. rewrite St, update_same. rewrite !app_nil_r. auto.
Qed.
Theorem uninterrupted g ts i o os a g2 : th_call (ts i) = None -> th_calls (ts i) = o :: os ->
  elgas_state (connections g (m_connection (th_member (ts i)))) = IDLE ->
  member_operate g (th_member (ts i)) o = (Done a, g2) ->
  exists n g' ts' h, interleave g ts (repeat i n) = (g', ts', h ++ [(i, Returned o (Done a))]) /\
    th_call (ts' i) = None /\ th_calls (ts' i) = os /\
    (forall j, connections g' j = connections g2 j) /\ (forall j, transports g' j = transports g2 j).
Proof.
  intros N Cs I H. unfold member_operate in H. destruct (operate (member_client g (th_member (ts i))) o) as [b cl'] eqn:O. injection H as -> <-.
  destruct (first_request (m_password (th_member (ts i))) o) as [r|] eqn:F.
  - unfold member_client in O. destruct (call_operates _ _ _ _ _ _ _ I F O) as (n & l & C).
    set (t1 := mk_thread (th_member (ts i)) os (Some (mk_call o r Looking (first_count o) []))).
    set (g1 := mk_objects (connections g) (update (transports g) (m_transport (th_member (ts i))) (transports g (m_transport (th_member (ts i)))))).
    assert (thread_step g (ts i) = (g1, t1, [])) as St by (unfold thread_step, start_step; rewrite N, Cs, F; reflexivity).
    destruct (call_interleaved n g1 (update ts i t1) i (mk_call o r Looking (first_count o) []) (cl_connection cl') (cl_world cl') (l ++ [Returned o (Done a)])) as (n' & g' & ts' & E & N' & Cs' & Gc & Gw).
    + rewrite update_same. reflexivity.
    + rewrite update_same. unfold g1, t1. cbn [th_member connections transports]. rewrite update_same. exact C.
    + exists (S n'), g', ts', (map (pair i) l). cbn [repeat interleave]. rewrite St, E, map_app. split; [reflexivity|]. rewrite update_same in *. unfold t1, g1 in *. cbn [th_member th_calls connections transports] in *.
      split; [exact N'|]. split; [exact Cs'|]. split; [exact Gc|]. intros j. rewrite Gw. unfold update. destruct (Nat.eqb j _); reflexivity.
  - exists 1%nat. cbn [repeat interleave]. unfold thread_step, start_step. rewrite N, Cs, F. destruct o; cbn in F; try discriminate; cbn [operate] in O; unfold client_connect, client_disconnect, member_client in O; cbn [cl_world] in O;
      destruct (transport_control (transports g (m_transport (th_member (ts i))))) as [[u|x] w']; injection O as <- <-; cbn [set_world cl_connection cl_world cl_password];
      eexists _, _, []; cbn [map app]; (split; [reflexivity|]); rewrite update_same; cbn [th_call th_calls connections transports]; repeat split; intros j; unfold update; destruct (Nat.eqb_spec j (m_connection (th_member (ts i)))); congruence.
Qed.

(** ** A device that answers *)
Lemma password_irrelevant pw1 pw2 c w r a cl1 : exchange (mk_client pw1 c w) r = (a, cl1) ->
  exchange (mk_client pw2 c w) r = (a, mk_client pw2 (cl_connection cl1) (cl_world cl1)).
Proof.
  unfold exchange. cbn [client_send]. unfold client_send_one. cbn [cl_world]. destruct (draw w) as [[rnd pad] w1]. cbn [cl_connection set_world].
  destruct (send rnd pad c (Request r)) as [[data|x] c1]; [|intros H; injection H as <- <-; reflexivity].
  cbn [set_connection set_world cl_world cl_connection cl_password]. destruct (transport_send w1 data) as [[u|x] w2]; [|intros H; injection H as <- <-; reflexivity].
  destruct (transport_recv w2) as [[[d|x]|] w3]; try (intros H; injection H as <- <-; reflexivity).
  unfold client_next_event. cbn [cl_world cl_connection cl_password]. destruct (next_event_loop (rx w3) (receive_data c1 d)) as [[b c2] l]. intros H. injection H as <- <-. reflexivity.
Qed.
Lemma exchanges_answered pw c rs : forall w answers rest, usable c w -> Forall2 (answers_request (context c)) rs answers ->
  rx w = concat (map snd answers) ++ rest ->
  exists ts w', exchanges (mk_client pw c w) rs = (map Done (map Ok (map fst answers)), mk_client pw c w') /\
    Forall2 (line_from c) rs ts /\ rx w' = rest /\ sent w' = sent w ++ ts /\ tx w' = [].
Proof.
  induction rs as [|r rs IH]; intros w answers rest U F R; inversion F as [|? [p results] ? answers' (En & Pw & De) F']; subst.
  - exists [], w. cbn in *. rewrite app_nil_r. destruct U as (? & ? & ? & ? & ?). auto.
  - cbn [map concat fst snd] in *. rewrite <- app_assoc in R.
    set (pw1 := match request_password r with Some q => q | None => [] end).
    destruct U as (Ua & Uc & Us & Ub & Ut).
    assert (at_rest (context c) (mk_client pw1 c w)) as At.
    { repeat split; auto; cbn [cl_connection cl_password cl_world]; try apply Ua. unfold pw1. destruct (request_password r) as [q|] eqn:Eq; [apply Pw; reflexivity|]. unfold len. cbn. lia. }
    destruct (exchange_ok (context c) (mk_client pw1 c w) r p results (concat (map snd answers') ++ rest) At En) as (t & E & L); auto.
    { intros q Hq. unfold pw1. cbn. rewrite Hq. reflexivity. }
    apply (password_irrelevant pw1 pw) in E. cbn [after cl_connection cl_world cl_password] in E, L.
    match type of E with _ = (_, mk_client pw c ?x) => set (w1 := x) in * end.
    destruct (IH w1 answers' rest) as (ts & w' & E' & Fl & R' & S' & T'); auto.
    { repeat split; auto; apply Ua. }
    exists (t :: ts), w'. cbn [exchanges]. rewrite E, E'. split; [reflexivity|]. split; [constructor; assumption|]. split; [exact R'|]. split; [|exact T'].
    rewrite S'. unfold w1. cbn [sent]. rewrite <- app_assoc. reflexivity.
Qed.
Theorem answered_in_order ci wi g ts schedule g' ts' h answers rest : Forall (sharing ci wi ts) schedule -> (forall i, fresh (ts i)) ->
  usable (connections g ci) (transports g wi) -> undivided g ts schedule -> interleave g ts schedule = (g', ts', h) ->
  Forall2 (answers_request (context (connections g ci))) (map fst (served h)) answers -> rx (transports g wi) = concat (map snd answers) ++ rest ->
  map snd (served h) = map Ok (map fst answers) /\
  (still_open None h = None -> connections g' ci = connections g ci /\ rx (transports g' wi) = rest /\
     exists lines, sent (transports g' wi) = sent (transports g wi) ++ lines /\ Forall2 (request_from (connections g ci)) (map fst (served h)) lines).
Proof.
  intros F Fr U Un E An R. destruct (serialised ci wi g ts schedule g' ts' h F Fr (proj1 (proj2 (proj2 U))) Un E) as (_ & S). destruct (S []) as (cl' & Ex & Op).
  destruct (exchanges_answered [] _ _ _ _ _ U An R) as (lines & w' & Ex' & Fl & R' & S' & _). rewrite Ex in Ex'. injection Ex' as Ea Ecl. subst cl'.
  split.
  - clear - Ea. revert Ea. generalize (map snd (served h)) (map fst answers). intros l. induction l as [|x l IH]; intros [|y l'] H; try discriminate; [reflexivity|].
    cbn in *. injection H as -> H. rewrite (IH _ H). reflexivity.
  - intros So. destruct (Op So) as [-> ->]. cbn [cl_connection cl_world]. split; [reflexivity|]. split; [exact R'|]. exists lines. auto.
Qed.

(** ** What goes wrong when the methods of the connection are interrupted *)

Lemma step_start g t o os r : th_call t = None -> th_calls t = o :: os -> first_request (m_password (th_member t)) o = Some r ->
  exists g', thread_step g t = (g', mk_thread (th_member t) os (Some (mk_call o r Looking (first_count o) [])), []) /\ connections g' = connections g.
Proof. intros N E F. unfold thread_step, start_step. rewrite N, E, F. eexists. split; reflexivity. Qed.
Lemma step_look g t o r cnt d ci : th_call t = Some (mk_call o r Looking cnt d) -> m_connection (th_member t) = ci -> elgas_state (connections g ci) = IDLE ->
  exists g' s, thread_step g t = (g', mk_thread (th_member t) (th_calls t) (Some (mk_call o r (Changing s) cnt d)), []) /\ elgas_state (connections g' ci) = IDLE.
Proof.
  intros N E I. unfold thread_step, call_step. rewrite N, E. cbn [ca_operation ca_request ca_position exchange_step object_count total_parameter_data]. rewrite I, idle_process.
  eexists _, _. split; [reflexivity|]. cbn [connections]. rewrite update_same. exact I.
Qed.
Lemma step_change g t o r s cnt d : th_call t = Some (mk_call o r (Changing s) cnt d) ->
  exists g' t' l, thread_step g t = (g', t', Asked r :: l) /\ (l = [] \/ exists x, l = [Answered r (Err x); Returned o (Done (Err x))]).
Proof.
  intros N. unfold thread_step, call_step. rewrite N. cbn [ca_operation ca_request ca_position exchange_step object_count total_parameter_data].
  destruct (draw (transports g (m_transport (th_member t)))) as [[rnd pad] w1]. destruct (encode_request rnd pad (connections g (m_connection (th_member t))) r) as [data|x].
  - eexists _, _, []. split; [reflexivity|]. left. reflexivity.
  - eexists _, _, _. split; [reflexivity|]. right. exists x. reflexivity.
Qed.
Theorem both_accepted g ts i j o1 o2 r1 r2 os1 os2 ci : i <> j -> fresh (ts i) -> fresh (ts j) ->
  m_connection (th_member (ts i)) = ci -> m_connection (th_member (ts j)) = ci -> elgas_state (connections g ci) = IDLE ->
  th_calls (ts i) = o1 :: os1 -> th_calls (ts j) = o2 :: os2 ->
  first_request (m_password (th_member (ts i))) o1 = Some r1 -> first_request (m_password (th_member (ts j))) o2 = Some r2 ->
  let h := snd (interleave g ts [i; j; i; j; i; j]) in In (i, Asked r1) h /\ In (j, Asked r2) h /\ ~ one_at_a_time None false h.
Proof.
  intros N F1 F2 C1 C2 I E1 E2 R1 R2. cbv zeta.
  destruct (step_start g (ts i) o1 os1 r1 F1 E1 R1) as (g1 & S1 & G1). set (ti := mk_thread (th_member (ts i)) os1 (Some (mk_call o1 r1 Looking (first_count o1) []))) in *.
  destruct (step_start g1 (ts j) o2 os2 r2 F2 E2 R2) as (g2 & S2 & G2). set (tj := mk_thread (th_member (ts j)) os2 (Some (mk_call o2 r2 Looking (first_count o2) []))) in *.
  destruct (step_look g2 ti o1 r1 (first_count o1) [] ci eq_refl C1) as (g3 & s3 & S3 & G3); [rewrite G2, G1; exact I|].
  destruct (step_look g3 tj o2 r2 (first_count o2) [] ci eq_refl C2 G3) as (g4 & s4 & S4 & G4).
  match type of S3 with _ = (_, ?x, _) => set (ti2 := x) in * end. match type of S4 with _ = (_, ?x, _) => set (tj2 := x) in * end.
  destruct (step_change g4 ti2 o1 r1 s3 (first_count o1) [] eq_refl) as (g5 & t5 & l5 & S5 & L5).
  destruct (step_change g5 tj2 o2 r2 s4 (first_count o2) [] eq_refl) as (g6 & t6 & l6 & S6 & L6).
  assert (snd (interleave g ts [i; j; i; j; i; j]) = map (pair i) (Asked r1 :: l5) ++ map (pair j) (Asked r2 :: l6)) as ->.
  { cbn [interleave]. rewrite S1. rewrite (update_other ts i ti j) by congruence. rewrite S2.
    rewrite (update_other _ j tj i), (update_same ts i ti) by congruence. rewrite S3.
    rewrite (update_other _ i ti2 j), (update_same _ j tj) by congruence. rewrite S4.
    rewrite (update_other _ j tj2 i), (update_same _ i ti2) by congruence. rewrite S5.
    rewrite (update_other _ i t5 j), (update_same _ j tj2) by congruence. rewrite S6. cbn [snd]. rewrite !app_nil_r. reflexivity. }
  split; [left; reflexivity|]. split; [apply in_or_app; right; left; reflexivity|].
  destruct L5 as [->|[x ->]]; cbn; intros (_ & _ & X); [destruct X as [X _]; discriminate|]. destruct X as (_ & _ & X & _). discriminate.
Qed.

(** a thread in recv with nothing to come, when the others have finished *)
Definition stuck (g : objects) (ts : nat -> thread) (i wi : nat) (r : request) : Prop :=
  (exists o cnt d, th_call (ts i) = Some (mk_call o r Reading cnt d)) /\ m_transport (th_member (ts i)) = wi /\ rx (transports g wi) = [] /\
  forall j, j <> i -> th_call (ts j) = None /\ th_calls (ts j) = [].
Lemma stuck_forever i wi r schedule : forall g ts, stuck g ts i wi r -> snd (interleave g ts schedule) = [].
Proof.
  induction schedule as [|j schedule IH]; intros g ts S; [reflexivity|]. cbn [interleave].
  assert (exists g1 t, thread_step g (ts j) = (g1, t, []) /\ stuck g1 (update ts j t) i wi r) as (g1 & t & E & S1).
  { destruct S as ((o & cnt & d & K) & M & R & O). destruct (Nat.eq_dec j i) as [->|N].
    - unfold thread_step, call_step. rewrite K. cbn [ca_operation ca_request ca_position exchange_step object_count total_parameter_data]. unfold transport_recv. rewrite M, R.
      eexists _, _. split; [reflexivity|]. split; [exists o, cnt, d; rewrite update_same; reflexivity|]. rewrite update_same. cbn [th_member transports]. split; [exact M|]. split; [rewrite update_same; exact R|].
      intros j Hj. rewrite update_other by exact Hj. auto.
    - destruct (O j N) as [O1 O2]. unfold thread_step. rewrite O1, O2. exists g, (ts j). split; [reflexivity|].
      assert (forall k, update ts j (ts j) k = ts k) as U by (intros k; unfold update; destruct (Nat.eqb_spec k j); congruence).
      split; [exists o, cnt, d; rewrite U; exact K|]. rewrite U. repeat split; auto; rewrite U; apply O; assumption. }
  rewrite E. specialize (IH g1 (update ts j t) S1). destruct (interleave g1 (update ts j t) schedule) as [[g2 ts2] h]. cbn [snd map app] in *. exact IH.
Qed.

(** *** running a schedule in two parts, and deciding [undivided] for finitely many threads *)
Lemma interleave_app s1 s2 : forall g ts, interleave g ts (s1 ++ s2) =
  let '(g1, ts1, h1) := interleave g ts s1 in let '(g2, ts2, h2) := interleave g1 ts1 s2 in (g2, ts2, h1 ++ h2).
Proof.
  induction s1 as [|i s1 IH]; intros g ts; cbn [interleave app].
  - destruct (interleave g ts s2) as [[g2 ts2] h2]. reflexivity.
  - destruct (thread_step g (ts i)) as [[g1 t] l]. rewrite IH. destruct (interleave g1 (update ts i t) s1) as [[g2 ts2] h].
    destruct (interleave g2 ts2 s2) as [[g3 ts3] h3]. rewrite app_assoc. reflexivity.
Qed.
Definition insideb (t : thread) : bool :=
  match th_call t with
  | Some k => match ca_position k with Changing _ | Closing _ _ | Clearing _ => true | _ => false end
  | None => false
  end.
Fixpoint undividedb (n : nat) (g : objects) (ts : nat -> thread) (schedule : list nat) : bool :=
  match schedule with
  | [] => true
  | i :: schedule' =>
      (Nat.ltb i n && forallb (fun j => negb (insideb (ts j)) || Nat.eqb j i) (seq 0 n))%bool &&
      let '(g1, t, _) := thread_step g (ts i) in undividedb n g1 (update ts i t) schedule'
  end.
Lemma undividedb_ok n schedule : forall g ts, (forall j, (n <= j)%nat -> fresh (ts j)) -> undividedb n g ts schedule = true -> undivided g ts schedule.
Proof.
  induction schedule as [|i schedule IH]; intros g ts F H; [exact I|]. cbn [undividedb undivided] in *.
  apply andb_prop in H as [H1 H2]. apply andb_prop in H1 as [L A]. apply Nat.ltb_lt in L. split.
  - intros j Hj. destruct (Nat.lt_ge_cases j n) as [Lj|Gj].
    + rewrite forallb_forall in A. specialize (A j). rewrite in_seq in A. specialize (A ltac:(lia)). apply orb_prop in A as [A|A]; [|apply Nat.eqb_eq; exact A].
      apply negb_true_iff in A. unfold inside, insideb in *. destruct (th_call (ts j)) as [k|]; [|destruct Hj]. destruct (ca_position k); try destruct Hj; discriminate.
    + specialize (F j Gj). unfold fresh, inside in *. rewrite F in Hj. destruct Hj.
  - destruct (thread_step g (ts i)) as [[g1 t] l]. apply IH; [|exact H2]. intros j Gj. rewrite update_other by lia. auto.
Qed.
