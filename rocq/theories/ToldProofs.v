(** Proofs about what the log tells. *)
From Coq Require Import Lia String.
From Verif Require Import PyFacts UtilsProofs SpecUtils SpecFrames SpecSecurity SecurityProofs SpecConnection SpecApplication SpecPdu SpecText ApplicationProofs.
From Verif Require Import Connection ConnectionProofs ParamLang Parameters Client SpecClient ClientProofs.
From Verif Require Import Transport SpecTransport TransportProofs SpecStack StackProofs Stack SpecSession SessionProofs.
From Verif Require Import Secret Log SpecLog LogProofs SpecTold.
Open Scope string_scope.
Open Scope list_scope.
Open Scope Z_scope.

Section Proofs.
Variable sh : log_shown.

(** ** filters *)
Lemma filter_none {A} (f : A -> bool) l : Forall (fun x => f x = false) l -> filter f l = [].
Proof. induction 1 as [|x l H _ IH]; [reflexivity|]. cbn. rewrite H. exact IH. Qed.
Lemma data_app a b : data_entries (a ++ b) = data_entries a ++ data_entries b. Proof. apply filter_app. Qed.
Lemma state_app a b : state_entries (a ++ b) = state_entries a ++ state_entries b. Proof. apply filter_app. Qed.
Lemma control_app a b : control_entries (a ++ b) = control_entries a ++ control_entries b. Proof. apply filter_app. Qed.
Lemma call_app a b : call_entries (a ++ b) = call_entries a ++ call_entries b. Proof. apply filter_app. Qed.
(** entries that none of the filters keeps *)
Definition silent (e : entry) : Prop :=
  data_entries [e] = [] /\ state_entries [e] = [] /\ control_entries [e] = [] /\ call_entries [e] = [].
Lemma silent_all l : Forall silent l -> data_entries l = [] /\ state_entries l = [] /\ control_entries l = [] /\ call_entries l = [].
Proof.
  induction 1 as [|e l (A & B & C & D) _ (IA & IB & IC & ID)]; [repeat split|].
  change (e :: l) with ([e] ++ l). rewrite data_app, state_app, control_app, call_app, A, B, C, D, IA, IB, IC, ID. repeat split.
Qed.

(** ** the parts *)
Lemma interpret_silent ctx data : Forall silent (interpret_log sh ctx data).
Proof.
  unfold interpret_log.
  assert (forall m v, In m ["Received ELGAS response"; "Decrypted ELGAS response"; "Cannot interpret data as frame. Need more data"] ->
    silent (mk_entry Debug (text m) v)) as Q.
  { intros m v H. cbn [In] in H. destruct H as [ <- |[ <- |[ <- |[]]]]; repeat split. }
  assert (forall x, Forall silent (if is_value_error x then [mk_entry Debug (text "Cannot interpret data as frame. Need more data") []] else [])) as U.
  { intros x. destruct (is_value_error x); repeat constructor; apply Q; cbn; tauto. }
  destruct (return_characters data) as [raw|x]; [|apply U].
  destruct (response_factory raw) as [[f|f]|x]; [| |apply U].
  - constructor; [apply Q; cbn; tauto|]. destruct (interpret ctx data); [constructor|apply U].
  - constructor; [apply Q; cbn; tauto|]. destruct ctx as [x|]; [|constructor].
    destruct (context_decrypt x (f_data f)) as [d|e]; [|apply U].
    constructor; [apply Q; cbn; tauto|]. destruct (interpret (Some x) data); [constructor|apply U].
Qed.
Lemma transition_parts s s' : data_entries [transition_entry sh s s'] = [] /\ state_entries [transition_entry sh s s'] = [transition_entry sh s s'] /\
  control_entries [transition_entry sh s s'] = [] /\ call_entries [transition_entry sh s s'] = [].
Proof. repeat split. Qed.
Definition steps (s : protocol_state) (e : event) : list entry :=
  match process_event s e with Ok s' => [transition_entry sh s s'] | Err _ => [] end.
Lemma process_event_parts s e : data_entries (process_event_log sh s e) = [] /\ state_entries (process_event_log sh s e) = steps s e /\
  control_entries (process_event_log sh s e) = [] /\ call_entries (process_event_log sh s e) = [].
Proof. unfold process_event_log, steps. destruct (process_event s e); repeat split. Qed.
Lemma send_parts rnd pad c e : data_entries (send_log sh rnd pad c e) = [] /\ state_entries (send_log sh rnd pad c e) = steps (elgas_state c) e /\
  control_entries (send_log sh rnd pad c e) = [] /\
  call_entries (send_log sh rnd pad c e) = [debug "Sending request PDU" [(text "pdu", event_object sh e)]].
Proof.
  unfold send_log. change (?a :: ?b) with ([a] ++ b).
  rewrite !data_app, !state_app, !control_app, !call_app.
  match goal with |- ?x ++ _ ++ data_entries ?y = _ /\ _ => set (l := y) end.
  assert (Forall silent l) as Q.
  { subst l. destruct (process_event _ _); [|constructor]. destruct e as [r|p|]; try constructor.
    destruct (pdu_to_bytes rnd r); [|constructor]. destruct (context c) as [x|].
    - destruct (context_encrypt _ _ _); [|constructor]. repeat constructor.
    - repeat constructor. }
  clearbody l. apply silent_all in Q as (-> & -> & -> & ->).
  destruct (process_event_parts (elgas_state c) e) as (-> & -> & -> & ->). rewrite ?app_nil_r. repeat split.
Qed.
Lemma process_step s e s' l s'' : process_event s e = Ok s' -> e <> OtherObject ->
  states_told sh s' l s'' -> states_told sh s (transition_entry sh s s' :: l) s''.
Proof.
  intros P N L. destruct e as [r|p|]; [| |contradiction].
  - rewrite process_request in P. destruct (outstanding s) eqn:O; [discriminate|]. injection P as <-.
    apply state_asks; [exact O|rewrite outstanding_awaiting; discriminate|exact L].
  - rewrite process_response in P. destruct (outstanding s) eqn:O; [|discriminate]. destruct (service_eq_dec _ _); [|discriminate].
    injection P as <-. apply state_answered; [rewrite O; discriminate|exact L].
Qed.
Lemma states_app s l s' l' s'' : states_told sh s l s' -> states_told sh s' l' s'' -> states_told sh s (l ++ l') s''.
Proof. induction 1; intros X; [exact X| |]; cbn; [apply state_asks|apply state_answered]; auto. Qed.
Lemma send_states rnd pad c r : states_told sh (elgas_state c) (steps (elgas_state c) (Request r)) (elgas_state (snd (send rnd pad c (Request r)))).
Proof.
  unfold send, steps. destruct (process_event (elgas_state c) (Request r)) as [s|] eqn:P; [|constructor].
  eapply process_step; [exact P|discriminate|]. cbn [snd]. destruct c. constructor.
Qed.
Definition pdu_told (r : res (option response_pdu)) (l : list entry) : Prop :=
  match r with
  | Ok (Some p) => l = [got sh p]
  | Ok None => l = []
  | Err _ => l = [] \/ exists p, l = [got sh p]
  end.
Lemma next_parts c : data_entries (next_event_log sh c) = [] /\
  states_told sh (elgas_state c) (state_entries (next_event_log sh c)) (elgas_state (snd (next_event c))) /\
  control_entries (next_event_log sh c) = [] /\ pdu_told (fst (next_event c)) (call_entries (next_event_log sh c)).
Proof.
  unfold next_event_log, next_event. destruct (buffer c) as [|b0 bl] eqn:B; [repeat split; constructor|]. rewrite <- B.
  destruct (index_of 13 (buffer c)) as [i|]; [|repeat split; constructor]. cbv zeta.
  rewrite !data_app, !state_app, !control_app, !call_app.
  destruct (silent_all _ (interpret_silent (context c) (slice_to (i + 1) (buffer c)))) as (-> & -> & -> & ->). cbn [app].
  destruct (interpret (context c) (slice_to (i + 1) (buffer c))) as [f|x].
  2:{ destruct (is_value_error x); repeat split; cbn; try constructor; reflexivity. }
  destruct (pdu_from_response f) as [p|x]; [|repeat split; cbn; try constructor; reflexivity].
  change (?a :: ?b) with ([a] ++ b). rewrite !data_app, !state_app, !control_app, !call_app.
  destruct (process_event_parts (elgas_state c) (Response p)) as (-> & -> & -> & ->).
  split; [reflexivity|]. split; [|split; [reflexivity|]].
  - cbn [state_entries filter]. change (filter _ _) with (@nil entry). cbn [app]. unfold steps. destruct (process_event _ _) as [s|] eqn:P; cbn.
    + eapply process_step; [exact P|discriminate|]. constructor.
    + constructor.
  - rewrite app_nil_r. change (call_entries _) with [got sh p]. destruct (process_event _ _); cbn; eauto.
Qed.
Lemma receive_parts c d : buffering sh d (data_entries (receive_data_log sh c d)) /\ state_entries (receive_data_log sh c d) = [] /\
  control_entries (receive_data_log sh c d) = [] /\ call_entries (receive_data_log sh c d) = [].
Proof.
  unfold receive_data_log. destruct d as [|x d]; [repeat split; constructor|].
  destruct (list_eqb (x :: d) [13] && (len (buffer c) =? 0)) eqn:E.
  - apply andb_true_iff in E as [E _]. apply list_eqb_eq in E. rewrite E. split; [apply stray_end|repeat split].
  - split; [apply data_added; discriminate|repeat split].
Qed.
Lemma receive_state c d : elgas_state (receive_data c d) = elgas_state c.
Proof. unfold receive_data. destruct d; [reflexivity|]. destruct (_ && _); reflexivity. Qed.
Lemma data_told_app h1 l1 h2 l2 : data_told sh h1 l1 -> data_told sh h2 l2 -> data_told sh (h1 ++ h2) (l1 ++ l2).
Proof.
  induction 1; intros X; cbn [app]; [exact X| | |].
  - constructor. auto.
  - rewrite <- app_assoc. constructor; auto.
  - apply data_not_moved; auto.
Qed.

(** ** one part of a call *)
Record tells {A} (s s' : stack) (a : answer A) (l : list entry) (h : history) : Prop := mk_tells {
  te_happens : happens (st_transport s) h (st_transport s');
  te_finished : a <> Waiting -> finished h;
  te_data : data_told sh h (data_entries l);
  te_states : states_told sh (elgas_state (st_connection s)) (state_entries l) (elgas_state (st_connection s'));
  te_control : control_entries l = [] }.
Lemma tells_app {A B} (s s1 s2 : stack) (r : res A) (b : answer B) l1 l2 h1 h2 :
  tells s s1 (Done r) l1 h1 -> tells s1 s2 b l2 h2 -> tells s s2 b (l1 ++ l2) (h1 ++ h2).
Proof.
  intros [A1 A2 A3 A4 A5] [B1 B2 B3 B4 B5]. specialize (A2 ltac:(discriminate)). split.
  - eapply happens_app; eauto.
  - intros N. apply finished_app; auto.
  - rewrite data_app. apply data_told_app; assumption.
  - rewrite state_app. eapply states_app; eassumption.
  - rewrite control_app, A5, B5. reflexivity.
Qed.
Lemma tells_change {A B} s s' (a : answer A) (b : answer B) l h : (a = Waiting -> b = Waiting) -> tells s s' a l h -> tells s s' b l h.
Proof. intros E [A1 A2 A3 A4 A5]. split; auto. Qed.
Lemma tells_cons {A} s s' (a : answer A) e l h : data_entries [e] = [] -> state_entries [e] = [] -> control_entries [e] = [] ->
  tells s s' a l h -> tells s s' a (e :: l) h.
Proof.
  intros D S C [A1 A2 A3 A4 A5]. change (e :: l) with ([e] ++ l). split; auto.
  - rewrite data_app, D. exact A3.
  - rewrite state_app, S. exact A4.
  - rewrite control_app, C. exact A5.
Qed.
Lemma tells_snoc {A} s s' (a : answer A) e l h : data_entries [e] = [] -> state_entries [e] = [] -> control_entries [e] = [] ->
  tells s s' a l h -> tells s s' a (l ++ [e]) h.
Proof.
  intros D S C [A1 A2 A3 A4 A5]. split; auto.
  - rewrite data_app, D, app_nil_r. exact A3.
  - rewrite state_app, S, app_nil_r. exact A4.
  - rewrite control_app, C, A5. reflexivity.
Qed.
(** a call of send or recv alone *)
Lemma write_tells s d a t : transport_write (st_transport s) d = (a, t) ->
  exists h, tells s (st_set_transport s t) a (transport_write_log sh (st_transport s) d) h /\
    call_entries (transport_write_log sh (st_transport s) d) = [].
Proof.
  intros W. unfold transport_write_log. rewrite W.
  exists [(TSend d, match a with Done (Ok _) => Done (Ok TNothing) | Done (Err x) => Done (Err x) | Waiting => Waiting end)].
  assert (happens (st_transport s) [(TSend d, match a with Done (Ok _) => Done (Ok TNothing) | Done (Err x) => Done (Err x) | Waiting => Waiting end)] t) as H.
  { apply happens_one. cbn [transport_step]. rewrite W. destruct a as [[u|x]|]; reflexivity. }
  destruct (write_available _ _ _ _ W) as [_ Nw]. destruct a as [[u|x]|]; [| |contradiction].
  - split; [|reflexivity]. split; [exact H|intros _; apply finished_one| |constructor|reflexivity].
    cbn. apply data_sent. constructor.
  - split; [|reflexivity]. split; [exact H|intros _; apply finished_one| |constructor|reflexivity].
    cbn. apply data_not_moved; [reflexivity|constructor].
Qed.
(** recv, then receive_data *)
Definition received (s : stack) (a : answer bytes) (t : transport) (c : connection) : stack :=
  match a with
  | Done (Ok d) => st_set_connection (st_set_transport s t) (receive_data c d)
  | _ => st_set_transport s t
  end.
Lemma read_tells s a t : transport_read (st_transport s) = (a, t) ->
  exists h, tells s (received s a t (st_connection s)) a
    (transport_read_log sh (st_transport s) ++ match a with Done (Ok d) => receive_data_log sh (st_connection s) d | _ => [] end) h /\
    call_entries (transport_read_log sh (st_transport s) ++ match a with Done (Ok d) => receive_data_log sh (st_connection s) d | _ => [] end) = [].
Proof.
  intros R. unfold transport_read_log. rewrite R.
  exists [(TRecv, match a with Done (Ok d) => Done (Ok (TData d)) | Done (Err x) => Done (Err x) | Waiting => Waiting end)].
  assert (happens (st_transport s) [(TRecv, match a with Done (Ok d) => Done (Ok (TData d)) | Done (Err x) => Done (Err x) | Waiting => Waiting end)] t) as H.
  { apply happens_one. cbn [transport_step]. rewrite R. destruct a as [[u|x]|]; reflexivity. }
  destruct a as [[d|x]|]; cbn [received].
  - destruct (receive_parts (st_connection s) d) as (D & S & C & K). split; [|rewrite call_app, K; reflexivity].
    split; [exact H|intros _; apply finished_one| | |].
    + rewrite data_app. set (x := data_entries (receive_data_log _ _ _)) in *. clearbody x. rewrite <- (app_nil_r x).
      apply (data_received sh d _ x); [exact D|constructor].
    + rewrite state_app, S. cbn [st_connection st_set_connection]. rewrite receive_state. constructor.
    + rewrite control_app, C. reflexivity.
  - split; [|reflexivity]. split; [exact H|intros _; apply finished_one| |constructor|reflexivity].
    cbn. apply data_not_moved; [reflexivity|constructor].
  - split; [|reflexivity]. split; [exact H|contradiction| |constructor|reflexivity].
    cbn. apply data_not_moved; [reflexivity|constructor].
Qed.

(** ** send *)
Lemma send_one_tells s r a s' : stack_send_one s (Request r) = (a, s') ->
  exists h, tells s s' a (stack_send_one_log sh s (Request r)) h /\ call_entries (stack_send_one_log sh s (Request r)) = [asked sh r].
Proof.
  unfold stack_send_one, stack_send_one_log. destruct (st_draws s (st_requests s)) as [rnd pad].
  set (s0 := mk_stack _ _ _ _ _). cbv zeta. change (st_connection s0) with (st_connection s).
  destruct (send_parts rnd pad (st_connection s) (Request r)) as (D & S & C & K).
  pose proof (send_states rnd pad (st_connection s) r) as P.
  destruct (send rnd pad (st_connection s) (Request r)) as [[data|e] c] eqn:E; cbn [snd] in P.
  2:{ intros X. injection X as <- <-. exists []. rewrite app_nil_r. split; [|exact K].
      split; [apply happens_nil|intros _; apply finished_nil|rewrite D; constructor|rewrite S; exact P|exact C]. }
  assert (tells s (st_set_connection s0 c) (Done (Ok tt)) (send_log sh rnd pad (st_connection s) (Request r)) []) as T1.
  { split; [apply happens_nil|intros _; apply finished_nil|rewrite D; constructor|rewrite S; exact P|exact C]. }
  change (st_transport s) with (st_transport (st_set_connection s0 c)).
  destruct (transport_write (st_transport (st_set_connection s0 c)) data) as [w t] eqn:W.
  destruct (write_tells _ _ _ _ W) as (h2 & T2 & K2).
  destruct w as [[u|x]|].
  2,3: intros X; injection X as <- <-; exists ([] ++ h2); rewrite app_nil_r; split;
       [eapply tells_app; [exact T1|exact T2]|rewrite call_app, K, K2; reflexivity].
  set (s2 := st_set_transport (st_set_connection s0 c) t) in *.
  change (transport_read t) with (transport_read (st_transport s2)). change (transport_read_log sh t) with (transport_read_log sh (st_transport s2)).
  change (receive_data_log sh c) with (receive_data_log sh (st_connection s2)).
  destruct (transport_read (st_transport s2)) as [b t2] eqn:R.
  destruct (read_tells _ _ _ R) as (h3 & T3 & K3). unfold received in T3.
  pose proof (tells_app _ _ _ _ _ _ _ _ _ T2 T3) as T4. pose proof (tells_app _ _ _ _ _ _ _ _ _ T1 T4) as T5.
  intros X. exists ([] ++ h2 ++ h3).
  destruct b as [[d|x]|]; injection X as <- <-; (split; [|rewrite !call_app in *; rewrite K, K2, K3; reflexivity]).
  1: refine (tells_change _ _ _ _ _ _ _ T5); discriminate.
  1: refine (tells_change _ _ _ _ _ _ _ T5); discriminate.
  refine (tells_change _ _ _ _ _ _ _ T5); reflexivity.
Qed.

(** ** next_event *)
Definition answer_told (a : answer response_pdu) (l : list entry) : Prop :=
  match a with
  | Done (Ok p) => l = [got sh p]
  | Done (Err _) => l = [] \/ exists p, l = [got sh p]
  | Waiting => l = []
  end.
Lemma loop_tells fuel : forall s a s', stack_next_event_loop fuel s = (a, s') ->
  exists h, tells s s' a (stack_next_event_loop_log sh fuel s) h /\ answer_told a (call_entries (stack_next_event_loop_log sh fuel s)).
Proof.
  assert (forall s c, next_event (st_connection s) = (Ok None, c) ->
    tells s (st_set_connection s c) (Done (Ok tt)) (next_event_log sh (st_connection s)) [] /\
    call_entries (next_event_log sh (st_connection s)) = []) as N0.
  { intros s c N. destruct (next_parts (st_connection s)) as (D & S & C & K). rewrite N in S, K.
    split; [|exact K]. split; [apply happens_nil|intros _; apply finished_nil|rewrite D; constructor|exact S|exact C]. }
  assert (forall A s r c (x : answer A), next_event (st_connection s) = (r, c) ->
    tells s (st_set_connection s c) x (next_event_log sh (st_connection s) ++ []) []) as N1.
  { intros A s r c x N. destruct (next_parts (st_connection s)) as (D & S & C & K). rewrite N in S. rewrite app_nil_r.
    split; [apply happens_nil|intros _; apply finished_nil|rewrite D; constructor|exact S|exact C]. }
  induction fuel as [|fuel IH]; intros s a s' E; cbn [stack_next_event_loop stack_next_event_loop_log] in *;
    destruct (next_parts (st_connection s)) as (_ & _ & _ & K);
    destruct (next_event (st_connection s)) as [[[p|]|e] c] eqn:N; cbn [fst] in K.
  1,3,4,6: injection E as <- <-; exists []; (split; [eapply N1; exact N|]); rewrite app_nil_r; exact K.
  - injection E as <- <-. exists []. split; [eapply N1; exact N|]. rewrite app_nil_r. exact K.
  - destruct (N0 _ _ N) as [T1 _]. set (s1 := st_set_connection s c) in *. cbv zeta in E.
    change (st_transport s) with (st_transport s1). change (receive_data_log sh c) with (receive_data_log sh (st_connection s1)).
    destruct (transport_read (st_transport s1)) as [b t] eqn:R.
    destruct (read_tells _ _ _ R) as (h2 & T2 & K2). unfold received in T2.
    pose proof (tells_app _ _ _ _ _ _ _ _ _ T1 T2) as T3.
    destruct b as [[d|x]|].
    + destruct (IH _ _ _ E) as (h3 & T4 & K4). exists (([] ++ h2) ++ h3).
      split; [|rewrite app_assoc; rewrite !call_app in *].
      * rewrite (app_assoc (transport_read_log sh (st_transport s1))), app_assoc. eapply tells_app; [exact T3|exact T4].
      * apply app_eq_nil in K2 as [K2 K2']. rewrite K, K2, K2'. exact K4.
    + injection E as <- <-. exists ([] ++ h2). split.
      * refine (tells_change _ _ _ _ _ _ _ T3). discriminate.
      * rewrite call_app, K, K2. left. reflexivity.
    + injection E as <- <-. exists ([] ++ h2). split.
      * refine (tells_change _ _ _ _ _ _ _ T3). reflexivity.
      * rewrite call_app, K, K2. reflexivity.
Qed.
Definition exchange_told (r : request) (a : answer response_pdu) (l : list entry) : Prop :=
  exists l', l = asked sh r :: l' /\ answer_told a l'.
Lemma exchange_tells s r a s' : stack_exchange s r = (a, s') ->
  exists h, tells s s' a (stack_exchange_log sh s r) h /\ exchange_told r a (call_entries (stack_exchange_log sh s r)).
Proof.
  unfold stack_exchange, stack_exchange_log. cbn [stack_send]. destruct (stack_send_one s (Request r)) as [b s1] eqn:S.
  destruct (send_one_tells _ _ _ _ S) as (h1 & T1 & K1).
  destruct b as [[u|e]|]; intros E.
  - unfold stack_next_event in E. destruct (loop_tells _ _ _ _ E) as (h2 & T2 & K2). exists (h1 ++ h2).
    split; [eapply tells_app; [exact T1|exact T2]|]. rewrite call_app, K1. eexists. split; [reflexivity|exact K2].
  - injection E as <- <-. exists h1. rewrite app_nil_r. split; [refine (tells_change _ _ _ _ _ _ _ T1); discriminate|].
    rewrite K1. exists []. split; [reflexivity|]. left. reflexivity.
  - injection E as <- <-. exists h1. rewrite app_nil_r. split; [refine (tells_change _ _ _ _ _ _ _ T1); reflexivity|].
    rewrite K1. exists []. split; reflexivity.
Qed.

(** ** read_parameters *)
Definition objects (a : answer (list value)) : answer returned :=
  match a with Done (Ok y) => Done (Ok (RObjects y)) | Done (Err e) => Done (Err e) | Waiting => Waiting end.
Lemma objects_of (x : option (res (list value))) : objects (match x with Some r => Done r | None => Waiting end) =
  match x with Some (Ok y) => Done (Ok (RObjects y)) | Some (Err e) => Done (Err e) | None => Waiting end.
Proof. destruct x as [[y|e]|]; reflexivity. Qed.
Lemma parameters_tells fuel : forall s n total a s', (left_over (st_transport s) < fuel)%nat ->
  stack_read_parameters_loop fuel s n total = (a, s') ->
  exists h, tells s s' a (stack_read_parameters_loop_log sh fuel s n total) h /\
    pages_told sh (st_password s) n total (objects a) (call_entries (stack_read_parameters_loop_log sh fuel s n total)).
Proof.
  induction fuel as [|fuel IH]; intros s n total a s' L E; [lia|]. cbn [stack_read_parameters_loop stack_read_parameters_loop_log] in *.
  cbv zeta in *. set (r := ReadDeviceParametersRequest (st_password s) n 1024) in *.
  set (q := mk_entry Info (text "Requesting device parameters") [(text "object_count", Plain (show_int sh n))]).
  destruct (stack_exchange s r) as [b s1] eqn:X.
  destruct (exchange_tells _ _ _ _ X) as (h1 & T1 & l1 & K1 & K1').
  destruct (exchange_mimics _ _ _ _ X) as (_ & [_ _ _ _ [Pw _] _] & L1 & L2).
  apply (tells_cons _ _ _ q) in T1; [|reflexivity..].
  assert (forall m, call_entries (q :: stack_exchange_log sh s r ++ m) = q :: asked sh r :: l1 ++ call_entries m) as Kq.
  { intros m. change (q :: ?x ++ m) with ([q] ++ x ++ m). rewrite !call_app, K1. reflexivity. }
  rewrite Kq.
  assert (forall e, a = Done (Err e) -> (forall p, b = Done (Ok p) -> False) -> b <> Waiting -> s1 = s' ->
     exists h, tells s s' a (q :: stack_exchange_log sh s r ++ []) h /\ pages_told sh (st_password s) n total (objects a) (q :: asked sh r :: l1 ++ call_entries [])) as Failed.
  { intros e -> NB NW ->. exists h1. rewrite !app_nil_r. split; [refine (tells_change _ _ _ _ _ _ _ T1); congruence|].
    destruct b as [[p|x]|]; [exfalso; eauto| |contradiction]. cbn in K1'. change (call_entries []) with (@nil entry). rewrite ?app_nil_r.
    destruct K1' as [ -> |(p & -> )].
    - apply page_unanswered. intros v; discriminate.
    - apply page_refused. }
  destruct b as [[p|x]|].
  2:{ injection E as <- <-. eapply Failed; try reflexivity; discriminate. }
  2:{ injection E as <- <-. exists h1. rewrite !app_nil_r. split; [refine (tells_change _ _ _ _ _ _ _ T1); reflexivity|].
      cbn in K1'. subst l1. apply page_unanswered. intros v; discriminate. }
  cbn in K1'. subst l1.
  assert (forall e, a = Done (Err e) -> s1 = s' -> exists h, tells s s' a (q :: stack_exchange_log sh s r ++ []) h /\
     pages_told sh (st_password s) n total (objects a) (q :: asked sh r :: [got sh p] ++ call_entries [])) as Refused.
  { intros e -> ->. exists h1. rewrite !app_nil_r. split; [refine (tells_change _ _ _ _ _ _ _ T1); discriminate|]. apply page_refused. }
  destruct p as [| | |data number amount is_end| |];
    try (injection E as <- <-; eapply Refused; reflexivity).
  destruct is_end.
  - injection E as <- <-. exists h1. split.
    + assert (forall A (b : answer A) e1 e2, data_entries [e1] = [] -> state_entries [e1] = [] -> control_entries [e1] = [] ->
         data_entries [e2] = [] -> state_entries [e2] = [] -> control_entries [e2] = [] ->
         tells s s1 b (q :: stack_exchange_log sh s r) h1 -> tells s s1 b (q :: stack_exchange_log sh s r ++ [e1; e2]) h1) as G.
      { intros A b e1 e2 ? ? ? ? ? ? T. change (q :: ?x ++ [e1; e2]) with ((q :: x) ++ ([e1] ++ [e2])). rewrite app_assoc.
        apply tells_snoc; auto. apply tells_snoc; auto. }
      apply G; try reflexivity. refine (tells_change _ _ _ _ _ _ _ T1). discriminate.
    + cbn [app]. replace (objects _) with (parsed (total ++ data)); [apply page_last|].
      symmetry. apply objects_of.
  - pose proof (L2 _ eq_refl) as L3. assert (left_over (st_transport s1) < fuel)%nat as L4 by lia.
    destruct (IH _ _ _ _ _ L4 E) as (h2 & T2 & K2).
    exists (h1 ++ h2). split.
    + change (q :: ?x ++ ?y) with ((q :: x) ++ y). eapply tells_app; [exact T1|].
      apply tells_cons; [reflexivity..|]. apply tells_cons; [reflexivity..|]. exact T2.
    + rewrite Pw in K2. cbn [app]. apply page_more. exact K2.
Qed.

(** ** calls *)
Lemma operate_tells s o a s' : stack_operate s o = (a, s') ->
  (exists h, happens (st_transport s) h (st_transport s') /\ (a <> Waiting -> finished h) /\ data_told sh h (data_entries (operate_log sh s o))) /\
  states_told sh (elgas_state (st_connection s)) (state_entries (operate_log sh s o)) (elgas_state (st_connection s')) /\
  control_entries (operate_log sh s o) = control_told sh (is_open (st_transport s)) o a /\
  call_told sh (st_password s) o a (call_entries (operate_log sh s o)) /\
  st_password s' = st_password s.
Proof.
  intros E. pose proof E as M. apply operate_mimics in M as (_ & [_ _ _ _ [Pw _] _]).
  assert (forall A (b : answer A) h l, (a = Waiting <-> b = Waiting) -> tells s s' b l h ->
    (exists h, happens (st_transport s) h (st_transport s') /\ (a <> Waiting -> finished h) /\ data_told sh h (data_entries l)) /\
    states_told sh (elgas_state (st_connection s)) (state_entries l) (elgas_state (st_connection s')) /\ control_entries l = []) as G.
  { intros A b h l W [A1 A2 A3 A4 A5]. split; [exists h; split; [exact A1|]; split; [|exact A3]; intros N; apply A2; tauto|]. split; assumption. }
  assert (forall r b l, asks (st_password s) o = Some r -> exchange_told r b (call_entries l) ->
     (forall p, b = Done (Ok p) -> (exists v, a = Done (Ok v) /\ gives o p v) \/ exists e, a = Done (Err e)) ->
     (forall e, b = Done (Err e) -> a = Done (Err e)) -> (b = Waiting -> a = Waiting) ->
     call_told sh (st_password s) o a (before sh o ++ call_entries l ++ match a with Done (Ok v) => after sh o v | _ => [] end)) as K.
  { intros r b l As (l' & -> & T) Y N W. destruct b as [[p|e]|]; cbn in T.
    - subst l'. destruct (Y p eq_refl) as [(v & -> & Gv)|(e & ->)]; [eapply call_answered; eassumption|].
      rewrite app_nil_r. eapply call_refused; eassumption.
    - rewrite (N e eq_refl). rewrite app_nil_r. destruct T as [ -> |(p & -> )].
      + eapply call_unanswered; [exact As|]. intros v; discriminate.
      + eapply call_refused; exact As.
    - subst l'. rewrite (W eq_refl). rewrite app_nil_r. eapply call_unanswered; [exact As|]. intros v; discriminate. }
  destruct o as [| | | |dt cryout|n|ar am i|ar am ts]; cbn [stack_operate operate_log] in *.
  - apply stack_map_inv in E as (b & E & ->). unfold stack_connect in E. unfold transport_connect_log.
    destruct (transport_connect (st_transport s)) as [r t] eqn:C. injection E as <- <-.
    assert (r <> Waiting) as NW by (unfold transport_connect in C; destruct (is_open _); [|destruct (perform _ _) as [[?|?] ?]]; injection C as <- _; discriminate).
    split; [|split; [|split; [|split; [|exact Pw]]]].
    + exists [(TConnect, match r with Done (Ok _) => Done (Ok TNothing) | Done (Err x) => Done (Err x) | Waiting => Waiting end)].
      split; [apply happens_one; cbn [transport_step st_set_transport st_transport]; rewrite C; destruct r as [[u|e]|]; reflexivity|].
      destruct r as [[u|e]|]; [| |contradiction]; (split; [intros _; apply finished_one|]); cbn; (apply data_not_moved; [reflexivity|constructor]).
    + destruct r as [[u|e]|]; constructor.
    + destruct r as [[u|e]|]; reflexivity.
    + destruct r as [[u|e]|]; constructor.
  - apply stack_map_inv in E as (b & E & ->). unfold stack_disconnect in E. unfold transport_disconnect_log.
    destruct (transport_disconnect (st_transport s)) as [r t] eqn:C. injection E as <- <-.
    assert (r <> Waiting) as NW.
    { unfold transport_disconnect in C. destruct (is_open _); [|injection C as <- _; discriminate]. destruct (t_kind _).
      - destruct (perform _ SShutdown) as [[?|?] ?]; [destruct (perform _ SClose) as [[?|?] ?]|]; injection C as <- _; discriminate.
      - destruct (perform _ SClose) as [[?|?] ?]; injection C as <- _; discriminate. }
    split; [|split; [|split; [|split; [|exact Pw]]]].
    + exists [(TDisconnect, match r with Done (Ok _) => Done (Ok TNothing) | Done (Err x) => Done (Err x) | Waiting => Waiting end)].
      split; [apply happens_one; cbn [transport_step st_set_transport st_transport]; rewrite C; destruct r as [[u|e]|]; reflexivity|].
      destruct r as [[u|e]|]; [| |contradiction]; (split; [intros _; apply finished_one|]); destruct (is_open (st_transport s)); cbn;
        (apply data_not_moved; [reflexivity|constructor]).
    + destruct r as [[u|e]|]; destruct (is_open (st_transport s)); constructor.
    + destruct r as [[u|e]|]; destruct (is_open (st_transport s)); reflexivity.
    + destruct r as [[u|e]|]; destruct (is_open (st_transport s)); constructor.
  - apply stack_map_inv in E as (b & E & ->). unfold stack_read_instantaneous_values in E. unfold stack_read_instantaneous_values_log. cbv zeta.
    rewrite E. destruct (exchange_tells _ _ _ _ E) as (h & T & X).
    assert (tells s s' b (mk_entry Info (text "Reading instantaneous values") [] :: stack_exchange_log sh s (ReadInstantaneousValuesRequest (st_password s)) ++
      match b with Done (Ok _) => [mk_entry Info (text "Received instantaneous values") []] | _ => [] end) h) as T'.
    { apply tells_cons; [reflexivity..|]. destruct b as [[p|e]|]; [apply tells_snoc; [reflexivity..|exact T]|rewrite app_nil_r; exact T..]. }
    apply G in T' as (G1 & G2 & G3); [|destruct b as [[?|?]|]; split; try discriminate; reflexivity].
    split; [exact G1|]. split; [exact G2|]. split; [rewrite G3; destruct b as [[?|?]|]; reflexivity|]. split; [|exact Pw].
    change (?a :: ?b) with ([a] ++ b). rewrite !call_app. refine (eq_rect _ _ (K _ _ _ eq_refl X _ _ _) _ _).
    + intros p ->. left. eexists. split; [reflexivity|constructor].
    + intros e ->. reflexivity.
    + intros ->. reflexivity.
    + destruct b as [[p|e]|]; reflexivity.
  - apply stack_map_inv in E as (b & E & ->). unfold stack_read_time in E. unfold stack_read_time_log. cbv zeta.
    destruct (stack_exchange s ReadTimeRequest) as [c s1] eqn:Ex.
    assert (b = (match c with Done (Ok (ReadTimeResponse time _ _ _ _)) => Done (Ok time) | Done (Ok _) => Done (Err AttributeError)
       | Done (Err e) => Done (Err e) | Waiting => Waiting end) /\ s1 = s') as [Eb ->].
    { destruct c as [[[]|]|]; injection E as <- <-; split; reflexivity. }
    clear E. destruct (exchange_tells _ _ _ _ Ex) as (h & T & X).
    match goal with |- context [mk_entry Info (text "Reading device time") [] :: ?x ++ ?y] => set (l := y) end.
    assert (l = match b with Done (Ok time) => [mk_entry Info (text "Got device time") [(text "time", Plain (show_isoformat sh time))]] | _ => [] end) as El.
    { subst l b. destruct c as [[[]|]|]; reflexivity. }
    rewrite El in *. clear l El.
    assert (tells s s' c (mk_entry Info (text "Reading device time") [] :: stack_exchange_log sh s ReadTimeRequest ++
      match b with Done (Ok time) => [mk_entry Info (text "Got device time") [(text "time", Plain (show_isoformat sh time))]] | _ => [] end) h) as T'.
    { apply tells_cons; [reflexivity..|]. destruct b as [[p|e]|]; [apply tells_snoc; [reflexivity..|exact T]|rewrite app_nil_r; exact T..]. }
    apply G in T' as (G1 & G2 & G3); [|subst b; destruct c as [[[]|]|]; split; try discriminate; reflexivity].
    split; [exact G1|]. split; [exact G2|]. split; [rewrite G3; destruct b as [[?|?]|]; reflexivity|]. split; [|exact Pw].
    change (?a :: ?b) with ([a] ++ b). rewrite !call_app. refine (eq_rect _ _ (K _ _ _ eq_refl X _ _ _) _ _).
    + intros p ->. subst b. destruct p; try (right; eexists; reflexivity). left. eexists. split; [reflexivity|constructor].
    + intros e ->. subst b. reflexivity.
    + intros ->. subst b. reflexivity.
    + destruct b as [[p|e]|]; reflexivity.
  - apply stack_map_inv in E as (b & E & ->). unfold stack_write_time in E. unfold stack_write_time_log. cbv zeta.
    set (r := WriteTimeRequest (st_password s) dt cryout) in *.
    destruct (stack_exchange s r) as [c s1] eqn:Ex.
    assert (b = (match c with Done (Ok _) => Done (Ok tt) | Done (Err e) => Done (Err e) | Waiting => Waiting end) /\ s1 = s') as [Eb ->].
    { destruct c as [[?|]|]; injection E as <- <-; split; reflexivity. }
    clear E. destruct (exchange_tells _ _ _ _ Ex) as (h & T & X).
    assert (tells s s' c (mk_entry Info (text "Writing time to device") [(text "time", Plain (show_isoformat sh dt))] :: stack_exchange_log sh s r ++
      match c with Done (Ok _) => [mk_entry Info (text "Finished writing time to device") []] | _ => [] end) h) as T'.
    { apply tells_cons; [reflexivity..|]. destruct c as [[p|e]|]; [apply tells_snoc; [reflexivity..|exact T]|rewrite app_nil_r; exact T..]. }
    apply G in T' as (G1 & G2 & G3); [|subst b; destruct c as [[?|]|]; split; try discriminate; reflexivity].
    split; [exact G1|]. split; [exact G2|]. split; [rewrite G3; destruct b as [[?|?]|]; reflexivity|]. split; [|exact Pw].
    change (?a :: ?b) with ([a] ++ b). rewrite !call_app. refine (eq_rect _ _ (K r _ _ eq_refl X _ _ _) _ _).
    + intros p ->. subst b. left. eexists. split; [reflexivity|constructor].
    + intros e ->. subst b. reflexivity.
    + intros ->. subst b. reflexivity.
    + subst b. destruct c as [[p|e]|]; reflexivity.
  - apply stack_map_inv in E as (b & E & ->). unfold stack_read_parameters in E. unfold stack_read_parameters_log.
    apply parameters_tells in E as (h & T & X); [|apply Nat.lt_succ_diag_r].
    apply (tells_cons _ _ _ (mk_entry Info (text "Reading device parameters") [(text "read_from", Plain (show_int sh n))])) in T; [|reflexivity..].
    apply G in T as (G1 & G2 & G3); [|destruct b as [[?|?]|]; split; try discriminate; reflexivity].
    split; [exact G1|]. split; [exact G2|]. split; [rewrite G3; destruct b as [[?|?]|]; reflexivity|]. split; [|exact Pw].
    match goal with |- call_told _ _ _ _ (call_entries (?a :: ?b)) => change (a :: b) with ([a] ++ b) end.
    rewrite call_app. apply (call_parameters sh _ n). exact X.
  - apply stack_map_inv in E as (b & E & ->). unfold stack_read_archive in E.
    destruct (exchange_tells _ _ _ _ E) as (h & T & X).
    apply G in T as (G1 & G2 & G3); [|destruct b as [[?|?]|]; split; try discriminate; reflexivity].
    split; [exact G1|]. split; [exact G2|]. split; [rewrite G3; destruct b as [[?|?]|]; reflexivity|]. split; [|exact Pw].
    refine (eq_rect _ _ (K _ _ _ eq_refl X _ _ _) _ _).
    + intros p ->. left. eexists. split; [reflexivity|constructor].
    + intros e ->. reflexivity.
    + intros ->. reflexivity.
    + destruct b as [[p|e]|]; cbn [before after app]; apply app_nil_r.
  - apply stack_map_inv in E as (b & E & ->). unfold stack_read_archive_by_time in E.
    destruct (exchange_tells _ _ _ _ E) as (h & T & X).
    apply G in T as (G1 & G2 & G3); [|destruct b as [[?|?]|]; split; try discriminate; reflexivity].
    split; [exact G1|]. split; [exact G2|]. split; [rewrite G3; destruct b as [[?|?]|]; reflexivity|]. split; [|exact Pw].
    refine (eq_rect _ _ (K _ _ _ eq_refl X _ _ _) _ _).
    + intros p ->. left. eexists. split; [reflexivity|constructor].
    + intros e ->. reflexivity.
    + intros ->. reflexivity.
    + destruct b as [[p|e]|]; cbn [before after app]; apply app_nil_r.
Qed.

Lemma operate_told s o a s' : stack_operate s o = (a, s') ->
  (exists h, happens (st_transport s) h (st_transport s') /\ data_told sh h (data_entries (operate_log sh s o))) /\
  states_told sh (elgas_state (st_connection s)) (state_entries (operate_log sh s o)) (elgas_state (st_connection s')) /\
  control_entries (operate_log sh s o) = control_told sh (is_open (st_transport s)) o a /\
  call_told sh (st_password s) o a (call_entries (operate_log sh s o)).
Proof. intros E. destruct (operate_tells s o a s' E) as ((h & H & _ & D) & S & C & K & _). eauto 10. Qed.

(** ** sessions *)
Lemma session_tells os : forall s vs s', stack_session s os = (vs, s') ->
  (exists h, happens (st_transport s) h (st_transport s') /\ data_told sh h (data_entries (session_log sh s os))) /\
  states_told sh (elgas_state (st_connection s)) (state_entries (session_log sh s os)) (elgas_state (st_connection s')) /\
  calls_told sh (st_password s) os vs (call_entries (session_log sh s os)).
Proof.
  induction os as [|o os IH]; intros s vs s' E; cbn [stack_session session_log] in *.
  - injection E as <- <-. split; [exists []; split; [apply happens_nil|constructor]|]. split; constructor.
  - destruct (stack_operate s o) as [a s1] eqn:O.
    destruct (operate_tells _ _ _ _ O) as ((h & H & F & D) & S & _ & C & Pw).
    rewrite data_app, state_app, call_app. destruct a as [r|].
    + destruct (stack_session s1 os) as [rs s2] eqn:Es. injection E as <- <-.
      destruct (IH _ _ _ Es) as ((h2 & H2 & D2) & S2 & C2). rewrite Pw in C2. specialize (F ltac:(discriminate)).
      split; [exists (h ++ h2); split; [eapply happens_app; eassumption|apply data_told_app; assumption]|].
      split; [eapply states_app; eassumption|]. constructor; assumption.
    + injection E as <- <-. split; [exists h; split; [exact H|rewrite <- (app_nil_r h); apply data_told_app; [exact D|constructor]]|].
      split; [rewrite app_nil_r; exact S|]. constructor; [exact C|constructor].
Qed.

(** ** one telegram *)
Lemma receive_told c d :
  (d = [] -> receive_data_log sh c d = [] /\ receive_data c d = c) /\
  (d = [13] -> buffer c = [] ->
     receive_data_log sh c d = [inform "Received an end char when read buffer was empty. This is a known issue and data is ignored." []] /\
     receive_data c d = c) /\
  (d <> [] -> d <> [13] \/ buffer c <> [] ->
     receive_data_log sh c d = [debug "Added data to connection buffer" [item "data" (show_bytes sh d); item "total_buffer" (show_buffer sh (buffer c ++ d))]] /\
     buffer (receive_data c d) = buffer c ++ d).
Proof.
  unfold receive_data_log, receive_data. split; [intros -> ; auto|]. split; [intros -> -> ; auto|]. intros N O.
  destruct d as [|x d]; [contradiction|].
  destruct (list_eqb (x :: d) [13] && (len (buffer c) =? 0)) eqn:E; [|split; reflexivity].
  apply andb_true_iff in E as [E1 E2]. apply list_eqb_eq in E1. apply Z.eqb_eq in E2. exfalso.
  destruct O as [O|O]; [exact (O E1)|]. destruct (buffer c) as [|b0 bl]; [contradiction|]. rewrite len_cons in E2. pose proof (len_nonneg bl). lia.
Qed.
Lemma frame_told rnd pad c r line c' : sane c -> (match context c with Some x => is_bytes (key x) | None => True end) ->
  send rnd pad c (Request r) = (Ok line, c') ->
  exists cls type f,
    send_log sh rnd pad c (Request r) =
      [asked sh r; transition_entry sh (elgas_state c) (elgas_state c'); debug "Sending ELGAS request" [(text "request", frame_object sh cls f)]] /\
    match context c with Some _ => cls = "EncryptedRequest" /\ type = 133 | None => cls = "Request" /\ type = 132 end /\
    on_line (request_wire type (service_number (f_service f)) (destination_address_1 f) (destination_address_2 f)
      (source_address_1 f) (source_address_2 f) (f_data f)) line.
Proof.
  intros Sa Ky E. unfold send_log, process_event_log. unfold send in E.
  destruct (process_event (elgas_state c) (Request r)) as [s|]; [|discriminate].
  replace (elgas_state c') with s by (injection E as _ <-; reflexivity).
  replace (context (set_state c s)) with (context c) in E by (destruct c; reflexivity).
  assert (forall srv d, frame_of (set_state c s) srv d = frame_of c srv d) as FO by (intros; destruct c; reflexivity).
  destruct (pdu_to_bytes rnd r) as [app|] eqn:P; [|discriminate]. cbn [bind] in E. pose proof (pdu_bytes _ _ _ P) as Hb.
  destruct (context c) as [[id k]|].
  - destruct (context_encrypt pad (mk_context id k) app) as [p|] eqn:X; [|discriminate]. cbn [bind] in E. rewrite FO in E.
    pose proof (encrypt_errors pad id k app Hb) as Y. rewrite Z.gtb_ltb in Y.
    destruct (Z.ltb_spec 65535 (len app)); [congruence|].
    destruct (negb ((0 <=? id) && (id <=? 255))) eqn:I; [congruence|]. destruct (negb (len k =? 16)) eqn:K; [congruence|].
    assert (key16 k) as K16 by (split; [exact Ky|]; apply negb_false_iff, Z.eqb_eq in K; exact K).
    apply negb_false_iff, andb_true_iff in I as [I1 I2].
    destruct (encrypt_payload pad id k app K16 Hb ltac:(lia) ltac:(lia)) as (p' & pd & E1 & _ & Bp & _). rewrite X in E1. injection E1 as <-.
    exists "EncryptedRequest", 133, (frame_of c (request_service r) p). split; [reflexivity|]. split; [split; reflexivity|].
    destruct (frame_sent c 133 (request_service r) p Sa ltac:(unfold is_byte; lia) Bp) as [(_ & o & E2 & S2)|(_ & E2)];
      unfold ENCRYPTED_REQUEST_TYPE in E; rewrite E2 in E; [|discriminate]. injection E as <- _. exact S2.
  - rewrite FO in E. exists "Request", 132, (frame_of c (request_service r) app). split; [reflexivity|]. split; [split; reflexivity|].
    destruct (frame_sent c 132 (request_service r) app Sa ltac:(unfold is_byte; lia) Hb) as [(_ & o & E2 & S2)|(_ & E2)];
      unfold REQUEST_TYPE in E; rewrite E2 in E; [|discriminate]. injection E as <- _. exact S2.
Qed.
Lemma next_log_line c w t rest : on_line w t -> buffer c = t ++ rest ->
  exists l, next_event_log sh c = interpret_log sh (context c) t ++ l.
Proof.
  intros (q & -> & Hq & Hu) B. unfold next_event_log. rewrite B. rewrite <- app_assoc. cbn [app].
  rewrite index_of_app by exact Hq. destruct (q ++ 13 :: rest) as [|b l] eqn:E; [destruct q; discriminate|]. rewrite <- E.
  change (q ++ 13 :: rest) with (q ++ [13] ++ rest). rewrite app_assoc, slice_to_app by (rewrite len_app; reflexivity).
  eexists. reflexivity.
Qed.
Lemma response_told c srv d1 d2 s1 s2 d t rest : addresses d1 d2 s1 s2 -> is_bytes d -> len d <= 65520 ->
  on_line (response_wire 134 (service_number srv) d1 d2 s1 s2 d) t -> buffer c = t ++ rest ->
  exists l, next_event_log sh c =
    debug "Received ELGAS response" [(text "response", frame_object sh "Response" (mk_frame srv d1 d2 s1 s2 d))] :: l.
Proof.
  intros Ha Hd Hl Ho B. destruct (next_log_line c _ t rest Ho B) as (l & ->). destruct Ho as (q & -> & Hq & Hu).
  unfold interpret_log. apply return_unesc in Hu. rewrite Hu, factory_plain by assumption. eexists. reflexivity.
Qed.
Lemma encrypted_told c srv d1 d2 s1 s2 p t rest : addresses d1 d2 s1 s2 -> is_bytes p -> len p <= 65520 ->
  on_line (response_wire 135 (service_number srv) d1 d2 s1 s2 p) t -> buffer c = t ++ rest ->
  exists l, next_event_log sh c =
    debug "Received ELGAS response" [(text "response", frame_object sh "EncryptedResponse" (mk_frame srv d1 d2 s1 s2 p))] :: l /\
    forall id k d, context c = Some (mk_context id k) -> key16 k -> 0 <= id <= 255 -> is_bytes d -> len d <= 65520 -> seals k id d p ->
      exists l', l = debug "Decrypted ELGAS response" [(text "decrypted", frame_object sh "EncryptedResponse" (mk_frame srv d1 d2 s1 s2 d))] :: l'.
Proof.
  intros Ha Hd Hl Ho B. destruct (next_log_line c _ t rest Ho B) as (l & ->). destruct Ho as (q & -> & Hq & Hu).
  unfold interpret_log. apply return_unesc in Hu. rewrite Hu, factory_encrypted by assumption. eexists. split; [reflexivity|].
  intros id k d -> Hk Hi Bd Ld Hs. destruct (seals_decrypt k id d p Hk Hi Bd ltac:(lia) Hs) as (_ & Dp). cbn [f_data]. rewrite Dp.
  eexists. reflexivity.
Qed.
End Proofs.
