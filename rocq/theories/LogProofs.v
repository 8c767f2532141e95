(** Proofs about the log. *)
From Coq Require Import String.
From Verif Require Import PyFacts UtilsProofs SpecUtils SpecFrames SpecSecurity SecurityProofs SpecApplication SpecPdu ApplicationProofs.
From Verif Require Import SpecConnection Connection ConnectionProofs SpecClient Client ClientProofs Transport Stack SpecErrors SpecSession.
From Verif Require Import SessionProofs SessionProofs2 ParamLang Parameters.
From Verif Require Import SpecSecret Secret SecretProofs Log SpecLog.
Open Scope string_scope.
Open Scope list_scope.
Open Scope Z_scope.

Lemma look_same_refl e : look_same e e.
Proof. intros sr br st. reflexivity. Qed.

(** ** requests *)
Lemma same_request_service r r' : SpecSecret.same_request r r' -> request_service r = request_service r'.
Proof. intros H. destruct H; reflexivity. Qed.
Lemma same_request_times r r' : SpecSecret.same_request r r' -> request_times_valid r -> request_times_valid r'.
Proof. intros H. destruct H; auto. Qed.
Definition good_password (r : request) : Prop := forall p, request_password r = Some p -> latin1 p /\ len p <= 6.
Lemma same_request_misfit r r' : SpecSecret.same_request r r' -> good_password r -> good_password r' -> request_misfit r = request_misfit r'.
Proof.
  assert (forall p, latin1 p -> forallb (fun c => (0 <=? c) && (c <=? 255)) p = true) as L.
  { intros p H. apply forallb_forall. intros c I. apply (proj1 (Forall_forall _ _) H) in I. lia. }
  intros S G G'. destruct S; cbn [request_misfit]; try reflexivity;
    rewrite !L by (first [apply (G _ eq_refl) | apply (G' _ eq_refl)]); reflexivity.
Qed.

(** *** what becomes of a request *)
Definition both (c c' : connection) : Prop :=
  c_source_1 c = c_source_1 c' /\ c_source_2 c = c_source_2 c' /\ c_destination_1 c = c_destination_1 c' /\
  c_destination_2 c = c_destination_2 c' /\ elgas_state c = elgas_state c' /\
  match context c, context c' with
  | Some x, Some x' => key_id x = key_id x' /\ is_bytes (key x) /\ is_bytes (key x') /\ (len (key x) = 16 <-> len (key x') = 16)
  | None, None => True
  | _, _ => False
  end.

Definition failure (c : connection) (r : request) : option exn :=
  match request_misfit r with
  | Some e => Some e
  | None => match context c with
            | Some (mk_context id k) => if negb ((0 <=? id) && (id <=? 255)) then Some ValueError
                                        else if negb (len k =? 16) then Some ValueError else None
            | None => None
            end
  end.
(** the result, and the frame that is logged *)
Lemma serialise_cases rnd pad c r : sane c -> (match context c with Some x => is_bytes (key x) | None => True end) ->
  request_times_valid r -> good_password r ->
  match failure c r with
  | Some e => serialise rnd pad c r = Err e /\
      (exists x, pdu_to_bytes rnd r = Err x) \/
      serialise rnd pad c r = Err e /\ exists app ctx x, pdu_to_bytes rnd r = Ok app /\ context c = Some ctx /\ context_encrypt pad ctx app = Err x
  | None => exists app out, pdu_to_bytes rnd r = Ok app /\ serialise rnd pad c r = Ok out /\
      match context c with
      | Some (mk_context id k) => exists p, context_encrypt pad (mk_context id k) app = Ok p /\ seals k id app p /\ ConnectionProofs.sends c 133 (request_service r) p out
      | None => ConnectionProofs.sends c 132 (request_service r) app out
      end
  end.
Proof.
  intros Sa Ky V G. unfold failure. pose proof (pdu_to_bytes_error rnd r V) as P.
  destruct (request_misfit r) as [e|].
  { left. unfold serialise. rewrite P. split; [reflexivity|eauto]. }
  destruct P as [app P]. pose proof (pdu_bytes _ _ _ P) as Hb.
  assert (len app <= 100) as L by (apply (pdu_len rnd r app V P); intros p Hp; apply (G p Hp)).
  destruct (context c) as [[id k]|] eqn:C.
  - pose proof (encrypt_errors pad id k app Hb) as X. rewrite Z.gtb_ltb in X. destruct (Z.ltb_spec 65535 (len app)); [lia|].
    destruct (negb ((0 <=? id) && (id <=? 255))) eqn:I.
    { right. split; [|exists app, (mk_context id k), ValueError; auto]. unfold serialise. rewrite P, C. cbn [bind]. rewrite X. reflexivity. }
    destruct (negb (len k =? 16)) eqn:K.
    { right. split; [|exists app, (mk_context id k), ValueError; auto]. unfold serialise. rewrite P, C. cbn [bind]. rewrite X. reflexivity. }
    assert (key16 k) as K16 by (split; [exact Ky|]; apply negb_false_iff, Z.eqb_eq in K; exact K).
    apply negb_false_iff, andb_true_iff in I as [I1 I2].
    destruct (serialise_ok rnd pad c r app Sa P) as [out E]; [rewrite C; split; [exact K16|lia]|].
    exists app, out. split; [exact P|]. split; [exact E|].
    destruct (encrypt_payload pad id k app K16 Hb ltac:(lia) ltac:(lia)) as (p & pd & E1 & Hp & Bp & Fp & _).
    exists p. split; [exact E1|]. split.
    { exists pd. split; [eapply Forall_impl; [|exact Fp]; unfold is_byte; intros; lia|exact Hp]. }
    unfold serialise in E. rewrite P, C in E. cbn [bind] in E. rewrite E1 in E. cbn [bind] in E.
    destruct (frame_sent c 133 (request_service r) p Sa ltac:(unfold is_byte; lia) Bp) as [(_ & o & E2 & S2)|(_ & E2)];
      unfold ENCRYPTED_REQUEST_TYPE in E; rewrite E2 in E; [|discriminate]. injection E as <-. exact S2.
  - destruct (serialise_ok rnd pad c r app Sa P) as [out E]; [rewrite C; lia|].
    exists app, out. split; [exact P|]. split; [exact E|].
    unfold serialise in E. rewrite P, C in E. cbn [bind] in E.
    destruct (frame_sent c 132 (request_service r) app Sa ltac:(unfold is_byte; lia) Hb) as [(_ & o & E2 & S2)|(_ & E2)];
      unfold REQUEST_TYPE in E; rewrite E2 in E; [|discriminate]. injection E as <-. exact S2.
Qed.
Lemma same_failure c c' r r' : both c c' -> SpecSecret.same_request r r' -> good_password r -> good_password r' -> failure c r = failure c' r'.
Proof.
  intros (_ & _ & _ & _ & _ & B) S G G'. unfold failure. rewrite (same_request_misfit _ _ S G G').
  destruct (request_misfit r'); [reflexivity|]. destruct (context c) as [[i k]|], (context c') as [[i' k']|]; try contradiction; [|reflexivity].
  cbn [key_id key] in B. destruct B as (-> & _ & _ & B). destruct (negb (_ && _)); [reflexivity|].
  destruct (Z.eqb_spec (len k) 16), (Z.eqb_spec (len k') 16); tauto.
Qed.
Lemma both_state c c' : both c c' -> elgas_state c = elgas_state c'. Proof. intros B; apply B. Qed.

(** the entries of connection.send *)
Section Entries.
Variable sh : log_shown.
Lemma pdu_entry r r' : SpecSecret.same_request r r' ->
  look_same (mk_entry Debug (text "Sending request PDU") [(text "pdu", event_object sh (Request r))])
            (mk_entry Debug (text "Sending request PDU") [(text "pdu", event_object sh (Request r'))]).
Proof.
  intros S sr br st. unfold rendered. cbn [severity message values map fst snd event_object].
  rewrite (request_repr_same sr br sh st r r' S). reflexivity.
Qed.
Lemma transition_same s r r' : SpecSecret.same_request r r' -> process_event s (Request r) = process_event s (Request r').
Proof. intros S. destruct S; reflexivity. Qed.
Lemma send_entries rnd pad rnd' pad' c c' r r' : sane c -> sane c' -> both c c' -> SpecSecret.same_request r r' ->
  request_times_valid r -> good_password r -> good_password r' ->
  Forall2 (same_but_requests sh (context c) (context c')) (send_log sh rnd pad c (Request r)) (send_log sh rnd' pad' c' (Request r')).
Proof.
  intros Sa Sa' B S V G G'. pose proof B as (B1 & B2 & B3 & B4 & B5 & B6). unfold send_log. rewrite <- B5.
  constructor; [constructor 1; apply pdu_entry; exact S|]. apply Forall2_app.
  { unfold process_event_log. rewrite <- (transition_same _ _ _ S). destruct (process_event _ _); [|constructor].
    constructor; [constructor 1; apply look_same_refl|constructor]. }
  rewrite <- (transition_same _ _ _ S). destruct (process_event (elgas_state c) (Request r)); [|constructor].
  pose proof (serialise_cases rnd pad c r Sa) as X. pose proof (serialise_cases rnd' pad' c' r' Sa') as X'.
  rewrite (same_failure c c' r r' B S G G') in X.
  assert (same_header (frame_of c (request_service r) []) (frame_of c' (request_service r') [])) as F.
  { unfold same_header, frame_of; cbn. rewrite (same_request_service _ _ S). auto. }
  assert (request_times_valid r') as V' by (eapply same_request_times; eauto).
  destruct (context c) as [[i k]|] eqn:C, (context c') as [[i' k']|] eqn:C'; try contradiction.
  - cbn [key_id key] in B6. destruct B6 as (-> & K & K' & B6).
    specialize (X ltac:(exact K) V G). specialize (X' ltac:(exact K') V' G').
    destruct (failure c' r') as [e|].
    + assert (forall rn pd c r i k, context c = Some (mk_context i k) ->
        ((serialise rn pd c r = Err e /\ (exists x, pdu_to_bytes rn r = Err x)) \/
         (serialise rn pd c r = Err e /\ exists app ctx x, pdu_to_bytes rn r = Ok app /\ Some (mk_context i k) = Some ctx /\ context_encrypt pd ctx app = Err x)) ->
        match pdu_to_bytes rn r with Err _ => [] | Ok a => match context_encrypt pd (mk_context i k) a with Err _ => [] | Ok d => 
           [mk_entry Debug (text "Sending ELGAS request") [(text "request", frame_object sh "EncryptedRequest" (frame_of c (request_service r) d))]] end end = []) as N.
      { intros rn pd c0 r0 i0 k0 _ [(_ & x & ->)|(_ & app & ctx & x & -> & E & Q)]; [reflexivity|]. injection E as <-. rewrite Q. reflexivity. }
      rewrite (N rnd pad c r i' k C X), (N rnd' pad' c' r' i' k' C' X'). constructor.
    + destruct X as (app & out & -> & _ & p & -> & Se & _). destruct X' as (app' & out' & -> & _ & p' & -> & Se' & _).
      constructor; [|constructor]. apply entry_frame; [exact F|cbn; eauto|cbn; eauto].
  - specialize (X I V G). specialize (X' I V' G').
    destruct (failure c' r') as [e|].
    + destruct X as [(_ & x & ->)|(_ & app & ctx & x & _ & E & _)]; [|discriminate].
      destruct X' as [(_ & x' & ->)|(_ & app' & ctx' & x' & _ & E & _)]; [|discriminate]. constructor.
    + destruct X as (app & out & -> & _ & _). destruct X' as (app' & out' & -> & _ & _).
      constructor; [|constructor]. apply entry_frame; [exact F|exact I|exact I].
Qed.
End Entries.

(** ** the transports of two clients that write different data *)
Definition el (e : environment) (l : list socket_call) : environment := mk_environment (outcomes e) (incoming e) (now e) (ticks e) l.
Definition with_log (t : transport) (l : list socket_call) : transport := set_env t (el (env t) l).
Definition tw (t t' : transport) : Prop := exists l, t' = with_log t l /\ length l = length (log (env t)).
Lemma tw_refl t : tw t t.
Proof. exists (log (env t)). split; [|reflexivity]. destruct t as [k to o [oc inc nw ti l]]. reflexivity. Qed.
Lemma perform_el e l c c' : fst (perform (el e l) c') = fst (perform e c) /\ snd (perform (el e l) c') = el (snd (perform e c)) (l ++ [c']).
Proof. destruct e as [oc inc nw ti l0]. unfold perform, el. cbn. destruct oc; split; reflexivity. Qed.
Lemma perform_length e c : length (log (snd (perform e c))) = S (length (log e)).
Proof. destruct e as [oc inc nw ti l0]. unfold perform. cbn. destruct oc; cbn; rewrite app_length; cbn; lia. Qed.
Lemma tw_connect t t' : tw t t' -> fst (transport_connect t) = fst (transport_connect t') /\ tw (snd (transport_connect t)) (snd (transport_connect t')).
Proof.
  intros (l & -> & L). unfold transport_connect. cbn [is_open with_log set_env env]. destruct (is_open t) eqn:O.
  { split; [reflexivity|]. exists l. split; [reflexivity|exact L]. }
  destruct (perform_el (env t) l SOpen SOpen) as [E1 E2]. pose proof (perform_length (env t) SOpen) as P.
  destruct (perform (env t) SOpen) as [r e], (perform (el (env t) l) SOpen) as [r' e']. cbn [fst snd] in *. subst.
  destruct r; (split; [reflexivity|]); exists (l ++ [SOpen]); (split; [reflexivity|]);
    cbn [fst snd set_open set_env env]; rewrite app_length, P; cbn; lia.
Qed.
Lemma tw_disconnect t t' : tw t t' -> is_open t = is_open t' /\ fst (transport_disconnect t) = fst (transport_disconnect t') /\
  tw (snd (transport_disconnect t)) (snd (transport_disconnect t')).
Proof.
  intros (l & -> & L). split; [reflexivity|]. unfold transport_disconnect. cbn [is_open with_log set_env env t_kind]. destruct (is_open t) eqn:O.
  2:{ split; [reflexivity|]. exists l. split; [reflexivity|exact L]. }
  assert (forall e l, length l = length (log e) ->
    let close (t : transport) e := match perform e SClose with
      | (Ok _, e0) => (Done (Ok tt), set_open (set_env t e0) false)
      | (Err x, e0) => (Done (Err (wrapped x)), set_open (set_env t e0) (negb (is_os_error x)))
      end in
    fst (close t e) = fst (close (with_log t l) (el e l)) /\ tw (snd (close t e)) (snd (close (with_log t l) (el e l)))) as C.
  { intros e l0 L0 close. unfold close. destruct (perform_el e l0 SClose SClose) as [E1 E2]. pose proof (perform_length e SClose) as P.
    destruct (perform e SClose) as [r e1], (perform (el e l0) SClose) as [r' e1']. cbn [fst snd] in *. subst.
    destruct r; (split; [reflexivity|]); exists (l0 ++ [SClose]); (split; [reflexivity|]);
      cbn [snd set_open set_env env]; rewrite app_length, P; cbn; lia. }
  destruct (t_kind t).
  - destruct (perform_el (env t) l SShutdown SShutdown) as [E1 E2]. pose proof (perform_length (env t) SShutdown) as P.
    destruct (perform (env t) SShutdown) as [r e1], (perform (el (env t) l) SShutdown) as [r' e1']. cbn [fst snd] in *. subst.
    destruct r as [u|x].
    + specialize (C e1 (l ++ [SShutdown]) ltac:(rewrite app_length, P; cbn; lia)). exact C.
    + split; [reflexivity|]. exists (l ++ [SShutdown]). split; [reflexivity|]. cbn [snd set_open set_env env]. rewrite app_length, P; cbn; lia.
  - exact (C (env t) l L).
Qed.
Lemma tw_write t t' d d' : tw t t' -> fst (transport_write t d) = fst (transport_write t' d') /\
  tw (snd (transport_write t d)) (snd (transport_write t' d')).
Proof.
  intros (l & -> & L). unfold transport_write. cbn [is_open with_log set_env env]. destruct (is_open t) eqn:O.
  2:{ split; [reflexivity|]. exists l. split; [reflexivity|exact L]. }
  destruct (perform_el (env t) l (SWrite d) (SWrite d')) as [E1 E2]. pose proof (perform_length (env t) (SWrite d)) as P.
  destruct (perform (env t) (SWrite d)) as [r e1], (perform (el (env t) l) (SWrite d')) as [r' e1']. cbn [fst snd] in *. subst.
  destruct r; (split; [reflexivity|]); exists (l ++ [SWrite d']); (split; [reflexivity|]);
    cbn [snd set_env env]; rewrite app_length, P; cbn; lia.
Qed.
Lemma tw_read t t' : tw t t' -> fst (transport_read t) = fst (transport_read t') /\ tw (snd (transport_read t)) (snd (transport_read t')).
Proof.
  intros (l & -> & L). unfold transport_read, recv_until. cbn [with_log set_env env el is_open t_timeout now ticks incoming outcomes log].
  destruct (make_timeout _ _ _) as [tm n]. destruct (recv_until_loop _ _ _ _ _ _ _ _ _) as [[a n'] inc].
  destruct a as [[b|x]|]; (split; [reflexivity|]); exists l; (split; [reflexivity|exact L]).
Qed.
Lemma tw_length t t' : tw t t' -> length (log (env t)) = length (log (env t')).
Proof. intros (l & -> & L). symmetry. exact L. Qed.
Lemma tw_incoming t t' : tw t t' -> incoming (env t) = incoming (env t').
Proof. intros (l & -> & L). reflexivity. Qed.

(** ** two connections with different passwords *)
Definition csame (ctx : option cipher_context) (c c' : connection) : Prop :=
  config c = (0, 0, 0, 0, ctx) /\ config c' = (0, 0, 0, 0, ctx) /\ buffer c = buffer c' /\ elgas_state c = elgas_state c'.
Definition key_ok (ctx : option cipher_context) : Prop := match ctx with Some x => is_bytes (key x) | None => True end.
Lemma csame_both ctx c c' : key_ok ctx -> csame ctx c c' -> both c c' /\ sane c /\ sane c' /\ context c = ctx /\ context c' = ctx.
Proof.
  intros K (C & C' & _ & S). unfold config in C, C'. injection C as C1 C2 C3 C4 C5. injection C' as C1' C2' C3' C4' C5'.
  unfold both, sane, addresses. rewrite C1, C2, C3, C4, C5, C1', C2', C3', C4', C5'.
  repeat split; try lia; auto. destruct ctx as [x|]; [|exact I]. cbn in K. tauto.
Qed.
Lemma csame_next ctx c c' : csame ctx c c' ->
  fst (next_event c) = fst (next_event c') /\ csame ctx (snd (next_event c)) (snd (next_event c')).
Proof.
  intros (C & C' & B & S). destruct c as [a1 a2 a3 a4 p i k ki b s x], c' as [a1' a2' a3' a4' p' i' k' ki' b' s' x'].
  unfold config in C, C'. cbn in C, C', B, S. injection C as -> -> -> -> ->. injection C' as -> -> -> -> ->. subst b' s'.
  unfold next_event. cbn [buffer context elgas_state].
  destruct b as [|b0 bl]; [split; [reflexivity|]; split; auto|].
  destruct (index_of 13 (b0 :: bl)); [|split; [reflexivity|]; split; auto].
  destruct (interpret ctx _) as [f|e]; [|destruct (is_value_error e); (split; [reflexivity|]); split; auto].
  destruct (pdu_from_response f); [|split; [reflexivity|]; split; auto].
  destruct (process_event s _); (split; [reflexivity|]); repeat split; reflexivity.
Qed.
Lemma csame_next_log sh ctx c c' : csame ctx c c' -> next_event_log sh c = next_event_log sh c'.
Proof.
  intros (C & C' & B & S). unfold config in C, C'. injection C as _ _ _ _ C5. injection C' as _ _ _ _ C5'.
  unfold next_event_log. rewrite B, S, C5, C5'. reflexivity.
Qed.
Lemma csame_receive ctx c c' d : csame ctx c c' -> csame ctx (receive_data c d) (receive_data c' d).
Proof.
  intros (C & C' & B & S). unfold receive_data. rewrite <- B. destruct d as [|x d]; [repeat split; assumption|].
  destruct (_ && _); [repeat split; assumption|]. repeat split; [exact C|exact C'|exact S].
Qed.
Lemma csame_receive_log sh ctx c c' d : csame ctx c c' -> receive_data_log sh c d = receive_data_log sh c' d.
Proof. intros (C & C' & B & S). unfold receive_data_log. rewrite <- B. reflexivity. Qed.

(** ** clients *)
Section Twins.
Variables (sh : log_shown) (ctx : option cipher_context) (pw pw' : str).
Hypotheses (Ky : key_ok ctx) (L1 : latin1 pw) (L1' : latin1 pw') (L2 : len pw <= 6) (L2' : len pw' <= 6).
Definition twin (s s' : stack) : Prop :=
  st_password s = pw /\ st_password s' = pw' /\ csame ctx (st_connection s) (st_connection s') /\ tw (st_transport s) (st_transport s').
Definition same := Forall2 (same_but_requests sh ctx ctx).
Lemma same_refl l : same l l.
Proof. induction l; constructor; auto. constructor 1. apply look_same_refl. Qed.
Lemma same_app a a' b b' : same a a' -> same b b' -> same (a ++ b) (a' ++ b').
Proof. apply Forall2_app. Qed.
Lemma same_cons e a a' : same a a' -> same (e :: a) (e :: a').
Proof. constructor; auto. constructor 1. apply look_same_refl. Qed.

Lemma read_log_same t t' : tw t t' -> transport_read_log sh t = transport_read_log sh t'.
Proof.
  intros T. destruct (tw_read _ _ T) as [E T']. unfold transport_read_log, transport_value.
  destruct (transport_read t) as [a u], (transport_read t') as [a' u']. cbn [fst snd] in *. subst a'.
  rewrite (tw_length _ _ T'). reflexivity.
Qed.
(** a request, with the passwords of the two clients *)
Definition asked_same (r r' : request) : Prop :=
  SpecSecret.same_request r r' /\ request_times_valid r /\ good_password r /\ good_password r'.

Lemma send_one_twin s s' r r' : twin s s' -> asked_same r r' ->
  fst (stack_send_one s (Request r)) = fst (stack_send_one s' (Request r')) /\
  twin (snd (stack_send_one s (Request r))) (snd (stack_send_one s' (Request r'))) /\
  same (stack_send_one_log sh s (Request r)) (stack_send_one_log sh s' (Request r')).
Proof.
  intros (P & P' & C & T) (Sr & V & G & G').
  unfold stack_send_one, stack_send_one_log. destruct (st_draws s (st_requests s)) as [rnd pad], (st_draws s' (st_requests s')) as [rnd' pad'].
  cbn [st_connection st_transport st_password]. set (c := st_connection s) in *. set (c' := st_connection s') in *.
  destruct (csame_both _ _ _ Ky C) as (B & Sa & Sa' & X & X').
  pose proof (send_entries sh rnd pad rnd' pad' c c' r r' Sa Sa' B Sr V G G') as E. rewrite X, X' in E.
  rewrite !send_request. rewrite <- (both_state _ _ B).
  destruct (outstanding (elgas_state c)) as [srv|].
  { split; [reflexivity|]. split; [split; [exact P|split; [exact P'|split; [exact C|exact T]]]|].
    apply same_app; [exact E|constructor]. }
  pose proof (serialise_cases rnd pad c r Sa ltac:(rewrite X; exact Ky) V G) as Y.
  pose proof (serialise_cases rnd' pad' c' r' Sa' ltac:(rewrite X'; exact Ky) (same_request_times _ _ Sr V) G') as Y'.
  rewrite (same_failure c c' r r' B Sr G G') in Y. rewrite (same_request_service _ _ Sr) in *.
  assert (csame ctx (set_state c (awaiting (request_service r'))) (set_state c' (awaiting (request_service r')))) as C1.
  { destruct C as (C1 & C2 & C3 & C4). repeat split; [exact C1|exact C2|exact C3]. }
  destruct (failure c' r') as [e|].
  { assert (serialise rnd pad c r = Err e) as -> by (destruct Y as [[Y _]|[Y _]]; exact Y).
    assert (serialise rnd' pad' c' r' = Err e) as -> by (destruct Y' as [[Y' _]|[Y' _]]; exact Y').
    split; [reflexivity|]. split; [split; [exact P|split; [exact P'|split; [exact C1|exact T]]]|].
    apply same_app; [exact E|constructor]. }
  destruct Y as (app & out & Pd & -> & Y). destruct Y' as (app' & out' & Pd' & -> & Y').
  destruct (tw_write _ _ out out' T) as [W T1].
  unfold transport_write_log, transport_value. cbn [st_set_connection st_transport].
  destruct (transport_write (st_transport s) out) as [a t1], (transport_write (st_transport s') out') as [a' t1']. cbn [fst snd] in *. subst a'.
  destruct a as [[u|x]|].
  - cbn [st_set_transport st_transport st_connection].
    destruct (tw_read _ _ T1) as [R T2]. pose proof (read_log_same _ _ T1) as RL.
    assert (same [mk_entry Debug (text "Sent data") [(text "data", Plain (show_bytes sh out)); (text "transport", Plain (show_socket sh (length (log (env t1)))))]]
                 [mk_entry Debug (text "Sent data") [(text "data", Plain (show_bytes sh out')); (text "transport", Plain (show_socket sh (length (log (env t1')))))]]) as SL.
    { constructor; [|constructor]. rewrite (tw_length _ _ T1). apply (entry_line sh ctx ctx r r' out out').
      - destruct C as (Cf & _). unfold config in Cf. injection Cf as c1 c2 c3 c4 _. rewrite X in Y. exists app. split; [eapply pdu_data; exact Pd|].
        rewrite <- function_code_ok, (same_request_service _ _ Sr). unfold ConnectionProofs.sends in Y. rewrite c1, c2, c3, c4 in Y.
        destruct ctx as [[i k]|]; [|exact Y]. destruct Y as (p & _ & Se & On). exists p. split; [exact Se|exact On].
      - destruct C as (_ & Cf & _). unfold config in Cf. injection Cf as c1 c2 c3 c4 _. rewrite X' in Y'. exists app'. split; [eapply pdu_data; exact Pd'|].
        rewrite <- function_code_ok. unfold ConnectionProofs.sends in Y'. rewrite c1, c2, c3, c4 in Y'.
        destruct ctx as [[i k]|]; [|exact Y']. destruct Y' as (p & _ & Se & On). exists p. split; [exact Se|exact On].
      - exact Sr. }
    destruct (transport_read t1) as [a2 t2], (transport_read t1') as [a2' t2']. cbn [fst snd] in *. subst a2'. rewrite RL.
    destruct a2 as [[b|x]|].
    + split; [reflexivity|]. split.
      { split; [exact P|split; [exact P'|split; [apply csame_receive; exact C1|exact T2]]]. }
      apply same_app; [exact E|]. apply same_app; [exact SL|]. rewrite (csame_receive_log sh ctx _ _ b C1). apply same_refl.
    + split; [reflexivity|]. split; [split; [exact P|split; [exact P'|split; [exact C1|exact T2]]]|].
      apply same_app; [exact E|]. apply same_app; [exact SL|]. apply same_refl.
    + split; [reflexivity|]. split; [split; [exact P|split; [exact P'|split; [exact C1|exact T2]]]|].
      apply same_app; [exact E|]. apply same_app; [exact SL|]. apply same_refl.
  - split; [reflexivity|]. split; [split; [exact P|split; [exact P'|split; [exact C1|exact T1]]]|].
    apply same_app; [exact E|]. apply same_refl.
  - split; [reflexivity|]. split; [split; [exact P|split; [exact P'|split; [exact C1|exact T1]]]|].
    apply same_app; [exact E|]. apply same_refl.
Qed.
Lemma loop_twin fuel : forall s s', twin s s' ->
  fst (stack_next_event_loop fuel s) = fst (stack_next_event_loop fuel s') /\
  twin (snd (stack_next_event_loop fuel s)) (snd (stack_next_event_loop fuel s')) /\
  same (stack_next_event_loop_log sh fuel s) (stack_next_event_loop_log sh fuel s').
Proof.
  induction fuel as [|fuel IH]; intros s s' (P & P' & C & T); cbn [stack_next_event_loop stack_next_event_loop_log];
    destruct (csame_next _ _ _ C) as [E C1]; rewrite <- (csame_next_log sh _ _ _ C);
    destruct (next_event (st_connection s)) as [a c], (next_event (st_connection s')) as [a' c']; cbn [fst snd] in *; subst a';
    destruct a as [[p|]|e]; try (split; [reflexivity|]; split; [split; [exact P|split; [exact P'|split; [exact C1|exact T]]]|apply same_refl]).
  cbn [st_set_connection st_set_transport st_transport st_connection].
  destruct (tw_read _ _ T) as [R T2]. rewrite <- (read_log_same _ _ T).
  destruct (transport_read (st_transport s)) as [a2 t2], (transport_read (st_transport s')) as [a2' t2']. cbn [fst snd] in *. subst a2'.
  destruct a2 as [[b|x]|].
  - edestruct (IH (st_set_connection (st_set_transport s t2) (receive_data c b)) (st_set_connection (st_set_transport s' t2') (receive_data c' b))) as (I1 & I2 & I3).
    { split; [exact P|split; [exact P'|split; [apply csame_receive; exact C1|exact T2]]]. }
    split; [exact I1|]. split; [exact I2|]. apply same_app; [apply same_refl|]. apply same_app; [apply same_refl|].
    rewrite (csame_receive_log sh ctx _ _ b C1). apply same_app; [apply same_refl|exact I3].
  - split; [reflexivity|]. split; [split; [exact P|split; [exact P'|split; [exact C1|exact T2]]]|]. apply same_refl.
  - split; [reflexivity|]. split; [split; [exact P|split; [exact P'|split; [exact C1|exact T2]]]|]. apply same_refl.
Qed.
Lemma exchange_twin s s' r r' : twin s s' -> asked_same r r' ->
  fst (stack_exchange s r) = fst (stack_exchange s' r') /\ twin (snd (stack_exchange s r)) (snd (stack_exchange s' r')) /\
  same (stack_exchange_log sh s r) (stack_exchange_log sh s' r').
Proof.
  intros T A. unfold stack_exchange, stack_exchange_log, stack_send. destruct (send_one_twin s s' r r' T A) as (E & T1 & L).
  destruct (stack_send_one s (Request r)) as [a s1], (stack_send_one s' (Request r')) as [a' s1']. cbn [fst snd] in *. subst a'.
  destruct a as [[u|x]|].
  - unfold stack_next_event, stack_next_event_log. rewrite <- (tw_incoming _ _ (proj2 (proj2 (proj2 T1)))).
    destruct (loop_twin (S (available (incoming (env (st_transport s1))))) s1 s1' T1) as (E2 & T2 & L3).
    split; [exact E2|]. split; [exact T2|]. apply same_app; assumption.
  - split; [reflexivity|]. split; [exact T1|]. apply same_app; [exact L|constructor].
  - split; [reflexivity|]. split; [exact T1|]. apply same_app; [exact L|constructor].
Qed.
Lemma pw_same (f : str -> request) : (forall p p', SpecSecret.same_request (f p) (f p')) -> (forall p q, request_password (f p) = Some q -> q = p) ->
  request_times_valid (f pw) -> asked_same (f pw) (f pw').
Proof.
  intros S Q V. split; [apply S|]. split; [exact V|]. split; intros q E; apply Q in E; subst q; split; assumption.
Qed.
Lemma parameters_twin fuel : forall s s' n acc, twin s s' ->
  fst (stack_read_parameters_loop fuel s n acc) = fst (stack_read_parameters_loop fuel s' n acc) /\
  twin (snd (stack_read_parameters_loop fuel s n acc)) (snd (stack_read_parameters_loop fuel s' n acc)) /\
  same (stack_read_parameters_loop_log sh fuel s n acc) (stack_read_parameters_loop_log sh fuel s' n acc).
Proof.
  induction fuel as [|fuel IH]; intros s s' n acc T.
  { split; [reflexivity|]. split; [exact T|constructor]. }
  cbn [stack_read_parameters_loop stack_read_parameters_loop_log].
  pose proof T as (P & P' & _ & _). rewrite P, P'.
  destruct (exchange_twin s s' _ _ T (pw_same (fun p => ReadDeviceParametersRequest p n 1024) ltac:(constructor) ltac:(intros p q H; injection H; auto) I)) as (E & T1 & L).
  destruct (stack_exchange s (ReadDeviceParametersRequest pw n 1024)) as [a s1], (stack_exchange s' (ReadDeviceParametersRequest pw' n 1024)) as [a' s1'].
  cbn [fst snd] in *. subst a'.
  destruct a as [[p|x]|].
  2,3: split; [reflexivity|]; split; [exact T1|]; apply same_cons; apply same_app; [exact L|constructor].
  destruct p; try (split; [reflexivity|]; split; [exact T1|]; apply same_cons; apply same_app; [exact L|constructor]).
  cbv zeta. destruct is_end.
  { split; [reflexivity|]; split; [exact T1|]; apply same_cons; apply same_app; [exact L|apply same_refl]. }
  destruct (IH s1 s1' (n + object_amount) (acc ++ data) T1) as (I1 & I2 & I3).
  split; [exact I1|]; split; [exact I2|]; apply same_cons; apply same_app; [exact L|]. apply same_cons, same_cons. exact I3.
Qed.
Lemma stack_map_twin {A B} (f : A -> B) x x' : fst x = fst x' -> twin (snd x) (snd x') ->
  fst (stack_map f x) = fst (stack_map f x') /\ twin (snd (stack_map f x)) (snd (stack_map f x')).
Proof.
  destruct x as [a s], x' as [a' s']. cbn [fst snd]. intros <- T. destruct a as [[v|e]|]; (split; [reflexivity|exact T]).
Qed.
Lemma operate_twin s s' o : twin s s' -> operation_times_valid o ->
  fst (stack_operate s o) = fst (stack_operate s' o) /\ twin (snd (stack_operate s o)) (snd (stack_operate s' o)) /\
  same (operate_log sh s o) (operate_log sh s' o).
Proof.
  intros T V. pose proof T as (P & P' & C & Tt).
  assert (forall (A B : Type) (f : A -> B) x x' l l', fst x = fst x' /\ twin (snd x) (snd x') /\ same l l' ->
    fst (stack_map f x) = fst (stack_map f x') /\ twin (snd (stack_map f x)) (snd (stack_map f x')) /\ same l l') as M.
  { intros A B f x x' l l' (E & U & S). destruct (stack_map_twin f x x' E U). auto. }
  destruct o; cbn [stack_operate operate_log]; apply M; clear M.
  - destruct (tw_connect _ _ Tt) as [E T1]. unfold stack_connect, transport_connect_log.
    destruct (transport_connect (st_transport s)) as [a t1], (transport_connect (st_transport s')) as [a' t1']. cbn [fst snd] in *. subst a'.
    split; [reflexivity|]. split; [split; [exact P|split; [exact P'|split; [exact C|exact T1]]]|apply same_refl].
  - destruct (tw_disconnect _ _ Tt) as (O & E & T1). unfold stack_disconnect, transport_disconnect_log. rewrite <- O.
    destruct (transport_disconnect (st_transport s)) as [a t1], (transport_disconnect (st_transport s')) as [a' t1']. cbn [fst snd] in *. subst a'.
    split; [reflexivity|]. split; [split; [exact P|split; [exact P'|split; [exact C|exact T1]]]|apply same_refl].
  - unfold stack_read_instantaneous_values, stack_read_instantaneous_values_log. rewrite P, P'.
    destruct (exchange_twin s s' _ _ T (pw_same ReadInstantaneousValuesRequest ltac:(constructor) ltac:(intros p q H; injection H; auto) I)) as (E & T1 & L).
    split; [exact E|]. split; [exact T1|].
    destruct (stack_exchange s _) as [a s1], (stack_exchange s' _) as [a' s1']. cbn [fst snd] in *. subst a'.
    apply same_cons, same_app; [exact L|]. apply same_refl.
  - unfold stack_read_time, stack_read_time_log.
    assert (asked_same ReadTimeRequest ReadTimeRequest) as A.
    { split; [constructor|]. split; [exact I|]. split; intros p H; discriminate. }
    destruct (exchange_twin s s' _ _ T A) as (E & T1 & L).
    destruct (stack_exchange s _) as [a s1], (stack_exchange s' _) as [a' s1']. cbn [fst snd] in *. subst a'.
    destruct a as [[p|x]|].
    2,3: split; [reflexivity|]; split; [exact T1|]; apply same_cons, same_app; [exact L|constructor].
    destruct p; (split; [reflexivity|]; split; [exact T1|]; apply same_cons, same_app; [exact L|apply same_refl]).
  - unfold stack_write_time, stack_write_time_log. rewrite P, P'. rename t into dt.
    destruct (exchange_twin s s' _ _ T (pw_same (fun p => WriteTimeRequest p dt cryout) ltac:(constructor) ltac:(intros p q H; injection H; auto) V)) as (E & T1 & L).
    destruct (stack_exchange s _) as [a s1], (stack_exchange s' _) as [a' s1']. cbn [fst snd] in *. subst a'.
    destruct a as [[p|x]|]; (split; [reflexivity|]; split; [exact T1|]; apply same_cons, same_app; [exact L|apply same_refl]).
  - unfold stack_read_parameters, stack_read_parameters_log. rewrite <- (tw_incoming _ _ Tt).
    destruct (parameters_twin (S (available (incoming (env (st_transport s))))) s s' read_from [] T) as (E & T1 & L).
    split; [exact E|]. split; [exact T1|]. apply same_cons. exact L.
  - unfold stack_read_archive. rewrite P, P'.
    apply exchange_twin; [exact T|]. apply (pw_same (fun p => ReadArchiveRequest p archive amount oldest_record_id)); [constructor|intros p q H; injection H; auto|exact I].
  - unfold stack_read_archive_by_time. rewrite P, P'.
    apply exchange_twin; [exact T|]. apply (pw_same (fun p => ReadArchiveByTimeRequest p archive amount t)); [constructor|intros p q H; injection H; auto|exact V].
Qed.
Lemma session_twin os : forall s s', twin s s' -> Forall operation_times_valid os ->
  fst (stack_session s os) = fst (stack_session s' os) /\ same (session_log sh s os) (session_log sh s' os).
Proof.
  induction os as [|o os IH]; intros s s' T V; [split; [reflexivity|constructor]|].
  pose proof (Forall_inv V) as V0. pose proof (Forall_inv_tail V) as V1.
  cbn [stack_session session_log]. destruct (operate_twin s s' o T V0) as (E & T1 & L).
  destruct (stack_operate s o) as [a s1], (stack_operate s' o) as [a' s1']. cbn [fst snd] in *. subst a'.
  destruct (IH s1 s1' T1 V1) as [I1 I2].
  destruct (stack_session s1 os) as [vs s2], (stack_session s1' os) as [vs' s2']. cbn [fst] in I1. subst vs'.
  destruct a; (split; [reflexivity|]); apply same_app; auto; constructor.
Qed.
End Twins.

(** ** statements used in PropLog.v *)
Lemma make_stack_fields t pw pid k id dr s : make_stack t pw pid k id dr = Ok s ->
  len pw <= 6 /\ st_password s = pw /\ config (st_connection s) = (0, 0, 0, 0, client_context k id) /\
  elgas_state (st_connection s) = IDLE /\ buffer (st_connection s) = [] /\ st_transport s = t.
Proof.
  intros M. apply make_stack_inv in M as [T M]. specialize (M [] [] [] []). apply make_client_inv in M as (L & P & _ & C & S & B).
  cbn in P, S, B. unfold client_config in C. cbn in C. auto 10.
Qed.
Lemma key_ok_context k id : key_bytes k -> key_ok (client_context k id).
Proof. destruct k as [[|b k]|], id; cbn; auto. Qed.
Lemma log_same sh t pw pid dr s pw' pid' dr' s' k id os :
  make_stack t pw pid k id dr = Ok s -> make_stack t pw' pid' k id dr' = Ok s' -> key_bytes k ->
  latin1 pw -> latin1 pw' -> Forall operation_times_valid os ->
  fst (stack_session s os) = fst (stack_session s' os) /\
  Forall2 (same_but_requests sh (client_context k id) (client_context k id)) (session_log sh s os) (session_log sh s' os).
Proof.
  intros M M' K L L' V. apply make_stack_fields in M as (N & P & C & S & B & T), M' as (N' & P' & C' & S' & B' & T').
  apply (session_twin sh (client_context k id) pw pw' (key_ok_context k id K) L L' N N'); [|exact V].
  split; [exact P|]. split; [exact P'|]. split; [|rewrite T, T'; apply tw_refl].
  split; [exact C|]. split; [exact C'|]. rewrite S, S', B, B'. split; reflexivity.
Qed.
Lemma info_same sh ctx ctx' sr br st l l' : Forall2 (same_but_requests sh ctx ctx') l l' ->
  map (rendered sr br st) (info l) = map (rendered sr br st) (info l').
Proof.
  induction 1 as [|e e' l l' E F IH]; [reflexivity|]. unfold info in *. cbn [filter].
  destruct E as [e e' E|cls f f' _ _ _|r r' a a' x _ _ _]; [|exact IH|exact IH].
  specialize (E sr br st). assert (severity e = severity e') as Q by (unfold rendered in E; injection E; auto).
  rewrite <- Q. destruct (severity e); [exact IH|]. cbn [map]. rewrite E, IH. reflexivity.
Qed.
Lemma log_info sh sr br st t pw pid dr s pw' pid' dr' s' k id os :
  make_stack t pw pid k id dr = Ok s -> make_stack t pw' pid' k id dr' = Ok s' -> key_bytes k ->
  latin1 pw -> latin1 pw' -> Forall operation_times_valid os ->
  map (rendered sr br st) (info (session_log sh s os)) = map (rendered sr br st) (info (session_log sh s' os)).
Proof. intros. eapply info_same, (log_same sh t pw pid dr s pw' pid' dr' s' k id os); eassumption. Qed.

(** *** without a key *)
Lemma frame_shows sh f : entry_shows (mk_entry Debug (text "Sending ELGAS request") [(text "request", frame_object sh "Request" f)]) (show_bytes sh (f_data f)).
Proof.
  intros sr br st. eexists _, _. split; [left; reflexivity|]. unfold frame_object. apply instance_shows with (name := text "data"). cbn; tauto.
Qed.
Lemma opens_times o pw r : opens pw o = Some r -> operation_times_valid o -> request_times_valid r.
Proof. destruct o; cbn; intros E V; try discriminate; injection E as <-; exact V || exact I. Qed.
Lemma exchange_log_logs sh s o r : opens (st_password s) o = Some r -> incl (stack_send_one_log sh s (Request r)) (operate_log sh s o).
Proof.
  intros O. destruct o; try discriminate; injection O as <-; cbn [operate_log].
  - unfold stack_read_instantaneous_values_log, stack_exchange_log. apply incl_tl, incl_appl, incl_appl, incl_refl.
  - unfold stack_read_time_log, stack_exchange_log. apply incl_tl, incl_appl, incl_appl, incl_refl.
  - unfold stack_write_time_log, stack_exchange_log. apply incl_tl, incl_appl, incl_appl, incl_refl.
  - unfold stack_read_parameters_log. cbn [stack_read_parameters_loop_log]. unfold stack_exchange_log. apply incl_tl, incl_tl, incl_appl, incl_appl, incl_refl.
  - unfold stack_exchange_log. apply incl_appl, incl_refl.
  - unfold stack_exchange_log. apply incl_appl, incl_refl.
Qed.
Lemma password_logged sh t pw pid k id dr s o r : make_stack t pw pid k id dr = Ok s -> client_context k id = None ->
  opens pw o = Some r -> request_password r <> None -> encodable r ->
  exists e rest, In e (operate_log sh s o) /\ entry_shows e (show_bytes sh (pw ++ rest)).
Proof.
  intros M N O Q (F & V). apply make_stack_fields in M as (L & P & C & S & B & T).
  assert (request_password r = Some pw) as Pr.
  { destruct o; try discriminate; injection O as <-; try reflexivity. cbn in Q. congruence. }
  destruct (st_draws s (st_requests s)) as [rnd pad] eqn:D.
  pose proof (pdu_to_bytes_error rnd r V) as Pd. rewrite F in Pd. destruct Pd as [app Pd].
  destruct (pdu_password rnd r pw app Pr Pd) as [rest ->].
  exists (mk_entry Debug (text "Sending ELGAS request") [(text "request", frame_object sh "Request" (frame_of (st_connection s) (request_service r) (pw ++ rest)))]), rest.
  split; [|apply frame_shows]. rewrite <- P in O. apply (exchange_log_logs sh s o r O). unfold stack_send_one_log. rewrite D. apply in_or_app. left.
  unfold send_log. right. apply in_or_app. right. rewrite process_request, S. cbn [outstanding]. rewrite Pd.
  unfold config in C. injection C as _ _ _ _ C. rewrite C, N. left. reflexivity.
Qed.

(** *** received data *)
Lemma decryption_logged sh c srv d1 d2 s1 s2 d p k id t rest : addresses d1 d2 s1 s2 -> is_bytes d -> len d <= 65520 ->
  context c = Some (mk_context id k) -> key16 k -> 0 <= id <= 255 -> seals k id d p -> len p <= 65520 ->
  on_line (response_wire 135 (service_number srv) d1 d2 s1 s2 p) t -> buffer c = t ++ rest ->
  exists e, In e (next_event_log sh c) /\ entry_shows e (show_bytes sh d).
Proof.
  intros Ha Hd Hl C Hk Hi Hs Hlp Ho B.
  destruct (seals_decrypt k id d p Hk Hi Hd ltac:(lia) Hs) as (Bp & Dp).
  exists (mk_entry Debug (text "Decrypted ELGAS response") [(text "decrypted", frame_object sh "EncryptedResponse" (mk_frame srv d1 d2 s1 s2 d))]).
  split.
  - unfold next_event_log. pose proof Ho as (q & -> & Hq & Hu). rewrite B. rewrite <- app_assoc. cbn [app].
    rewrite index_of_app by exact Hq. destruct (q ++ 13 :: rest) as [|b l] eqn:E; [destruct q; discriminate|]. rewrite <- E.
    apply in_or_app. left.
    change (q ++ 13 :: rest) with (q ++ [13] ++ rest). rewrite app_assoc, slice_to_app by (rewrite len_app; reflexivity).
    unfold interpret_log. apply return_unesc in Hu. rewrite Hu. rewrite factory_encrypted by assumption. rewrite C. cbn [f_data].
    rewrite Dp. right. left. reflexivity.
  - intros sr br st. eexists _, _. split; [left; reflexivity|]. unfold frame_object. apply instance_shows with (name := text "data"). cbn; tauto.
Qed.

(** *** keys *)
Lemma key_send sh rnd pad rnd' pad' c c' r r' x x' : same_connection c c' -> context c = Some x -> context c' = Some x' ->
  key16 (key x) -> key16 (key x') -> addresses (c_destination_1 c) (c_destination_2 c) (c_source_1 c) (c_source_2 c) ->
  SpecSecret.same_request r r' -> request_times_valid r -> good_password r -> good_password r' ->
  Forall2 (same_but_requests sh (context c) (context c')) (send_log sh rnd pad c (Request r)) (send_log sh rnd' pad' c' (Request r')).
Proof.
  intros (E1 & E2 & E3 & E4 & _ & _ & _ & _ & E5 & E6) C C' [K L] [K' L'] A S V G G'. unfold same_context in E6. rewrite C, C' in E6.
  apply send_entries; auto.
  - unfold sane. rewrite <- E1, <- E2, <- E3, <- E4. exact A.
  - unfold both. rewrite E1, E2, E3, E4, E5, C, C'. do 5 (split; [reflexivity|]). split; [exact E6|]. split; [exact K|]. split; [exact K'|]. tauto.
Qed.
Lemma key_next_event sh c c' : same_connection c c' ->
  (forall d, encrypted_payload (buffer c) d -> same_decryption c c' d) -> next_event_log sh c = next_event_log sh c'.
Proof.
  intros (_ & _ & _ & _ & _ & _ & _ & B & S & X) D. unfold next_event_log. rewrite <- B, <- S.
  pose proof (index_of_spec 13 (buffer c)) as I. destruct (buffer c) as [|b0 bl] eqn:E; [reflexivity|]. rewrite <- E in *.
  destruct (index_of 13 (buffer c)) as [i|]; [|reflexivity]. destruct I as (p & s & Eb & <- & Np).
  assert (slice_to (len p + 1) (buffer c) = p ++ [13]) as ->.
  { rewrite Eb. change (p ++ 13 :: s) with (p ++ [13] ++ s). rewrite app_assoc. apply slice_to_app. rewrite len_app. reflexivity. }
  assert (forall w f, return_characters (p ++ [13]) = Ok w -> response_factory w = Ok (EncryptedResponse f) -> same_decryption c c' (f_data f)) as D'.
  { intros w f R F. apply D. exists (p ++ [13]), s, w, f. rewrite <- app_assoc. split; [exact Eb|]. split; [|auto].
    exists p. split; [reflexivity|]. split; [exact Np|]. apply return_unesc. exact R. }
  assert (interpret (context c) (p ++ [13]) = interpret (context c') (p ++ [13])) as EI.
  { unfold interpret. destruct (return_characters (p ++ [13])) as [w|] eqn:R; [|reflexivity]. cbn [bind].
    destruct (response_factory w) as [[f|f]|] eqn:F; try reflexivity. cbn [bind].
    specialize (D' w f eq_refl F). unfold same_decryption in D'.
    destruct (context c), (context c'); try contradiction; [rewrite D'|]; reflexivity. }
  rewrite <- EI. f_equal. unfold interpret_log. rewrite <- EI.
  destruct (return_characters (p ++ [13])) as [w|] eqn:R; [|reflexivity].
  destruct (response_factory w) as [[f|f]|] eqn:F; try reflexivity.
  specialize (D' w f eq_refl F). unfold same_decryption in D'.
  destruct (context c), (context c'); try contradiction; [rewrite D'|]; reflexivity.
Qed.
