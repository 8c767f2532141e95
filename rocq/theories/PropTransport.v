(** C53-C56, C67-C69: the transports and the Timeout class (elgas/transport.py). *)
From Verif Require Import PyFacts SpecUtils SpecFrames SpecSecurity SpecConnection SpecApplication SpecPdu SpecText.
From Verif Require Import Connection PropConnection ParamLang Parameters Client SpecClient PropClient.
From Verif Require Import Transport SpecTransport TransportProofs SpecStack StackProofs PropParameters.
Open Scope list_scope.
Open Scope Z_scope.

(** *** an open transport for the examples: the clock shows 0, 1, 2, ... *)
Definition reader (k : kind) (to : option Z) (reads : list (res bytes)) : transport :=
  mk_transport k to true (mk_environment [] reads (fun i => Z.of_nat i) 0 []).

(** C53 *)
(** recv_until(expected, size), with any stream, splitting and clock *)
Theorem C53_recv_until : forall t expected size line rest later,
  is_open t = true -> expected <> [] -> frame expected size line -> arriving (incoming (env t)) (line ++ rest) later ->
  exists got missing t', recv_until t expected size = (Done (Ok got), t') /\
    line = got ++ missing /\ got <> [] /\ arriving (incoming (env t')) (missing ++ rest) later /\
    same_but_reads t t' /\ (patient t -> missing = []).
Proof. exact recv_until_frame. Qed.
Print Assumptions C53_recv_until.
(** recv *)
Theorem C53_recv : forall t line rest later,
  is_open t = true -> one_telegram line -> arriving (incoming (env t)) (line ++ rest) later ->
  exists got missing t', transport_read t = (Done (Ok got), t') /\
    line = got ++ missing /\ got <> [] /\ arriving (incoming (env t')) (missing ++ rest) later /\
    same_but_reads t t' /\ (patient t -> missing = []).
Proof. exact receive_telegram. Qed.
Print Assumptions C53_recv.
(** several calls of recv *)
Theorem C53_recv_telegrams : forall lines t rest later,
  is_open t = true -> patient t -> Forall one_telegram lines -> arriving (incoming (env t)) (concat lines ++ rest) later ->
  exists t', receives t (length lines) = (map (fun l => Done (Ok l)) lines, t') /\
    arriving (incoming (env t')) rest later /\ same_but_reads t t'.
Proof. exact receive_telegrams. Qed.
Print Assumptions C53_recv_telegrams.
Example C53_ex :
  let t := reader Tcp (Some 1000) [Ok [1; 2]; Ok []; Ok [3; 13; 4]; Ok [5; 13; 6]] in
  patient (reader Tcp None (incoming (env t))) /\ one_telegram [1; 2; 3; 13] /\
  arriving (incoming (env t)) ([1; 2; 3; 13] ++ [4; 5; 13; 6]) [] /\
  (let '(rs, t') := receives t 2 in rs = [Done (Ok [1; 2; 3; 13]); Done (Ok [4; 5; 13])] /\ incoming (env t') = [Ok [6]]).
Proof.
  split; [exact I|]. split; [exists [1; 2; 3]; split; [reflexivity|]; intros [H|[H|[H|[]]]]; discriminate|].
  split; [|vm_compute; split; reflexivity].
  exists [[1; 2]; []; [3; 13; 4]; [5; 13; 6]]. split; reflexivity.
Qed.
(** two ticks of the clock are too many: the telegram comes in parts *)
Example C53_expiring :
  let '(rs, t') := receives (reader Tcp (Some 2) [Ok [1; 2]; Ok []; Ok [3; 4; 13; 4]]) 3 in
  rs = [Done (Ok [1; 2]); Done (Ok [3; 4]); Done (Ok [13])] /\ incoming (env t') = [Ok [4]].
Proof. vm_compute. split; reflexivity. Qed.
Example C53_size : frame [13; 10] (Some 4) [1; 13; 2; 10] /\
  fst (recv_until (reader Tcp None [Ok [1; 13; 2]; Ok [10; 13; 10]]) [13; 10] (Some 4)) = Done (Ok [1; 13; 2; 10]).
Proof.
  split; [|vm_compute; reflexivity]. split; [split; [discriminate|]; right; exists 4; split; [reflexivity|vm_compute; discriminate]|].
  intros p q E N [_ [(f & ->)|(s & H & Hs)]].
  - destruct f as [|a [|b [|c [|d f]]]]; cbn in E; inversion E; subst. destruct f; discriminate.
  - inversion H; subst. apply (f_equal (@len Z)) in E. rewrite len_app in E. pose proof (len_nonneg p).
    destruct q as [|z q]; [contradiction|]. rewrite (len_cons z q) in E. pose proof (len_nonneg q). change (4 = len p + (1 + len q)) in E. Lia.lia.
Qed.

(** C54 *)
(** the peer has closed the connection, or is silent: empty reads follow, and
    however many there are, recv has not returned and has used all of them *)
Theorem C54_recv_ends_refuted : forall t todo n,
  is_open t = true -> patient t -> ~ In 13 todo -> arriving (incoming (env t)) todo (repeat (Ok []) n) ->
  exists t', transport_read t = (Waiting, t') /\ incoming (env t') = [].
Proof. exact silent_forever. Qed.
Print Assumptions C54_recv_ends_refuted.
(** without a first byte the timer is never looked at, whatever the clock shows *)
Theorem C54_timeout_before_first_byte_refuted : forall t n,
  is_open t = true -> incoming (env t) = repeat (Ok []) n ->
  exists t', transport_read t = (Waiting, t') /\ incoming (env t') = [].
Proof. exact silent_from_start. Qed.
Print Assumptions C54_timeout_before_first_byte_refuted.
(** an error of the socket (a timeout of it included) ends recv; the bytes read
    before it are lost *)
Theorem C54_error_ends_recv : forall t todo n more,
  is_open t = true -> patient t -> ~ In 13 todo ->
  arriving (incoming (env t)) todo (repeat (Ok []) n ++ Err OSError :: more) ->
  exists t', transport_read t = (Done (Err CommunicationError), t') /\ incoming (env t') = more.
Proof. exact error_raised. Qed.
Print Assumptions C54_error_ends_recv.
Example C54_ex :
  fst (transport_read (reader Tcp (Some 50) ([Ok [1; 2]] ++ repeat (Ok []) 100))) = Waiting /\
  fst (transport_read (reader Serial (Some 0) (repeat (Ok []) 100))) = Waiting /\
  (let '(r, t') := transport_read (reader Tcp None ([Ok [1; 2]] ++ Err OSError :: [Ok [3; 13]])) in
   r = Done (Err CommunicationError) /\ incoming (env t') = [Ok [3; 13]]) /\
  patient (reader Tcp None []).
Proof. split; [|split; [|split; [|exact I]]]; vm_compute; repeat split; reflexivity. Qed.

(** C55 *)
Theorem C55_lifecycle : forall k to e cs h t c r t',
  only_os_errors e -> transport_run (make_transport k to e) cs = (h, t) -> transport_step t c = (r, t') ->
  lawful_call (connected h) t c r t' /\ is_open t' = connected (h ++ [(c, r)]).
Proof. exact lifecycle. Qed.
Print Assumptions C55_lifecycle.
Definition failing : environment :=
  mk_environment [Some OSError; None; None; Some OSError; Some OSError; None] [Ok [1; 13]] (fun _ => 0) 0 [].
Example C55_ex :
  only_os_errors failing /\
  (let '(h, t) := transport_run (make_transport Tcp (Some 10) failing)
     [TConnect; TSend [1]; TConnect; TConnect; TSend [2]; TRecv; TSend [3]; TDisconnect; TRecv; TDisconnect; TConnect] in
   map snd h = [Done (Err CommunicationError); Done (Err RuntimeError); Done (Ok TNothing); Done (Err RuntimeError); Done (Ok TNothing);
     Done (Ok (TData [1; 13])); Done (Err CommunicationError); Done (Err CommunicationError); Done (Err RuntimeError); Done (Ok TNothing);
     Done (Ok TNothing)] /\
   connected h = true /\ log (env t) = [SOpen; SOpen; SWrite [2]; SWrite [3]; SShutdown; SOpen]).
Proof.
  split; [|vm_compute; repeat split; reflexivity].
  split; cbn; repeat constructor; auto; intros x H; discriminate.
Qed.

(** C56 *)
(** whatever the clock shows *)
Theorem C56_time_left_in_range : forall now n d k t n', 0 <= d -> make_timeout now n (Some d) = (t, n') ->
  Forall (fun r => exists x, r = Ok (Some x) /\ 0 <= x <= d) (times_left now n' t k).
Proof. exact timeout_bounds. Qed.
Print Assumptions C56_time_left_in_range.
Theorem C56_none_never_expires : forall now n k t n', make_timeout now n None = (t, n') ->
  times_left now n' t k = repeat (Ok None) k /\ expirations now n' t k = repeat (Ok false) k.
Proof. exact timeout_infinite. Qed.
Print Assumptions C56_none_never_expires.
Theorem C56_zero_always_expired : forall now n k t n', make_timeout now n (Some 0) = (t, n') ->
  times_left now n' t k = repeat (Ok (Some 0)) k /\ expirations now n' t k = repeat (Ok true) k.
Proof. exact timeout_zero. Qed.
Print Assumptions C56_zero_always_expired.
(** with a clock that does not go back: the i-th reading decides *)
Theorem C56_expires_at_target : forall now n d k t n', 0 < d -> steady now -> make_timeout now n (Some d) = (t, n') ->
  times_left now n' t k = map (fun i => Ok (Some (Z.max 0 (now n + d - now i)))) (seq (S n) k) /\
  expirations now n' t k = map (fun i => Ok (now n + d <=? now i)) (seq (S n) k).
Proof. exact timeout_steady. Qed.
Print Assumptions C56_expires_at_target.
(** with a clock that jumps back before the start: the time starts anew *)
Theorem C56_jump_starts_anew : forall now n d t n', 0 < d -> make_timeout now n (Some d) = (t, n') -> now (S n) < now n ->
  exists t', expired now n' t = (Ok false, t', S (S (S n))) /\
    ((forall i j, (S n < i <= j)%nat -> now i <= now j) -> forall k,
     expirations now (S (S (S n))) t' k = map (fun i => Ok (now (S (S n)) + d <=? now i)) (seq (S (S (S n))) k)).
Proof. exact timeout_jump. Qed.
Print Assumptions C56_jump_starts_anew.
Definition jumping : clock := fun i => match i with O => 1000 | _ => Z.of_nat i end.
Example C56_ex :
  steady (fun i => Z.of_nat i) /\
  (let '(t, n) := make_timeout (fun i => Z.of_nat i) 0 (Some 3) in expirations (fun i => Z.of_nat i) n t 5 = [Ok false; Ok false; Ok true; Ok true; Ok true]) /\
  jumping 1%nat < jumping 0%nat /\
  (let '(t, n) := make_timeout jumping 0 (Some 3) in
   times_left jumping n t 6 = [Ok (Some 3); Ok (Some 2); Ok (Some 1); Ok (Some 0); Ok (Some 0); Ok (Some 0)]).
Proof.
  split; [intros i j H; apply Znat.inj_le; exact H|]. split; [vm_compute; reflexivity|]. split; [vm_compute; reflexivity|vm_compute; reflexivity].
Qed.

(** C67 *)
Theorem C67_restart_finite : forall now n d d' t n' m k,
  0 < d -> 0 < d' -> steady now -> make_timeout now n (Some d) = (t, n') -> (n' <= m)%nat ->
  exists t', restart now m t (Some d') = (Ok tt, t', S m) /\
    expirations now (S m) t' k = map (fun i => Ok (now m + d' <=? now i)) (seq (S m) k).
Proof. exact restart_finite. Qed.
Print Assumptions C67_restart_finite.
Theorem C67_restart_infinite_refuted : forall now n t n' m d, make_timeout now n None = (t, n') ->
  exists t' m', restart now m t (Some d) = (Ok tt, t', m') /\ fst (fst (expired now m' t')) = Err TypeError.
Proof. exact restart_infinite. Qed.
Print Assumptions C67_restart_infinite_refuted.
Theorem C67_restart_zero_refuted : forall now n t n' m d k, make_timeout now n (Some 0) = (t, n') ->
  exists t' m', restart now m t (Some d) = (Ok tt, t', m') /\ expirations now m' t' k = repeat (Ok true) k.
Proof. exact restart_zero. Qed.
Print Assumptions C67_restart_zero_refuted.
Example C67_ex :
  let now := fun i => Z.of_nat i in
  let '(t, n) := make_timeout now 0 (Some 2) in let '(r, t, n) := restart now 3 t (Some 4) in
  r = Ok tt /\ expirations now n t 6 = [Ok false; Ok false; Ok false; Ok true; Ok true; Ok true].
Proof. vm_compute. split; reflexivity. Qed.

(** C68 *)
(** shutdown fails (the peer is gone): the socket object is dropped, never closed *)
Theorem C68_disconnect_closes_refuted : forall t os,
  is_open t = true -> t_kind t = Tcp -> outcomes (env t) = Some OSError :: os ->
  exists t', transport_disconnect t = (Done (Err CommunicationError), t') /\ log (env t') = log (env t) ++ [SShutdown] /\
    is_open t' = false.
Proof. exact shutdown_failed. Qed.
Print Assumptions C68_disconnect_closes_refuted.
Theorem C68_closes_after_shutdown : forall t os, is_open t = true -> outcomes (env t) = None :: os ->
  exists r t', transport_disconnect t = (r, t') /\ In SClose (log (env t')).
Proof. exact shutdown_done. Qed.
Print Assumptions C68_closes_after_shutdown.
Theorem C68_serial_closes : forall t, is_open t = true -> t_kind t = Serial ->
  exists r t', transport_disconnect t = (r, t') /\ log (env t') = log (env t) ++ [SClose].
Proof. exact serial_closed. Qed.
Print Assumptions C68_serial_closes.
Example C68_ex :
  let t e := mk_transport Tcp None true (mk_environment e [] (fun _ => 0) 0 [SOpen]) in
  log (env (snd (transport_disconnect (t [Some OSError])))) = [SOpen; SShutdown] /\
  log (env (snd (transport_disconnect (t [None; Some OSError])))) = [SOpen; SShutdown; SClose].
Proof. vm_compute. split; reflexivity. Qed.

(** C69 *)
(** a client over a socket or serial port, with a device whose telegrams arrive
    as any byte stream, cut anywhere, with any clock *)
Theorem C69_full_stack : forall pw pid k id os lines rs vs t rest later,
  usable_context (client_context k id) -> talks (client_context k id) pw os lines rs vs ->
  is_open t = true -> arriving (incoming (env t)) (concat lines ++ rest) later ->
  exists results t', receives t (length results) = (map (fun r => Done r) results, t') /\
    arriving (incoming (env t')) rest later /\ same_but_reads t t' /\
    forall w cl more, make_client pw pid k id w = Ok cl -> tx w = [] -> sent w = [] -> rx w = results ++ more ->
      exists cl', session cl os = (vs, cl') /\ Forall2 (request_line (client_context k id)) rs (sent (cl_world cl')) /\
        rx (cl_world cl') = more.
Proof. exact full_stack. Qed.
Print Assumptions C69_full_stack.
Example C69_hypotheses ctx : talks ctx [49; 50] [OpReadTime; OpReadTime] [time_line; time_line] [ReadTimeRequest; ReadTimeRequest]
  [Done (Ok (RTime (mk_datetime 2024 2 29 23 59 58))); Done (Ok (RTime (mk_datetime 2024 2 29 23 59 58)))].
Proof.
  assert (says ctx READ_DEVICE_TIME time_pdu time_line) as S.
  { exists time_data. destruct time_line_answers as (A & _ & N & D). split; [|auto].
    destruct A as [d1 d2 s1 s2 H1 H2 H3 H4|d1 d2 s1 s2 k id p ? ? ? X]; [|discriminate]. eapply plain_answer; eauto. }
  eapply talks_exchange; [reflexivity|split; [reflexivity|exact I]|exact S|constructor|].
  eapply talks_exchange; [reflexivity|split; [reflexivity|exact I]|exact S|constructor|]. constructor.
Qed.
(** two telegrams in three reads, with a clock that lets recv give up after every third byte *)
Example C69_ex :
  let t := reader Tcp (Some 3) [Ok (firstn 5 time_line); Ok (skipn 5 time_line ++ firstn 7 time_line); Ok (skipn 7 time_line)] in
  let '(results, _) := receives t (2 * ((length time_line + 2) / 3)) in
  fst (session (client_of None None (map (fun r => match r with Done x => x | Waiting => Err OSError end) results)) [OpReadTime; OpReadTime])
  = [Done (Ok (RTime (mk_datetime 2024 2 29 23 59 58))); Done (Ok (RTime (mk_datetime 2024 2 29 23 59 58)))].
Proof. vm_compute. reflexivity. Qed.
