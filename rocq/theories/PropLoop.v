(** C105: the closed loop of the client and a device (elgas/client.py, elgas/connection.py). *)
From Verif Require Import PyFacts SpecUtils SpecFrames SpecText SpecApplication SpecPdu SpecSecurity SpecMeaning.
From Verif Require Import SpecConnection Connection ConnectionProofs PropConnection MeansProofs ParamLang Parameters SpecBlock BlockProofs Client SpecClient ClientProofs PropParameters PropClient.
From Verif Require Import TextProofs PropBlock SpecDevice DeviceProofs PropDevice SpecLoop LoopProofs.
Open Scope list_scope.
Open Scope Z_scope.

(** when all that arrives are the reactions of a device to the lines that were sent, the session
    is one that the device serves, and only then *)
Theorem C105_closed_loop : forall pw pid k id w cl d os vs cl' d',
  make_client pw pid k id w = Ok cl -> usable_context (client_context k id) -> latin1 pw -> tx w = [] -> sent w = [] ->
  Forall askable os -> len (dv_memory d) <= 65535 -> session cl os = (vs, cl') ->
  (reacts (client_context k id) pw d (sent (cl_world cl')) (rx w) d' <-> exists qs, serves (client_context k id) d os (rx w) qs vs d').
Proof. exact closed_loop. Qed.
Print Assumptions C105_closed_loop.
(** no call of it waits, no answer is left, and every line is heard *)
Theorem C105_every_call_returns : forall pw pid k id w cl d os vs cl' d',
  make_client pw pid k id w = Ok cl -> usable_context (client_context k id) -> latin1 pw -> tx w = [] -> sent w = [] ->
  Forall askable os -> len (dv_memory d) <= 65535 -> session cl os = (vs, cl') ->
  reacts (client_context k id) pw d (sent (cl_world cl')) (rx w) d' ->
  length vs = length os /\ ~ In Waiting vs /\ rx (cl_world cl') = [] /\
  Forall (fun t => exists q, hears_only (client_context k id) pw q t) (sent (cl_world cl')).
Proof. exact loop_done. Qed.
Print Assumptions C105_every_call_returns.
(** the time that is set is the time that is read *)
Theorem C105_set_and_read : forall pw pid k id w cl d t cryout vs cl' d',
  make_client pw pid k id w = Ok cl -> usable_context (client_context k id) -> latin1 pw -> tx w = [] -> sent w = [] ->
  encodable_time t -> len (dv_memory d) <= 65535 -> session cl [OpWriteTime t cryout; OpReadTime] = (vs, cl') ->
  reacts (client_context k id) pw d (sent (cl_world cl')) (rx w) d' ->
  exists n t', 0 <= n /\ seconds_later n t t' /\ vs = [Done (Ok RNothing); Done (Ok (RTime t'))].
Proof. exact loop_set_and_read. Qed.
Print Assumptions C105_set_and_read.
(** the parameters that are read are the memory *)
Theorem C105_memory_read : forall pw pid k id w cl d n vs cl' d',
  make_client pw pid k id w = Ok cl -> usable_context (client_context k id) -> latin1 pw -> tx w = [] -> sent w = [] ->
  0 <= n <= 65535 -> len (dv_memory d) <= 65535 -> session cl [OpReadParameters n] = (vs, cl') ->
  reacts (client_context k id) pw d (sent (cl_world cl')) (rx w) d' ->
  exists outcome, reads (concat (skipn (Z.to_nat n) (dv_memory d))) outcome /\
    vs = [Done (match outcome with Ok l => Ok (RObjects l) | Err e => Err e end)].
Proof. exact loop_memory_read. Qed.
Print Assumptions C105_memory_read.

(** the conversation of C103 in the loop: a client without a key, three calls, four lines *)
Example C105_hypotheses : exists results d' cl cl' vs,
  make_client [49; 50] 801 None None (mk_world [] results [] [] 0 (fun _ => (fun _ => 0, fun _ => 0))) = Ok cl /\
  session cl [OpWriteTime second_before false; OpReadParameters 0; OpReadTime] = (vs, cl') /\
  reacts None [49; 50] device0 (sent (cl_world cl')) results d' /\ length (sent (cl_world cl')) = 4%nat.
Proof.
  destruct (C103_hypotheses None) as (v & results & d' & S).
  set (w := mk_world [] results [] [] 0 (fun _ => (fun _ => 0, fun _ => 0))).
  assert (exists cl, make_client [49; 50] 801 None None w = Ok cl) as [cl M] by (eexists; reflexivity).
  assert (latin1 [49; 50]) as L by (repeat apply Forall_cons; [lia|lia|constructor]).
  destruct (C103_device_served _ _ _ _ _ _ _ _ _ _ _ _ [] M I L eq_refl eq_refl S ltac:(rewrite app_nil_r; reflexivity)) as (cl' & Es & F & _).
  exists results, d', cl, cl'. eexists. split; [exact M|]. split; [exact Es|]. split.
  - assert (Forall askable [OpWriteTime second_before false; OpReadParameters 0; OpReadTime]) as A.
    { apply Forall_cons; [apply (askable_query _ (SetTime second_before)); constructor; split; [apply valid_datetime_spec; reflexivity|cbn; lia]|].
      apply Forall_cons; [apply askable_parameters; lia|]. apply Forall_cons; [apply (askable_query _ AskTime); constructor|constructor]. }
    assert (len (dv_memory device0) <= 65535) as N by (vm_compute; discriminate).
    pose proof (C105_closed_loop [49; 50] 801 None None w cl device0 _ _ cl' d' M I L eq_refl eq_refl A N Es) as X.
    apply (proj2 X). eexists. exact S.
  - clear - F. inversion F as [|? ? ? ? _ F1]; inversion F1 as [|? ? ? ? _ F2]; inversion F2 as [|? ? ? ? _ F3]; inversion F3 as [|? ? ? ? _ F4]; inversion F4. reflexivity.
Qed.
(** the lines of a device without ears get no answer *)
Example C105_deaf ctx pw d : usable_context ctx -> reacts ctx pw d [[13]] [] d.
Proof.
  intros U. apply reacts_deaf; [|constructor]. intros q (f & d1 & d2 & s1 & s2 & p & x & B & R & H).
  assert (exists T f2 p2, on_line (request_wire T f2 d1 d2 s1 s2 p2) [13]) as (T & f2 & p2 & (pl & Ew & _ & Un))
    by (destruct ctx as [[i k]|]; destruct H as [O _]; eauto).
  inversion Un; subst; discriminate.
Qed.
