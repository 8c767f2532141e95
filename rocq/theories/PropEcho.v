(** C104: echoes and recorded answers (elgas/client.py, elgas/connection.py, elgas/frame.py). *)
From Verif Require Import PyFacts SpecUtils SpecFrames SpecText SpecApplication SpecPdu SpecSecurity SpecMeaning.
From Verif Require Import SpecConnection Connection ConnectionProofs PropConnection MeansProofs ParamLang Parameters SpecBlock BlockProofs Client SpecClient ClientProofs PropParameters PropClient.
From Verif Require Import SpecEcho EchoProofs.
Open Scope list_scope.
Open Scope Z_scope.

(** the claim "a request that is heard is skipped" is false: after any conversation an
    operation that hears a request telegram first never gets its answer *)
Theorem C104_echo_skipped_refuted : forall pw pid k id wd cl os results rs vs o r t pieces more,
  make_client pw pid k id wd = Ok cl -> usable_context (client_context k id) -> tx wd = [] ->
  converses (client_context k id) pw os results rs vs ->
  opens pw o = Some r -> encodable r -> somebody_asks t -> first_telegram t (concat pieces) ->
  rx wd = results ++ map Ok pieces ++ more ->
  exists last cl', session cl (os ++ [o]) = (vs ++ [last], cl') /\ waits_or_fails last more.
Proof. exact echo_blocks. Qed.
Print Assumptions C104_echo_skipped_refuted.
(** its own telegrams, echoed by the line, are such requests *)
Theorem C104_own_telegrams : forall pw pid k id w cl os,
  make_client pw pid k id w = Ok cl -> key_bytes k -> sent w = [] ->
  Forall somebody_asks (sent (cl_world (snd (session cl os)))).
Proof. exact own_telegrams. Qed.
Print Assumptions C104_own_telegrams.
(** the echo of the request, then the answer, three times *)
Definition echo_line : bytes := line_of (request_wire 132 108 0 0 0 0 []).
Example C104_echo : let cl := client_of None None (Ok echo_line :: time_results ++ time_results ++ time_results) in
  sent (cl_world (snd (operate cl OpReadTime))) = [echo_line] /\ fst (operate cl OpReadTime) = Waiting /\ somebody_asks echo_line.
Proof.
  split; [vm_compute; reflexivity|]. split; [vm_compute; reflexivity|].
  exists 0, 0, 0, 0, None, ReadTimeRequest. split; [apply Forall_forall; intros x I; assert (forallb (fun b => (0 <=? b) && (b <=? 255)) echo_line = true) as F by (vm_compute; reflexivity); rewrite forallb_forall in F; specialize (F x I); cbn beta in F; unfold is_byte; lia|]. exists []. split; [constructor|]. apply line_of_on_line, sealed_end.
Qed.

(** the claim "an answer is new" is false: one recorded answer, plain or encrypted, repeated,
    is taken for the answer to every operation of its service, in any session with the key,
    whatever the password and whatever was asked *)
Theorem C104_fresh_answers_refuted : forall pw pid k id w cl srv p results os vs rest,
  make_client pw pid k id w = Ok cl -> usable_context (client_context k id) -> tx w = [] -> sent w = [] ->
  delivers (client_context k id) srv p results -> Forall2 (takes pw srv p) os vs ->
  rx w = concat (repeat results (length os)) ++ rest ->
  exists cl', session cl os = (map (fun v => Done (Ok v)) vs, cl') /\ rx (cl_world cl') = rest.
Proof. exact replay. Qed.
Print Assumptions C104_fresh_answers_refuted.
Example C104_replay : Forall2 (takes [49; 50] READ_DEVICE_TIME time_pdu) [OpReadTime; OpReadTime]
    [RTime (mk_datetime 2024 2 29 23 59 58); RTime (mk_datetime 2024 2 29 23 59 58)] /\
  delivers (Some (mk_context 7 key7)) READ_DEVICE_TIME time_pdu [Ok sealed_time_line].
Proof.
  split.
  - repeat constructor; eexists; (split; [reflexivity|]); (split; [split; [reflexivity|exact I]|]); (split; [reflexivity|constructor]).
  - exists [], [], sealed_time_line, time_data, sealed_time_line. split; [reflexivity|]. split; [constructor|]. split; [reflexivity|]. split; [vm_compute; discriminate|].
    destruct time_line_answers as (_ & A & N & D). auto.
Qed.
