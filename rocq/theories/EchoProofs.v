(** Proofs about echoes and recorded answers. *)
From Verif Require Import PyFacts SpecUtils SpecFrames SpecText SpecApplication SpecPdu SpecSecurity SpecMeaning SpecConnection.
From Verif Require Import UtilsProofs FramesProofs TextProofs ApplicationProofs AesProofs SecurityProofs.
From Verif Require Import Connection ConnectionProofs MeansProofs ParamLang Parameters SpecBlock Client SpecClient ClientProofs SpecDevice DeviceProofs SpecEcho.
Open Scope list_scope.
Open Scope Z_scope.

Lemma request_not_telegram T f d1 d2 s1 s2 p : T = 132 \/ T = 133 -> ~ telegram (request_wire T f d1 d2 s1 s2 p).
Proof.
  intros H (T' & srv & e1 & e2 & q1 & q2 & d & H' & _ & _ & _ & E). unfold request_wire, response_wire, wire in E. apply sealed_inj in E.
  cbn [app] in E. injection E as E _. lia.
Qed.
Lemma asked_telegram t : somebody_asks t -> exists w, is_bytes t /\ on_line w t /\ 16 <= len w /\ ~ telegram w.
Proof.
  intros (d1 & d2 & s1 & s2 & ctx & r & B & app & _ & H).
  destruct ctx as [[i k]|]; [destruct H as (p & _ & H)|]; eexists; (split; [exact B|]); (split; [exact H|]);
    (split; [unfold request_wire; rewrite ConnectionProofs.wire_len by reflexivity; pose proof (len_nonneg app); try pose proof (len_nonneg p); lia|apply request_not_telegram; auto]).
Qed.
Theorem echo_blocks : forall pw pid k id wd cl os results rs vs o r t pieces more,
  make_client pw pid k id wd = Ok cl -> usable_context (client_context k id) -> tx wd = [] ->
  converses (client_context k id) pw os results rs vs ->
  opens pw o = Some r -> encodable r -> somebody_asks t -> first_telegram t (concat pieces) ->
  rx wd = results ++ map Ok pieces ++ more ->
  exists last cl', session cl (os ++ [o]) = (vs ++ [last], cl') /\ waits_or_fails last more.
Proof.
  intros pw pid k id wd cl os results rs vs o r t pieces more M U T C O E S F R.
  destruct (asked_telegram t S) as (w & B & L & N & X). eapply corrupted_answer; eassumption.
Qed.
(** the client's own telegrams are such telegrams *)
Theorem own_telegrams : forall pw pid k id w cl os,
  make_client pw pid k id w = Ok cl -> key_bytes k -> sent w = [] ->
  Forall somebody_asks (sent (cl_world (snd (session cl os)))).
Proof.
  intros pw pid k id w cl os M K S. eapply Forall_impl; [|eapply sent_all; eauto].
  intros t (B & r & _ & L). exists 0, 0, 0, 0, (client_context k id), r. split; [exact B|exact L].
Qed.
Theorem replay : forall pw pid k id w cl srv p results os vs rest,
  make_client pw pid k id w = Ok cl -> usable_context (client_context k id) -> tx w = [] -> sent w = [] ->
  delivers (client_context k id) srv p results -> Forall2 (takes pw srv p) os vs ->
  rx w = concat (repeat results (length os)) ++ rest ->
  exists cl', session cl os = (map (fun v => Done (Ok v)) vs, cl') /\ rx (cl_world cl') = rest.
Proof.
  intros pw pid k id w cl srv p results os vs rest M U T S D F R.
  assert (exists rs, converses (client_context k id) pw os (concat (repeat results (length os))) rs (map (fun v => Done (Ok v)) vs)) as (rs & C).
  { clear R. induction F as [|o v os vs (r & A & E & Sv & G) F (rs & IH)]; [exists []; constructor|].
    exists (r :: rs). cbn [length repeat concat map]. eapply conv_exchange; eauto. rewrite Sv. exact D. }
  destruct (client_conversation _ _ _ _ _ _ _ _ _ _ _ M U T S C R) as (cl' & Es & _ & Er & _). eauto.
Qed.
