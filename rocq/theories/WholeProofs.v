(** Proofs about the whole way from a device to a text and back. *)
From Coq Require Import Lia.
From Verif Require Import PyFacts SpecUtils SpecFrames SpecSecurity SpecConnection SpecApplication SpecPdu SpecText.
From Verif Require Import Connection ParamLang Parameters Schema Schemas ClassVars PyText Json Client SpecClient Transport SpecTransport Stack SpecStack PropStack.
From Verif Require Import SpecParameters SpecSchema SpecJson SpecClassVars SpecNumbers SpecBlock PropBlock PropJson SchemaProofs3 JsonProofs2 ClassVarsProofs PropParameters SpecSession SpecWhole.
Open Scope list_scope.
Open Scope Z_scope.

Lemma numbered t : In (type_code t, t) type_numbers.
Proof. destruct t; cbn; repeat (first [left; reflexivity | right]). Qed.
Lemma memory_block objs : Forall sendable objs -> (forall o, In o objs -> exists cls fields, form (fst o) (snd o) (Object cls fields)) ->
  block (transmission objs) objs None.
Proof.
  induction objs as [|[t c] objs IH]; intros S F; [constructor|].
  inversion S as [|? ? [B L] S']; subst. cbn [fst snd] in B, L. destruct (F (t, c) (or_introl eq_refl)) as (cls & fields & H). cbn [fst snd] in H.
  unfold transmission. cbn [map concat]. change (concat (map transmitted objs)) with (transmission objs). unfold transmitted, object_header. cbn [fst snd app].
  pose proof (len_nonneg c) as N. set (lo := (len c + 3) mod 256). set (hi := (len c + 3) / 256).
  assert (lo + 256 * hi = len c + 3) as E by (unfold lo, hi; pose proof (Z.div_mod (len c + 3) 256); lia).
  assert (content_size (lo + 256 * hi) (c ++ transmission objs) = length c) as K.
  { unfold content_size. rewrite E. destruct (3 <=? len c + 3) eqn:Q; [|lia]. unfold len. lia. }
  assert (firstn (content_size (lo + 256 * hi) (c ++ transmission objs)) (c ++ transmission objs) = c) as F1 by (rewrite K, firstn_app, Nat.sub_diag, firstn_all; apply app_nil_r).
  assert (skipn (content_size (lo + 256 * hi) (c ++ transmission objs)) (c ++ transmission objs) = transmission objs) as F2 by (rewrite K, skipn_app, Nat.sub_diag, skipn_all; reflexivity).
  pose proof (block_object lo hi (type_code t) t (c ++ transmission objs) cls fields objs None (numbered t)) as O. rewrite F1, F2 in O.
  apply O; [exact H|]. apply IH; [exact S'|]. intros o I. apply F. right. exact I.
Qed.
Lemma memory_read objs vs : objs <> [] -> Forall sendable objs -> Forall2 object_shown objs vs -> parse None (Some (transmission objs)) = Some (Ok vs).
Proof.
  intros N S F. apply C94_read_iff; [apply sendable_bytes, S|]. apply (reads_objects _ objs).
  - destruct objs as [|[t c] objs]; [contradiction|]. discriminate.
  - apply memory_block; [exact S|]. clear - F. induction F as [|o v objs vs (cls & fields & H & _) F IH]; intros o' []; [subst; eauto|apply IH; assumption].
  - exact F.
Qed.
Lemma shown_read o v : sendable o -> object_shown o v -> parameter_from_bytes (fst o) (snd o) = Ok v.
Proof.
  intros B S. assert (parse None (Some (transmission [o])) = Some (Ok [v])) as P by (apply memory_read; [discriminate|repeat constructor; apply B|repeat constructor; assumption]).
  destruct (parameter_from_bytes (fst o) (snd o)) as [v'|e] eqn:E.
  - assert (parse None (Some (transmission [o])) = Some (Ok [v'])) as P' by (apply C43_parse_block; [discriminate|repeat constructor; assumption]). congruence.
  - destruct o as [t c]. cbn [fst snd] in E. pose proof (C43_first_error [] [] t c e [] (Forall2_nil _) E) as P'.
    assert (transmission [] ++ transmitted (t, c) ++ [] = transmission [(t, c)]) as X by reflexivity. rewrite X in P'. pose proof (eq_trans (eq_sym P) P') as Q. discriminate Q.
Qed.
(** the readings are those of the documentation (C45) *)
Lemma read_shown o v : sendable o -> parameter_from_bytes (fst o) (snd o) = Ok v -> object_shown o v.
Proof.
  destruct o as [t c]. cbn [fst snd]. intros [B _] E. destruct (ParserProofs.lengths_covered t c B) as (r & d & I & W).
  pose proof (ParamProofs.parameter_conforms t c r d B I W) as H. destruct d as [cls fields|e]; [|cbn [conforms] in H; congruence].
  destruct H as (attrs & X & F). rewrite E in X. injection X as ->. exists cls, fields. split; [exists r; split; assumption|]. exists attrs. split; [reflexivity|exact F].
Qed.
Lemma memory_objects objs vs : Forall sendable objs -> Forall2 object_shown objs vs -> read_one_by_one objs vs.
Proof.
  intros S F. induction F as [|o v objs vs H F IH]; [constructor|]. inversion S as [|? ? S1 S2]; subst. constructor; [apply shown_read; assumption|apply IH; assumption].
Qed.
Theorem memory_objects_iff objs vs : Forall sendable objs -> (Forall2 object_shown objs vs <-> read_one_by_one objs vs).
Proof.
  intros S. split; [apply memory_objects, S|]. intros R. induction R as [|o v objs vs H R IH]; [constructor|]. inversion S as [|? ? S1 S2]; subst.
  constructor; [apply read_shown; assumption|apply IH; assumption].
Qed.
Lemma carried_restorable objs vs : Forall sendable objs -> read_one_by_one objs vs -> Forall2 carried objs vs -> Forall restorable vs.
Proof.
  intros S R C. revert C. induction R as [|o v objs vs H R IH]; intros C; [constructor|]. inversion S as [|? ? [B _] S2]; subst. inversion C as [|? ? ? ? (C1 & C2 & C3) C4]; subst.
  constructor; [|apply IH; assumption]. split; [exact C1|]. intros t T. rewrite (parsed_type _ _ _ B H) in T. injection T as <-. split; assumption.
Qed.
Theorem text_of_memory uni text objs vs : Forall sendable objs -> Forall2 object_shown objs vs -> Forall2 carried objs vs ->
  exists txt objs', kept_as_text (cpython uni text) vs = Ok txt /\ printable txt /\ restore_text (cpython uni text) txt = Ok objs' /\
    Forall2 (fun o o' => fst o = fst (fst o') /\ snd o' = None) objs objs' /\ Forall2 (fun v o' => same v (snd (fst o'))) vs objs'.
Proof.
  intros S O C. pose proof (memory_objects objs vs S O) as R. pose proof (carried_restorable objs vs S R C) as K.
  assert (Forall (fun o => is_bytes (snd o)) objs) as B by (eapply Forall_impl; [|exact S]; intros o [Y _]; exact Y).
  destruct (read_kept objs vs B R K) as (os & E & Kp & M).
  assert (Forall2 (fun o o' => fst o = fst (fst o') /\ snd o' = None) objs os) as T.
  { pose proof (read_types objs vs B R) as G. clear - E G. revert os objs E G. induction vs as [|v vs IH]; intros os objs E G; cbn [each] in E.
    - injection E as <-. destruct objs; [constructor|discriminate].
    - destruct objs as [|o objs]; [discriminate|]. cbn [map] in G. injection G as G1 G2. rewrite G1 in E. cbn [bind] in E.
      destruct (each _ vs) as [r|] eqn:Er; [|discriminate]. cbn [bind] in E. injection E as <-. constructor; [split; reflexivity|]. apply IH; [reflexivity|exact G2]. }
  assert (Forall (fun o => texts_ok (snd (fst o))) os) as X.
  { assert (Forall texts_ok vs) as X.
    { clear - R B. induction R as [|o v objs vs H R IH]; [constructor|]. inversion B; subst. constructor; [eapply C86_parsed_texts; eassumption|apply IH; assumption]. }
    rewrite <- M in X. clear - X. induction os as [|o os IH]; [constructor|]. inversion X; subst. constructor; [assumption|apply IH; assumption]. }
  assert (Forall series_ok os) as Y.
  { clear - T. induction T as [|o o' objs os [_ H] T IH]; constructor; [unfold series_ok; rewrite H; exact I|exact IH]. }
  destruct (configuration_text uni text os Kp X Y) as (txt & objs' & W & P & Rs & F).
  exists txt, objs'. split.
  { unfold kept_as_text, save_parameters. rewrite E. cbn [bind]. exact W. }
  split; [exact P|]. split; [exact Rs|]. clear - T F M. subst vs. revert objs' F. induction T as [|o o' objs os [T1 T2] T IH]; intros objs' F; inversion F as [|? o'' ? ? (F1 & F2 & F3) F4]; subst.
  - split; constructor.
  - destruct (IH _ F4) as [I1 I2]. cbn [map]. split; constructor; try assumption. split; congruence.
Qed.
Theorem device_to_text kd to e pw pid k id dr s uni text objs vs front last lines rest later :
  make_stack (make_transport kd to e) pw pid k id dr = Ok s -> usable_context (client_context k id) -> latin1 pw ->
  memory_sent (client_context k id) objs front last lines -> Forall2 object_shown objs vs ->
  outcomes e = [] -> arriving (incoming e) (concat lines ++ rest) later ->
  (exists ts s', stack_session s [OpConnect; OpReadParameters 0; OpDisconnect] = ([Done (Ok RNothing); Done (Ok (RObjects vs)); Done (Ok RNothing)], s') /\
    Forall2 (request_line (client_context k id)) (page_calls pw 0 (map c_amount (front ++ [last]))) ts /\
    log (env (st_transport s')) = log e ++ [SOpen] ++ map SWrite ts ++ closing kd /\
    arriving (incoming (env (st_transport s'))) rest later) /\
  (Forall2 carried objs vs ->
   exists txt objs', kept_as_text (cpython uni text) vs = Ok txt /\ printable txt /\ restore_text (cpython uni text) txt = Ok objs' /\
    Forall2 (fun o o' => fst o = fst (fst o') /\ snd o' = None) objs objs' /\ Forall2 (fun v o' => same v (snd (fst o'))) vs objs').
Proof.
  intros M U L (N & S & D & E1 & E2 & A & P) O Oc Ar. split; [|apply text_of_memory; assumption].
  assert (talks (client_context k id) pw [OpReadParameters 0] (lines ++ []) (page_calls pw 0 (map c_amount (front ++ [last])) ++ []) [Done (Ok (RObjects vs))]) as T.
  { apply (talks_parameters _ _ 0 front last lines (Ok vs)); try assumption; try lia; [|constructor]. rewrite D. apply C94_read_iff; [apply sendable_bytes, S|]. apply memory_read; assumption. }
  rewrite !app_nil_r in T. destruct (C69_whole_connection kd to e pw pid k id dr s _ _ _ _ rest later M U T Oc Ar) as (ts & s' & R & Q).
  exists ts, s'. split; [exact R|exact Q].
Qed.
