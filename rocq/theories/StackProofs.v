(** Proofs about the client over a transport. *)
From Coq Require Import Lia.
From Verif Require Import PyFacts SpecUtils SpecFrames SpecSecurity SpecConnection SpecApplication SpecPdu SpecText.
From Verif Require Import Connection ConnectionProofs ParamLang Parameters Client SpecClient ClientProofs.
From Verif Require Import Transport SpecTransport TransportProofs SpecStack.
Open Scope list_scope.
Open Scope Z_scope.

Lemma answers_one ctx srv d line : answers ctx srv d line -> one_telegram line.
Proof. intros A. apply answers_accepted in A as (w & (p & -> & N & _) & _). exists p. auto. Qed.
Lemma says_one ctx srv p line : says ctx srv p line -> one_telegram line.
Proof. intros (d & A & _). eapply answers_one; eauto. Qed.

Definition reading (t : transport) (results : list (res bytes)) (t' : transport) : Prop :=
  receives t (length results) = (map (fun r => Done r) results, t').
Lemma receives_app : forall j k t, receives t (j + k) =
  let '(a, t1) := receives t j in let '(b, t2) := receives t1 k in (a ++ b, t2).
Proof.
  induction j as [|j IH]; intros k t; cbn [receives Nat.add].
  - destruct (receives t k). reflexivity.
  - destruct (transport_read t) as [r t1]. rewrite IH. destruct (receives t1 j) as [a t2]. destruct (receives t2 k). reflexivity.
Qed.
Lemma reading_app t a t1 b t2 : reading t a t1 -> reading t1 b t2 -> reading t (a ++ b) t2.
Proof. unfold reading. intros A B. rewrite app_length, receives_app, A, B, map_app. reflexivity. Qed.

Lemma says_delivered ctx srv p line t rest later : says ctx srv p line -> is_open t = true ->
  arriving (incoming (env t)) (line ++ rest) later ->
  exists results t', reading t results t' /\ delivers ctx srv p results /\
    arriving (incoming (env t')) rest later /\ same_but_reads t t'.
Proof.
  intros S O A. pose proof (says_one _ _ _ _ S) as H. destruct S as (d & An & Nf & De).
  destruct (receive_parts (length line) line t rest later (le_n _) O H A) as (parts & t' & Np & E & C & F & A' & S).
  exists (map Ok parts), t'. unfold reading. rewrite map_length, map_map. split; [exact E|]. split; [|auto].
  destruct parts as [|l parts _] using rev_ind; [contradiction|].
  exists [], parts, l, d, line. rewrite concat_app in C. cbn [concat] in C. rewrite app_nil_r in C.
  apply Forall_app in F as [_ F]. inversion F; subst. repeat split; auto.
Qed.
Lemma pages_delivered ctx : forall cs here t rest later, Forall2 (says_page ctx) cs here -> is_open t = true ->
  arriving (incoming (env t)) (concat here ++ rest) later ->
  exists pages t', reading t (concat (map pg_results pages)) t' /\ Forall (page_ok ctx) pages /\
    map pg_data pages = map c_data cs /\ map pg_amount pages = map c_amount cs /\ map pg_end pages = map c_end cs /\
    arriving (incoming (env t')) rest later /\ same_but_reads t t'.
Proof.
  intros cs here t rest later F. revert t. induction F as [|c line cs here P F IH]; intros t O A.
  - exists [], t. repeat split; auto.
  - cbn [concat] in A. rewrite <- app_assoc in A.
    destruct (says_delivered _ _ _ _ t _ later P O A) as (results & t1 & R & D & A1 & S1).
    destruct (IH t1) as (pages & t2 & R2 & Fp & E1 & E2 & E3 & A2 & S2).
    { destruct S1 as (_ & _ & -> & _). exact O. }
    { exact A1. }
    exists (mk_page (c_data c) (c_number c) (c_amount c) (c_end c) results :: pages), t2. cbn [map concat pg_results pg_data pg_amount pg_end].
    rewrite E1, E2, E3. 
    split; [eapply reading_app; eauto|]. split; [constructor; auto|]. split; [reflexivity|]. split; [reflexivity|]. split; [reflexivity|].
    split; [exact A2|exact (same_trans _ _ _ S1 S2)].
Qed.
Lemma page_calls_requests password n pages : page_calls password n (map pg_amount pages) = page_requests password n pages.
Proof.
  unfold page_requests. revert n. induction pages as [|pg pages IH]; intros n; [reflexivity|].
  cbn [map page_calls length seq]. f_equal.
  - unfold objects_before. cbn. f_equal. lia.
  - rewrite IH, <- seq_shift, map_map. apply map_ext. intros i. unfold objects_before. cbn [firstn map total fold_right]. fold total.
    f_equal. unfold total. lia.
Qed.

Lemma talks_converses ctx password os lines rs vs : talks ctx password os lines rs vs ->
  forall t rest later, is_open t = true -> arriving (incoming (env t)) (concat lines ++ rest) later ->
  exists results t', reading t results t' /\ converses ctx password os results rs vs /\
    arriving (incoming (env t')) rest later /\ same_but_reads t t'.
Proof.
  induction 1 as [|o r p v line os lines rs vs As En Sa Gi _ IH|n front last here out os lines rs vs Fp Fe El La Hn Ht Pa _ IH];
    intros t rest later O A.
  - exists [], t. repeat split; auto. constructor.
  - cbn [concat] in A. rewrite <- app_assoc in A.
    destruct (says_delivered _ _ _ _ t _ later Sa O A) as (results & t1 & R & D & A1 & S1).
    destruct (IH t1 rest later) as (res2 & t2 & R2 & C2 & A2 & S2).
    { destruct S1 as (_ & _ & -> & _). exact O. }
    { exact A1. }
    exists (results ++ res2), t2. split; [eapply reading_app; eauto|]. split; [econstructor; eauto|]. split; [auto|eapply same_trans; eauto].
  - rewrite concat_app, <- app_assoc in A.
    destruct (pages_delivered ctx _ _ t _ later Fp O A) as (pages & t1 & R & Pk & E1 & E2 & E3 & A1 & S1).
    destruct (IH t1 rest later) as (res2 & t2 & R2 & C2 & A2 & S2).
    { destruct S1 as (_ & _ & -> & _). exact O. }
    { exact A1. }
    exists (concat (map pg_results pages) ++ res2), t2. split; [eapply reading_app; eauto|]. split; [|split; [auto|eapply same_trans; eauto]].
    destruct pages as [|pg pages _] using rev_ind.
    { destruct front; discriminate. }
    rewrite !map_app in E1, E2, E3. cbn [map] in E1, E2, E3.
    apply app_inj_tail in E2 as [E2 E2']. apply app_inj_tail in E3 as [E3 E3'].
    replace (map c_amount (front ++ [last])) with (map pg_amount (pages ++ [pg])) by (rewrite !map_app; cbn [map]; congruence).
    rewrite page_calls_requests. apply conv_parameters; auto.
    + exists pages, pg. split; [reflexivity|]. split; [|congruence].
      clear -E3 Fe. revert front E3 Fe. induction pages as [|q pages IH]; intros [|c front] E F; cbn [map] in E; try discriminate; constructor.
      * inversion F; subst. congruence.
      * inversion F; subst. inversion E. eapply IH; eauto.
    + rewrite removelast_last, E2. exact Ht.
    + rewrite map_app. cbn [map]. rewrite E1. change [c_data last] with (map c_data [last]). rewrite <- map_app. exact Pa.
Qed.
Lemma full_stack pw pid k id os lines rs vs t rest later : usable_context (client_context k id) ->
  talks (client_context k id) pw os lines rs vs ->
  is_open t = true -> arriving (incoming (env t)) (concat lines ++ rest) later ->
  exists results t', receives t (length results) = (map (fun r => Done r) results, t') /\
    arriving (incoming (env t')) rest later /\ same_but_reads t t' /\
    forall w cl more, make_client pw pid k id w = Ok cl -> tx w = [] -> sent w = [] -> rx w = results ++ more ->
      exists cl', session cl os = (vs, cl') /\ Forall2 (request_line (client_context k id)) rs (sent (cl_world cl')) /\
        rx (cl_world cl') = more.
Proof.
  intros U T O A. destruct (talks_converses _ _ _ _ _ _ T t rest later O A) as (results & t' & R & C & A' & S).
  exists results, t'. split; [exact R|]. split; [exact A'|]. split; [exact S|].
  intros w cl more M Tx Sn Rx. destruct (client_conversation pw pid k id w cl os results rs vs more) as (cl' & E & F & X & _); auto.
  exists cl'. auto.
Qed.
