(** Proofs about several clients used in turn. *)
From Verif Require Import SpecMeaning.
From Verif Require Import PyFacts SpecUtils SpecFrames SpecText SpecApplication SpecPdu SpecSecurity SpecConnection.
From Verif Require Import ApplicationProofs Connection ConnectionProofs ParamLang Parameters ParserProofs Client SpecClient ClientProofs Group SpecGroup.
Open Scope list_scope.
Open Scope Z_scope.

Lemma update_same {A} (f : nat -> A) i x : update f i x i = x.
Proof. unfold update. rewrite Nat.eqb_refl. reflexivity. Qed.
Lemma update_other {A} (f : nat -> A) i x j : j <> i -> update f i x j = f j.
Proof. intros H. unfold update. destruct (Nat.eqb_spec j i); [contradiction|reflexivity]. Qed.
Lemma update_id {A} (f : nat -> A) i j : update f i (f i) j = f j.
Proof. unfold update. destruct (Nat.eqb_spec j i); congruence. Qed.

Lemma idle_rest g m : idle_member g m -> at_rest (context (connections g (m_connection m))) (member_client g m).
Proof. unfold idle_member, at_rest, ready, sane. cbn. tauto. Qed.

(** one answered call *)
Lemma turn_taken g t rest : idle_member g (who t) -> answered g t -> rx (transports g (m_transport (who t))) = arrivals t ++ rest ->
  exists ts g', member_operate g (who t) (what t) = (outcome t, g') /\ outcome t <> Waiting /\ telegrams_of g t ts /\
    (forall i, connections g' i = connections g i) /\
    (forall j, j <> m_transport (who t) -> transports g' j = transports g j) /\
    rx (transports g' (m_transport (who t))) = rest /\ tx (transports g' (m_transport (who t))) = [] /\
    sent (transports g' (m_transport (who t))) = sent (transports g (m_transport (who t))) ++ ts.
Proof.
  intros I A E. pose proof (idle_rest g (who t) I) as R.
  destruct (conversation _ _ _ _ _ _ A (member_client g (who t)) rest R eq_refl E) as (ts & S & F).
  cbn [session] in S. destruct (operate (member_client g (who t)) (what t)) as [a cl] eqn:O.
  assert (a = outcome t /\ cl = afters (member_client g (who t)) ts rest /\ outcome t <> Waiting) as (-> & -> & W).
  { assert (outcome t <> Waiting) as W.
    { unfold answered in A. inversion A as [|o r p v ? ? ? ? vs ? ? ? ? ? Eo Er Ea Ev|n pages out ? ? ? vs ? ? ? ? ? ? ? Eo Er Ea Ev]; subst; [discriminate|].
      destruct out; discriminate. }
    destruct a as [a|]; [injection S; intros; subst; auto|]. injection S as X _. congruence. }
  exists ts. unfold member_operate. rewrite O. eexists. split; [reflexivity|]. split; [exact W|]. split; [exact F|].
  cbn [connections transports]. split; [intros i; apply (update_id (connections g) (m_connection (who t)) i)|].
  split; [intros j Hj; apply update_other; exact Hj|]. rewrite update_same. cbn. auto.
Qed.

Theorem schedule turns : forall g rest,
  Forall (fun t => idle_member g (who t) /\ answered g t) turns ->
  (forall j, rx (transports g j) = on_transport j turns (map arrivals turns) ++ rest j) ->
  exists g' tss, group_session g (map (fun t => (who t, what t)) turns) = (map outcome turns, g') /\
    Forall2 (telegrams_of g) turns tss /\
    (forall i, connections g' i = connections g i) /\
    (forall j, rx (transports g' j) = rest j /\ sent (transports g' j) = sent (transports g j) ++ on_transport j turns tss).
Proof.
  induction turns as [|t turns IH]; intros g rest F E.
  - exists g, []. split; [reflexivity|]. split; [constructor|]. split; [reflexivity|]. intros j. rewrite (E j). cbn. rewrite app_nil_r. auto.
  - inversion F as [|? ? [I A] F']; subst.
    set (k := m_transport (who t)) in *.
    assert (rx (transports g k) = arrivals t ++ (on_transport k turns (map arrivals turns) ++ rest k)) as Ek.
    { rewrite (E k). cbn [map on_transport]. fold k. rewrite Nat.eqb_refl, <- app_assoc. reflexivity. }
    destruct (turn_taken g t _ I A Ek) as (ts & g1 & O & W & T & C & N & R1 & X1 & S1). fold k in N, R1, X1, S1.
    assert (forall j, tx (transports g j) = [] -> tx (transports g1 j) = []) as Tx.
    { intros j Hj. destruct (Nat.eq_dec j k) as [->|Hn]; [exact X1|]. rewrite N by exact Hn. exact Hj. }
    destruct (IH g1 rest) as (g' & tss & S & Ft & C' & R').
    { eapply Forall_impl; [|exact F']. intros u [Iu Au]. split.
      - unfold idle_member in *. rewrite (C (m_connection (who u))). intuition.
      - unfold answered in *. rewrite (C (m_connection (who u))). exact Au. }
    { intros j. destruct (Nat.eq_dec j k) as [->|Hn]; [exact R1|]. rewrite N by exact Hn. rewrite (E j). cbn [map on_transport]. fold k.
      destruct (Nat.eqb_spec k j) as [Hk|Hk]; [congruence|]. reflexivity. }
    exists g', (ts :: tss). split; [|split; [|split]].
    + cbn [map group_session]. rewrite O. destruct (outcome t); [|contradiction]. rewrite S. reflexivity.
    + constructor; [exact T|]. clear - Ft C. induction Ft as [|u us turns tss Hu _ IHt]; constructor; [|exact IHt]. unfold telegrams_of in *. rewrite (C (m_connection (who u))) in Hu. exact Hu.
    + intros i. rewrite C'. apply C.
    + intros j. destruct (R' j) as [Ra Rb]. split; [exact Ra|]. rewrite Rb. cbn [on_transport]. fold k.
      destruct (Nat.eqb_spec k j) as [<-|Hk]; [rewrite S1, <- app_assoc; reflexivity|]. rewrite N by congruence. reflexivity.
Qed.

(** ** Isolation *)
Definition agree (p : member -> bool) (calls : list (member * operation)) (g g' : objects) : Prop :=
  forall m o, In (m, o) calls -> p m = true -> connections g (m_connection m) = connections g' (m_connection m) /\
    transports g (m_transport m) = transports g' (m_transport m).
Definition separate (p : member -> bool) (calls : list (member * operation)) : Prop :=
  forall m o m' o', In (m, o) calls -> In (m', o') calls -> p m = true -> p m' = false -> apart m m'.

Lemma agree_client p calls g g' m o : agree p calls g g' -> In (m, o) calls -> p m = true -> member_client g m = member_client g' m.
Proof. intros A I P. destruct (A m o I P) as [A1 A2]. unfold member_client. rewrite A1, A2. reflexivity. Qed.
Theorem isolation p calls0 : separate p calls0 -> forall calls g1 g2 rs g1', incl calls calls0 -> agree p calls0 g1 g2 ->
  group_session g1 calls = (rs, g1') -> ~ In Waiting rs ->
  exists g2', group_session g2 (filter (fun c => p (fst c)) calls) = (chosen p calls rs, g2') /\ agree p calls0 g1' g2'.
Proof.
  intros Sep. induction calls as [|[m o] calls IH]; intros g1 g2 rs g1' Inc A E W.
  - cbn in *. injection E as <- <-. exists g2. split; [reflexivity|exact A].
  - cbn [group_session] in E. unfold member_operate in E. destruct (operate (member_client g1 m) o) as [a cl] eqn:O.
    destruct a as [a|]; [|exfalso; injection E as <- _; apply W; left; reflexivity].
    match type of E with (let '(_, _) := group_session ?g calls in _) = _ => set (h1 := g) in * end.
    destruct (group_session h1 calls) as [rs' h1'] eqn:E'. injection E as <- <-.
    assert (In (m, o) calls0) as Im by (apply Inc; left; reflexivity).
    assert (incl calls calls0) as Inc' by (intros x Hx; apply Inc; right; exact Hx).
    assert (~ In Waiting rs') as W' by (intros X; apply W; right; exact X).
    cbn [filter fst chosen]. destruct (p m) eqn:P.
    + set (h2 := mk_objects (update (connections g2) (m_connection m) (cl_connection cl)) (update (transports g2) (m_transport m) (cl_world cl))).
      destruct (IH h1 h2 rs' h1' Inc') as (g2' & S & A'); auto.
      { intros m' o' I' P'. destruct (A m' o' I' P') as [A1 A2]. unfold h1, h2. cbn [connections transports]. unfold update.
        destruct (Nat.eqb (m_connection m') (m_connection m)), (Nat.eqb (m_transport m') (m_transport m)); auto. }
      exists g2'. cbn [group_session]. unfold member_operate. rewrite <- (agree_client p calls0 g1 g2 m o A Im P), O. fold h2. rewrite S.
      split; [reflexivity|exact A'].
    + destruct (IH h1 g2 rs' h1' Inc') as (g2' & S & A'); auto.
      { intros m' o' I' P'. destruct (A m' o' I' P') as [A1 A2]. destruct (Sep m' o' m o I' Im P' P) as [N1 N2].
        unfold h1. cbn [connections transports]. rewrite !update_other by assumption. auto. }
      exists g2'. split; [exact S|exact A'].
Qed.
Theorem isolated p calls g rs g' : separate p calls -> group_session g calls = (rs, g') -> ~ In Waiting rs ->
  exists g2', group_session g (filter (fun c => p (fst c)) calls) = (chosen p calls rs, g2') /\
    forall m o, In (m, o) calls -> p m = true -> connections g' (m_connection m) = connections g2' (m_connection m) /\
      transports g' (m_transport m) = transports g2' (m_transport m).
Proof.
  intros S E W. apply (isolation p calls S calls g g rs g' (incl_refl _)); auto. intros m o _ _. split; reflexivity.
Qed.

(** ** Sharing a connection *)
Lemma shared_refused calls : forall g i, elgas_state (connections g i) <> IDLE -> Forall (fun c => m_connection (fst c) = i) calls ->
  Forall2 (fun c r => communicates (snd c) -> r = Done (Err LocalElgasProtocolError)) calls (fst (group_session g calls)) /\
  (forall j, sent (transports (snd (group_session g calls)) j) = sent (transports g j)).
Proof.
  induction calls as [|[m o] calls IH]; intros g i S F; [split; [constructor|reflexivity]|].
  inversion F as [|? ? Em F']; subst. cbn [fst] in *. cbn [group_session]. unfold member_operate.
  destruct (operate_refused (member_client g m) o S) as (a & cl & O & R & S' & Se). rewrite O.
  match goal with |- context[group_session ?g calls] => set (h := g) end.
  destruct (IH h (m_connection m)) as [Fr Sr]; [unfold h; cbn [connections]; rewrite update_same; exact S'|exact F'|].
  destruct (group_session h calls) as [rs g'] eqn:E. cbn [fst snd] in *. split.
  - constructor; [|exact Fr]. cbn [snd]. intros C. rewrite (R C). reflexivity.
  - intros j. rewrite Sr. unfold h. cbn [transports]. unfold update. destruct (Nat.eqb_spec j (m_transport m)) as [->|N]; [exact Se|reflexivity].
Qed.
Theorem shared_connection g m o x g' calls : communicates o -> member_operate g m o = (Done (Err x), g') ->
  (forall n data, o = OpReadParameters n -> parse None (Some data) <> Some (Err x)) ->
  Forall (fun c => m_connection (fst c) = m_connection m) calls ->
  Forall2 (fun c r => communicates (snd c) -> r = Done (Err LocalElgasProtocolError)) calls (fst (group_session g' calls)) /\
  (forall j, sent (transports (snd (group_session g' calls)) j) = sent (transports g' j)).
Proof.
  intros C H P F. unfold member_operate in H. destruct (operate (member_client g m) o) as [a cl] eqn:O. injection H as -> <-.
  apply (shared_refused calls _ (m_connection m)); [|exact F]. cbn [connections]. rewrite update_same.
  destruct (operate_err _ _ _ _ C O) as [S|(n & data & -> & E)]; [exact S|]. exfalso. exact (P n data eq_refl E).
Qed.

(** ** Sharing a transport *)
Lemma time_raises c pw w x rest : at_rest (context c) (mk_client pw c w) -> rx w = Err x :: rest ->
  exists cl', operate (mk_client pw c w) OpReadTime = (Done (Err x), cl') /\ rx (cl_world cl') = rest /\ tx (cl_world cl') = [].
Proof.
  intros (C & U & L & I & B & T) E. cbn [cl_connection cl_world cl_password] in *.
  cbn [operate]. unfold client_read_time, exchange. cbn [client_send]. unfold client_send_one, draw. cbn [cl_world]. destruct (draws w (requests w)) as [rnd pad] eqn:D.
  destruct (request_sent (context c) rnd pad c ReadTimeRequest C U I) as (t & Hs & _); [split; [reflexivity|exact Logic.I]|intros p Hp; discriminate|].
  cbn [cl_connection set_world]. rewrite Hs. unfold transport_send. cbn [cl_world set_connection tx]. rewrite T. unfold transport_recv. cbn [rx]. rewrite E.
  cbn [answer_map]. eexists. split; [reflexivity|]. cbn. auto.
Qed.
Theorem late_answer g m1 m2 x results rest time dar dst dev extra :
  idle_member g m1 -> idle_member g m2 -> m_connection m1 <> m_connection m2 -> m_transport m1 = m_transport m2 ->
  delivers (context (connections g (m_connection m2))) READ_DEVICE_TIME (ReadTimeResponse time dar dst dev extra) results ->
  rx (transports g (m_transport m1)) = Err x :: results ++ rest ->
  exists g', group_session g [(m1, OpReadTime); (m2, OpReadTime)] = ([Done (Err x); Done (Ok (RTime time))], g') /\
    rx (transports g' (m_transport m2)) = rest.
Proof.
  intros I1 I2 N Et D E. cbn [group_session]. unfold member_operate at 1.
  destruct (time_raises _ _ _ x (results ++ rest) (idle_rest g m1 I1) E) as (cl & O & Rx & Tx).
  change (mk_client (m_password m1) (connections g (m_connection m1)) (transports g (m_transport m1))) with (member_client g m1) in O. rewrite O.
  match goal with |- context[member_operate ?g m2] => set (h := g) end.
  destruct (turn_taken h (mk_turn m2 OpReadTime results [ReadTimeRequest] (Done (Ok (RTime time)))) rest) as (ts & g' & O2 & _ & _ & _ & _ & R2 & _).
  - unfold idle_member in *. unfold h. cbn [connections transports who]. rewrite (update_other _ _ _ (m_connection m2)) by congruence.
    rewrite <- Et, update_same. intuition.
  - unfold answered. cbn [who what arrivals asked outcome]. unfold h. cbn [connections]. rewrite update_other by congruence.
    rewrite <- (app_nil_r results). eapply conv_exchange with (p := ReadTimeResponse time dar dst dev extra); [reflexivity|split; [reflexivity|exact Logic.I]|exact D|constructor|constructor].
  - cbn [who arrivals]. unfold h. cbn [transports]. rewrite <- Et, update_same. exact Rx.
  - cbn [who what outcome] in *. rewrite O2. exists g'. split; [reflexivity|exact R2].
Qed.

(** any addresses in the answer do *)
Theorem other_device g m d1 d2 s1 s2 d t time dar dst dev extra rest :
  idle_member g m -> addresses d1 d2 s1 s2 -> is_bytes d -> len d <= 65520 -> no_flag d ->
  means READ_DEVICE_TIME d (ReadTimeResponse time dar dst dev extra) ->
  on_line (response_wire 134 (service_number READ_DEVICE_TIME) d1 d2 s1 s2 d) t ->
  rx (transports g (m_transport m)) = Ok t :: rest ->
  fst (member_operate g m OpReadTime) = Done (Ok (RTime time)).
Proof.
  intros I A B L N D O E.
  destruct (turn_taken g (mk_turn m OpReadTime [Ok t] [ReadTimeRequest] (Done (Ok (RTime time)))) rest) as (ts & g' & O2 & _).
  - exact I.
  - unfold answered. cbn [who what arrivals asked outcome]. change [Ok t] with ([@Ok bytes t] ++ []).
    eapply conv_exchange with (p := ReadTimeResponse time dar dst dev extra); [reflexivity|split; [reflexivity|exact Logic.I]| |constructor|constructor].
    exists [], [], t, d, t. split; [reflexivity|]. split; [constructor|]. split; [reflexivity|]. split.
    { intros ->. unfold on_line in O. destruct O as (z & E0 & E1 & _). destruct z; discriminate. }
    split; [apply (plain_answer _ _ _ _ d1 d2 s1 s2); assumption|]. split; [exact N|exact D].
  - exact E.
  - cbn [who what outcome] in O2. rewrite O2. reflexivity.
Qed.
