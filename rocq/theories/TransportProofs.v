(** Proofs about Transport.v. *)
From Coq Require Import Lia.
From Verif Require Import PyFacts Transport SpecTransport.
Open Scope list_scope.
Open Scope Z_scope.

Lemma wrapped_relayed x : wrapped x = relayed x.
Proof. destruct x; reflexivity. Qed.
Lemma up_relayed x : negb (is_os_error x) = match x with OSError => false | _ => true end.
Proof. destruct x; reflexivity. Qed.

(** ** one byte *)
Lemma len_small_0 {A} : len (@nil A) <? 1 = true. Proof. reflexivity. Qed.
Lemma len_small_1 {A} (x : A) l : len (x :: l) <? 1 = false.
Proof. rewrite len_cons. pose proof (len_nonneg l). lia. Qed.
(** what _recv_bytes(1) does: it skips empty reads *)
Fixpoint one_byte (inc : list (res bytes)) : answer bytes * list (res bytes) :=
  match inc with
  | [] => (Waiting, [])
  | Err x :: inc' => (Done (Err x), inc')
  | Ok [] :: inc' => one_byte inc'
  | Ok [b] :: inc' => (Done (Ok [b]), inc')
  | Ok (b :: rest) :: inc' => (Done (Ok [b]), Ok rest :: inc')
  end.
Lemma recv_one inc : recv_bytes true 1 inc = one_byte inc.
Proof.
  unfold recv_bytes. induction inc as [|[[|b [|b' rest]]|x] inc IH]; cbn [recv_bytes_loop one_byte]; rewrite len_small_0; try reflexivity.
  - change (Z.to_nat (1 - len (@nil Z))) with 1%nat. cbn [skipn firstn app]. exact IH.
  - change (Z.to_nat (1 - len (@nil Z))) with 1%nat. cbn [skipn firstn app].
    destruct inc; cbn [recv_bytes_loop]; rewrite len_small_1; reflexivity.
Qed.
Lemma one_byte_result inc r inc' : one_byte inc = (Done (Ok r), inc') -> exists b, r = [b].
Proof.
  induction inc as [|[[|b [|b' rest]]|x] inc IH]; cbn [one_byte]; intros E; try discriminate; auto; inversion E; eauto.
Qed.
Lemma one_byte_available inc r inc' : one_byte inc = (Done (Ok r), inc') -> available inc = S (available inc').
Proof.
  induction inc as [|[[|b [|b' rest]]|x] inc IH]; cbn [one_byte]; intros E; try discriminate; auto; inversion E; subst; reflexivity.
Qed.
Lemma one_byte_arriving inc b s later : arriving inc (b :: s) later ->
  exists inc', one_byte inc = (Done (Ok [b]), inc') /\ arriving inc' s later.
Proof.
  intros (chunks & -> & E). revert E. induction chunks as [|[|x [|y l]] chunks IH]; cbn [map app one_byte concat]; intros E; try discriminate.
  - auto.
  - inversion E; subst. eexists. split; [reflexivity|]. exists chunks. split; reflexivity.
  - inversion E; subst. eexists. split; [reflexivity|]. exists ((y :: l) :: chunks). split; reflexivity.
Qed.
Lemma one_byte_silent inc later : arriving inc [] later -> one_byte inc = one_byte later.
Proof.
  intros (chunks & -> & E). induction chunks as [|[|x l] chunks IH]; cbn [map app one_byte concat] in *; try discriminate; auto.
Qed.
Lemma one_byte_errors inc r inc' : Forall (fun r => forall x, r = Err x -> x = OSError) inc -> one_byte inc = (r, inc') ->
  Forall (fun r => forall x, r = Err x -> x = OSError) inc' /\ (forall x, r = Done (Err x) -> x = OSError).
Proof.
  induction inc as [|[[|b [|b' rest]]|y] inc IH]; cbn [one_byte]; intros F E; try (inversion F; subst); auto; inversion E; subst.
  - split; [constructor|discriminate].
  - split; [assumption|discriminate].
  - split; [constructor; [discriminate|assumption]|discriminate].
  - split; [assumption|]. intros x X. inversion X; subst. apply H1. reflexivity.
Qed.

(** ** the loop *)
Lemma recv_fuel now expected size : forall f g inc line timer n, (available inc < f)%nat -> (available inc < g)%nat ->
  recv_until_loop f true now expected size line timer n inc = recv_until_loop g true now expected size line timer n inc.
Proof.
  induction f as [|f IH]; intros g inc line timer n Hf Hg; [lia|]. destruct g as [|g]; [lia|].
  cbn [recv_until_loop]. rewrite recv_one. destruct (one_byte inc) as [[[c|x]|] inc'] eqn:E; try reflexivity.
  destruct (one_byte_result _ _ _ E) as (b & ->). apply one_byte_available in E.
  destruct (list_eqb _ _); [reflexivity|]. destruct (match size with Some s => _ | None => _ end); [reflexivity|].
  destruct (expired now n timer) as [[[[|]|x] t'] n']; try reflexivity. apply IH; lia.
Qed.

Lemma stops_ends expected size line b : expected <> [] ->
  list_eqb (slice_from (- len expected) (line ++ [b])) expected = true -> stops expected size (line ++ [b]).
Proof.
  intros N E. apply list_eqb_eq in E. split; [intros X; apply app_eq_nil in X as [_ X]; discriminate|]. left.
  unfold slice_from in E. exists (firstn (Z.to_nat (clamp (len (line ++ [b])) (- len expected))) (line ++ [b])).
  rewrite <- E at 2. symmetry. apply firstn_skipn.
Qed.
Lemma ends_stops expected line front : expected <> [] -> line = front ++ expected ->
  list_eqb (slice_from (- len expected) line) expected = true.
Proof.
  intros N ->. rewrite slice_from_neg_app; [apply list_eqb_refl|reflexivity|].
  destruct expected; [contradiction|]. rewrite len_cons. pose proof (len_nonneg expected). lia.
Qed.

(** the timer cannot expire *)
Definition never (now : clock) (n : nat) (timer : timeout) : Prop :=
  forall k, Forall (fun r => r = Ok false) (expirations now n timer k).
Lemma never_step now n timer : never now n timer -> exists timer' n', expired now n timer = (Ok false, timer', n') /\ never now n' timer'.
Proof.
  intros H. pose proof (H 1%nat) as H1. cbn [expirations] in H1. destruct (expired now n timer) as [[r t'] n'] eqn:E.
  inversion H1; subst. exists t', n'. split; [reflexivity|]. intros k. specialize (H (S k)). cbn [expirations] in H. rewrite E in H. inversion H; assumption.
Qed.
(** a timer made from a duration *)
Definition tick (now : clock) (n : nat) (d : Z) (timer : timeout) : Prop :=
  exists target, timer = mk_timeout false (d =? 0) (Some d) (Some target).
Lemma make_timeout_some now n d :
  make_timeout now n (Some d) = (mk_timeout false (d =? 0) (Some d) (Some (now n + d)), S n).
Proof. unfold make_timeout. destruct d; reflexivity. Qed.
Lemma expired_some now n d target : exists b target' n',
  expired now n (mk_timeout false (d =? 0) (Some d) (Some target)) = (Ok b, mk_timeout false (d =? 0) (Some d) (Some target'), n') /\ (n <= n')%nat.
Proof.
  unfold expired, time_left. cbn. destruct (d =? 0) eqn:E; [eauto 8|].
  destruct (target - now n >? d); eauto 8.
Qed.
Lemma expired_none now n : expired now n (mk_timeout true false None None) = (Ok false, mk_timeout true false None None, n).
Proof. reflexivity. Qed.
Definition timer_ok (timer : timeout) : Prop :=
  timer = mk_timeout true false None None \/ exists d target, timer = mk_timeout false (d =? 0) (Some d) (Some target).
Lemma make_timer_ok now n d timer n' : make_timeout now n d = (timer, n') -> timer_ok timer /\ (n <= n')%nat.
Proof.
  destruct d as [d|]; [rewrite make_timeout_some|cbn]; intros E; inversion E; subst; split; try lia; [right; eauto|left; reflexivity].
Qed.
Lemma timer_step now n timer : timer_ok timer -> exists b timer' n', expired now n timer = (Ok b, timer', n') /\ timer_ok timer' /\ (n <= n')%nat.
Proof.
  intros [->|(d & target & ->)].
  - exists false, (mk_timeout true false None None), n. split; [reflexivity|]. split; [left; reflexivity|lia].
  - destruct (expired_some now n d target) as (b & target' & n' & E & L). exists b, (mk_timeout false (d =? 0) (Some d) (Some target')), n'.
    split; [exact E|]. split; [right; eauto|exact L].
Qed.

Lemma patient_never now n d timer n' :
  make_timeout now n d = (timer, n') ->
  match d with None => True | Some d => forall i j, (n <= i <= j)%nat -> now j < now i + d end ->
  never now n' timer.
Proof.
  destruct d as [d|]; intros E P.
  - rewrite make_timeout_some in E. inversion E; subst. clear E.
    assert (d =? 0 = false) as Hd. { specialize (P n n ltac:(lia)). lia. }
    rewrite Hd.
    assert (forall k m target, (S n <= m)%nat -> (exists i, (n <= i <= m)%nat /\ target = now i + d) ->
      Forall (fun r => r = Ok false) (expirations now m (mk_timeout false false (Some d) (Some target)) k)) as X.
    { induction k as [|k IH]; intros m target Hm (i & Hi & ->); [constructor|].
      cbn [expirations]. unfold expired, time_left. cbn [target_time is_non_blocking is_infinite duration].
      pose proof (P i m ltac:(lia)) as Q.
      destruct (now i + d - now m >? d) eqn:J.
      - constructor; [f_equal; specialize (P n n ltac:(lia)); lia|]. apply IH; [lia|]. exists (S m). split; [lia|reflexivity].
      - constructor; [f_equal; lia|]. apply IH; [lia|]. exists i. split; [lia|reflexivity]. }
    intros k. apply X; [lia|]. exists n. split; [lia|reflexivity].
  - cbn in E. inversion E; subst. intros k. induction k as [|k IH]; cbn [expirations]; [constructor|].
    rewrite expired_none. constructor; [reflexivity|exact IH].
Qed.

(** the loop reads [todo] when [line ++ todo] is a frame *)
Lemma loop_frame now expected size later : expected <> [] -> forall todo line inc timer n rest fuel,
  timer_ok timer -> todo <> [] -> frame expected size (line ++ todo) -> arriving inc (todo ++ rest) later -> (available inc < fuel)%nat ->
  exists got missing n' inc', recv_until_loop fuel true now expected size line timer n inc = (Done (Ok (line ++ got)), n', inc') /\
    todo = got ++ missing /\ got <> [] /\ arriving inc' (missing ++ rest) later /\ (n <= n')%nat /\
    (never now n timer -> missing = []).
Proof.
  intros N. induction todo as [|b todo IH]; intros line inc timer n rest fuel T Nt [St Fr] A F; [contradiction|]. clear Nt.
  destruct fuel as [|fuel]; [lia|]. cbn [recv_until_loop]. rewrite recv_one.
  cbn [app] in A. destruct (one_byte_arriving _ _ _ _ A) as (inc' & E & A'). rewrite E. apply one_byte_available in E.
  assert (stops expected size (line ++ [b]) -> todo = []) as Ends.
  { intros X. destruct todo as [|c todo]; [reflexivity|]. exfalso.
    apply (Fr (line ++ [b]) (c :: todo)); [rewrite <- app_assoc; reflexivity|discriminate|exact X]. }
  destruct (list_eqb _ _) eqn:Q.
  { apply stops_ends with (size := size) in Q; [|exact N]. rewrite (Ends Q) in *.
    exists [b], [], n, inc'. repeat split; auto; discriminate. }
  destruct (match size with Some s => len (line ++ [b]) >=? s | None => false end) eqn:Z.
  { assert (stops expected size (line ++ [b])) as X.
    { split; [intros X; apply app_eq_nil in X as [_ X]; discriminate|]. right. destruct size as [s|]; [|discriminate]. exists s. split; [reflexivity|lia]. }
    rewrite (Ends X) in *. exists [b], [], n, inc'. repeat split; auto; discriminate. }
  assert (todo <> []) as Nt.
  { intros ->. destruct St as [_ [(front & Ef)|(s & -> & Hs)]].
    - rewrite (ends_stops _ _ _ N Ef) in Q. discriminate.
    - lia. }
  destruct (timer_step now n timer T) as (x & timer' & n' & Ex & T' & L). rewrite Ex. destruct x.
  { exists [b], todo, n', inc'. repeat split; auto; [discriminate|]. intros Nv. apply never_step in Nv as (t2 & n2 & E2 & _). congruence. }
  destruct (IH (line ++ [b]) inc' timer' n' rest fuel) as (got & missing & n2 & inc2 & E2 & -> & G & A2 & L2 & V); auto.
  { split; [rewrite <- app_assoc; exact St|]. intros p q Hp. apply Fr. rewrite <- Hp, <- app_assoc. reflexivity. }
  { lia. }
  exists (b :: got), missing, n2, inc2. rewrite E2, <- app_assoc. repeat split; auto; [discriminate|lia|].
  intros Nv. apply never_step in Nv as (t3 & n3 & E3 & Nv). rewrite Ex in E3. inversion E3; subst. auto.
Qed.

(** C53 *)
Lemma recv_until_frame t expected size line rest later :
  is_open t = true -> expected <> [] -> frame expected size line -> arriving (incoming (env t)) (line ++ rest) later ->
  exists got missing t', recv_until t expected size = (Done (Ok got), t') /\
    line = got ++ missing /\ got <> [] /\ arriving (incoming (env t')) (missing ++ rest) later /\
    same_but_reads t t' /\ (patient t -> missing = []).
Proof.
  intros O N F A. unfold recv_until. destruct (make_timeout _ _ _) as [timer n] eqn:M. rewrite O.
  pose proof (make_timer_ok _ _ _ _ _ M) as [T L].
  assert (line <> []) as Nl by (destruct F as [[X _] _]; exact X).
  destruct (loop_frame (now (env t)) expected size later N line [] (incoming (env t)) timer n rest (S (available (incoming (env t)))))
    as (got & missing & n' & inc' & E & -> & G & A' & L' & V); auto.
  rewrite E. cbn [app]. exists got, missing. eexists. split; [reflexivity|].
  repeat split; auto.
  - cbn. lia.
  - intros P. apply V. eapply patient_never; [exact M|]. unfold patient in P. destruct (t_timeout t); auto.
Qed.
Lemma telegram_frame line : one_telegram line -> frame [13] None line.
Proof.
  intros (front & -> & N). split.
  - split; [intros X; apply app_eq_nil in X as [_ X]; discriminate|]. left. exists front. reflexivity.
  - intros p q E Nq [_ [(f & ->)|(s & X & _)]]; [|discriminate].
    destruct q as [|x q _] using rev_ind; [contradiction|]. rewrite app_assoc in E. apply app_inj_tail in E as [-> _].
    apply N. rewrite <- app_assoc. apply in_or_app. right. left. reflexivity.
Qed.
Lemma receive_telegram t line rest later : is_open t = true -> one_telegram line -> arriving (incoming (env t)) (line ++ rest) later ->
  exists got missing t', transport_read t = (Done (Ok got), t') /\
    line = got ++ missing /\ got <> [] /\ arriving (incoming (env t')) (missing ++ rest) later /\
    same_but_reads t t' /\ (patient t -> missing = []).
Proof.
  intros O H A. destruct (recv_until_frame t [13] None line rest later O ltac:(discriminate) (telegram_frame _ H) A)
    as (got & missing & t' & E & X). exists got, missing, t'. unfold transport_read. rewrite E. auto.
Qed.
Lemma patient_mono t t' : same_but_reads t t' -> patient t -> patient t'.
Proof.
  intros (_ & T & _ & _ & W & _ & L) P. unfold patient in *. rewrite T, W. destruct (t_timeout t); [|exact I].
  intros i j H. apply P. lia.
Qed.
Lemma same_trans a b c : same_but_reads a b -> same_but_reads b c -> same_but_reads a c.
Proof. unfold same_but_reads. intuition (try congruence). lia. Qed.
(** several telegrams *)
Lemma receive_telegrams lines : forall t rest later, is_open t = true -> patient t -> Forall one_telegram lines ->
  arriving (incoming (env t)) (concat lines ++ rest) later ->
  exists t', receives t (length lines) = (map (fun l => Done (Ok l)) lines, t') /\
    arriving (incoming (env t')) rest later /\ same_but_reads t t'.
Proof.
  induction lines as [|l lines IH]; intros t rest later O P F A; cbn [receives length map].
  - exists t. split; [reflexivity|]. split; [exact A|]. unfold same_but_reads. repeat split; auto.
  - inversion F; subst. cbn [concat] in A. rewrite <- app_assoc in A.
    destruct (receive_telegram t l _ later O H1 A) as (got & missing & t' & E & -> & G & A' & S & V).
    rewrite (V P) in *. rewrite app_nil_r in *. rewrite E.
    destruct (IH t' rest later) as (t2 & E2 & A2 & S2); auto; [destruct S as (_ & _ & Q & _); rewrite Q; exact O|eapply patient_mono; eauto|].
    rewrite E2. exists t2. split; [reflexivity|]. split; [exact A2|eapply same_trans; eauto].
Qed.
(** one telegram, whatever the clock does *)
Lemma receive_parts : forall k line t rest later, (length line <= k)%nat -> is_open t = true -> one_telegram line ->
  arriving (incoming (env t)) (line ++ rest) later ->
  exists parts t', parts <> [] /\ receives t (length parts) = (map (fun l => Done (Ok l)) parts, t') /\ concat parts = line /\
    Forall (fun l => l <> []) parts /\ arriving (incoming (env t')) rest later /\ same_but_reads t t'.
Proof.
  induction k as [|k IH]; intros line t rest later L O H A.
  - destruct H as (front & -> & _). rewrite app_length in L. cbn in L. lia.
  - destruct (receive_telegram t line rest later O H A) as (got & missing & t' & E & Em & G & A' & S & _).
    destruct missing as [|m missing].
    + rewrite app_nil_r in Em. subst got. exists [line], t'. split; [discriminate|]. cbn [length receives]. rewrite E. cbn [map concat app].
      rewrite app_nil_r. repeat split; try apply S; auto; repeat constructor; auto.
    + assert (one_telegram (m :: missing)) as H'.
      { destruct H as (front & Ef & N). rewrite Em in Ef. destruct (m :: missing) as [|x q _] eqn:Eq using rev_ind; [discriminate|].
        rewrite app_assoc in Ef. apply app_inj_tail in Ef as [Ef ->]. exists q. split; [reflexivity|]. intros X. apply N. rewrite <- Ef.
        apply in_or_app. right. exact X. }
      destruct (IH (m :: missing) t' rest later) as (parts & t2 & Np & E2 & C & Fp & A2 & S2); auto.
      { subst line. rewrite app_length in L. destruct got; [contradiction|]. cbn [length] in *. lia. }
      { destruct S as (_ & _ & -> & _). exact O. }
      exists (got :: parts), t2. split; [discriminate|]. cbn [length receives map concat]. rewrite E, E2.
      split; [reflexivity|]. split; [rewrite C; auto|]. split; [constructor; auto|]. split; [exact A2|]. eapply same_trans; eauto.
Qed.

(** ** C54 *)
(** the stream ends before [expected]: bytes [todo], then whatever one_byte gives on [later] *)
Definition ended (r : answer bytes * list (res bytes)) : Prop :=
  match fst r with Done (Ok _) => False | _ => True end.
Lemma loop_ended now later : ended (one_byte later) -> forall todo line inc timer n fuel, never now n timer -> ~ In 13 todo ->
  arriving inc todo later -> (available inc < fuel)%nat ->
  exists n', recv_until_loop fuel true now [13] None line timer n inc = (fst (one_byte later), n', snd (one_byte later)).
Proof.
  intros D. induction todo as [|b todo IH]; intros line inc timer n fuel V N A F; (destruct fuel as [|fuel]; [lia|]);
    cbn [recv_until_loop]; rewrite recv_one.
  - rewrite (one_byte_silent _ _ A). destruct (one_byte later) as [[[c|x]|] l]; cbn in D; try contradiction; eauto.
  - destruct (one_byte_arriving _ _ _ _ A) as (inc' & E & A'). rewrite E. apply one_byte_available in E.
    destruct (list_eqb _ _) eqn:Q.
    { exfalso. apply list_eqb_eq in Q. rewrite slice_from_neg_app in Q; [|reflexivity|reflexivity]. inversion Q. subst b. apply N. left. reflexivity. }
    destruct (never_step _ _ _ V) as (t' & n' & -> & V'). apply IH; auto; [|lia]. intros X. apply N. right. exact X.
Qed.
Lemma recv_ended t todo later : is_open t = true -> patient t -> ~ In 13 todo -> arriving (incoming (env t)) todo later ->
  ended (one_byte later) ->
  exists n, transport_read t =
    (match fst (one_byte later) with Done (Err x) => Done (Err (wrapped x)) | r => r end,
     set_env t (mk_environment (outcomes (env t)) (snd (one_byte later)) (now (env t)) n (log (env t)))).
Proof.
  intros O P N A D. unfold transport_read, recv_until. destruct (make_timeout _ _ _) as [timer n] eqn:M. rewrite O.
  destruct (loop_ended (now (env t)) later D todo [] (incoming (env t)) timer n (S (available (incoming (env t))))) as (n' & E); auto.
  { eapply patient_never; [exact M|]. unfold patient in P. destruct (t_timeout t); auto. }
  exists n'. rewrite E. destruct (fst (one_byte later)) as [[c|x]|] eqn:X; try reflexivity.
Qed.
Lemma one_byte_empties n l : one_byte (repeat (Ok []) n ++ l) = one_byte l.
Proof. induction n as [|n IH]; [reflexivity|exact IH]. Qed.
Lemma silent_forever t todo n : is_open t = true -> patient t -> ~ In 13 todo ->
  arriving (incoming (env t)) todo (repeat (Ok []) n) ->
  exists t', transport_read t = (Waiting, t') /\ incoming (env t') = [].
Proof.
  intros O P N A. pose proof (one_byte_empties n []) as E. rewrite app_nil_r in E.
  destruct (recv_ended t todo (repeat (Ok []) n) O P N A) as (k & X); [rewrite E; exact I|].
  rewrite X, E. cbn. eauto.
Qed.
Lemma silent_from_start t n : is_open t = true -> incoming (env t) = repeat (Ok []) n ->
  exists t', transport_read t = (Waiting, t') /\ incoming (env t') = [].
Proof.
  intros O A. unfold transport_read, recv_until. destruct (make_timeout _ _ _) as [timer k] eqn:M. rewrite O. cbn [recv_until_loop].
  rewrite recv_one, A. pose proof (one_byte_empties n []) as E. rewrite app_nil_r in E. rewrite E. cbn. eauto.
Qed.
Lemma error_raised t todo n more : is_open t = true -> patient t -> ~ In 13 todo ->
  arriving (incoming (env t)) todo (repeat (Ok []) n ++ Err OSError :: more) ->
  exists t', transport_read t = (Done (Err CommunicationError), t') /\ incoming (env t') = more.
Proof.
  intros O P N A. pose proof (one_byte_empties n (Err OSError :: more)) as E.
  destruct (recv_ended t todo _ O P N A) as (k & X); [rewrite E; exact I|].
  rewrite X, E. cbn. eauto.
Qed.

(** ** C55 *)
Lemma loop_result now expected size : forall fuel inc line timer n r n' inc',
  timer_ok timer -> Forall (fun r => forall x, r = Err x -> x = OSError) inc ->
  recv_until_loop fuel true now expected size line timer n inc = (r, n', inc') ->
  (r = Waiting \/ (exists data, data <> [] /\ r = Done (Ok data)) \/ r = Done (Err OSError)) /\
  Forall (fun r => forall x, r = Err x -> x = OSError) inc'.
Proof.
  induction fuel as [|fuel IH]; intros inc line timer n r n' inc' T F; cbn [recv_until_loop].
  - intros E. inversion E; subst. auto.
  - rewrite recv_one. destruct (one_byte inc) as [a inc2] eqn:E. destruct (one_byte_errors _ _ _ F E) as [F2 X].
    destruct a as [[c|x]|].
    + destruct (one_byte_result _ _ _ E) as (b & ->).
      assert (line ++ [b] <> []) as N by (intros Y; apply app_eq_nil in Y as [_ Y]; discriminate).
      destruct (list_eqb _ _); [intros Q; inversion Q; subst; eauto 8|].
      destruct (match size with Some s => _ | None => _ end); [intros Q; inversion Q; subst; eauto 8|].
      destruct (timer_step now n timer T) as (y & timer' & n2 & -> & T' & _). destruct y.
      * intros Q; inversion Q; subst; eauto 8.
      * apply IH; auto.
    + intros Q; inversion Q; subst. rewrite (X x eq_refl). auto.
    + intros Q; inversion Q; subst. auto.
Qed.
Lemma perform_ok e c : only_os_errors e -> exists r e', perform e c = (r, e') /\ (r = Ok tt \/ r = Err OSError) /\ only_os_errors e' /\
  log e' = log e ++ [c] /\ incoming e' = incoming e.
Proof.
  intros [F G]. unfold perform. destruct (outcomes e) as [|o os] eqn:E.
  - do 2 eexists. split; [reflexivity|]. repeat split; auto.
  - inversion F; subst. do 2 eexists. split; [reflexivity|]. repeat split; auto. destruct H1 as [->| ->]; auto.
Qed.
Lemma step_lawful t c r t' : only_os_errors (env t) -> transport_step t c = (r, t') ->
  lawful_call (is_open t) t c r t' /\ only_os_errors (env t') /\ is_open t' = connected_next (is_open t) (c, r).
Proof.
  intros G E. destruct c as [| |data|]; cbn [transport_step] in E.
  - unfold transport_connect in E. destruct (is_open t) eqn:O.
    + cbn in E. inversion E; subst. cbn. auto.
    + destruct (perform_ok _ SOpen G) as (x & e' & P & X & G' & L & I). rewrite P in E.
      destruct X as [->| ->]; cbn in E; inversion E; subst; cbn; unfold succeeds_or_fails, calls_made; cbn; auto.
  - unfold transport_disconnect in E. destruct (is_open t) eqn:O.
    + destruct (t_kind t).
      * destruct (perform_ok _ SShutdown G) as (x & e' & P & X & G' & L & I). rewrite P in E.
        destruct X as [->| ->].
        -- destruct (perform_ok _ SClose G') as (x & e2 & P2 & X & G2 & L2 & I2). rewrite P2 in E. rewrite L, <- app_assoc in L2. cbn [app] in L2.
           rewrite I in I2.
           destruct X as [->| ->]; cbn in E; inversion E; subst; cbn; unfold succeeds_or_fails, calls_made; cbn; auto 8.
        -- cbn in E; inversion E; subst; cbn; unfold succeeds_or_fails, calls_made; cbn; auto 8.
      * destruct (perform_ok _ SClose G) as (x & e' & P & X & G' & L & I). rewrite P in E.
        destruct X as [->| ->]; cbn in E; inversion E; subst; cbn; unfold succeeds_or_fails, calls_made; cbn; auto 8.
    + cbn in E. inversion E; subst. cbn. auto.
  - unfold transport_write in E. destruct (is_open t) eqn:O.
    + destruct (perform_ok _ (SWrite data) G) as (x & e' & P & X & G' & L & I). rewrite P in E.
      destruct X as [->| ->]; cbn in E; inversion E; subst; cbn; unfold succeeds_or_fails, calls_made; cbn; auto.
    + cbn in E. inversion E; subst. cbn. auto.
  - unfold transport_read, recv_until in E. destruct (make_timeout _ _ _) as [timer n] eqn:M. destruct (make_timer_ok _ _ _ _ _ M) as [T _].
    destruct (is_open t) eqn:O.
    + destruct (recv_until_loop _ _ _ _ _ _ _ _ _) as [[a n'] inc'] eqn:R.
      destruct (loop_result _ _ _ _ _ _ _ _ _ _ _ T (proj2 G) R) as [D F].
      destruct D as [->|[(data & Nd & ->)| ->]]; cbn in E; inversion E; subst; cbn; (split; [split; [eauto|reflexivity]|]);
        (split; [split; [exact (proj1 G)|exact F]|exact O]).
    + cbn [recv_until_loop recv_bytes] in E. cbn in E. inversion E; subst. cbn. unfold calls_made. cbn. rewrite app_nil_r.
      split; [auto|]. split; [exact G|exact O].
Qed.
Lemma run_connected cs : forall t h t', only_os_errors (env t) -> transport_run t cs = (h, t') ->
  is_open t' = fold_left connected_next h (is_open t) /\ only_os_errors (env t').
Proof.
  induction cs as [|c cs IH]; intros t h t' G E; cbn [transport_run] in E.
  - inversion E; subst. auto.
  - destruct (transport_step t c) as [r t1] eqn:S. destruct (step_lawful _ _ _ _ G S) as (_ & G1 & O1). destruct r as [r|].
    + destruct (transport_run t1 cs) as [h1 t2] eqn:R. inversion E; subst. destruct (IH _ _ _ G1 R) as [O2 G2].
      cbn [fold_left]. rewrite <- O1. auto.
    + inversion E; subst. cbn [fold_left]. rewrite <- O1. auto.
Qed.
Lemma lifecycle k to e cs h t c r t' : only_os_errors e -> transport_run (make_transport k to e) cs = (h, t) ->
  transport_step t c = (r, t') -> lawful_call (connected h) t c r t' /\ is_open t' = connected (h ++ [(c, r)]).
Proof.
  intros G R S. destruct (run_connected cs (make_transport k to e) _ _ G R) as [O G']. cbn in O. fold (connected h) in O.
  destruct (step_lawful _ _ _ _ G' S) as (L & _ & O'). rewrite O in L, O'. split; [exact L|].
  unfold connected. rewrite fold_left_app. exact O'.
Qed.

(** ** C56 *)
Lemma times_left_bounds now d : 0 <= d -> forall k n target,
  Forall (fun r => exists x, r = Ok (Some x) /\ 0 <= x <= d) (times_left now n (mk_timeout false (d =? 0) (Some d) (Some target)) k).
Proof.
  intros Hd. induction k as [|k IH]; intros n target; [constructor|]. cbn [times_left].
  unfold time_left. cbn [is_non_blocking is_infinite target_time duration]. destruct (d =? 0) eqn:Z.
  - constructor; [eexists; split; [reflexivity|lia]|apply IH].
  - destruct (target - now n >? d) eqn:J; constructor; try apply IH; eexists; (split; [reflexivity|]); lia.
Qed.
Lemma timeout_bounds now n d k t n' : 0 <= d -> make_timeout now n (Some d) = (t, n') ->
  Forall (fun r => exists x, r = Ok (Some x) /\ 0 <= x <= d) (times_left now n' t k).
Proof. intros Hd E. rewrite make_timeout_some in E. inversion E; subst. apply times_left_bounds. exact Hd. Qed.
Lemma timeout_infinite now n k t n' : make_timeout now n None = (t, n') ->
  times_left now n' t k = repeat (Ok None) k /\ expirations now n' t k = repeat (Ok false) k.
Proof.
  intros E. cbn in E. inversion E; subst. induction k as [|k [IH1 IH2]]; [split; reflexivity|].
  cbn [times_left expirations repeat]. rewrite expired_none. cbn. rewrite IH1, IH2. split; reflexivity.
Qed.
Lemma timeout_zero now n k t n' : make_timeout now n (Some 0) = (t, n') ->
  times_left now n' t k = repeat (Ok (Some 0)) k /\ expirations now n' t k = repeat (Ok true) k.
Proof.
  intros E. cbn in E. inversion E; subst. induction k as [|k [IH1 IH2]]; [split; reflexivity|].
  cbn [times_left expirations repeat]. cbn. rewrite IH1, IH2. split; reflexivity.
Qed.
Lemma steady_polls now n d target : 0 < d -> steady now -> forall k m,
  target = now n + d -> (n <= m)%nat ->
  times_left now m (mk_timeout false false (Some d) (Some target)) k = map (fun i => Ok (Some (Z.max 0 (target - now i)))) (seq m k) /\
  expirations now m (mk_timeout false false (Some d) (Some target)) k = map (fun i => Ok (target <=? now i)) (seq m k).
Proof.
  intros Hd S k. induction k as [|k IH]; intros m Ht Hm; [split; reflexivity|].
  pose proof (S n m Hm) as Q. cbn [times_left expirations seq map].
  unfold expired, time_left. cbn [is_non_blocking is_infinite target_time duration].
  replace (target - now m >? d) with false by lia.
  destruct (IH (Datatypes.S m) Ht ltac:(lia)) as [-> ->]. split; [reflexivity|]. f_equal. f_equal. lia.
Qed.
Lemma timeout_steady now n d k t n' : 0 < d -> steady now -> make_timeout now n (Some d) = (t, n') ->
  times_left now n' t k = map (fun i => Ok (Some (Z.max 0 (now n + d - now i)))) (seq (S n) k) /\
  expirations now n' t k = map (fun i => Ok (now n + d <=? now i)) (seq (S n) k).
Proof.
  intros Hd S E. rewrite make_timeout_some in E. replace (d =? 0) with false in E by lia. inversion E; subst.
  apply (steady_polls now n d); auto.
Qed.
Lemma timeout_jump now n d t n' : 0 < d -> make_timeout now n (Some d) = (t, n') -> now (S n) < now n ->
  exists t', expired now n' t = (Ok false, t', S (S (S n))) /\
    ((forall i j, (S n < i <= j)%nat -> now i <= now j) -> forall k,
     expirations now (S (S (S n))) t' k = map (fun i => Ok (now (S (S n)) + d <=? now i)) (seq (S (S (S n))) k)).
Proof.
  intros Hd E J. rewrite make_timeout_some in E. replace (d =? 0) with false in E by lia. inversion E; subst.
  unfold expired, time_left. cbn [is_non_blocking is_infinite target_time duration].
  replace (now n + d - now (S n) >? d) with true by lia. cbv iota. eexists. split; [repeat f_equal; lia|].
  intros S k.
  assert (forall m, (Datatypes.S (Datatypes.S n) < m)%nat ->
    expirations now m (mk_timeout false false (Some d) (Some (now (Datatypes.S (Datatypes.S n)) + d))) k
    = map (fun i => Ok (now (Datatypes.S (Datatypes.S n)) + d <=? now i)) (seq m k)) as X; [|apply X; lia].
  induction k as [|k IH]; intros m Hm; [reflexivity|]. cbn [expirations seq map].
  pose proof (S (Datatypes.S (Datatypes.S n)) m ltac:(lia)) as Q.
  unfold expired, time_left. cbn [is_non_blocking is_infinite target_time duration].
  replace (now (Datatypes.S (Datatypes.S n)) + d - now m >? d) with false by lia.
  rewrite IH by lia. f_equal. f_equal. lia.
Qed.

(** ** C67: restart *)
Lemma restart_finite now n d d' t n' m k : 0 < d -> 0 < d' -> steady now -> make_timeout now n (Some d) = (t, n') -> (n' <= m)%nat ->
  exists t', restart now m t (Some d') = (Ok tt, t', S m) /\
    expirations now (S m) t' k = map (fun i => Ok (now m + d' <=? now i)) (seq (S m) k).
Proof.
  intros Hd Hd' S E Hm. rewrite make_timeout_some in E. replace (d =? 0) with false in E by lia. inversion E; subst.
  eexists. split; [reflexivity|]. cbn [is_infinite is_non_blocking]. apply (steady_polls now m d'); auto.
Qed.
Lemma restart_infinite now n t n' m d : make_timeout now n None = (t, n') ->
  exists t' m', restart now m t (Some d) = (Ok tt, t', m') /\ fst (fst (expired now m' t')) = Err TypeError.
Proof. intros E. cbn in E. inversion E; subst. do 2 eexists. split; reflexivity. Qed.
Lemma restart_zero now n t n' m d k : make_timeout now n (Some 0) = (t, n') ->
  exists t' m', restart now m t (Some d) = (Ok tt, t', m') /\ expirations now m' t' k = repeat (Ok true) k.
Proof.
  intros E. cbn in E. inversion E; subst. do 2 eexists. split; [reflexivity|].
  cbn [is_infinite is_non_blocking].
  assert (forall q, expirations now q (mk_timeout false true (Some d) (Some (now m + d))) k = repeat (Ok true) k) as X; [|apply X].
  intros q. induction k as [|k IH]; [reflexivity|]. cbn [expirations repeat]. cbn. rewrite IH. reflexivity.
Qed.

(** ** C68 *)
Lemma shutdown_failed t os : is_open t = true -> t_kind t = Tcp -> outcomes (env t) = Some OSError :: os ->
  exists t', transport_disconnect t = (Done (Err CommunicationError), t') /\ log (env t') = log (env t) ++ [SShutdown] /\
    is_open t' = false.
Proof.
  intros O K E. unfold transport_disconnect. rewrite O, K. unfold perform. rewrite E. cbn. eexists. split; [reflexivity|]. split; reflexivity.
Qed.
Lemma shutdown_done t os : is_open t = true -> outcomes (env t) = None :: os ->
  exists r t', transport_disconnect t = (r, t') /\ In SClose (log (env t')).
Proof.
  intros O E. unfold transport_disconnect. rewrite O. destruct (t_kind t); unfold perform; rewrite E; cbn.
  - destruct os as [|[x|] os]; cbn; do 2 eexists; (split; [reflexivity|]); cbn; apply in_or_app; right; left; reflexivity.
  - do 2 eexists; (split; [reflexivity|]); cbn; apply in_or_app; right; left; reflexivity.
Qed.
Lemma serial_closed t : is_open t = true -> t_kind t = Serial ->
  exists r t', transport_disconnect t = (r, t') /\ log (env t') = log (env t) ++ [SClose].
Proof.
  intros O K. unfold transport_disconnect. rewrite O, K. unfold perform. destruct (outcomes (env t)) as [|[x|] os]; cbn; eauto.
Qed.
