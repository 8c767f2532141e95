(** Proofs: timing, the cutting into reads and random draws do not change results. *)
From Coq Require Import Lia.
From Verif Require Import PyFacts SpecUtils UtilsProofs SpecFrames SpecSecurity SecurityProofs SpecConnection SpecApplication SpecPdu SpecText.
From Verif Require Import Connection ConnectionProofs ParamLang Parameters Client SpecClient ClientProofs.
From Verif Require Import Transport SpecTransport TransportProofs SpecStack StackProofs Stack SpecSession SessionProofs SessionProofs2 TimedProofs SpecIndep.
Open Scope list_scope.
Open Scope Z_scope.

(** ** one call of recv *)
Lemma stream_byte inc a inc' : one_byte inc = (a, inc') ->
  match a with
  | Done (Ok c) => exists b, c = [b] /\ stream inc = Ok b :: stream inc'
  | Done (Err x) => stream inc = Err x :: stream inc'
  | Waiting => stream inc = [] /\ inc' = []
  end.
Proof.
  induction inc as [|[[|b [|b' l]]|x] inc IH]; cbn [one_byte]; intros E.
  - injection E as <- <-. split; reflexivity.
  - exact (IH E).
  - injection E as <- <-. exists b. split; reflexivity.
  - injection E as <- <-. exists b. split; reflexivity.
  - injection E as <- <-. reflexivity.
Qed.
(** what recv takes from the stream *)
Inductive took : list (res Z) -> answer bytes -> list (res Z) -> Prop :=
| took_part d rest : d <> [] -> ~ In 13 d -> took (map Ok d ++ rest) (Done (Ok d)) rest
| took_line d rest : ~ In 13 d -> took (map Ok d ++ Ok 13 :: rest) (Done (Ok (d ++ [13]))) rest
| took_failure d x rest : ~ In 13 d -> took (map Ok d ++ Err x :: rest) (Done (Err x)) rest
| took_all d : ~ In 13 d -> took (map Ok d) Waiting [].
Lemma loop_took now : forall fuel inc line timer n a n' inc', timer_ok timer -> ~ In 13 line -> (available inc < fuel)%nat ->
  recv_until_loop fuel true now [13] None line timer n inc = (a, n', inc') ->
  took (map Ok line ++ stream inc) a (stream inc').
Proof.
  induction fuel as [|fuel IH]; intros inc line timer n a n' inc' T N F E; [lia|]. cbn [recv_until_loop] in E. rewrite recv_one in E.
  destruct (one_byte inc) as [r inc2] eqn:O. pose proof (stream_byte _ _ _ O) as S. destruct r as [[c|x]|].
  - destruct S as (b & -> & S). apply one_byte_available in O. rewrite S. rewrite ends_13 in E. destruct (b =? 13) eqn:B.
    + injection E as <- <- <-. replace b with 13 by lia. apply took_line. exact N.
    + assert (~ In 13 (line ++ [b])) as N' by (intros X; apply in_app_or in X as [X|[X|[]]]; [exact (N X)|lia]).
      replace (map Ok line ++ Ok b :: stream inc2) with (map Ok (line ++ [b]) ++ stream inc2) by (rewrite map_app, <- app_assoc; reflexivity).
      destruct (timer_step now n timer T) as (y & timer' & n2 & Ex & T' & _). rewrite Ex in E. destruct y.
      * injection E as <- <- <-. apply took_part; [|exact N']. intros X. apply app_eq_nil in X as [_ X]. discriminate.
      * apply IH in E; auto. lia.
  - injection E as <- <- <-. rewrite S. apply took_failure. exact N.
  - injection E as <- <- <-. destruct S as [S ->]. rewrite S, app_nil_r. apply took_all. exact N.
Qed.
(** the socket or port apart from reading *)
Definition rest_of (t : transport) : kind * bool * list (option exn) * list socket_call :=
  (t_kind t, is_open t, outcomes (env t), log (env t)).
Lemma read_took t a t' : is_open t = true -> transport_read t = (a, t') -> rest_of t' = rest_of t /\
  exists r, took (stream (incoming (env t))) r (stream (incoming (env t'))) /\
    a = match r with Done (Err x) => Done (Err (wrapped x)) | r => r end.
Proof.
  intros O. unfold transport_read, recv_until. destruct (make_timeout _ _ _) as [timer n] eqn:M.
  destruct (make_timer_ok _ _ _ _ _ M) as [T _]. rewrite O.
  destruct (recv_until_loop _ _ _ _ _ _ _ _ _) as [[r n'] inc'] eqn:R.
  apply loop_took in R; [|exact T|intros []|lia]. cbn [map app] in R.
  destruct r as [[d|x]|]; intros E; injection E as <- <-; (split; [reflexivity|]).
  - exists (Done (Ok d)). auto.
  - exists (Done (Err x)). auto.
  - exists Waiting. auto.
Qed.

(** ** reading byte by byte *)
Fixpoint hear (c : connection) (bs : list (res Z)) : answer response_pdu * connection * list (res Z) :=
  match next_event c with
  | (Err e, c) => (Done (Err e), c, bs)
  | (Ok (Some p), c) => (Done (Ok p), c, bs)
  | (Ok None, c) =>
      match bs with
      | [] => (Waiting, c, [])
      | Err x :: bs' => (Done (Err (wrapped x)), c, bs')
      | Ok b :: bs' => hear (receive_data c [b]) bs'
      end
  end.
Definition needs (c : connection) : Prop := next_event c = (Ok None, c).
Lemma hear_needs c bs : needs c -> hear c bs =
  match bs with
  | [] => (Waiting, c, [])
  | Err x :: bs' => (Done (Err (wrapped x)), c, bs')
  | Ok b :: bs' => hear (receive_data c [b]) bs'
  end.
Proof. intros N. destruct bs as [|[b|x] bs]; cbn [hear]; rewrite N; reflexivity. Qed.
Lemma needs_more c b : b <> 13 -> needs c -> needs (receive_data c [b]).
Proof.
  intros B N. unfold needs in *. unfold receive_data. cbn [list_eqb]. replace (b =? 13) with false by lia. cbn [andb].
  destruct (buffer_cases (buffer c)) as [U|(p & rest & E & P)].
  - apply next_event_uncut. cbn. intros X. apply in_app_or in X as [X|[X|[]]]; [exact (U X)|lia].
  - rewrite (next_event_cut c p rest P E) in N.
    rewrite (next_event_cut (set_buffer c (buffer c ++ [b])) p (rest ++ [b]) P).
    2:{ cbn. rewrite E, <- app_assoc. reflexivity. }
    change (context (set_buffer c (buffer c ++ [b]))) with (context c). change (elgas_state (set_buffer c (buffer c ++ [b]))) with (elgas_state c).
    destruct (interpret _ _) as [f|x]; [|destruct (is_value_error x); [reflexivity|discriminate]].
    destruct (pdu_from_response f); [|discriminate]. destruct (process_event _ _); discriminate.
Qed.
Lemma receive_step c b d : b <> 13 -> receive_data (receive_data c [b]) d = receive_data c (b :: d).
Proof.
  intros B. unfold receive_data at 2 3. replace (list_eqb [b] [13]) with false by (cbn; replace (b =? 13) with false by lia; reflexivity).
  replace (list_eqb (b :: d) [13]) with false by (cbn; replace (b =? 13) with false by lia; reflexivity). cbn [andb].
  destruct d as [|x d]; [reflexivity|]. unfold receive_data. replace (len (buffer (set_buffer c (buffer c ++ [b]))) =? 0) with false.
  2:{ cbn [buffer set_buffer]. rewrite len_app. pose proof (len_nonneg (buffer c)). change (len [b]) with 1. lia. }
  rewrite andb_false_r. cbn. rewrite <- app_assoc. reflexivity.
Qed.
Lemma hear_part d : forall c bs, needs c -> ~ In 13 d -> hear c (map Ok d ++ bs) = hear (receive_data c d) bs /\ needs (receive_data c d).
Proof.
  induction d as [|b d IH]; intros c bs N H; [split; [reflexivity|exact N]|]. cbn [map app].
  assert (b <> 13) as B by (intros ->; apply H; left; reflexivity).
  rewrite hear_needs by exact N. rewrite <- (receive_step c b d) by exact B. apply IH; [|intros X; apply H; right; exact X].
  apply needs_more; [exact B|exact N].
Qed.
Lemma receive_line d : forall c, ~ In 13 d -> receive_data (receive_data c d) [13] = receive_data c (d ++ [13]).
Proof.
  intros c N. destruct d as [|b d]; [reflexivity|]. assert (b <> 13) as B by (intros ->; apply N; left; reflexivity).
  cbn [app]. unfold receive_data at 2 3. replace (list_eqb (b :: d) [13]) with false by (cbn; replace (b =? 13) with false by lia; reflexivity).
  replace (list_eqb (b :: d ++ [13]) [13]) with false by (cbn; replace (b =? 13) with false by lia; reflexivity). cbn [andb].
  unfold receive_data. replace (len (buffer (set_buffer c (buffer c ++ b :: d))) =? 0) with false.
  2:{ cbn [buffer set_buffer]. rewrite len_app, len_cons. pose proof (len_nonneg (buffer c)). pose proof (len_nonneg d). lia. }
  rewrite andb_false_r. cbn. rewrite <- app_assoc. reflexivity.
Qed.
(** equal but for the buffer *)
Definition bare (c : connection) : connection := set_buffer c [].
Lemma bare_receive c d : bare (receive_data c d) = bare c.
Proof. unfold receive_data. destruct d; [reflexivity|]. destruct (_ && _); reflexivity. Qed.
Lemma hear_took c bs r bs' : needs c -> took bs r bs' ->
  match r with
  | Done (Ok d) => hear c bs = hear (receive_data c d) bs'
  | Done (Err x) => exists c', hear c bs = (Done (Err (wrapped x)), c', bs') /\ bare c' = bare c
  | Waiting => exists c', hear c bs = (Waiting, c', bs') /\ bare c' = bare c
  end.
Proof.
  intros N [d rest D H|d rest H|d x rest H|d H].
  - apply hear_part; assumption.
  - destruct (hear_part d c (Ok 13 :: rest) N H) as [-> N']. rewrite hear_needs by exact N'. rewrite receive_line by exact H. reflexivity.
  - destruct (hear_part d c (Err x :: rest) N H) as [-> N']. rewrite hear_needs by exact N'. exists (receive_data c d). split; [reflexivity|apply bare_receive].
  - destruct (hear_part d c [] N H) as [E N']. rewrite app_nil_r in E. rewrite E, hear_needs by exact N'. exists (receive_data c d). split; [reflexivity|apply bare_receive].
Qed.
(** what is the same after next_event *)
Lemma loop_hears fuel : forall s a s', is_open (st_transport s) = true -> (left_over (st_transport s) < fuel)%nat ->
  stack_next_event_loop fuel s = (a, s') ->
  rest_of (st_transport s') = rest_of (st_transport s) /\
  st_password s' = st_password s /\ st_draws s' = st_draws s /\ st_requests s' = st_requests s /\
  exists c', hear (st_connection s) (stream (incoming (env (st_transport s)))) = (a, c', stream (incoming (env (st_transport s')))) /\
    bare (st_connection s') = bare c' /\ (forall p, a = Done (Ok p) -> st_connection s' = c').
Proof.
  induction fuel as [|fuel IH]; intros s a s' O L E; [lia|]. destruct s as [pw c t n dr].
  cbn [stack_next_event_loop st_connection st_transport st_password st_draws st_requests] in *.
  unfold st_set_connection, st_set_transport in E. cbn [st_draws st_requests st_password st_connection st_transport] in E.
  destruct (next_event c) as [[[p|]|e] c1] eqn:N.
  - injection E as <- <-. cbn [st_connection st_transport st_password st_draws st_requests]. do 4 (split; [reflexivity|]). exists c1.
    destruct (stream _) as [|[b|x] bs] eqn:S; cbn [hear]; rewrite N; auto.
  - assert (c1 = c) as -> by (eapply next_event_kept; [exact N|discriminate]).
    destruct (transport_read t) as [r t1] eqn:R. destruct (read_took _ _ _ O R) as (Rt & q & Tk & ->). destruct (read_available _ _ _ R) as [L1 L2].
    pose proof (hear_took _ _ _ _ N Tk) as H. destruct q as [[d|x]|].
    + apply IH in E; [| |].
      all: cbn [st_connection st_transport st_password st_draws st_requests] in *.
      * destruct E as (E1 & E2 & E3 & E4 & c' & E5 & E6). rewrite E1, E2, E3, E4. do 3 (split; [first [exact Rt|reflexivity]|]). split; [reflexivity|].
        exists c'. rewrite H. split; [exact E5|exact E6].
      * injection Rt. intros _ _ X _. rewrite X. exact O.
      * specialize (L2 d eq_refl). lia.
    + injection E as <- <-. cbn [st_connection st_transport st_password st_draws st_requests]. split; [exact Rt|]. do 3 (split; [reflexivity|]).
      destruct H as (c' & H & B). exists c'. split; [exact H|]. split; [symmetry; exact B|discriminate].
    + injection E as <- <-. cbn [st_connection st_transport st_password st_draws st_requests]. split; [exact Rt|]. do 3 (split; [reflexivity|]).
      destruct H as (c' & H & B). exists c'. split; [exact H|]. split; [symmetry; exact B|discriminate].
  - assert (c1 = c) as -> by (eapply next_event_kept; [exact N|discriminate]).
    injection E as <- <-. cbn [st_connection st_transport st_password st_draws st_requests]. do 4 (split; [reflexivity|]). exists c.
    destruct (stream _) as [|[b|x] bs] eqn:S; cbn [hear]; rewrite N; (split; [reflexivity|]; split; [reflexivity|discriminate]).
Qed.

(** ** random draws *)
(** both give bytes, equally many, or both raise the same *)
Definition alike_bytes (x y : res bytes) : Prop :=
  match x, y with Ok a, Ok b => len a = len b | Err e, Err f => e = f | _, _ => False end.
Lemma alike_bytes_refl x : alike_bytes x x.
Proof. destruct x; reflexivity. Qed.
Lemma alike_ok a b : len a = len b -> alike_bytes (Ok a) (Ok b).
Proof. exact (fun H => H). Qed.
Lemma alike_bind x y f g : alike_bytes x y -> (forall a b, x = Ok a -> y = Ok b -> len a = len b -> alike_bytes (f a) (g b)) ->
  alike_bytes (bind x f) (bind y g).
Proof. destruct x, y; cbn; try contradiction; auto. Qed.
Lemma alike_append a b c : len a = len b -> alike_bytes (append a c) (append b c).
Proof. intros L. unfold append. destruct (_ && _); [apply alike_ok; rewrite !len_app; congruence|reflexivity]. Qed.
Lemma alike_append_any a b c d : len a = len b -> is_byte c -> is_byte d -> alike_bytes (append a c) (append b d).
Proof. intros L C D. rewrite !append_ok by assumption. apply alike_ok. rewrite !len_app. change (len [c]) with 1. change (len [d]) with 1. lia. Qed.
Lemma forallb_app_true {A} (f : A -> bool) a b : forallb f b = true -> forallb f (a ++ b) = forallb f a.
Proof. intros H. rewrite forallb_app, H. apply andb_true_r. Qed.
Lemma choice_range rnd i : (0 <=? random_choice rnd i) && (random_choice rnd i <? 256) = true.
Proof.
  unfold random_choice. set (n := Z.to_nat _). clearbody n.
  assert (Forall (fun c => (0 <=? c) && (c <? 256) = true) possible_chars) as F by (apply Forall_forall; intros x X; cbn in X; repeat (destruct X as [<-|X]; [reflexivity|]); destruct X).
  destruct (nth_in_or_default n possible_chars 0) as [X|X]; [|rewrite X; reflexivity]. rewrite Forall_forall in F. apply F. exact X.
Qed.
Lemma alike_password rnd rnd' p : alike_bytes (password_bytes rnd p) (password_bytes rnd' p).
Proof.
  unfold password_bytes, encode_latin1, pad_password.
  assert (forall r, forallb (fun c => (0 <=? c) && (c <? 256)) (p ++ [33; 3] ++ [random_choice r 0; random_choice r 1]) = forallb (fun c => (0 <=? c) && (c <? 256)) p) as X.
  { intros r. apply forallb_app_true. cbn [app forallb]. rewrite !choice_range. reflexivity. }
  rewrite !X. destruct (forallb _ p); [|reflexivity]. apply alike_ok. rewrite !len_app. reflexivity.
Qed.
Ltac alike_step :=
  first [apply alike_append; assumption | apply alike_password
        | apply alike_bind; [|let a := fresh "a" in let b := fresh "b" in intros a b ? ? ?; cbv beta zeta]].
Lemma alike_le n z f g : (forall l, to_le n z = Ok l -> alike_bytes (f l) (g l)) -> alike_bytes (bind (to_le n z) f) (bind (to_le n z) g).
Proof. destruct (to_le n z); cbn; auto. Qed.
Lemma alike_be n z f g : (forall l, to_be n z = Ok l -> alike_bytes (f l) (g l)) -> alike_bytes (bind (to_be n z) f) (bind (to_be n z) g).
Proof. destruct (to_be n z); cbn; auto. Qed.
Lemma alike_time z f g : (forall l, datetime_to_bytes z = Ok l -> alike_bytes (f l) (g l)) -> alike_bytes (bind (datetime_to_bytes z) f) (bind (datetime_to_bytes z) g).
Proof. destruct (datetime_to_bytes z); cbn; auto. Qed.
Lemma alike_pdu rnd rnd' r : alike_bytes (pdu_to_bytes rnd r) (pdu_to_bytes rnd' r).
Proof.
  destruct r; cbn [pdu_to_bytes]; [apply alike_password|apply alike_bytes_refl|..]; (apply alike_bind; [apply alike_password|]); intros a b _ _ L; cbv zeta.
  - apply alike_time. intros l _. apply alike_append. rewrite !len_app. congruence.
  - apply alike_le. intros l _. apply alike_le. intros l' _. apply alike_ok. rewrite !len_app. lia.
  - apply alike_bind; [apply alike_append; exact L|]. intros a' b' _ _ L'. apply alike_le. intros l _. apply alike_time. intros l' _. apply alike_ok. rewrite !len_app. lia.
  - apply alike_bind; [apply alike_append; exact L|]. intros a' b' _ _ L'. apply alike_le. intros l _. apply alike_le. intros l' _. apply alike_ok. rewrite !len_app. lia.
Qed.
Lemma alike_request T f g : f_service f = f_service g -> destination_address_1 f = destination_address_1 g -> destination_address_2 f = destination_address_2 g ->
  source_address_1 f = source_address_1 g -> source_address_2 f = source_address_2 g -> len (f_data f) = len (f_data g) ->
  alike_bytes (request_to_bytes T f) (request_to_bytes T g).
Proof.
  intros E1 E2 E3 E4 E5 L. unfold request_to_bytes, frame_length. rewrite E1, E2, E3, E4, E5, L.
  do 4 (apply alike_bind; [first [apply alike_bytes_refl | apply alike_append; assumption]|intros ? ? _ _ ?; cbv zeta]).
  apply alike_le. intros l _. cbv zeta. apply alike_be. intros l2 _. cbv zeta.
  apply alike_bind; [apply alike_append; rewrite !len_app; lia|intros ? ? _ _ ?; cbv zeta]. apply alike_be. intros l3 _. cbv zeta.
  apply alike_bind; [apply alike_append; rewrite !len_app; lia|intros ? ? _ _ ?; cbv zeta].
  do 3 (apply alike_bind; [apply alike_append_any; [rewrite ?len_app; lia|first [apply lrc_byte|apply checksum_byte|apply drc_byte]..]|intros ? ? _ _ ?; cbv zeta]).
  apply alike_append. assumption.
Qed.
Lemma alike_encrypt pad pad' ctx a b : is_bytes (key ctx) -> is_bytes a -> is_bytes b -> len a = len b ->
  alike_bytes (context_encrypt pad ctx a) (context_encrypt pad' ctx b).
Proof.
  destruct ctx as [id k]. cbn [key]. intros K A B L. rewrite (encrypt_errors pad), (encrypt_errors pad') by assumption. rewrite L.
  destruct (len b >? 65535) eqn:Lb; [reflexivity|]. destruct (negb (_ && _)) eqn:I; [reflexivity|]. destruct (negb (len k =? 16)) eqn:Lk; [reflexivity|].
  assert (key16 k) as K16 by (split; [exact K|lia]). assert (0 <= id <= 255) as Hid by lia.
  destruct (encrypt_payload pad id k a K16 A Hid ltac:(lia)) as (p & q & -> & P & Pb & Pq & Lq).
  destruct (encrypt_payload pad' id k b K16 B Hid ltac:(lia)) as (p' & q' & -> & P' & Pb' & Pq' & Lq').
  assert (is_bytes q /\ is_bytes q') as [Q Q'] by (split; eapply Forall_impl; [|exact Pq| |exact Pq']; unfold is_byte; cbn; intros; lia).
  pose proof (len_nonneg b).
  destruct (payload_sizes k id (len a) (a ++ q) p K16 ltac:(apply is_bytes_app; auto) ltac:(lia) Hid P) as (ct & -> & _ & Lc & _).
  destruct (payload_sizes k id (len b) (b ++ q') p' K16 ltac:(apply is_bytes_app; auto) ltac:(lia) Hid P') as (ct' & -> & _ & Lc' & _).
  destruct P as (_ & _ & M & _). destruct P' as (_ & _ & M' & _). rewrite len_app in M, M', Lc, Lc'.
  apply alike_ok. rewrite !len_app, Lc, Lc'. pose proof (len_nonneg q). pose proof (len_nonneg q').
  assert (len q = len q') as ->.
  { rewrite L in M. clear - M M' Lq Lq' H0 H1. rewrite Z.mod_eq in M, M' by discriminate. lia. }
  rewrite L. reflexivity.
Qed.
Definition alike_answer (x y : res bytes) : Prop := match x, y with Ok _, Ok _ => True | Err e, Err f => e = f | _, _ => False end.
Lemma alike_escape x y : alike_bytes x y -> (forall a, x = Ok a -> exists b, a = b ++ [13]) -> (forall a, y = Ok a -> exists b, a = b ++ [13]) ->
  alike_answer (bind x escape_characters) (bind y escape_characters).
Proof.
  destruct x as [a|e], y as [b|f]; cbn; try contradiction; auto. intros _ A B.
  destruct (A a eq_refl) as (a' & ->). destruct (B b eq_refl) as (b' & ->). rewrite !escape_app. exact I.
Qed.
Lemma request_ends T f a : request_to_bytes T f = Ok a -> exists b, a = b ++ [13].
Proof.
  unfold request_to_bytes. repeat match goal with |- bind ?x _ = _ -> _ => destruct x; cbn [bind]; cbv zeta; [|discriminate] end.
  unfold append. cbn. intros E. injection E as <-. eauto.
Qed.
Lemma alike_serialise rnd rnd' pad pad' c r : (forall ctx, context c = Some ctx -> is_bytes (key ctx)) ->
  alike_answer (serialise rnd pad c r) (serialise rnd' pad' c r).
Proof.
  intros K. unfold serialise. pose proof (alike_pdu rnd rnd' r) as P.
  destruct (pdu_to_bytes rnd r) as [a|e] eqn:Ea, (pdu_to_bytes rnd' r) as [b|f] eqn:Eb; cbn in P; try contradiction; cbn [bind]; [|exact P].
  apply pdu_bytes in Ea, Eb. destruct (context c) as [ctx|] eqn:C.
  - pose proof (alike_encrypt pad pad' ctx a b (K ctx eq_refl) Ea Eb P) as Q.
    destruct (context_encrypt pad ctx a) as [d|e], (context_encrypt pad' ctx b) as [d'|f]; cbn in Q; try contradiction; cbn [bind]; [|exact Q].
    apply alike_escape; [apply alike_request; try reflexivity; exact Q|apply request_ends|apply request_ends].
  - apply alike_escape; [apply alike_request; try reflexivity; exact P|apply request_ends|apply request_ends].
Qed.

(** ** two machines *)
Definition at_ease (c : connection) : Prop := elgas_state c = IDLE -> buffer c = [].
Record twins (exactly : bool) (s1 s2 : stack) : Prop := mk_twins {
  tw_password : st_password s1 = st_password s2;
  tw_draws : exactly = true -> st_draws s1 = st_draws s2;
  tw_requests : st_requests s1 = st_requests s2;
  tw_line : same_line exactly (st_transport s1) (st_transport s2);
  tw_connection : bare (st_connection s1) = bare (st_connection s2);
  tw_ease : at_ease (st_connection s1) /\ at_ease (st_connection s2);
  tw_key : exactly = true \/ (forall ctx, context (st_connection s1) = Some ctx -> is_bytes (key ctx)) }.
Lemma twins_idle exactly s1 s2 : twins exactly s1 s2 -> elgas_state (st_connection s1) = IDLE ->
  st_connection s1 = st_connection s2 /\ buffer (st_connection s1) = [].
Proof.
  intros [_ _ _ _ B [E1 E2] _] H.
  assert (elgas_state (st_connection s2) = IDLE) as H2 by (change (elgas_state (bare (st_connection s2)) = IDLE); rewrite <- B; exact H).
  specialize (E1 H). specialize (E2 H2). split; [|exact E1].
  destruct (st_connection s1), (st_connection s2). cbn in *. injection B. intros. subst. reflexivity.
Qed.
Lemma same_call_refl e c : same_call e c c.
Proof. destruct c; cbn; auto. Qed.
Lemma same_perform e e1 e2 c1 c2 r1 e1' r2 e2' : same_call e c1 c2 -> outcomes e1 = outcomes e2 -> Forall2 (same_call e) (log e1) (log e2) ->
  perform e1 c1 = (r1, e1') -> perform e2 c2 = (r2, e2') ->
  r1 = r2 /\ outcomes e1' = outcomes e2' /\ incoming e1' = incoming e1 /\ incoming e2' = incoming e2 /\ Forall2 (same_call e) (log e1') (log e2').
Proof.
  intros C O L. unfold perform. rewrite O.
  destruct (outcomes e2) as [|o os]; intros E1 E2; injection E1 as <- <-; injection E2 as <- <-; cbn;
    (split; [reflexivity|]; split; [reflexivity|]; split; [reflexivity|]; split; [reflexivity|]);
    (apply Forall2_app; [exact L|repeat constructor; exact C]).
Qed.
Lemma same_write e t1 t2 d1 d2 a1 t1' a2 t2' : same_line e t1 t2 -> (e = true -> d1 = d2) ->
  transport_write t1 d1 = (a1, t1') -> transport_write t2 d2 = (a2, t2') ->
  a1 = a2 /\ a1 <> Waiting /\ same_line e t1' t2' /\ is_open t1' = is_open t1 /\ (forall u, a1 = Done (Ok u) -> is_open t1 = true).
Proof.
  intros (K & O & Out & St & L) D. unfold transport_write. rewrite <- O. destruct (is_open t1) eqn:Op.
  - destruct (perform (env t1) (SWrite d1)) as [r1 e1] eqn:P1. destruct (perform (env t2) (SWrite d2)) as [r2 e2] eqn:P2.
    destruct (same_perform e _ _ (SWrite d1) (SWrite d2) _ _ _ _ D Out L P1 P2) as (-> & O' & I1 & I2 & L').
    destruct r2; intros E1 E2; injection E1 as <- <-; injection E2 as <- <-; (split; [reflexivity|]; split; [discriminate|]; split; [|split; auto]).
    all: unfold same_line; cbn; rewrite I1, I2, Op; auto.
  - intros E1 E2. injection E1 as <- <-. injection E2 as <- <-. split; [reflexivity|]. split; [discriminate|]. split; [|split; [exact Op|discriminate]].
    unfold same_line. rewrite Op. auto.
Qed.
Lemma rest_line e t1 t2 t1' t2' : same_line e t1 t2 -> rest_of t1' = rest_of t1 -> rest_of t2' = rest_of t2 ->
  stream (incoming (env t1')) = stream (incoming (env t2')) -> same_line e t1' t2'.
Proof.
  intros (K & O & Out & _ & L) R1 R2 S. unfold same_line. injection R1 as -> -> -> ->. injection R2 as -> -> -> ->. auto.
Qed.
Lemma hear_state bs : forall c a c' bs', hear c bs = (a, c', bs') ->
  match a with Done (Ok _) => buffer c' = [] | _ => elgas_state c' = elgas_state c end /\ context c' = context c.
Proof.
  induction bs as [|[b|x] bs IH]; intros c a c' bs' E; cbn [hear] in E; pose proof (next_event_context c) as Cx; destruct (next_event c) as [[[p|]|e] c1] eqn:N; cbn [snd] in Cx.
  all: try (assert (c1 = c) as -> by (eapply next_event_kept; [exact N|discriminate])).
  all: try (injection E as <- <- <-).
  all: try (split; [|exact Cx]; try reflexivity).
  3:{ apply IH in E as [E1 E2]. unfold receive_data in *. destruct (_ && _); cbn in *; auto. }
  all: unfold next_event in N; destruct (buffer c) as [|z l]; [discriminate|]; destruct (index_of 13 (z :: l)); [|discriminate]; cbv zeta in N;
    destruct (interpret _ _) as [f|y]; [|destruct (is_value_error y); discriminate];
    destruct (pdu_from_response f) as [q|y]; [|discriminate]; destruct (process_event _ _); [|discriminate]; injection N as _ <-; reflexivity.
Qed.
Lemma bare_eq c c' : bare c = bare c' -> elgas_state c = elgas_state c' /\ context c = context c' /\ forall s, bare (set_state c s) = bare (set_state c' s).
Proof. intros B. destruct c, c'. unfold bare, set_state, set_buffer in *. cbn in *. injection B. intros. subst. auto. Qed.
Lemma serialise_bare rnd pad c c' r : bare c = bare c' -> serialise rnd pad c r = serialise rnd pad c' r.
Proof. intros B. destruct c, c'. unfold bare, set_buffer in B. cbn in B. injection B. intros. subst. reflexivity. Qed.
Lemma exchange_twins e s1 s2 r a1 s1' a2 s2' : twins e s1 s2 -> stack_exchange s1 r = (a1, s1') -> stack_exchange s2 r = (a2, s2') ->
  a1 = a2 /\ twins e s1' s2'.
Proof.
  intros T. pose proof T as [Pw Dr Rq Ln Cn [Ea1 Ea2] Ky]. destruct (bare_eq _ _ Cn) as (Sc & Cc & Bs).
  unfold stack_exchange. cbn [stack_send]. unfold stack_send_one. rewrite <- Rq.
  destruct (st_draws s1 (st_requests s1)) as [rnd pad] eqn:D1. destruct (st_draws s2 (st_requests s1)) as [rnd' pad'] eqn:D2.
  cbn [st_connection]. rewrite !send_request. rewrite <- Sc.
  destruct (outstanding (elgas_state (st_connection s1))) as [q|] eqn:Os.
  { unfold st_set_connection. cbn [st_password st_transport st_requests st_draws]. intros E1 E2. injection E1 as <- <-. injection E2 as <- <-.
    split; [reflexivity|]. split; cbn; auto. }
  assert (elgas_state (st_connection s1) = IDLE) as Idle by (destruct (elgas_state (st_connection s1)); cbn in Os; congruence).
  destruct (twins_idle _ _ _ T Idle) as [Eq Eb]. rewrite <- Eq in *.
  set (c := set_state (st_connection s1) (awaiting (request_service r))).
  assert (elgas_state c <> IDLE) as Nc by (unfold c; destruct r; discriminate).
  assert (context c = context (st_connection s1)) as Cxc by reflexivity. assert (buffer c = []) as Bc by exact Eb.
  assert (alike_answer (serialise rnd pad (st_connection s1) r) (serialise rnd' pad' (st_connection s1) r) /\
    (e = true -> serialise rnd pad (st_connection s1) r = serialise rnd' pad' (st_connection s1) r)) as [Al Ex].
  { split.
    - destruct Ky as [He|Hk]; [|apply alike_serialise; exact Hk]. rewrite (Dr He), D2 in D1. injection D1 as -> ->.
      destruct (serialise _ _ _ _); cbn; auto.
    - intros He. rewrite (Dr He), D2 in D1. injection D1 as -> ->. reflexivity. }
  destruct (serialise rnd pad (st_connection s1) r) as [d1|x1], (serialise rnd' pad' (st_connection s1) r) as [d2|x2]; cbn in Al; try contradiction.
  2:{ subst x2. unfold st_set_connection. cbn [st_password st_transport st_requests st_draws]. intros E1 E2. injection E1 as <- <-. injection E2 as <- <-.
      split; [reflexivity|]. split; cbn; auto. all: try (split; intros X; contradiction). }
  unfold st_set_connection, st_set_transport. cbn [st_password st_transport st_requests st_draws st_connection].
  destruct (transport_write (st_transport s1) d1) as [w1 t1] eqn:W1. destruct (transport_write (st_transport s2) d2) as [w2 t2] eqn:W2.
  assert (e = true -> d1 = d2) as Hd by (intros He; specialize (Ex He); congruence).
  destruct (same_write _ _ _ _ _ _ _ _ _ Ln Hd W1 W2) as (<- & Nw & Ln' & Op & Ok1).
  destruct w1 as [[u|x]|]; [| |contradiction].
  2:{ intros E1 E2. injection E1 as <- <-. injection E2 as <- <-. split; [reflexivity|]. split; cbn; auto. all: try (split; intros X; contradiction). }
  specialize (Ok1 u eq_refl). rewrite Ok1 in Op.
  assert (is_open t2 = true) as Op2 by (destruct Ln' as (_ & X & _); congruence).
  destruct (transport_read t1) as [r1 t1'] eqn:R1. destruct (transport_read t2) as [r2 t2'] eqn:R2.
  destruct (read_took _ _ _ Op R1) as (Rt1 & q1 & Tk1 & ->). destruct (read_took _ _ _ Op2 R2) as (Rt2 & q2 & Tk2 & ->).
  assert (needs c) as Nd by (unfold needs; apply next_event_uncut; rewrite Bc; intros []).
  pose proof (hear_took _ _ _ _ Nd Tk1) as H1. pose proof (hear_took _ _ _ _ Nd Tk2) as H2.
  assert (stream (incoming (env t1)) = stream (incoming (env t2))) as St by (destruct Ln' as (_ & _ & _ & X & _); exact X).
  rewrite <- St in H2.
  (* each side ends as hear says *)
  assert (forall (dr : nat -> (nat -> Z) * (nat -> Z)) pw q t t' n b s', rest_of t' = rest_of t -> is_open t = true ->
    match q with
    | Done (Ok d) => hear c (stream (incoming (env t1))) = hear (receive_data c d) (stream (incoming (env t')))
    | Done (Err x) => exists c', hear c (stream (incoming (env t1))) = (Done (Err (wrapped x)), c', stream (incoming (env t'))) /\ bare c' = bare c
    | Waiting => exists c', hear c (stream (incoming (env t1))) = (Waiting, c', stream (incoming (env t'))) /\ bare c' = bare c
    end ->
    match match
      match match q with Done (Err x) => Done (Err (wrapped x)) | r => r end with
      | Waiting => (Waiting, mk_stack pw c t' n dr)
      | Done (Err e) => (Done (Err e), mk_stack pw c t' n dr)
      | Done (Ok response_data) => (Done (Ok tt), mk_stack pw (receive_data c response_data) t' n dr)
      end with
      | (Done (Ok _), s) => (Done (Ok tt), s)
      | (r, s) => (r, s)
      end with
    | (Waiting, s) => (Waiting, s)
    | (Done (Err e), s) => (Done (Err e), s)
    | (Done (Ok _), s) => stack_next_event s
    end = (b, s') ->
    rest_of (st_transport s') = rest_of t /\ st_password s' = pw /\ st_draws s' = dr /\ st_requests s' = n /\
    exists c', hear c (stream (incoming (env t1))) = (b, c', stream (incoming (env (st_transport s')))) /\
      bare (st_connection s') = bare c' /\ (forall p, b = Done (Ok p) -> st_connection s' = c')) as Side.
  { intros dr pw q t t' n b s' Rt Ot H E. destruct q as [[d|x]|].
    - unfold stack_next_event in E. apply loop_hears in E; [|cbn [st_transport]; injection Rt as _ X _ _; rewrite X; exact Ot|apply Nat.lt_succ_diag_r].
      cbn [st_transport st_connection st_password st_draws st_requests] in E. rewrite <- H in E. rewrite <- Rt. exact E.
    - injection E as <- <-. destruct H as (c' & H & B). cbn [st_transport st_connection st_password st_draws st_requests].
      split; [exact Rt|]. do 3 (split; [reflexivity|]). exists c'. split; [exact H|]. split; [symmetry; exact B|discriminate].
    - injection E as <- <-. destruct H as (c' & H & B). cbn [st_transport st_connection st_password st_draws st_requests].
      split; [exact Rt|]. do 3 (split; [reflexivity|]). exists c'. split; [exact H|]. split; [symmetry; exact B|discriminate]. }
  intros E1 E2.
  destruct (Side (st_draws s1) (st_password s1) q1 t1 t1' (S (st_requests s1)) a1 s1' Rt1 Op H1 E1) as (A1 & A2 & A3 & A4 & c1 & A5 & A6 & A7).
  destruct (Side (st_draws s2) (st_password s2) q2 t2 t2' (S (st_requests s1)) a2 s2' Rt2 Op2 H2 E2) as (B1 & B2 & B3 & B4 & c2 & B5 & B6 & B7).
  pose proof (hear_state _ _ _ _ _ A5) as [Hs Hc]. rewrite A5 in B5. injection B5 as <- <- S'. split; [reflexivity|].
  assert (at_ease (st_connection s1') /\ at_ease (st_connection s2')) as Ease.
  { destruct a1 as [[p|x]|].
    - rewrite (A7 p eq_refl), (B7 p eq_refl). split; intros _; exact Hs.
    - destruct (bare_eq _ _ A6) as (X1 & _). destruct (bare_eq _ _ B6) as (X2 & _). split; intros X; exfalso; apply Nc; congruence.
    - destruct (bare_eq _ _ A6) as (X1 & _). destruct (bare_eq _ _ B6) as (X2 & _). split; intros X; exfalso; apply Nc; congruence. }
  split; [congruence|intros He; rewrite A3, B3; auto|congruence| |congruence|exact Ease|].
  - eapply rest_line; [exact Ln'|exact A1|exact B1|exact S'].
  - destruct Ky as [He|Hk]; [left; exact He|right]. intros ctx. destruct (bare_eq _ _ A6) as (_ & X & _). rewrite X, Hc. exact (Hk ctx).
Qed.
Lemma available_stream inc : available inc = length (filter (fun r => match r with Ok _ => true | Err _ => false end) (stream inc)).
Proof.
  unfold available, stream. induction inc as [|[d|x] inc IH]; cbn [fold_right flat_map]; [reflexivity|..].
  - rewrite filter_app, app_length, <- IH. f_equal. induction d as [|b d IHd]; [reflexivity|]. cbn. f_equal. exact IHd.
  - exact IH.
Qed.
Lemma twins_left e s1 s2 : twins e s1 s2 -> available (incoming (env (st_transport s1))) = available (incoming (env (st_transport s2))).
Proof. intros T. destruct (tw_line _ _ _ T) as (_ & _ & _ & S & _). rewrite !available_stream, S. reflexivity. Qed.
Lemma parameters_twins e fuel : forall s1 s2 n acc a1 s1' a2 s2', twins e s1 s2 ->
  stack_read_parameters_loop fuel s1 n acc = (a1, s1') -> stack_read_parameters_loop fuel s2 n acc = (a2, s2') ->
  a1 = a2 /\ twins e s1' s2'.
Proof.
  induction fuel as [|fuel IH]; intros s1 s2 n acc a1 s1' a2 s2' T E1 E2; cbn [stack_read_parameters_loop] in *.
  { injection E1 as <- <-. injection E2 as <- <-. auto. }
  rewrite <- (tw_password _ _ _ T) in E2.
  destruct (stack_exchange s1 _) as [b1 u1] eqn:X1. destruct (stack_exchange s2 _) as [b2 u2] eqn:X2.
  destruct (exchange_twins _ _ _ _ _ _ _ _ T X1 X2) as [<- T'].
  destruct b1 as [[p|x]|].
  2,3: injection E1 as <- <-; injection E2 as <- <-; auto.
  destruct p; try (injection E1 as <- <-; injection E2 as <- <-; auto). cbv zeta in *. destruct is_end.
  - injection E1 as <- <-. injection E2 as <- <-. auto.
  - eapply IH; eauto.
Qed.
Lemma same_control e t1 t2 c a1 t1' a2 t2' : same_line e t1 t2 -> c = TConnect \/ c = TDisconnect ->
  transport_step t1 c = (a1, t1') -> transport_step t2 c = (a2, t2') -> a1 = a2 /\ same_line e t1' t2'.
Proof.
  intros (K & O & Out & St & L) [-> | ->]; cbn [transport_step]; unfold lift.
  - unfold transport_connect. rewrite <- O. destruct (is_open t1) eqn:Op.
    { intros E1 E2. injection E1 as <- <-. injection E2 as <- <-. split; [reflexivity|]. unfold same_line. rewrite Op. auto. }
    destruct (perform (env t1) SOpen) as [r1 e1] eqn:P1. destruct (perform (env t2) SOpen) as [r2 e2] eqn:P2.
    destruct (same_perform e _ _ _ _ _ _ _ _ (same_call_refl e SOpen) Out L P1 P2) as (-> & O' & I1 & I2 & L').
    destruct r2; intros E1 E2; injection E1 as <- <-; injection E2 as <- <-; (split; [reflexivity|]); unfold same_line; cbn; rewrite I1, I2; auto.
    rewrite Op. auto.
  - unfold transport_disconnect. rewrite <- O, <- K. destruct (is_open t1) eqn:Op.
    2:{ intros E1 E2. injection E1 as <- <-. injection E2 as <- <-. split; [reflexivity|]. unfold same_line. rewrite Op. auto. }
    destruct (t_kind t1) eqn:Kd.
    + destruct (perform (env t1) SShutdown) as [r1 e1] eqn:P1. destruct (perform (env t2) SShutdown) as [r2 e2] eqn:P2.
      destruct (same_perform e _ _ _ _ _ _ _ _ (same_call_refl e SShutdown) Out L P1 P2) as (-> & O' & I1 & I2 & L').
      destruct r2.
      2:{ intros E1 E2; injection E1 as <- <-; injection E2 as <- <-; (split; [reflexivity|]); unfold same_line; cbn; rewrite I1, I2, Kd, <- K; auto. }
      destruct (perform e1 SClose) as [r1 e1'] eqn:Q1. destruct (perform e2 SClose) as [r2 e2'] eqn:Q2.
      destruct (same_perform e _ _ _ _ _ _ _ _ (same_call_refl e SClose) O' L' Q1 Q2) as (-> & O2 & J1 & J2 & L2).
      destruct r2; intros E1 E2; injection E1 as <- <-; injection E2 as <- <-; (split; [reflexivity|]); unfold same_line; cbn; rewrite J1, J2, I1, I2, Kd, <- K; auto.
    + destruct (perform (env t1) SClose) as [r1 e1'] eqn:Q1. destruct (perform (env t2) SClose) as [r2 e2'] eqn:Q2.
      destruct (same_perform e _ _ _ _ _ _ _ _ (same_call_refl e SClose) Out L Q1 Q2) as (-> & O2 & J1 & J2 & L2).
      destruct r2; intros E1 E2; injection E1 as <- <-; injection E2 as <- <-; (split; [reflexivity|]); unfold same_line; cbn; rewrite J1, J2, Kd, <- K; auto.
Qed.
Lemma map_twins {A B} e (f : A -> B) x1 x2 b1 s1' b2 s2' :
  (forall a1 u1 a2 u2, x1 = (a1, u1) -> x2 = (a2, u2) -> a1 = a2 /\ twins e u1 u2) ->
  stack_map f x1 = (b1, s1') -> stack_map f x2 = (b2, s2') -> b1 = b2 /\ twins e s1' s2'.
Proof.
  intros H E1 E2. apply stack_map_inv in E1 as (a1 & -> & ->). apply stack_map_inv in E2 as (a2 & -> & ->).
  destruct (H _ _ _ _ eq_refl eq_refl) as [<- T]. auto.
Qed.
Lemma operate_twins e s1 s2 o a1 s1' a2 s2' : twins e s1 s2 -> stack_operate s1 o = (a1, s1') -> stack_operate s2 o = (a2, s2') ->
  a1 = a2 /\ twins e s1' s2'.
Proof.
  intros T. pose proof T as [Pw Dr Rq Ln Cn Ea Ky].
  assert (forall c (u1 u2 : answer unit) t1 t2, c = TConnect \/ c = TDisconnect ->
    transport_step (st_transport s1) c = lift (fun _ => TNothing) (u1, t1) -> transport_step (st_transport s2) c = lift (fun _ => TNothing) (u2, t2) ->
    u1 = u2 /\ twins e (st_set_transport s1 t1) (st_set_transport s2 t2)) as Ctl.
  { intros c u1 u2 t1 t2 C E1 E2.
    assert (forall u : answer unit, forall t : transport, lift (fun _ => TNothing) (u, t) = (match u with Done (Ok _) => Done (Ok TNothing) | Done (Err x) => Done (Err x) | Waiting => Waiting end, t)) as Lf
      by (intros [[?|?]|] t; reflexivity).
    rewrite Lf in E1, E2. destruct (same_control e _ _ c _ _ _ _ Ln C E1 E2) as [Eu L'].
    split; [destruct u1 as [[[]|?]|], u2 as [[[]|?]|]; congruence|]. split; cbn; auto. }
  destruct o; cbn [stack_operate]; apply map_twins; intros b1 u1 b2 u2 E1 E2.
  - unfold stack_connect in *. destruct (transport_connect (st_transport s1)) as [r1 t1] eqn:C1. destruct (transport_connect (st_transport s2)) as [r2 t2] eqn:C2.
    injection E1 as <- <-. injection E2 as <- <-. apply (Ctl TConnect); [auto|cbn [transport_step]; rewrite C1; reflexivity|cbn [transport_step]; rewrite C2; reflexivity].
  - unfold stack_disconnect in *. destruct (transport_disconnect (st_transport s1)) as [r1 t1] eqn:C1. destruct (transport_disconnect (st_transport s2)) as [r2 t2] eqn:C2.
    injection E1 as <- <-. injection E2 as <- <-. apply (Ctl TDisconnect); [auto|cbn [transport_step]; rewrite C1; reflexivity|cbn [transport_step]; rewrite C2; reflexivity].
  - unfold stack_read_instantaneous_values in *. rewrite <- Pw in E2. eapply exchange_twins; eauto.
  - unfold stack_read_time in *. destruct (stack_exchange s1 _) as [c1 v1] eqn:X1. destruct (stack_exchange s2 _) as [c2 v2] eqn:X2.
    destruct (exchange_twins _ _ _ _ _ _ _ _ T X1 X2) as [<- T']. destruct c1 as [[p|x]|]; [destruct p| |]; injection E1 as <- <-; injection E2 as <- <-; auto.
  - unfold stack_write_time in *. rewrite <- Pw in E2. destruct (stack_exchange s1 _) as [c1 v1] eqn:X1. destruct (stack_exchange s2 _) as [c2 v2] eqn:X2.
    destruct (exchange_twins _ _ _ _ _ _ _ _ T X1 X2) as [<- T']. destruct c1 as [[p|x]|]; injection E1 as <- <-; injection E2 as <- <-; auto.
  - unfold stack_read_parameters in *. rewrite <- (twins_left _ _ _ T) in E2. eapply parameters_twins; eauto.
  - unfold stack_read_archive in *. rewrite <- Pw in E2. eapply exchange_twins; eauto.
  - unfold stack_read_archive_by_time in *. rewrite <- Pw in E2. eapply exchange_twins; eauto.
Qed.
Lemma session_twins e os : forall s1 s2 vs1 s1' vs2 s2', twins e s1 s2 -> stack_session s1 os = (vs1, s1') -> stack_session s2 os = (vs2, s2') ->
  vs1 = vs2 /\ twins e s1' s2'.
Proof.
  induction os as [|o os IH]; intros s1 s2 vs1 s1' vs2 s2' T E1 E2; cbn [stack_session] in *.
  { injection E1 as <- <-. injection E2 as <- <-. auto. }
  destruct (stack_operate s1 o) as [a1 u1] eqn:O1. destruct (stack_operate s2 o) as [a2 u2] eqn:O2.
  destruct (operate_twins _ _ _ _ _ _ _ _ T O1 O2) as [<- T'].
  destruct a1 as [r|]; [|injection E1 as <- <-; injection E2 as <- <-; auto].
  destruct (stack_session u1 os) as [w1 v1] eqn:S1. destruct (stack_session u2 os) as [w2 v2] eqn:S2.
  destruct (IH _ _ _ _ _ _ T' S1 S2) as [<- T'']. injection E1 as <- <-. injection E2 as <- <-. auto.
Qed.
Lemma made_twins e t1 t2 pw pid k id dr1 dr2 s1 s2 : make_stack t1 pw pid k id dr1 = Ok s1 -> make_stack t2 pw pid k id dr2 = Ok s2 ->
  same_line e t1 t2 -> (e = true -> dr1 = dr2) -> (e = true \/ key_bytes k) -> twins e s1 s2.
Proof.
  unfold make_stack. destruct (make_connection 0 0 0 0 pw pid (to_secret_byte k) id) as [c|x] eqn:M; cbn [bind]; [|discriminate].
  intros E1 E2. injection E1 as <-. injection E2 as <-. intros Ln Dr K.
  unfold make_connection in M. destruct (validate _ _ _ _ _ _); cbn [bind] in M; [|discriminate]. injection M as <-.
  split; cbn; auto.
  - split; intros _; reflexivity.
  - destruct K as [He|Hk]; [left; exact He|right]. intros ctx. unfold create_cipher_context, to_secret_byte.
    destruct k as [[|b k]|]; cbn; try discriminate; destruct id; try discriminate; intros X; injection X as <-; exact Hk.
Qed.
Lemma timing_indifferent t1 t2 pw pid k id dr s1 s2 os vs1 s1' vs2 s2' :
  make_stack t1 pw pid k id dr = Ok s1 -> make_stack t2 pw pid k id dr = Ok s2 -> same_line true t1 t2 ->
  stack_session s1 os = (vs1, s1') -> stack_session s2 os = (vs2, s2') ->
  vs1 = vs2 /\ same_line true (st_transport s1') (st_transport s2').
Proof.
  intros M1 M2 L E1 E2. pose proof (made_twins true _ _ _ _ _ _ _ _ _ _ M1 M2 L (fun _ => eq_refl) (or_introl eq_refl)) as T.
  destruct (session_twins _ _ _ _ _ _ _ _ T E1 E2) as [V T']. split; [exact V|exact (tw_line _ _ _ T')].
Qed.
Lemma chance_indifferent t1 t2 pw pid k id dr1 dr2 s1 s2 os vs1 s1' vs2 s2' :
  make_stack t1 pw pid k id dr1 = Ok s1 -> make_stack t2 pw pid k id dr2 = Ok s2 -> key_bytes k -> same_line false t1 t2 ->
  stack_session s1 os = (vs1, s1') -> stack_session s2 os = (vs2, s2') ->
  vs1 = vs2 /\ same_line false (st_transport s1') (st_transport s2').
Proof.
  intros M1 M2 K L E1 E2. pose proof (made_twins false _ _ _ _ _ _ _ _ _ _ M1 M2 L ltac:(discriminate) (or_intror K)) as T.
  destruct (session_twins _ _ _ _ _ _ _ _ T E1 E2) as [V T']. split; [exact V|exact (tw_line _ _ _ T')].
Qed.
