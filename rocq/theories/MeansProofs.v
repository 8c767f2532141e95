(** Proofs: what the data of a response means. *)
From Coq Require Import Lia.
From Verif Require Import PyFacts SpecUtils UtilsProofs SpecFrames SpecText TextProofs SpecApplication ApplicationProofs SpecPdu.
From Verif Require Import SpecConnection Connection ConnectionProofs SpecErrors SpecDecode.
Open Scope list_scope.
Open Scope Z_scope.

Lemma clock_time_six l t dst sup : clock_time l t dst sup -> len l = 6.
Proof. intros (s & mi & h & d & mo & y & vs & vmi & vh & vd & vmo & vy & -> & _). reflexivity. Qed.
Lemma clock_time_decodes l t dst sup : is_bytes l -> (clock_time l t dst sup <-> bytes_to_datetime l = Ok (t, dst, sup)).
Proof. intros B. symmetry. exact (decoding_exact l t dst sup B). Qed.
Lemma clock_time_dec l : is_bytes l -> (exists t dst sup, clock_time l t dst sup) \/ no_clock_time l.
Proof.
  intros B. destruct (bytes_to_datetime l) as [[[t dst] sup]|x] eqn:E.
  - left. exists t, dst, sup. apply clock_time_decodes; assumption.
  - right. intros t dst sup C. apply clock_time_decodes in C; [congruence|exact B].
Qed.
Lemma first_six (l : bytes) : slice_to 6 l = firstn 6 l.
Proof.
  unfold slice_to. rewrite clamp_pos by lia. destruct (Z.le_gt_cases 6 (len l)).
  - rewrite Z.min_l by lia. reflexivity.
  - rewrite Z.min_r by lia. unfold len in *. rewrite Nat2Z.id, firstn_all. symmetry. apply firstn_all2. lia.
Qed.
Lemma firstn_bytes n l : is_bytes l -> is_bytes (firstn n l).
Proof. intros B. rewrite <- (firstn_skipn n l) in B. apply is_bytes_app in B. apply B. Qed.
Lemma skipn_bytes n l : is_bytes l -> is_bytes (skipn n l).
Proof. intros B. rewrite <- (firstn_skipn n l) in B. apply is_bytes_app in B. apply B. Qed.
Definition reader (srv : service) (d : bytes) : res response_pdu := pdu_from_response (mk_frame srv 0 0 0 0 d).
Lemma reader_is f : pdu_from_response f = reader (f_service f) (f_data f).
Proof. destruct f as [srv d1 d2 s1 s2 d]. unfold reader, pdu_from_response. reflexivity. Qed.
Lemma archive_read d a i data : is_bytes d -> archive_data d a i data ->
  archive_from_bytes d = Ok (ReadArchiveResponse a i data) /\ archive_by_time_from_bytes d = Ok (ReadArchiveByTimeResponse a i data).
Proof.
  intros B H. destruct H as [a i x data A Hi|a l A L].
  - unfold archive_from_bytes, archive_by_time_from_bytes.
    assert (getitem 0 ([a] ++ [i mod 256; i / 256 mod 256; i / 65536] ++ [x] ++ data) = Ok a) as -> by (apply (getitem_app [] a); reflexivity). cbn [bind].
    unfold archive_of_number. unfold archive_number in A. destruct (Z.leb_spec 0 a), (Z.leb_spec a 10); try lia. cbn [andb bind]. cbv zeta.
    rewrite (slice_mid [a] [i mod 256; i / 256 mod 256; i / 65536] ([x] ++ data)) by lenlia.
    rewrite (app_assoc _ [x] data), (app_assoc [a]). rewrite (slice_from_app ([a] ++ _ ++ [x]) data) by lenlia.
    assert (from_le [i mod 256; i / 256 mod 256; i / 65536] = i) as ->; [|auto].
    unfold from_le. cbn. pose proof (Z.div_mod i 256 ltac:(lia)). pose proof (Z.div_mod (i / 256) 256 ltac:(lia)).
    rewrite Z.div_div in * by lia. change (256 * 256) with 65536 in *. lia.
  - destruct (archive_truncated_accepted a l A ltac:(lia)) as [E1 E2]. rewrite E1, E2.
    rewrite (firstn_all2 (n := 3) l) by (unfold len in L; lia). auto.
Qed.
Lemma means_read srv d p : is_bytes d -> means srv d p -> reader srv d = Ok p.
Proof.
  intros B H. destruct H as [time t dst sup data access status summary crc C L1 L2 L3|time t dst sup result extra crc C L|time t dst sup tail C L|n a e data Hn Ha|d a i data A|d a i data A|d];
    unfold reader, pdu_from_response; cbn [f_service f_data].
  - apply is_bytes_app in B as [B _]. apply instantaneous_split; auto; [apply clock_time_decodes; assumption|eapply clock_time_six; eassumption].
  - apply is_bytes_app in B as [B _]. apply read_time_split; auto; [apply clock_time_decodes; assumption|eapply clock_time_six; eassumption].
  - apply is_bytes_app in B as [B _]. apply read_time_short_accepted; auto; [apply clock_time_decodes; assumption|eapply clock_time_six; eassumption].
  - apply device_parameters_split; assumption.
  - apply archive_read; assumption.
  - apply archive_read; assumption.
  - reflexivity.
Qed.
Lemma no_time_read l : is_bytes l -> no_clock_time (firstn 6 l) -> forall r, bytes_to_datetime (firstn 6 l) <> Ok r.
Proof. intros B N [[t dst] sup] E. apply (N t dst sup). apply clock_time_decodes; [apply firstn_bytes; exact B|exact E]. Qed.
Lemma unread srv d x : is_bytes d -> means_nothing srv d x -> reader srv d = Err x.
Proof.
  intros B H. destruct H as [srv d U|d N|time t dst sup tail C L|d N|d L|srv S|srv a l S A]; unfold reader, pdu_from_response; cbn [f_service f_data].
  - destruct srv; try reflexivity; exfalso; apply U; cbn; tauto.
  - apply instantaneous_bad_time; [exact B|apply no_time_read; assumption].
  - pose proof (clock_time_six _ _ _ _ C) as L6. assert (is_bytes time) as Bt by (apply is_bytes_app in B as [B _]; exact B).
    unfold instantaneous_values_from_bytes. cbv zeta. rewrite (slice_to_app time tail) by lia.
    rewrite (proj1 (clock_time_decodes _ _ _ _ Bt) C). cbn [bind]. pose proof (len_nonneg tail).
    rewrite getitem_err; [reflexivity|lia|]. intros _.
    change (-8) with (- (8)). change (-2) with (- (2)). rewrite !len_slice_to_neg, len_slice_from by lia. rewrite len_app. lia.
  - unfold read_time_from_bytes. cbv zeta. rewrite first_six. destruct (bytes_to_datetime (firstn 6 d)) as [r|e] eqn:E.
    + exfalso. eapply no_time_read; eassumption.
    + cbn [bind]. f_equal. eapply bytes_to_datetime_err; [|exact E]. apply firstn_bytes. exact B.
  - apply device_parameters_short. exact L.
  - destruct S as [-> | ->]; reflexivity.
  - destruct (archive_unknown a l A) as [E1 E2]. destruct S as [-> | ->]; assumption.
Qed.
Lemma split_last n (l : bytes) : Z.of_nat n <= len l -> exists (a b : bytes), l = a ++ b /\ length b = n.
Proof.
  intros H. exists (firstn (length l - n) l), (skipn (length l - n) l). split; [symmetry; apply firstn_skipn|].
  rewrite skipn_length. unfold len in H. lia.
Qed.
Lemma le2_of b1 b2 : is_byte b1 -> is_byte b2 -> [b1; b2] = le2 (b1 + 256 * b2) /\ 0 <= b1 + 256 * b2 <= 65535.
Proof.
  unfold is_byte, le2. intros H1 H2. split; [|lia]. f_equal; [|f_equal].
  - rewrite Z.mul_comm, Z_mod_plus_full, Z.mod_small; lia.
  - rewrite Z.mul_comm, Z_div_plus_full, Z.div_small; lia.
Qed.
Lemma archive_total l : is_bytes l -> (exists a i data, archive_data l a i data) \/ l = [] \/ (exists a l', l = a :: l' /\ ~ archive_number a).
Proof.
  intros B. destruct l as [|a l]; [auto|]. destruct (Z_le_dec 0 a) as [H1|H1]; [destruct (Z_le_dec a 10) as [H2|H2]|]; try (right; right; exists a, l; split; [reflexivity|unfold archive_number; lia]).
  left. assert (archive_number a) as A by (split; assumption). destruct l as [|b1 [|b2 [|b3 [|b4 l]]]]; try (do 3 eexists; apply archive_cut; [exact A|unfold len; cbn [length]; lia]).
  unfold is_bytes in B. rewrite !Forall_cons_iff in B. destruct B as (_ & C1 & C2 & C3 & _).
  unfold is_byte in *. set (i := b1 + 256 * b2 + 65536 * b3). exists a, i, l.
  replace (a :: b1 :: b2 :: b3 :: b4 :: l) with ([a] ++ [i mod 256; i / 256 mod 256; i / 65536] ++ [b4] ++ l).
  - apply archive_whole; [exact A|unfold i; lia].
  - cbn [app]. assert (i / 256 = b2 + 256 * b3) as E by (unfold i; replace (b1 + 256 * b2 + 65536 * b3) with (b1 + (b2 + 256 * b3) * 256) by lia; rewrite Z_div_plus_full, Z.div_small; lia).
    f_equal. f_equal; [|f_equal; [|f_equal]].
    + unfold i. replace (b1 + 256 * b2 + 65536 * b3) with (b1 + (b2 + 256 * b3) * 256) by lia. rewrite Z_mod_plus_full, Z.mod_small; lia.
    + rewrite E. replace (b2 + 256 * b3) with (b2 + b3 * 256) by lia. rewrite Z_mod_plus_full, Z.mod_small; lia.
    + change 65536 with (256 * 256). rewrite <- Z.div_div, E by lia. replace (b2 + 256 * b3) with (b2 + b3 * 256) by lia. rewrite Z_div_plus_full, Z.div_small; lia.
Qed.
Lemma known_or_not srv : unanswered srv \/ srv = READ_VALUES \/ srv = READ_DEVICE_TIME \/ srv = READ_SCADA_PARAMETERS \/ srv = READ_ARCHIVES_BY_DATE \/ srv = READ_ARCHIVES \/ srv = WRITE_DEVICE_TIME.
Proof. destruct srv; auto 10; left; intros H; repeat destruct H as [H|H]; try discriminate; exact H. Qed.
Lemma means_total srv d : is_bytes d -> (exists p, means srv d p) \/ (exists x, means_nothing srv d x).
Proof.
  intros B. destruct (known_or_not srv) as [U|[ -> |[ -> |[ -> |[ -> |[ -> | -> ]]]]]].
  - right. eexists. apply no_such_answer. exact U.
  - destruct (clock_time_dec (firstn 6 d) (firstn_bytes 6 d B)) as [(t & dst & sup & C)|N]; [|right; eexists; apply values_without_time; exact N].
    rewrite <- (firstn_skipn 6 d). set (tail := skipn 6 d). destruct (Z_lt_dec (len tail) 19) as [L|L]; [right; eexists; eapply values_too_short; eassumption|].
    destruct (split_last 2 tail) as (r1 & crc & E1 & L1); [lia|]. assert (len r1 >= 17) as M1 by (rewrite E1, len_app in L; unfold len in *; lia).
    destruct (split_last 8 r1) as (r2 & summary & E2 & L2); [lia|]. assert (len r2 >= 9) as M2 by (rewrite E2, len_app in M1; unfold len in *; lia).
    destruct (split_last 8 r2) as (r3 & status & E3 & L3); [lia|]. assert (len r3 >= 1) as M3 by (rewrite E3, len_app in M2; unfold len in *; lia).
    destruct (split_last 1 r3) as (data & access & E4 & L4); [lia|]. destruct access as [|access [|? ?]]; try discriminate.
    left. eexists. rewrite E1, E2, E3, E4, <- !app_assoc. apply means_values; [exact C|unfold len; lia|unfold len; lia|unfold len; lia].
  - destruct (clock_time_dec (firstn 6 d) (firstn_bytes 6 d B)) as [(t & dst & sup & C)|N]; [|right; eexists; apply time_without_time; exact N].
    left. rewrite <- (firstn_skipn 6 d). set (tail := skipn 6 d). destruct (Z_le_dec (len tail) 2) as [L|L]; [eexists; eapply means_time_cut; eassumption|].
    clearbody tail. destruct tail as [|result tail]; [exfalso; apply L; unfold len; cbn [length]; lia|]. destruct (split_last 2 tail) as (extra & crc & -> & L1); [rewrite len_cons in L; lia|].
    eexists. apply (means_time _ _ _ _ result extra crc C). unfold len. lia.
  - destruct d as [|n1 [|n2 [|a1 [|a2 [|e d]]]]]; try (right; eexists; apply parameters_too_short; unfold len; cbn [length]; lia).
    unfold is_bytes in B. rewrite !Forall_cons_iff in B. destruct B as (C1 & C2 & C3 & C4 & _).
    destruct (le2_of n1 n2 C1 C2) as [E1 H1]. destruct (le2_of a1 a2 C3 C4) as [E2 H2]. left. eexists.
    change (n1 :: n2 :: a1 :: a2 :: e :: d) with ([n1; n2] ++ [a1; a2] ++ [e] ++ d). rewrite E1, E2. apply means_parameters; assumption.
  - destruct (archive_total d B) as [(a & i & data & A)|[ -> |(a & l & -> & A)]]; [left; eexists; apply means_by_date; exact A|right..]; eexists;
      [apply archive_without_data; auto|apply archive_without_name; auto].
  - destruct (archive_total d B) as [(a & i & data & A)|[ -> |(a & l & -> & A)]]; [left; eexists; apply means_archive; exact A|right..]; eexists;
      [apply archive_without_data; auto|apply archive_without_name; auto].
  - left. eexists. apply means_written.
Qed.
Lemma means_iff srv d p : is_bytes d -> (reader srv d = Ok p <-> means srv d p).
Proof.
  intros B. split; [|apply means_read; exact B]. intros E. destruct (means_total srv d B) as [(q & M)|(x & M)].
  - pose proof (means_read _ _ _ B M). replace p with q by congruence. exact M.
  - pose proof (unread _ _ _ B M). congruence.
Qed.
Lemma means_nothing_iff srv d x : is_bytes d -> (reader srv d = Err x <-> means_nothing srv d x).
Proof.
  intros B. split; [|apply unread; exact B]. intros E. destruct (means_total srv d B) as [(q & M)|(y & M)].
  - pose proof (means_read _ _ _ B M). congruence.
  - pose proof (unread _ _ _ B M). replace x with y by congruence. exact M.
Qed.
Lemma means_service srv d p : means srv d p -> pdu_service p = srv.
Proof. intros H. destruct H; reflexivity. Qed.
Lemma decoded_iff f p : is_bytes (f_data f) -> (pdu_from_response f = Ok p <-> means (f_service f) (f_data f) p).
Proof. rewrite reader_is. apply means_iff. Qed.
Lemma rejected_iff f x : is_bytes (f_data f) -> (pdu_from_response f = Err x <-> means_nothing (f_service f) (f_data f) x).
Proof. rewrite reader_is. apply means_nothing_iff. Qed.
Lemma one_meaning srv d : is_bytes d ->
  (exists p, means srv d p /\ (forall q, means srv d q -> q = p) /\ forall x, ~ means_nothing srv d x) \/
  (exists x, means_nothing srv d x /\ (forall y, means_nothing srv d y -> y = x) /\ forall p, ~ means srv d p).
Proof.
  intros B. destruct (means_total srv d B) as [(p & M)|(x & M)]; [left; exists p|right; exists x]; (split; [exact M|split]).
  - intros q M'. apply means_read in M, M'; [congruence|assumption..].
  - intros x M'. apply means_read in M; [|assumption]. apply unread in M'; [congruence|assumption].
  - intros y M'. apply unread in M, M'; [congruence|assumption..].
  - intros p M'. apply means_read in M'; [|assumption]. apply unread in M; [congruence|assumption].
Qed.
Lemma decodes_means srv d p : is_bytes d -> (decodes srv d p <-> means srv d p).
Proof.
  intros B. pose (f := mk_frame srv 0 0 0 0 d). change srv with (f_service f) at 1 2. change d with (f_data f). rewrite <- ConnectionProofs.pdu_decodes. apply decoded_iff. exact B.
Qed.

(** ** the statements about the connection, with the meaning of the data *)
Lemma answers_bytes ctx srv d t : answers ctx srv d t -> is_bytes d.
Proof. intros [? ? ? ? _ B _ _|? ? ? ? ? ? ? _ B _ _ _ _ _ _ _]; exact B. Qed.
Lemma answered_means ctx srv d t p : answers ctx srv d t -> (decodes srv d p <-> means srv d p).
Proof. intros A. apply decodes_means. eapply answers_bytes. exact A. Qed.
Lemma chunked_means rnd pad c r out c' d t p chunks last :
  send rnd pad c (Request r) = (Ok out, c') -> buffer c = [] ->
  answers (context c) (request_service r) d t -> no_flag d -> means (request_service r) d p ->
  concat chunks ++ last = t -> last <> [] ->
  exists c'', feed c' (chunks ++ [last]) = (map (fun _ => Ok None) chunks ++ [Ok (Some p)], c'') /\
    elgas_state c'' = IDLE /\ buffer c'' = [].
Proof. intros S B A N M. apply (answered_means _ _ _ _ _ A) in M. exact (chunked_delivery rnd pad c r out c' d t p chunks last S B A N M). Qed.
Lemma delivered_means c p c' : is_bytes (buffer c) -> sound_context (context c) ->
  next_event c = (Ok (Some p), c') ->
  outstanding (elgas_state c) = Some (pdu_service p) /\ c' = set_buffer (set_state c IDLE) [] /\
  exists w t, on_line w t /\ first_telegram t (buffer c) /\
   ((exists d, accepted (context c) (pdu_service p) d w /\ no_flag d /\ means (pdu_service p) d p) \/
    (len w < 16 /\ p = WriteTimeResponse)).
Proof.
  intros B S E. destruct (delivered_inv c p c' B S E) as (H1 & H2 & w & t & Ho & F & H). split; [exact H1|]. split; [exact H2|].
  exists w, t. split; [exact Ho|]. split; [exact F|]. destruct H as [(d & A & N & D)|H]; [left|right; exact H].
  exists d. split; [exact A|]. split; [exact N|]. apply decodes_means; [eapply accepted_bytes; eassumption|exact D].
Qed.
Lemma rest_dropped_means c d t p rest : answers (context c) (pdu_service p) d t -> no_flag d -> means (pdu_service p) d p ->
  outstanding (elgas_state c) = Some (pdu_service p) -> buffer c = t ++ rest ->
  exists c', next_event c = (Ok (Some p), c') /\ buffer c' = [] /\ elgas_state c' = IDLE.
Proof. intros A N M. apply (answered_means _ _ _ _ _ A) in M. exact (rest_dropped c d t p rest A N M). Qed.
Lemma downgrade_means c d1 d2 s1 s2 d p t rest : addresses d1 d2 s1 s2 -> is_bytes d -> len d <= 65520 -> no_flag d ->
  means (pdu_service p) d p -> outstanding (elgas_state c) = Some (pdu_service p) ->
  on_line (response_wire 134 (service_number (pdu_service p)) d1 d2 s1 s2 d) t -> buffer c = t ++ rest ->
  fst (next_event c) = Ok (Some p).
Proof. intros A B L N M. apply (decodes_means _ _ _ B) in M. exact (downgrade c d1 d2 s1 s2 d p t rest A B L N M). Qed.
Lemma parameters_bytes d data n a e : is_bytes d -> means READ_SCADA_PARAMETERS d (ReadDeviceParametersResponse data n a e) ->
  is_bytes data /\ 0 <= n <= 65535 /\ 0 <= a <= 65535.
Proof.
  intros B M. inversion M; subst. do 2 apply is_bytes_app, proj2 in B. apply is_bytes_app, proj2 in B. tauto.
Qed.
