(** Proofs: what the calls of a client make of any bytes that arrive. *)
From Coq Require Import Lia.
From Verif Require Import PyFacts SpecUtils UtilsProofs SpecFrames FramesProofs SpecSecurity SecurityProofs SpecConnection SpecApplication SpecPdu SpecText.
From Verif Require Import Connection ConnectionProofs ParamLang Parameters Client SpecClient ClientProofs SpecErrors.
From Verif Require Import Transport SpecTransport TransportProofs SpecStack StackProofs Stack SpecSession SessionProofs SessionProofs2 TimedProofs SpecIndep IndepProofs SpecDecode MeansProofs SpecOutcome.
Open Scope list_scope.
Open Scope Z_scope.

(** ** telegrams *)
Lemma stunted_iff T srv w : is_bytes w -> len w < 16 -> T = 134 \/ T = 135 ->
  (stunted T srv w <-> exists f, response_from_bytes T w = Ok f /\ f_service f = srv).
Proof.
  intros B L HT. split.
  - intros (_ & (R & E) & F & lo & hi & N4 & N5 & Ln).
    assert (exists tl, w = [2; 254; T; service_number srv; lo; hi] ++ tl) as (tl & W).
    { destruct w as [|a [|b [|c [|e [|g [|h tl]]]]]]; try discriminate. cbn in F, N4, N5. injection F as -> -> -> ->. injection N4 as ->. injection N5 as ->. exists tl. reflexivity. }
    assert (is_bytes R) as HR.
    { rewrite E in B. unfold sealed in B. apply is_bytes_cons in B as [_ B]. apply is_bytes_app in B. tauto. }
    unfold response_from_bytes.
    replace (startswith w [2; 254; T]) with true by (symmetry; apply startswith_spec; exists (service_number srv :: lo :: hi :: tl); exact W).
    replace (endswith w [13]) with true by (symmetry; apply endswith_spec; exists (2 :: R ++ [xor_all R; sum_all R mod 256; drc_spec R]); rewrite E; unfold sealed; cbn [app]; rewrite <- app_assoc; reflexivity).
    assert (slice 3 4 w = [service_number srv]) as -> by (rewrite W; exact (slice_mid [2; 254; T] [service_number srv] _ 3 4 eq_refl eq_refl)).
    rewrite from_le_1, service_of_number_ok. cbn [bind]. cbv zeta.
    assert (slice 4 6 w = [lo; hi]) as -> by (rewrite W; exact (slice_mid [2; 254; T; service_number srv] [lo; hi] _ 4 6 eq_refl eq_refl)).
    replace (from_le [lo; hi] =? len w - 1) with true by (cbn [from_le]; lia).
    assert (slice 1 (-4) w = R) as -> by (rewrite E; apply slice_14_neg4).
    assert (getitem (-4) w = Ok (xor_all R)) as -> by (rewrite E; exact (getitem_neg_app (2 :: R) _ [sum_all R mod 256; drc_spec R; 13] (-4) eq_refl)).
    assert (getitem (-3) w = Ok (sum_all R mod 256)) as ->.
    { rewrite E. unfold sealed. replace (2 :: R ++ [xor_all R; sum_all R mod 256; drc_spec R; 13]) with ((2 :: R ++ [xor_all R]) ++ sum_all R mod 256 :: [drc_spec R; 13])
        by (cbn [app]; rewrite <- app_assoc; reflexivity). apply getitem_neg_app; reflexivity. }
    assert (getitem (-2) w = Ok (drc_spec R)) as ->.
    { rewrite E. unfold sealed. replace (2 :: R ++ [xor_all R; sum_all R mod 256; drc_spec R; 13]) with ((2 :: R ++ [xor_all R; sum_all R mod 256]) ++ drc_spec R :: [13])
        by (cbn [app]; rewrite <- app_assoc; reflexivity). apply getitem_neg_app; reflexivity. }
    cbn [bind]. rewrite lrc_closed, checksum_closed, drc_closed by exact HR. rewrite !Z.eqb_refl. eexists. split; reflexivity.
  - intros (f & H & <-). assert (5 <= len w) as L5.
    { destruct (Z_lt_le_dec (len w) 5) as [X|X]; [exfalso|exact X].
      unfold response_from_bytes in H. destruct (startswith w [2; 254; T]) eqn:S; [|discriminate]. destruct (endswith w [13]) eqn:E; [|discriminate].
      destruct (service_of_number _); cbn [bind] in H; [|discriminate]. cbv zeta in H.
      destruct (from_le (slice 4 6 w) =? len w - 1) eqn:Q; [|discriminate]. clear H.
      apply startswith_spec in S as [r ->]. destruct r as [|z0 [|z1 r]]; [| |unfold len in X; cbn in X; lia]; cbn in Q; discriminate. }
    pose proof (from_bytes_inv T w f B L5 H) as (R & E & HR & S & Sv & Ln & _).
    split; [exact L|]. split; [exists R; exact E|].
    apply startswith_spec in S as [r W].
    assert (exists a lo hi tl, r = a :: lo :: hi :: tl) as (a & lo & hi & tl & ->).
    { destruct r as [|a [|lo [|hi tl]]]; [exfalso; rewrite W in L5; unfold len in L5; cbn in L5; lia|exfalso; rewrite W in L5; unfold len in L5; cbn in L5; lia| |eauto].
      exfalso. pose proof (f_equal len E) as X. rewrite sealed_len in X. rewrite W in X. change (len ([2; 254; T] ++ [a; lo])) with 5 in X.
      destruct R as [|z R]; [|rewrite len_cons in X; pose proof (len_nonneg R); lia]. rewrite W in E. vm_compute in E. discriminate. }
    assert (slice 3 4 w = [a]) as S3 by (rewrite W; exact (slice_mid [2; 254; T] [a] _ 3 4 eq_refl eq_refl)).
    assert (slice 4 6 w = [lo; hi]) as S4 by (rewrite W; exact (slice_mid [2; 254; T; a] [lo; hi] _ 4 6 eq_refl eq_refl)).
    rewrite S3, from_le_1 in Sv. rewrite S4 in Ln. cbn [from_le] in Ln.
    split; [rewrite W, Sv; reflexivity|]. exists lo, hi. rewrite W at 1 2. split; [reflexivity|]. split; [reflexivity|]. lia.
Qed.
Lemma carries_iff T srv p w : is_bytes w -> T = 134 \/ T = 135 ->
  (carries T srv p w <-> exists f, response_from_bytes T w = Ok f /\ f_service f = srv /\ f_data f = p).
Proof.
  intros B HT. split.
  - intros [(d1 & d2 & s1 & s2 & (A1 & A2 & A3 & A4) & Bp & L & ->)|(-> & S)].
    + destruct (response_roundtrip T (mk_frame srv d1 d2 s1 s2 p)) as (t & E1 & E2); [unfold is_byte; lia|exact Bp|unfold in_range; cbn; lia|].
      rewrite response_to_bytes_wire in E1 by (try exact Bp; unfold is_byte; lia).
      rewrite (proj2 (misfit_none (mk_frame srv d1 d2 s1 s2 p))) in E1 by (unfold in_range; cbn; lia). injection E1 as <-.
      cbn in E2. eauto.
    + pose proof S as (L & _). apply stunted_iff in S as (f & H & E); auto. exists f. split; [exact H|]. split; [exact E|]. eapply runt_data; eauto.
  - intros (f & H & <- & <-). destruct (Z_lt_le_dec (len w) 16) as [L|L].
    + right. split; [eapply runt_data; eauto|]. apply stunted_iff; eauto.
    + left. apply accepted_canonical in H as (R & Hd & E); [|assumption|unfold is_byte; lia|assumption].
      rewrite response_to_bytes_wire in E by (try assumption; unfold is_byte; lia).
      rewrite (proj2 (misfit_none f) R) in E. injection E as E. destruct R as (R1 & R2 & R3 & R4 & R5).
      exists (destination_address_1 f), (destination_address_2 f), (source_address_1 f), (source_address_2 f).
      split; [unfold addresses; auto|]. auto.
Qed.

(** ** verdicts *)
Definition judge (ctx : option cipher_context) (srv : service) (t : bytes) : judgement :=
  match interpret ctx t with
  | Err x => if is_value_error x then Nothing else Raises x
  | Ok f => match pdu_from_response f with
            | Err x => Raises x
            | Ok p => if service_eq_dec srv (pdu_service p) then Value p else Raises LocalElgasProtocolError
            end
  end.
Lemma carries_bytes T srv p w : carries T srv p w -> is_bytes p.
Proof. intros [(d1 & d2 & s1 & s2 & _ & B & _)|(-> & _)]; [exact B|constructor]. Qed.
Lemma carries_plain srv p w : is_bytes w -> carries 134 srv p w -> exists f, response_factory w = Ok (PlainResponse f) /\ f_service f = srv /\ f_data f = p.
Proof. intros B C. apply carries_iff in C as (f & H & E1 & E2); auto. exists f. split; [apply response_factory_plain; exact H|auto]. Qed.
Lemma carries_encrypted srv p w : is_bytes w -> carries 135 srv p w -> exists f, response_factory w = Ok (EncryptedResponse f) /\ f_service f = srv /\ f_data f = p.
Proof. intros B C. apply carries_iff in C as (f & H & E1 & E2); auto. exists f. split; [apply response_factory_encrypted; exact H|auto]. Qed.
Section line.
Variables (ctx : option cipher_context) (w t : bytes).
Hypotheses (Ho : on_line w t) (Hb : is_bytes t) (Hu : usable_context ctx).
Lemma word_bytes : is_bytes w.
Proof. destruct Ho as (p & _ & _ & U). eapply unesc_bytes; eauto. Qed.
Lemma says_interpret srv d : says ctx w srv d -> exists f, f_service f = srv /\ f_data f = d /\
  interpret ctx t = if len d =? 1 then u <- raise_error d ;; Ok f else Ok f.
Proof.
  intros [C|id k p E C U]; rewrite (interpret_reads _ _ _ Ho).
  - apply carries_plain in C as (f & -> & E1 & E2); [|exact word_bytes]. cbn [bind]. exists f. rewrite E2. auto.
  - pose proof (carries_bytes _ _ _ _ C) as Bp. apply carries_encrypted in C as (f & -> & E1 & E2); [|exact word_bytes]. cbn [bind].
    rewrite E in Hu |- *. destruct Hu as [K I]. rewrite E2. apply unseals_iff in U; auto. rewrite U. cbn [bind].
    exists (set_data f d). cbn [set_data f_service f_data]. auto.
Qed.
Lemma says_bytes srv d : says ctx w srv d -> is_bytes d.
Proof.
  intros [C|id k p E C (n & body & Hn & B & P & ->)]; [eapply carries_bytes; exact C|].
  apply is_bytes_firstn. apply is_bytes_app. split; [exact B|]. apply be2_bytes. apply payload_crc_range; try assumption.
  rewrite E in Hu. apply Hu.
Qed.
Lemma judged srv j : verdict ctx srv w j -> judge ctx srv t = j.
Proof.
  unfold judge. intros [d p S N D|s i x S D|s d x S N U|s d p S N D Ne|s p -> C|s p Nn C L|id k s a b i ct E C Ne|No|id k s a b ct E C No].
  - destruct (says_interpret _ _ S) as (f & E1 & E2 & ->). rewrite no_flag_check by exact N.
    assert (pdu_from_response f = Ok p) as -> by (rewrite reader_is, E1, E2; apply means_iff; [eapply says_bytes; exact S|exact D]).
    destruct (service_eq_dec _ _) as [_|X]; [reflexivity|]. exfalso. apply X. symmetry. eapply means_service. exact D.
  - destruct (says_interpret _ _ S) as (f & E1 & E2 & ->). change (len [2 ^ i] =? 1) with true. cbv iota. rewrite (raise_error_flag i x D). cbn [bind].
    destruct D; reflexivity.
  - destruct (says_interpret _ _ S) as (f & E1 & E2 & ->). rewrite no_flag_check by exact N.
    assert (pdu_from_response f = Err x) as -> by (rewrite reader_is, E1, E2; apply means_nothing_iff; [eapply says_bytes; exact S|exact U]). reflexivity.
  - destruct (says_interpret _ _ S) as (f & E1 & E2 & ->). rewrite no_flag_check by exact N.
    assert (pdu_from_response f = Ok p) as -> by (rewrite reader_is, E1, E2; apply means_iff; [eapply says_bytes; exact S|exact D]).
    destruct (service_eq_dec _ _) as [X|X]; [|reflexivity]. exfalso. apply Ne. apply means_service in D. congruence.
  - rewrite (interpret_reads _ _ _ Ho). apply carries_encrypted in C as (f & -> & E1 & E2); [|exact word_bytes]. reflexivity.
  - rewrite (interpret_reads _ _ _ Ho). apply carries_encrypted in C as (f & -> & E1 & E2); [|exact word_bytes]. cbn [bind].
    destruct ctx as [[id k]|]; [|contradiction]. rewrite E2. destruct p as [|z0 [|z1 [|z2 p]]]; try reflexivity. repeat rewrite len_cons in L. pose proof (len_nonneg p). lia.
  - rewrite (interpret_reads _ _ _ Ho). apply carries_encrypted in C as (f & -> & E1 & E2); [|exact word_bytes]. cbn [bind].
    rewrite E, E2. unfold context_decrypt. cbv zeta. change (a :: b :: i :: ct) with ([a; b; i] ++ ct). rewrite (slice_to_app [a; b; i] ct 3) by reflexivity. change (getitem 2 [a; b; i]) with (@Ok Z i). cbn [bind key_id].
    replace (i =? id) with false by lia. reflexivity.
  - rewrite (interpret_reads _ _ _ Ho). destruct (response_factory w) as [[f|f]|x] eqn:F; cbn [bind].
    + exfalso. apply response_factory_plain in F. apply (No 134 (f_service f) (f_data f)); [auto|]. apply carries_iff; [exact word_bytes|auto|eauto].
    + exfalso. apply response_factory_encrypted in F. apply (No 135 (f_service f) (f_data f)); [auto|]. apply carries_iff; [exact word_bytes|auto|eauto].
    + apply response_factory_errs in F as ->. reflexivity.
  - pose proof (carries_bytes _ _ _ _ C) as Bp. rewrite (interpret_reads _ _ _ Ho). apply carries_encrypted in C as (f & -> & E1 & E2); [|exact word_bytes]. cbn [bind].
    rewrite E in Hu |- *. destruct Hu as [K I]. rewrite E2. destruct (context_decrypt (mk_context id k) (a :: b :: id :: ct)) as [d|x] eqn:D.
    + exfalso. apply (No d). apply unseals_iff; auto.
    + apply decrypt_errors in D; auto. destruct D as [(-> & L)|[(-> & a' & b' & i' & ct' & X & Y)|(-> & _)]]; cbn [bind]; [| |reflexivity].
      * repeat rewrite len_cons in L. pose proof (len_nonneg ct). lia.
      * injection X. congruence.
Qed.
Lemma said srv (s : service) d f : says ctx w s d -> f_service f = s -> f_data f = d -> is_bytes d ->
  verdict ctx srv w (match (if len d =? 1 then u <- raise_error d ;; Ok f else Ok f) with
    | Err x => if is_value_error x then Nothing else Raises x
    | Ok f => match pdu_from_response f with
              | Err x => Raises x
              | Ok p => if service_eq_dec srv (pdu_service p) then Value p else Raises LocalElgasProtocolError
              end
    end).
Proof.
  intros S E1 E2 Bd. destruct (flag_check d f) as [Fl|(i & x & D & -> & ->)].
  2:{ replace (is_value_error x) with false by (destruct D; reflexivity). eapply answer_flag; eauto. }
  rewrite Fl.
  assert (no_flag d) as N.
  { intros i Hi ->. revert Fl. change (len [2 ^ i] =? 1) with true. cbv iota.
    destruct (raise_error_cases (2 ^ i)) as [(i' & x & _ & _ & ->)|(X & _)]; [discriminate|]. exfalso. apply (X i Hi). reflexivity. }
  destruct (pdu_from_response f) as [p|x] eqn:P.
  - rewrite reader_is, E1, E2 in P. apply means_iff in P; [|exact Bd]. pose proof (means_service _ _ _ P) as Q. destruct (service_eq_dec _ _) as [X|X].
    + eapply answer_value; [|exact N|]; rewrite X, Q; eauto.
    + eapply answer_to_other; eauto. congruence.
  - rewrite reader_is, E1, E2 in P. apply means_nothing_iff in P; [|exact Bd]. eapply answer_meaningless; eauto.
Qed.
Lemma judgement_is srv : verdict ctx srv w (judge ctx srv t).
Proof.
  unfold judge. rewrite (interpret_reads _ _ _ Ho). destruct (response_factory w) as [[f|f]|x] eqn:F; cbn [bind].
  - apply response_factory_plain in F. assert (carries 134 (f_service f) (f_data f) w) as C by (apply carries_iff; [exact word_bytes|auto|eauto]).
    eapply said; try reflexivity; [apply says_plain; exact C|eapply carries_bytes; exact C].
  - apply response_factory_encrypted in F. assert (carries 135 (f_service f) (f_data f) w) as C by (apply carries_iff; [exact word_bytes|auto|eauto]).
    pose proof (carries_bytes _ _ _ _ C) as Bp.
    destruct ctx as [[id k]|] eqn:Ec; cbn [bind]; [|eapply answer_without_key; eauto].
    destruct Hu as [K I]. destruct (context_decrypt (mk_context id k) (f_data f)) as [d|x] eqn:D; cbn [bind].
    + pose proof D as D'. apply unseals_iff in D; auto. rewrite <- Ec. eapply said; try reflexivity.
      * eapply says_sealed; eauto.
      * cbn. destruct D as (n & body & Hn & B & P & ->). apply is_bytes_firstn. apply is_bytes_app. split; [exact B|]. apply be2_bytes. apply payload_crc_range; assumption.
    + apply decrypt_errors in D as D'; auto. destruct D' as [(-> & L)|[(-> & a & b & i & ct & X & Y)|(-> & a & b & ct & X)]]; cbn [is_value_error].
      * eapply answer_headless; eauto. discriminate.
      * rewrite X in C. eapply answer_other_key; eauto.
      * rewrite X in *. eapply forged; eauto. intros d U. apply unseals_iff in U; auto. congruence.
  - pose proof F as F'. apply response_factory_errs in F as ->. cbn [is_value_error]. apply not_a_telegram. intros T s p [-> | ->] C.
    + apply carries_plain in C as (f & X & _); [congruence|exact word_bytes].
    + apply carries_encrypted in C as (f & X & _); [congruence|exact word_bytes].
Qed.
End line.

(** ** streams *)
Lemma stream_bytes_app a b : stream_bytes (a ++ b) <-> stream_bytes a /\ stream_bytes b.
Proof. unfold stream_bytes. rewrite Forall_app. reflexivity. Qed.
Lemma stream_bytes_map (d : bytes) : stream_bytes (map Ok d) <-> is_bytes d.
Proof. unfold stream_bytes, is_bytes. rewrite Forall_map. reflexivity. Qed.
Lemma cut_stream bs : exists d tail, bs = map Ok d ++ tail /\ ~ In 13 d /\
  (tail = [] \/ (exists x r, tail = Err x :: r) \/ exists r, tail = Ok 13 :: r).
Proof.
  induction bs as [|[b|x] bs (d & tail & -> & N & C)].
  - exists [], []. split; [reflexivity|]. split; [intros []|auto].
  - destruct (Z.eq_dec b 13) as [->|B].
    + exists [], (Ok 13 :: map Ok d ++ tail). split; [reflexivity|]. split; [intros []|eauto].
    + exists (b :: d), tail. split; [reflexivity|]. split; [intros [X|X]; [congruence|exact (N X)]|exact C].
  - exists [], (Err x :: map Ok d ++ tail). split; [reflexivity|]. split; [intros []|eauto].
Qed.
Lemma split_stream bs : (exists more : bytes, bs = map Ok more) \/ exists (more : bytes) x rest, bs = map Ok more ++ Err x :: rest.
Proof.
  induction bs as [|[b|x] bs [(more & ->)|(more & x' & rest & ->)]].
  - left. exists []. reflexivity.
  - left. exists (b :: more). reflexivity.
  - right. exists (b :: more), x', rest. reflexivity.
  - right. exists [], x, (map Ok more). reflexivity.
  - right. exists [], x, (map Ok more ++ Err x' :: rest). reflexivity.
Qed.
(** a rejected line first *)
Definition stuck (c : connection) : Prop := needs c /\ In 13 (buffer c).
Lemma stuck_more c b : stuck c -> stuck (receive_data c [b]) /\ bare (receive_data c [b]) = bare c.
Proof.
  intros [N I]. split; [|apply bare_receive].
  assert (receive_data c [b] = set_buffer c (buffer c ++ [b])) as E.
  { unfold receive_data. destruct (buffer c) as [|z l]; [destruct I|]. rewrite len_cons. pose proof (len_nonneg l).
    replace (1 + len l =? 0) with false by lia. rewrite andb_false_r. reflexivity. }
  rewrite E. split; [|cbn; apply in_or_app; auto].
  destruct (buffer_cases (buffer c)) as [U|(p & rest & Eb & P)]; [contradiction|]. unfold needs in *.
  rewrite (next_event_cut c p rest P Eb) in N.
  rewrite (next_event_cut (set_buffer c (buffer c ++ [b])) p (rest ++ [b]) P) by (cbn; rewrite Eb, <- app_assoc; reflexivity).
  change (context (set_buffer c (buffer c ++ [b]))) with (context c).
  destruct (interpret _ _) as [f|x]; [|destruct (is_value_error x); [reflexivity|discriminate]].
  destruct (pdu_from_response f); [|discriminate]. destruct (process_event _ _); discriminate.
Qed.
Lemma stuck_hear more : forall c tail, stuck c -> exists c', hear c (map Ok more ++ tail) = hear c' tail /\ stuck c' /\ bare c' = bare c.
Proof.
  induction more as [|b more IH]; intros c tail S; [exists c; auto|]. cbn [map app]. rewrite hear_needs by apply S.
  destruct (stuck_more c b S) as [S' B]. destruct (IH _ tail S') as (c' & E & S2 & B2). exists c'. split; [exact E|]. split; [exact S2|congruence].
Qed.
Section waiting_for.
Variables (c : connection) (srv : service).
Hypotheses (Ho : outstanding (elgas_state c) = Some srv) (Hb : buffer c = []) (Hu : usable_context (context c)).
Lemma waits_needs : needs c.
Proof. unfold needs. apply next_event_uncut. rewrite Hb. intros []. Qed.
Lemma line_event d : d <> [] -> ~ In 13 d -> next_event (set_buffer c (d ++ [13])) =
  match judge (context c) srv (d ++ [13]) with
  | Value p => (Ok (Some p), set_buffer (set_state c IDLE) [])
  | Raises x => (Err x, set_buffer c (d ++ [13]))
  | Nothing => (Ok None, set_buffer c (d ++ [13]))
  end.
Proof.
  intros D N. rewrite (next_event_cut _ d [] N) by reflexivity. unfold judge. change (context (set_buffer c (d ++ [13]))) with (context c).
  destruct (interpret _ _) as [f|x]; [|destruct (is_value_error x); reflexivity].
  destruct (pdu_from_response f) as [p|x]; [|reflexivity]. rewrite process_response. change (elgas_state (set_buffer c (d ++ [13]))) with (elgas_state c).
  rewrite Ho. destruct (service_eq_dec _ _); reflexivity.
Qed.
Lemma line_hear d rest : d <> [] -> ~ In 13 d -> hear c (map Ok (d ++ [13]) ++ rest) = hear (set_buffer c (d ++ [13])) rest.
Proof.
  intros D N. rewrite map_app, <- app_assoc. destruct (hear_part d c (map Ok [13] ++ rest) waits_needs N) as [-> N'].
  cbn [map app]. rewrite hear_needs by exact N'. rewrite receive_line by exact N. f_equal.
  unfold receive_data. destruct d as [|z d]; [contradiction|]. cbn [app]. rewrite Hb.
  replace (list_eqb (z :: d ++ [13]) [13]) with false; [reflexivity|].
  symmetry. cbn [list_eqb]. destruct (Z.eqb_spec z 13) as [->|]; [exfalso; apply N; left; reflexivity|reflexivity].
Qed.
Lemma hear_first d rest : forall j, judge (context c) srv (d ++ [13]) = j -> d <> [] -> ~ In 13 d ->
  match j with
  | Value p => hear c (map Ok (d ++ [13]) ++ rest) = (Done (Ok p), set_buffer (set_state c IDLE) [], rest)
  | Raises x => hear c (map Ok (d ++ [13]) ++ rest) = (Done (Err x), set_buffer c (d ++ [13]), rest)
  | Nothing => hear c (map Ok (d ++ [13]) ++ rest) = hear (set_buffer c (d ++ [13])) rest /\ stuck (set_buffer c (d ++ [13]))
  end.
Proof.
  intros j E D N. rewrite (line_hear d rest D N). pose proof (line_event d D N) as X. rewrite E in X. destruct j as [p|x|].
  - destruct rest as [|[b|y] rest]; cbn [hear]; rewrite X; reflexivity.
  - destruct rest as [|[b|y] rest]; cbn [hear]; rewrite X; reflexivity.
  - split; [reflexivity|]. split; [exact X|]. cbn. apply in_or_app. right. left. reflexivity.
Qed.
(** what is heard is what the loop gives *)
Lemma heard_hear bs a rest : heard (context c) srv bs a rest -> stream_bytes bs -> exists c', hear c bs = (a, c', rest).
Proof.
  intros H. induction H as [bs a rest H IH|d N|d x rest N|d w p rest D L V|d w x rest D L V|d w more D L V|d w more x rest D L V]; intros B.
  - inversion B as [|? ? _ B']; subst. destruct (IH B') as (c' & E). exists c'. rewrite hear_needs by exact waits_needs.
    unfold receive_data. rewrite Hb. exact E.
  - destruct (hear_part d c [] waits_needs N) as [E N']. rewrite app_nil_r in E. rewrite E, hear_needs by exact N'. eauto.
  - destruct (hear_part d c (Err x :: rest) waits_needs N) as [E N']. rewrite E, hear_needs by exact N'. cbv iota. rewrite wrapped_relayed. eauto.
  - apply stream_bytes_app in B as [B _]. apply stream_bytes_map in B. pose proof L as (d' & Ed & N & _). apply app_inj_tail in Ed as [<- _].
    rewrite (hear_first d rest (Value p)); eauto. eapply judged; eauto.
  - apply stream_bytes_app in B as [B _]. apply stream_bytes_map in B. pose proof L as (d' & Ed & N & _). apply app_inj_tail in Ed as [<- _].
    rewrite (hear_first d rest (Raises x)); eauto. eapply judged; eauto.
  - apply stream_bytes_map in B. rewrite app_assoc in B |- *. apply is_bytes_app in B as [B _]. pose proof L as (d' & Ed & N & _). apply app_inj_tail in Ed as [<- _].
    rewrite map_app. destruct (hear_first d (map Ok more) Nothing) as [E S]; auto; [eapply judged; eauto|]. rewrite E.
    destruct (stuck_hear more _ [] S) as (c' & E2 & S2 & _). rewrite app_nil_r in E2. rewrite E2, hear_needs by apply S2. eauto.
  - apply stream_bytes_app in B as [B _]. apply stream_bytes_map in B. rewrite app_assoc in B |- *. apply is_bytes_app in B as [B _]. pose proof L as (d' & Ed & N & _). apply app_inj_tail in Ed as [<- _].
    rewrite map_app, <- app_assoc. destruct (hear_first d (map Ok more ++ Err x :: rest) Nothing) as [E S]; auto; [eapply judged; eauto|]. rewrite E.
    destruct (stuck_hear more _ (Err x :: rest) S) as (c' & E2 & S2 & _). rewrite E2, hear_needs by apply S2. cbv iota. rewrite wrapped_relayed. eauto.
Qed.
Lemma hear_heard bs : stream_bytes bs -> exists a c' rest, hear c bs = (a, c', rest) /\ heard (context c) srv bs a rest /\
  match a with Done (Ok p) => c' = set_buffer (set_state c IDLE) [] /\ pdu_service p = srv | _ => bare c' = bare c end.
Proof.
  induction bs as [|r bs IH]; intros B.
  - exists Waiting, c, []. rewrite hear_needs by exact waits_needs. split; [reflexivity|]. split; [apply (silence _ _ []); intros []|reflexivity].
  - destruct (cut_stream (r :: bs)) as (d & tail & E & N & [->|[(x & rest & ->)|(rest & ->)]]).
    + rewrite app_nil_r in E. rewrite E. destruct (hear_part d c [] waits_needs N) as [E' N']. rewrite app_nil_r in E'. rewrite E', hear_needs by exact N'.
      exists Waiting, (receive_data c d), []. split; [reflexivity|]. split; [apply silence; exact N|apply bare_receive].
    + rewrite E. destruct (hear_part d c (Err x :: rest) waits_needs N) as [E' N']. rewrite E', hear_needs by exact N'.
      exists (Done (Err (relayed x))), (receive_data c d), rest. split; [rewrite wrapped_relayed; reflexivity|]. split; [apply broken_off; exact N|apply bare_receive].
    + destruct d as [|z d].
      { cbn in E. injection E as -> ->. inversion B as [|? ? _ B']; subst. destruct (IH B') as (a & c' & rest' & H1 & H2 & H3).
        exists a, c', rest'. split; [|split; [apply stray_end; exact H2|exact H3]]. rewrite hear_needs by exact waits_needs. unfold receive_data. rewrite Hb. exact H1. }
      assert (r :: bs = map Ok ((z :: d) ++ [13]) ++ rest) as E2 by (rewrite E, map_app, <- app_assoc; reflexivity).
      rewrite E2 in *. clear E E2 IH. set (l := z :: d) in *. assert (l <> []) as D by discriminate. clearbody l.
      apply stream_bytes_app in B as [B B2]. apply stream_bytes_map in B.
      destruct (unesc_cut l N) as (o & U).
      assert (on_line (o ++ [13]) (l ++ [13])) as L by (exists l; auto).
      pose proof (judgement_is (context c) (o ++ [13]) (l ++ [13]) L B Hu srv) as V.
      pose proof (fun r => hear_first l r _ eq_refl D N) as F. destruct (judge (context c) srv (l ++ [13])) as [p|x|] eqn:J.
      * exists (Done (Ok p)), (set_buffer (set_state c IDLE) []), rest. split; [apply F|]. split; [eapply answered; eauto|]. split; [reflexivity|].
        unfold judge in J. destruct (interpret _ _); [|destruct (is_value_error _); discriminate]. destruct (pdu_from_response _); [|discriminate].
        destruct (service_eq_dec _ _); [congruence|discriminate].
      * exists (Done (Err x)), (set_buffer c (l ++ [13])), rest. split; [apply F|]. split; [eapply objected; eauto|reflexivity].
      * destruct (split_stream rest) as [(more & ->)|(more & x & rest' & ->)].
        -- destruct (F (map Ok more)) as [E S]. rewrite E. destruct (stuck_hear more _ [] S) as (c' & E2 & S2 & Bc). rewrite app_nil_r in E2. rewrite E2, hear_needs by apply S2.
           exists Waiting, c', []. split; [reflexivity|]. split; [rewrite <- map_app, <- app_assoc; eapply deaf; eauto|exact Bc].
        -- destruct (F (map Ok more ++ Err x :: rest')) as [E S]. rewrite E. destruct (stuck_hear more _ (Err x :: rest') S) as (c' & E2 & S2 & Bc). rewrite E2, hear_needs by apply S2.
           exists (Done (Err (relayed x))), c', rest'. split; [rewrite wrapped_relayed; reflexivity|]. split; [|exact Bc].
           rewrite app_assoc, <- map_app, <- app_assoc. eapply deaf_broken; eauto.
Qed.
End waiting_for.
