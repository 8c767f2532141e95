From Verif Require Import PyFacts DecodeFacts SpecFrames SpecText SpecApplication SpecPdu Utils TextProofs PyTime TimeProofs Application.
Open Scope Z_scope.

(** *** requests *)
Lemma le_bytes_2 n : 0 <= n < 65536 -> le_bytes 2 n = le2 n.
Proof. intros H. unfold le2. cbn [le_bytes]. do 2 f_equal. lia. Qed.
Lemma le_bytes_4 n : 0 <= n < 4294967296 -> le_bytes 4 n = le4 n.
Proof. intros H. unfold le4. cbn [le_bytes]. rewrite !Z.div_div by lia. do 4 f_equal. lia. Qed.
Lemma to_le_2 n : 0 <= n <= 65535 -> to_le 2 n = Ok (le2 n).
Proof. intros H. rewrite to_le_ok by (change (256 ^ Z.of_nat 2) with 65536; lia). rewrite le_bytes_2 by lia. reflexivity. Qed.
Lemma to_le_2_err n : ~ 0 <= n <= 65535 -> to_le 2 n = Err OverflowError.
Proof. intros H. apply to_le_err. change (256 ^ Z.of_nat 2) with 65536. lia. Qed.
Lemma to_le_4 n : 0 <= n <= 4294967295 -> to_le 4 n = Ok (le4 n).
Proof. intros H. rewrite to_le_ok by (change (256 ^ Z.of_nat 4) with 4294967296; lia). rewrite le_bytes_4 by lia. reflexivity. Qed.
Lemma to_le_4_err n : ~ 0 <= n <= 4294967295 -> to_le 4 n = Err OverflowError.
Proof. intros H. apply to_le_err. change (256 ^ Z.of_nat 4) with 4294967296. lia. Qed.

Lemma encode_latin1_ok s : latin1 s -> encode_latin1 s = Ok s.
Proof.
  intros H. unfold encode_latin1. assert (forallb (fun c => (0 <=? c) && (c <? 256)) s = true) as ->; [|reflexivity].
  apply forallb_forall. intros c Hc. apply (proj1 (Forall_forall _ _) H) in Hc. lia.
Qed.
Lemma encode_latin1_err s : ~ latin1 s -> encode_latin1 s = Err UnicodeEncodeError.
Proof.
  intros H. unfold encode_latin1. destruct (forallb (fun c => (0 <=? c) && (c <? 256)) s) eqn:E; [|reflexivity].
  exfalso. apply H. apply Forall_forall. intros c Hc. eapply forallb_forall in E; [|exact Hc]. cbn beta in E. lia.
Qed.
Lemma alphanumeric_range c : alphanumeric c -> 0 <= c <= 255.
Proof. unfold alphanumeric. lia. Qed.
Lemma latin1_pad rnd pw : latin1 (pad_password rnd pw) <-> latin1 pw.
Proof.
  destruct (pad_password_spec rnd pw) as (c1 & c2 & H1 & H2 & ->). unfold latin1. rewrite Forall_app.
  apply alphanumeric_range in H1, H2. split; [tauto|]. intros H; split; [exact H|].
  repeat (constructor; [lia|]). constructor.
Qed.
Lemma password_bytes_ok rnd pw : latin1 pw -> exists f, password_bytes rnd pw = Ok f /\ password_field pw f.
Proof.
  intros H. unfold password_bytes. rewrite encode_latin1_ok by (apply latin1_pad; exact H).
  eexists; split; [reflexivity|]. destruct (pad_password_spec rnd pw) as (c1 & c2 & H1 & H2 & E). exists c1, c2. auto.
Qed.
Lemma password_bytes_err rnd pw : ~ latin1 pw -> password_bytes rnd pw = Err UnicodeEncodeError.
Proof. intros H. unfold password_bytes. apply encode_latin1_err. rewrite latin1_pad. exact H. Qed.
Lemma latin1_dec pw : {latin1 pw} + {~ latin1 pw}.
Proof. apply Forall_dec. intros c. destruct (Z_le_dec 0 c), (Z_le_dec c 255); [left; lia|right; lia..]. Qed.

Lemma instantaneous_layout rnd pw : latin1 pw ->
  exists p, pdu_to_bytes rnd (ReadInstantaneousValuesRequest pw) = Ok p /\ password_field pw p.
Proof. apply password_bytes_ok. Qed.
Lemma write_time_layout rnd pw t c : latin1 pw -> encodable_time t ->
  exists p, pdu_to_bytes rnd (WriteTimeRequest pw t c) = Ok (p ++ bcd_time t ++ [4]) /\ password_field pw p.
Proof.
  intros Hp [Ht Hy]. destruct (password_bytes_ok rnd pw Hp) as (p & E & F). exists p. split; [|exact F].
  cbn [pdu_to_bytes]. rewrite E. cbn [bind]. rewrite datetime_to_bytes_century by assumption. cbn [bind].
  change (Z.land 4 255) with 4. rewrite append_ok by (unfold is_byte; lia). rewrite <- app_assoc. reflexivity.
Qed.
Lemma device_parameters_layout rnd pw c b : latin1 pw -> 0 <= c <= 65535 -> 0 <= b <= 65535 ->
  exists p, pdu_to_bytes rnd (ReadDeviceParametersRequest pw c b) = Ok (p ++ le2 c ++ le2 b) /\ password_field pw p.
Proof.
  intros Hp Hc Hb. destruct (password_bytes_ok rnd pw Hp) as (p & E & F). exists p. split; [|exact F].
  cbn [pdu_to_bytes]. rewrite E. cbn [bind]. rewrite !to_le_2 by assumption. cbn [bind].
  rewrite <- app_assoc. reflexivity.
Qed.
Lemma archive_by_time_layout rnd pw a n t : latin1 pw -> 0 <= a <= 255 -> 0 <= n <= 65535 -> encodable_time t ->
  exists p, pdu_to_bytes rnd (ReadArchiveByTimeRequest pw a n t) = Ok (p ++ [a] ++ le2 n ++ bcd_time t) /\ password_field pw p.
Proof.
  intros Hp Ha Hn [Ht Hy]. destruct (password_bytes_ok rnd pw Hp) as (p & E & F). exists p. split; [|exact F].
  cbn [pdu_to_bytes]. rewrite E. cbn [bind]. rewrite append_ok by (unfold is_byte; lia). cbn [bind].
  rewrite to_le_2 by assumption. cbn [bind]. rewrite datetime_to_bytes_century by assumption. cbn [bind].
  rewrite <- !app_assoc. reflexivity.
Qed.
Lemma archive_layout rnd pw a n i : latin1 pw -> 0 <= a <= 255 -> 0 <= n <= 65535 -> 0 <= i <= 4294967295 ->
  exists p, pdu_to_bytes rnd (ReadArchiveRequest pw a n i) = Ok (p ++ [a] ++ le4 i ++ le2 n) /\ password_field pw p.
Proof.
  intros Hp Ha Hn Hi. destruct (password_bytes_ok rnd pw Hp) as (p & E & F). exists p. split; [|exact F].
  cbn [pdu_to_bytes]. rewrite E. cbn [bind]. rewrite append_ok by (unfold is_byte; lia). cbn [bind].
  rewrite to_le_4, to_le_2 by assumption. cbn [bind]. rewrite <- !app_assoc. reflexivity.
Qed.

(** errors *)
Lemma datetime_to_bytes_cases t : calendar_time t ->
  (year t < 2000 /\ datetime_to_bytes t = Err ValueError) \/
  (2000 <= year t /\ exists b, datetime_to_bytes t = Ok b).
Proof.
  intros H. destruct (Z.lt_ge_cases (year t) 2000) as [L|L].
  - left. split; [exact L|apply datetime_to_bytes_early; assumption].
  - right. split; [exact L|]. destruct (Z.le_gt_cases (year t) 2099) as [M|M].
    + rewrite datetime_to_bytes_century by (auto; lia). eauto.
    + destruct (datetime_to_bytes_late t H ltac:(lia)) as (b & E & _). eauto.
Qed.
Lemma to_le_2_if n : to_le 2 n = if (0 <=? n) && (n <=? 65535) then Ok (le2 n) else Err OverflowError.
Proof. destruct ((0 <=? n) && (n <=? 65535)) eqn:E; [apply to_le_2; lia|apply to_le_2_err; lia]. Qed.
Lemma to_le_4_if n : to_le 4 n = if (0 <=? n) && (n <=? 4294967295) then Ok (le4 n) else Err OverflowError.
Proof. destruct ((0 <=? n) && (n <=? 4294967295)) eqn:E; [apply to_le_4; lia|apply to_le_4_err; lia]. Qed.
Lemma append_if out n : append out n = if (0 <=? n) && (n <=? 255) then Ok (out ++ [n]) else Err ValueError.
Proof. destruct ((0 <=? n) && (n <=? 255)) eqn:E; [apply append_ok|apply append_err]; unfold is_byte; lia. Qed.
Lemma password_bytes_if rnd p : password_bytes rnd p =
  if forallb (fun c => (0 <=? c) && (c <=? 255)) p then Ok (pad_password rnd p) else Err UnicodeEncodeError.
Proof.
  destruct (forallb (fun c => (0 <=? c) && (c <=? 255)) p) eqn:E.
  - unfold password_bytes. apply encode_latin1_ok, latin1_pad. apply Forall_forall. intros c Hc.
    eapply forallb_forall in E; [|exact Hc]. cbn beta in E. lia.
  - apply password_bytes_err. intros H. apply not_true_iff_false in E. apply E. apply forallb_forall.
    intros c Hc. apply (proj1 (Forall_forall _ _) H) in Hc. lia.
Qed.
Lemma pdu_to_bytes_error rnd r : request_times_valid r ->
  match request_misfit r with
  | Some e => pdu_to_bytes rnd r = Err e
  | None => exists b, pdu_to_bytes rnd r = Ok b
  end.
Proof.
  destruct r as [p| |p t c|p c b|p a n t|p a n i]; intros HT; cbn [request_misfit pdu_to_bytes request_times_valid] in *;
    rewrite ?password_bytes_if; try destruct (forallb _ p); cbn [bind]; try reflexivity; eauto.
  - destruct (datetime_to_bytes_cases t HT) as [[Hy Et]|[Hy [d Et]]]; rewrite Et; cbn [bind].
    + destruct (Z.leb_spec 2000 (year t)); [lia|reflexivity].
    + destruct (Z.leb_spec 2000 (year t)); [|lia]. rewrite append_ok by (change (Z.land 4 255) with 4; unfold is_byte; lia). eauto.
  - rewrite !to_le_2_if. destruct ((0 <=? c) && (c <=? 65535)); cbn [bind]; [|reflexivity].
    destruct ((0 <=? b) && (b <=? 65535)); cbn [bind]; eauto.
  - rewrite append_if, to_le_2_if. destruct ((0 <=? a) && (a <=? 255)); cbn [bind]; [|reflexivity].
    destruct ((0 <=? n) && (n <=? 65535)); cbn [bind]; [|reflexivity].
    destruct (datetime_to_bytes_cases t HT) as [[Hy Et]|[Hy [d Et]]]; rewrite Et; cbn [bind];
      destruct (Z.leb_spec 2000 (year t)); try lia; eauto.
  - rewrite append_if, to_le_2_if, to_le_4_if. destruct ((0 <=? a) && (a <=? 255)); cbn [bind]; [|reflexivity].
    destruct ((0 <=? i) && (i <=? 4294967295)); cbn [bind]; [|reflexivity].
    destruct ((0 <=? n) && (n <=? 65535)); cbn [bind]; eauto.
Qed.

(** *** decoding a request uniquely *)
Lemma to_bdc_inj n m b : to_bdc n = Ok b -> to_bdc m = Ok b -> n = m.
Proof.
  intros Hn Hm. destruct (Z.lt_ge_cases n 0); [rewrite to_bdc_neg in Hn by lia; discriminate|].
  destruct (Z.lt_ge_cases m 0); [rewrite to_bdc_neg in Hm by lia; discriminate|].
  destruct (bcd_roundtrip n ltac:(lia)) as (o & E & R). destruct (bcd_roundtrip m ltac:(lia)) as (o' & E' & R'). congruence.
Qed.
Lemma bcd_byte_inj n m : 0 <= n < 100 -> 0 <= m < 100 -> bcd_byte n = bcd_byte m -> n = m.
Proof. intros Hn Hm E. apply bcd_value_byte in Hn, Hm. congruence. Qed.
Lemma datetime_to_bytes_inj t t' b : calendar_time t -> calendar_time t' ->
  datetime_to_bytes t = Ok b -> datetime_to_bytes t' = Ok b -> t = t'.
Proof.
  intros H H' E E'. rewrite datetime_to_bytes_calendar in E, E' by assumption.
  apply bind_ok in E as (y & Ey & E). apply bind_ok in E' as (y' & Ey' & E').
  assert (forall x x' : res bytes, x = x' -> x = x') as _ by auto.
  inversion E as [E1]; subst b; clear E. inversion E' as [[E1 E2 E3 E4 E5 E6]]; clear E'.
  apply calendar_bounds in H, H'.
  apply bcd_byte_inj in E1, E2, E3, E4, E5; try lia. subst y'. pose proof (to_bdc_inj _ _ _ Ey Ey').
  destruct t, t'; cbn in *. f_equal; lia.
Qed.
Lemma datetime_to_bytes_len t b : calendar_time t -> datetime_to_bytes t = Ok b -> len b = 6 \/ len b = 7.
Proof.
  intros H E. destruct (Z.lt_ge_cases (year t) 2000); [rewrite datetime_to_bytes_early in E by assumption; discriminate|].
  destruct (Z.le_gt_cases (year t) 2099).
  - rewrite datetime_to_bytes_century in E by (auto; lia). injection E as <-. left; reflexivity.
  - destruct (datetime_to_bytes_late t H ltac:(lia)) as (b' & E' & L). right. congruence.
Qed.
Lemma password_split p p' x y c1 c2 d1 d2 :
  p ++ [33; 3; c1; c2] ++ x = p' ++ [33; 3; d1; d2] ++ y ->
  (length x = length y -> p = p' /\ x = y) /\
  (length y = S (length x) -> False) /\ (length x = S (length y) -> False).
Proof.
  intros E.
  assert (forall q q' u v a b c d, q ++ [33; 3; a; b] ++ u = q' ++ [33; 3; c; d] ++ v -> length v = S (length u) -> False) as G.
  { clear. intros q q' u v a b c d E L.
    (* q is one longer than q' *)
    assert (length q = S (length q')) as Lq by (apply (f_equal (@length Z)) in E; rewrite !app_length in E; cbn [length] in E; lia).
    destruct (exists_last (l := q)) as (q0 & x & ->); [intros ->; cbn in Lq; lia|].
    rewrite app_length in Lq. cbn in Lq. rewrite <- app_assoc in E. apply app_inj_len in E as [-> E]; [|lia].
    cbn [app] in E. injection E as E1 E2. lia. }
  split; [|split].
  - intros L. assert (length p = length p') as Lp by (apply (f_equal (@length Z)) in E; rewrite !app_length in E; cbn [length] in E; lia).
    apply app_inj_len in E as [-> E]; [|exact Lp]. apply app_inj_len in E as [_ E]; [|reflexivity]. auto.
  - intros L. eapply G; [exact E|exact L].
  - intros L. eapply G; [symmetry; exact E|exact L].
Qed.
Lemma le2_inj n m : 0 <= n <= 65535 -> 0 <= m <= 65535 -> le2 n = le2 m -> n = m.
Proof. unfold le2. intros Hn Hm E. injection E as E1 E2. lia. Qed.
Lemma le4_inj n m : 0 <= n <= 4294967295 -> 0 <= m <= 4294967295 -> le4 n = le4 m -> n = m.
Proof. unfold le4. intros Hn Hm E. injection E as E1 E2 E3 E4. lia. Qed.

Lemma pad_shape rnd p : exists c1 c2, pad_password rnd p = p ++ [33; 3; c1; c2].
Proof. destruct (pad_password_spec rnd p) as (c1 & c2 & _ & _ & E). eauto. Qed.
Ltac pad_tac rnd p := let c1 := fresh "c" in let c2 := fresh "c" in let E := fresh "Epad" in
  destruct (pad_shape rnd p) as (c1 & c2 & E); rewrite E in *; clear E.
Lemma pdu_unique rnd rnd' r r' b : request_times_valid r -> request_times_valid r' ->
  request_service r = request_service r' ->
  pdu_to_bytes rnd r = Ok b -> pdu_to_bytes rnd' r' = Ok b -> same_request r r'.
Proof.
  intros HT HT' HS E E'.
  destruct r as [p| |p t c|p c q|p a n t|p a n i], r' as [p'| |p' t' c'|p' c' q'|p' a' n' t'|p' a' n' i'];
    try discriminate HS; cbn [same_request pdu_to_bytes request_times_valid] in *; try reflexivity;
    rewrite ?password_bytes_if in E, E';
    repeat match goal with H : (if forallb ?f ?p then _ else _) = Ok _ |- _ => destruct (forallb f p); [|discriminate H]
      | H : bind (if forallb ?f ?p then _ else _) _ = Ok _ |- _ => destruct (forallb f p); [|discriminate H] end; cbn [bind] in E, E'.
  - injection E as <-. injection E' as E'. pad_tac rnd p. pad_tac rnd' p'. 
    apply app_inj_len_r in E' as [-> _]; [reflexivity|reflexivity].
  - pad_tac rnd p. pad_tac rnd' p'. apply bind_ok in E as (d & Ed & E). apply bind_ok in E' as (d' & Ed' & E').
    change (Z.land 4 255) with 4 in *. rewrite append_ok in E, E' by (unfold is_byte; lia). injection E as <-. injection E' as E'.
    apply app_inj_len_r in E' as [E' _]; [|reflexivity]. rewrite <- !app_assoc in E'.
    destruct (password_split _ _ _ _ _ _ _ _ E') as (G1 & G2 & G3).
    pose proof (datetime_to_bytes_len t d HT Ed) as L. pose proof (datetime_to_bytes_len t' d' HT' Ed') as L'.
    unfold len in L, L'. destruct (Nat.eq_dec (length d) (length d')) as [Hl|Hl].
    + destruct (G1 ltac:(lia)) as [-> ->]. split; [reflexivity|]. apply (datetime_to_bytes_inj t t' d); assumption.
    + exfalso. destruct L, L'; lia.
  - rewrite !to_le_2_if in E, E'.
    destruct ((0 <=? c) && (c <=? 65535)) eqn:R1; [|discriminate E]. destruct ((0 <=? c') && (c' <=? 65535)) eqn:R2; [|discriminate E'].
    destruct ((0 <=? q) && (q <=? 65535)) eqn:R3; [|discriminate E]. destruct ((0 <=? q') && (q' <=? 65535)) eqn:R4; [|discriminate E'].
    cbn [bind] in E, E'. injection E as <-. injection E' as E'. pad_tac rnd p. pad_tac rnd' p'.
    rewrite <- !app_assoc in E'. destruct (password_split _ _ _ _ _ _ _ _ E') as (G1 & _).
    destruct (G1 eq_refl) as [-> G]. apply app_inj_len in G as [G G']; [|reflexivity].
    apply le2_inj in G, G'; try lia. subst. reflexivity.
  - rewrite append_if, to_le_2_if in E. rewrite append_if, to_le_2_if in E'.
    destruct ((0 <=? a) && (a <=? 255)) eqn:R1; [|discriminate E]. destruct ((0 <=? a') && (a' <=? 255)) eqn:R2; [|discriminate E'].
    destruct ((0 <=? n) && (n <=? 65535)) eqn:R3; [|discriminate E]. destruct ((0 <=? n') && (n' <=? 65535)) eqn:R4; [|discriminate E'].
    cbn [bind] in E, E'. apply bind_ok in E as (d & Ed & E). apply bind_ok in E' as (d' & Ed' & E').
    injection E as <-. injection E' as E'. pad_tac rnd p. pad_tac rnd' p'.
    rewrite <- !app_assoc in E'. destruct (password_split _ _ _ _ _ _ _ _ E') as (G1 & G2 & G3).
    pose proof (datetime_to_bytes_len t d HT Ed) as L. pose proof (datetime_to_bytes_len t' d' HT' Ed') as L'.
    unfold len in L, L'. rewrite !app_length in G1, G2, G3. destruct (Nat.eq_dec (length d) (length d')) as [Hl|Hl].
    + destruct (G1 ltac:(cbn; lia)) as [-> G]. cbn [app] in G. injection G as Ga G0 G0' Gd. subst a' d'.
      assert (t = t') as -> by (eapply datetime_to_bytes_inj; eassumption). f_equal. apply le2_inj; [lia..|]. unfold le2. congruence.
    + exfalso. cbn [length le2] in *. destruct L, L'; lia.
  - rewrite append_if, to_le_2_if, to_le_4_if in E. rewrite append_if, to_le_2_if, to_le_4_if in E'.
    destruct ((0 <=? a) && (a <=? 255)) eqn:R1; [|discriminate E]. destruct ((0 <=? a') && (a' <=? 255)) eqn:R2; [|discriminate E'].
    destruct ((0 <=? i) && (i <=? 4294967295)) eqn:R5; [|discriminate E]. destruct ((0 <=? i') && (i' <=? 4294967295)) eqn:R6; [|discriminate E'].
    destruct ((0 <=? n) && (n <=? 65535)) eqn:R3; [|discriminate E]. destruct ((0 <=? n') && (n' <=? 65535)) eqn:R4; [|discriminate E'].
    cbn [bind] in E, E'. injection E as <-. injection E' as E'. pad_tac rnd p. pad_tac rnd' p'.
    rewrite <- !app_assoc in E'. destruct (password_split _ _ _ _ _ _ _ _ E') as (G1 & _).
    destruct (G1 eq_refl) as [-> G]. 
    apply app_inj_len in G as [Ga G]; [|reflexivity]. injection Ga as ->.
    apply app_inj_len in G as [G G']; [|reflexivity].
    apply le4_inj in G; [|lia..]. apply le2_inj in G'; [|lia..]. subst. reflexivity.
Qed.

(** *** responses *)
Lemma slice_to_short {A} i (l : list A) : 0 <= i -> len l <= i -> slice_to i l = l.
Proof. intros Hi Hl. unfold slice_to. rewrite clamp_pos by lia. apply firstn_all2. lenlia. Qed.
Lemma len_slice_to_neg {A} i (l : list A) : 0 < i -> len (slice_to (- i) l) = Z.max 0 (len l - i).
Proof. intros Hi. unfold slice_to. rewrite clamp_neg by lia. rewrite len_firstn. pose proof (len_nonneg l). lia. Qed.
Lemma len_slice_from {A} i (l : list A) : 0 <= i -> len (slice_from i l) = Z.max 0 (len l - i).
Proof. intros Hi. unfold slice_from. rewrite clamp_pos by lia. rewrite len_skipn. pose proof (len_nonneg l). lia. Qed.
Lemma getitem_err i (l : bytes) : (0 <= i -> len l <= i) -> (i < 0 -> len l < - i) -> getitem i l = Err IndexError.
Proof.
  intros H1 H2. unfold getitem. destruct (Z.ltb_spec i 0).
  - destruct (Z.ltb_spec (i + len l) 0); [reflexivity|lia].
  - destruct (Z.ltb_spec i 0); [lia|]. cbn [orb]. destruct (Z.leb_spec (len l) i); [reflexivity|lia].
Qed.
Lemma getitem_nil_neg : getitem (-1) [] = Err IndexError.
Proof. reflexivity. Qed.

Lemma instantaneous_split time t dst sup data access status summary crc :
  bytes_to_datetime time = Ok (t, dst, sup) -> len time = 6 ->
  len status = 8 -> len summary = 8 -> len crc = 2 ->
  instantaneous_values_from_bytes (time ++ data ++ [access] ++ status ++ summary ++ crc) =
  Ok (ReadInstantaneousValuesResponse t dst sup data access status summary crc).
Proof.
  intros Ht Lt Ls Lm Lc. unfold instantaneous_values_from_bytes. cbv zeta.
  rewrite (slice_to_app time) by lia. rewrite Ht. cbn [bind].
  rewrite (slice_from_app time) by lia.
  replace (data ++ [access] ++ status ++ summary ++ crc) with ((((data ++ [access]) ++ status) ++ summary) ++ crc)
    by (rewrite <- !app_assoc; reflexivity).
  rewrite (slice_to_neg_app _ crc) by lia. rewrite (slice_from_neg_app _ crc) by lia.
  rewrite (slice_to_neg_app _ summary) by lia. rewrite (slice_from_neg_app _ summary) by lia.
  rewrite (slice_to_neg_app _ status) by lia. rewrite (slice_from_neg_app _ status) by lia.
  rewrite (getitem_neg_app data access []) by reflexivity. cbn [bind].
  rewrite slice_to_neg1. reflexivity.
Qed.
Lemma bytes_to_datetime_ok_len l r : bytes_to_datetime l = Ok r -> len l = 6.
Proof. unfold bytes_to_datetime. destruct (Z.eqb_spec (len l) 6); [auto|discriminate]. Qed.
Lemma instantaneous_short l : is_bytes l -> len l < 25 ->
  instantaneous_values_from_bytes l = Err ValueError \/ instantaneous_values_from_bytes l = Err IndexError.
Proof.
  intros Hb Hl. unfold instantaneous_values_from_bytes. cbv zeta.
  destruct (bytes_to_datetime (slice_to 6 l)) as [[[t d] s]|e] eqn:E.
  - right. cbn [bind]. pose proof (len_nonneg l).
    rewrite getitem_err; [reflexivity|lia|]. intros _.
    change (-8) with (- (8)). change (-2) with (- (2)). rewrite !len_slice_to_neg, len_slice_from by lia. lia.
  - left. cbn [bind]. f_equal. eapply bytes_to_datetime_err; [|exact E]. auto with bytes.
Qed.
Lemma instantaneous_bad_time l : is_bytes l -> (forall r, bytes_to_datetime (firstn 6 l) <> Ok r) ->
  instantaneous_values_from_bytes l = Err ValueError.
Proof.
  intros Hb H. unfold instantaneous_values_from_bytes. cbv zeta.
  assert (slice_to 6 l = firstn 6 l) as ->.
  { unfold slice_to. rewrite clamp_pos by lia. destruct (Z.le_gt_cases 6 (len l)).
    - rewrite Z.min_l by lia. reflexivity.
    - rewrite Z.min_r by lia. unfold len in *. rewrite Nat2Z.id, firstn_all. symmetry. apply firstn_all2. lia. }
  destruct (bytes_to_datetime (firstn 6 l)) as [r|e] eqn:E; [exfalso; eapply H; reflexivity|].
  cbn [bind]. f_equal. eapply bytes_to_datetime_err; [|exact E]. auto with bytes.
Qed.

Lemma read_time_split time t dst sup result extra crc :
  bytes_to_datetime time = Ok (t, dst, sup) -> len time = 6 -> len crc = 2 ->
  read_time_from_bytes (time ++ [result] ++ extra ++ crc) = Ok (ReadTimeResponse t [result] dst sup extra).
Proof.
  intros Ht Lt Lc. unfold read_time_from_bytes. cbv zeta.
  rewrite (slice_to_app time) by lia. rewrite Ht. cbn [bind].
  rewrite (slice_mid time [result] (extra ++ crc)) by lenlia.
  rewrite (app_assoc time). rewrite (slice_mid_neg (time ++ [result]) extra crc) by lenlia. reflexivity.
Qed.
Lemma read_time_short_accepted time t dst sup tail :
  bytes_to_datetime time = Ok (t, dst, sup) -> len time = 6 -> len tail <= 2 ->
  read_time_from_bytes (time ++ tail) = Ok (ReadTimeResponse t (firstn 1 tail) dst sup []).
Proof.
  intros Ht Lt Lc. unfold read_time_from_bytes. cbv zeta.
  rewrite (slice_to_app time) by lia. rewrite Ht. cbn [bind].
  destruct tail as [|x [|y [|z tail]]]; [| | |exfalso; lenlia].
  - rewrite app_nil_r. assert (slice 6 7 time = []) as ->.
    { unfold slice. rewrite !clamp_pos by lia. rewrite Lt. reflexivity. }
    assert (slice 7 (-2) time = []) as ->; [|reflexivity].
    unfold slice. rewrite (clamp_pos _ 7), (clamp_neg _ (-2)) by lia. rewrite Lt. reflexivity.
  - rewrite (slice_mid time [x] []) by lenlia.
    assert (slice 7 (-2) (time ++ [x]) = []) as ->; [|reflexivity].
    unfold slice. rewrite (clamp_pos _ 7), (clamp_neg _ (-2)) by lia. rewrite len_app, Lt. reflexivity.
  - rewrite (slice_mid time [x] [y]) by lenlia.
    assert (slice 7 (-2) (time ++ [x; y]) = []) as ->; [|reflexivity].
    unfold slice. rewrite (clamp_pos _ 7), (clamp_neg _ (-2)) by lia. rewrite len_app, Lt. reflexivity.
Qed.
Lemma read_time_shorter l : len l < 6 -> read_time_from_bytes l = Err ValueError.
Proof.
  intros H. unfold read_time_from_bytes. cbv zeta. rewrite slice_to_short by lia.
  rewrite bytes_to_datetime_other by lia. reflexivity.
Qed.

Lemma device_parameters_split n a e data : 0 <= n <= 65535 -> 0 <= a <= 65535 ->
  device_parameters_from_bytes (le2 n ++ le2 a ++ [e] ++ data) =
  Ok (ReadDeviceParametersResponse data n a (negb (e =? 0))).
Proof.
  intros Hn Ha. unfold device_parameters_from_bytes. cbv zeta.
  rewrite (slice_to_app (le2 n)) by reflexivity.
  rewrite (slice_mid (le2 n) (le2 a)) by reflexivity.
  assert (getitem 4 (le2 n ++ le2 a ++ [e] ++ data) = Ok e) as ->.
  { rewrite app_assoc. apply (getitem_app (le2 n ++ le2 a) e data). reflexivity. }
  cbn [bind]. rewrite !app_assoc. rewrite (slice_from_app ((le2 n ++ le2 a) ++ [e]) data) by reflexivity.
  unfold le2. cbn [from_le]. do 2 f_equal; lia.
Qed.
Lemma device_parameters_short l : len l < 5 -> device_parameters_from_bytes l = Err IndexError.
Proof.
  intros H. unfold device_parameters_from_bytes. cbv zeta. rewrite getitem_err; [reflexivity| |]; lia.
Qed.

Lemma archive_split a i data : 0 <= a <= 10 -> 0 <= i <= 4294967295 ->
  archive_from_bytes ([a] ++ le4 i ++ data) = Ok (ReadArchiveResponse a (i mod 2 ^ 24) data) /\
  archive_by_time_from_bytes ([a] ++ le4 i ++ data) = Ok (ReadArchiveByTimeResponse a (i mod 2 ^ 24) data).
Proof.
  intros Ha Hi. unfold archive_from_bytes, archive_by_time_from_bytes.
  assert (getitem 0 ([a] ++ le4 i ++ data) = Ok a) as -> by (apply (getitem_app [] a); reflexivity).
  cbn [bind]. unfold archive_of_number.
  destruct (Z.leb_spec 0 a), (Z.leb_spec a 10); try lia. cbn [andb bind]. cbv zeta.
  rewrite (app_assoc [a]). rewrite (slice_from_app ([a] ++ le4 i)) by reflexivity.
  assert (slice 1 4 (([a] ++ le4 i) ++ data) = [i mod 256; i / 256 mod 256; i / 65536 mod 256]) as ->.
  { unfold le4. change (([a] ++ [i mod 256; i / 256 mod 256; i / 65536 mod 256; i / 16777216]) ++ data)
      with ([a] ++ [i mod 256; i / 256 mod 256; i / 65536 mod 256] ++ [i / 16777216] ++ data).
    apply slice_mid; reflexivity. }
  assert (from_le [i mod 256; i / 256 mod 256; i / 65536 mod 256] = i mod 2 ^ 24) as ->.
  { cbn [from_le]. change (2 ^ 24) with 16777216. lia. }
  split; reflexivity.
Qed.
Lemma archive_id_small a i data : 0 <= a <= 10 -> 0 <= i < 2 ^ 24 ->
  archive_from_bytes ([a] ++ le4 i ++ data) = Ok (ReadArchiveResponse a i data) /\
  archive_by_time_from_bytes ([a] ++ le4 i ++ data) = Ok (ReadArchiveByTimeResponse a i data).
Proof.
  intros Ha Hi. rewrite <- (Z.mod_small i (2 ^ 24)) at 2 4 by lia. apply archive_split; lia.
Qed.
Lemma archive_id_large_wrong a i data : 0 <= a <= 10 -> 2 ^ 24 <= i < 2 ^ 32 ->
  exists i', i' <> i /\ archive_from_bytes ([a] ++ le4 i ++ data) = Ok (ReadArchiveResponse a i' data) /\
    archive_by_time_from_bytes ([a] ++ le4 i ++ data) = Ok (ReadArchiveByTimeResponse a i' data).
Proof.
  intros Ha Hi. exists (i mod 2 ^ 24). split; [lia|]. apply archive_split; lia.
Qed.
Lemma archive_unknown a l : ~ 0 <= a <= 10 ->
  archive_from_bytes (a :: l) = Err ValueError /\ archive_by_time_from_bytes (a :: l) = Err ValueError.
Proof.
  intros Ha. unfold archive_from_bytes, archive_by_time_from_bytes.
  assert (getitem 0 (a :: l) = Ok a) as -> by (apply (getitem_app [] a); reflexivity). cbn [bind].
  unfold archive_of_number. destruct (Z.leb_spec 0 a), (Z.leb_spec a 10); try lia; split; reflexivity.
Qed.
Lemma archive_truncated_accepted a l : 0 <= a <= 10 -> len l < 4 ->
  archive_from_bytes (a :: l) = Ok (ReadArchiveResponse a (le_value (firstn 3 l)) []) /\
  archive_by_time_from_bytes (a :: l) = Ok (ReadArchiveByTimeResponse a (le_value (firstn 3 l)) []).
Proof.
  intros Ha Hl. unfold archive_from_bytes, archive_by_time_from_bytes.
  assert (getitem 0 (a :: l) = Ok a) as -> by (apply (getitem_app [] a); reflexivity). cbn [bind].
  unfold archive_of_number. destruct (Z.leb_spec 0 a), (Z.leb_spec a 10); try lia. cbn [andb bind]. cbv zeta.
  destruct l as [|x [|y [|z [|w l]]]]; try (exfalso; lenlia); split; reflexivity.
Qed.
Lemma archive_empty : archive_from_bytes [] = Err IndexError /\ archive_by_time_from_bytes [] = Err IndexError.
Proof. split; reflexivity. Qed.

(** *** call registration *)
Lemma pretty_text_of l : text_of l (pretty_text l).
Proof.
  destruct (in_dec Z.eq_dec 0 l) as [H|H].
  - left. pose proof (rindex_of_spec 0 l) as R. destruct (rindex_of 0 l).
    + destruct R as (p & s & -> & _ & Hs). exists p, s. split; [reflexivity|]. split; [exact Hs|].
      apply pretty_text_with_nul, Hs.
    + contradiction.
  - right. split; [exact H|]. apply pretty_text_spec, H.
Qed.
Lemma parse_ip_dotted l : is_bytes l -> len l = 4 -> exists s, parse_ip_address l = Ok s /\ dotted l s.
Proof.
  intros Hb Hl. destruct l as [|a [|b [|c [|d [|e l]]]]]; try (exfalso; lenlia).
  destruct (parse_ip_4 a b c d Hb) as (sa & sb & sc & sd & Ha & Hb' & Hc & Hd & E).
  eexists. split; [exact E|]. exists a, b, c, d, sa, sb, sc, sd. split; [reflexivity|]. repeat (split; [assumption|]). reflexivity.
Qed.
Lemma time_field k l : is_bytes l -> 0 <= k -> k + 4 <= len l ->
  exists t, add_seconds base_date (from_le (field k 4 l)) = Ok t /\ time_of (field k 4 l) t /\ calendar_time t.
Proof.
  intros Hb Hk Hl. unfold time_of. idtac.
  pose proof (from_le_range (field k 4 l) (field_bytes _ _ _ Hb)) as H. rewrite field_len in H by lia.
  apply (add_seconds_spec (from_le (field k 4 l))). change (256 ^ 4) with (2 ^ 32) in H. exact H.
Qed.
Lemma from_bcd_field l : is_bytes l -> Forall is_digit (nibbles l) -> 0 < len l -> from_bcd l = Ok (dec_value (nibbles l)).
Proof.
  intros Hb Hd Hl. apply from_bcd_ok_iff; [exact Hb|]. split; [|auto]. intros ->. unfold len in Hl; cbn [length] in Hl; lia.
Qed.
Lemma dec_value_nonneg l : Forall is_digit l -> 0 <= dec_value l.
Proof. intros H. apply dec_value_range, H. Qed.
Lemma call_accepts l : is_bytes l -> call_readable l ->
  exists c, call_from_bytes l = Ok c /\ call_fields l c /\
    calendar_time (last_connection_time c) /\ calendar_time (last_connection_error_time c) /\
    calendar_time (last_reset_time c) /\ calendar_time (last_modem_error_time c).
Proof.
  intros Hb (HL & Hs & Hm & Hp). unfold call_from_bytes. cbv zeta.
  change (pop_many l 2) with (pop_many (rest 0 l) 2).
  destruct (time_field 63 l Hb ltac:(lia) ltac:(lia)) as (t1 & T1 & U1 & V1).
  destruct (time_field 71 l Hb ltac:(lia) ltac:(lia)) as (t2 & T2 & U2 & V2).
  destruct (time_field 79 l Hb ltac:(lia) ltac:(lia)) as (t3 & T3 & U3 & V3).
  destruct (time_field 99 l Hb ltac:(lia) ltac:(lia)) as (t4 & T4 & U4 & V4).
  destruct (parse_ip_dotted (field 95 4 l)) as (ip & Eip & Dip); [auto with bytes|apply field_len; lia|].
  assert (from_bcd (field 36 10 l) = Ok (dec_value (nibbles (field 36 10 l)))) as B1
    by (apply from_bcd_field; [auto with bytes|exact Hs|rewrite field_len by lia; lia]).
  assert (from_bcd (field 46 8 l) = Ok (dec_value (nibbles (field 46 8 l)))) as B2
    by (apply from_bcd_field; [auto with bytes|exact Hm|rewrite field_len by lia; lia]).
  assert (protocol_of_number (byte_at 54 l) = Ok (byte_at 54 l)) as B3.
  { pose proof (byte_at_byte 54 l Hb) as R. unfold is_byte in R. unfold protocol_of_number.
    destruct (Z.leb_spec 0 (byte_at 54 l)), (Z.leb_spec (byte_at 54 l) 3); try lia; reflexivity. }
  repeat (first [read_step; [|exfalso; lia] | rewrite B1 | rewrite B2 | rewrite B3 | rewrite T1 | rewrite T2
    | rewrite T3 | rewrite T4 | rewrite Eip]; cbn [bind]).
  eexists. split; [reflexivity|]. unfold call_fields. 
  cbn [guid station_id sim_card_id modem_id address_1 address_2 signal_strength connections last_connection_time
    connection_errors last_connection_error_time resets last_reset_time tcp_data all_data serial_number ip_address
    last_modem_error last_modem_error_time modem_battery_capacity modem_battery_voltage firmware_version version protocol].
  idtac.
  assert (0 <= from_le (field 91 4 l)) as H91 by (pose proof (from_le_range (field 91 4 l) (field_bytes _ _ _ Hb)); lia).
  split; [|auto]. 
  repeat (first [split; [first [reflexivity | assumption | apply pretty_text_of
    | apply str_int_spec; first [apply dec_value_nonneg; assumption | exact H91]]|] | apply pretty_text_of]).
Qed.
Lemma call_outcome l : is_bytes l ->
  match call_from_bytes l with
  | Ok c => call_readable l
  | Err e => ~ call_readable l /\ (e = IndexError \/ e = ValueError)
  end.
Proof.
  intros Hb.
  assert (forall k, k <= 141 -> len l < k -> ~ call_readable l /\ (IndexError = IndexError \/ IndexError = ValueError)) as HI.
  { intros k Hk Hl. split; [intros (H & _); lia|auto]. }
  unfold call_from_bytes. cbv zeta. change (pop_many l 2) with (pop_many (rest 0 l) 2).
  do 5 (read_step; [|eapply HI; [|eassumption]; lia]).
  destruct (from_bcd (field 36 10 l)) as [n1|e1] eqn:B1; cbn [bind].
  2:{ apply from_bcd_err in B1 as [-> [B1|B1]]; auto with bytes.
      - exfalso. apply (f_equal len) in B1. rewrite field_len in B1 by lia. rewrite len_nil in B1. lia.
      - split; [|auto]. intros (_ & HX & _). contradiction. }
  read_step; [|eapply HI; [|eassumption]; lia].
  destruct (from_bcd (field 46 8 l)) as [n2|e2] eqn:B2; cbn [bind].
  2:{ apply from_bcd_err in B2 as [-> [B2|B2]]; auto with bytes.
      - exfalso. apply (f_equal len) in B2. rewrite field_len in B2 by lia. rewrite len_nil in B2. lia.
      - split; [|auto]. intros (_ & _ & HX & _). contradiction. }
  read_step; [|eapply HI; [|eassumption]; lia].
  unfold protocol_of_number. destruct ((0 <=? byte_at 54 l) && (byte_at 54 l <=? 3)) eqn:B3; cbn [bind].
  2:{ pose proof (byte_at_byte 54 l Hb) as R. unfold is_byte in R. split; [|auto]. intros (_ & _ & _ & HX). lia. }
  do 5 (read_step; [|eapply HI; [|eassumption]; lia]).
  destruct (time_field 63 l Hb ltac:(lia) ltac:(lia)) as (t1 & T1 & _). rewrite T1. cbn [bind].
  do 2 (read_step; [|eapply HI; [|eassumption]; lia]).
  destruct (time_field 71 l Hb ltac:(lia) ltac:(lia)) as (t2 & T2 & _). rewrite T2. cbn [bind].
  do 2 (read_step; [|eapply HI; [|eassumption]; lia]).
  destruct (time_field 79 l Hb ltac:(lia) ltac:(lia)) as (t3 & T3 & _). rewrite T3. cbn [bind].
  do 4 (read_step; [|eapply HI; [|eassumption]; lia]).
  destruct (parse_ip_dotted (field 95 4 l)) as (ip & Eip & Dip); [auto with bytes|apply field_len; lia|].
  rewrite Eip. cbn [bind].
  read_step; [|eapply HI; [|eassumption]; lia].
  destruct (time_field 99 l Hb ltac:(lia) ltac:(lia)) as (t4 & T4 & _). rewrite T4. cbn [bind].
  do 4 (read_step; [|eapply HI; [|eassumption]; lia]).
  apply from_bcd_ok_iff in B1 as (_ & B1 & _); [|auto with bytes].
  apply from_bcd_ok_iff in B2 as (_ & B2 & _); [|auto with bytes].
  split; [lia|]. split; [exact B1|]. split; [exact B2|lia].
Qed.
Lemma call_exact l c : is_bytes l -> call_from_bytes l = Ok c -> call_readable l /\ call_fields l c /\
    calendar_time (last_connection_time c) /\ calendar_time (last_connection_error_time c) /\
    calendar_time (last_reset_time c) /\ calendar_time (last_modem_error_time c).
Proof.
  intros Hb E. pose proof (call_outcome l Hb) as H. rewrite E in H. split; [exact H|].
  destruct (call_accepts l Hb H) as (c' & E' & F). congruence.
Qed.
Lemma call_rejects l : is_bytes l -> ~ call_readable l ->
  call_from_bytes l = Err IndexError \/ call_from_bytes l = Err ValueError.
Proof.
  intros Hb H. pose proof (call_outcome l Hb) as G. destruct (call_from_bytes l) as [c|e]; [contradiction|].
  destruct G as [_ [->| ->]]; auto.
Qed.

(** *** identifiers *)
Lemma nibbles_digits_leading l s : Forall is_digit (nibbles l) -> decimal_text (dec_value (nibbles l)) s ->
  (2 <= length (nibbles l))%nat ->
  (hd 0 (nibbles l) <> 0 -> s = map (fun d => 48 + d) (nibbles l)) /\
  (hd 0 (nibbles l) = 0 -> s <> map (fun d => 48 + d) (nibbles l)).
Proof.
  intros Hd Hs Hl. split.
  - intros Hh. eapply decimal_text_unique; [exact Hs|]. exists (nibbles l). split; [|reflexivity].
    split; [exact Hd|]. split; [reflexivity|]. split; [intros E; rewrite E in Hl; cbn in Hl; lia|]. intros; contradiction.
  - intros Hh E. destruct Hs as (ds & (_ & _ & _ & Hz) & ->).
    assert (ds = nibbles l) as ->.
    { clear -E. revert E. generalize (nibbles l). induction ds as [|d ds IH]; intros [|x m] E; try discriminate; [reflexivity|].
      injection E as E1 E2. f_equal; [lia|apply IH, E2]. }
    apply Hz in Hh. rewrite Hh in Hl. cbn in Hl. lia.
Qed.
Lemma nibbles_length l : length (nibbles l) = (2 * length l)%nat.
Proof. unfold nibbles. induction l as [|b l IH]; [reflexivity|]. cbn [flat_map app length]. rewrite IH. lia. Qed.
Lemma call_ids l c : is_bytes l -> call_from_bytes l = Ok c ->
  let sim := nibbles (field 36 10 l) in let modem := nibbles (field 46 8 l) in
  (hd 0 sim <> 0 <-> sim_card_id c = map (fun d => 48 + d) sim) /\
  (hd 0 modem <> 0 <-> modem_id c = map (fun d => 48 + d) modem).
Proof.
  intros Hb E sim modem. apply call_exact in E as ((HL & Hs & Hm & _) & F & _); [|exact Hb].
  destruct F as (_ & _ & _ & F1 & F2 & _).
  assert (length sim = 20)%nat as L1.
  { unfold sim. rewrite nibbles_length. pose proof (field_len 36 10 l ltac:(lia) ltac:(lia) ltac:(lia)). lenlia. }
  assert (length modem = 16)%nat as L2.
  { unfold modem. rewrite nibbles_length. pose proof (field_len 46 8 l ltac:(lia) ltac:(lia) ltac:(lia)). lenlia. }
  destruct (nibbles_digits_leading (field 36 10 l) _ Hs F1) as (A1 & A2); [fold sim; lia|].
  destruct (nibbles_digits_leading (field 46 8 l) _ Hm F2) as (A3 & A4); [fold modem; lia|].
  fold sim in A1, A2. fold modem in A3, A4. split; split; try assumption; intros H H'; [apply A2|apply A4]; assumption.
Qed.
Definition call_example : bytes :=
  [141; 0; 2; 64; 164; 148; 221; 150; 206; 27; 183; 25; 65; 100; 213; 106; 111; 128; 164; 48; 48; 48; 48; 48; 48; 48; 48; 48; 48; 48; 48; 48; 48; 48; 49; 0; 35; 130; 8; 112; 16; 99; 67; 120; 0; 0; 3; 89; 7; 115; 32; 103; 6; 81; 0; 1; 0; 0; 31; 6; 0; 0; 0; 158; 43; 98; 45; 0; 0; 0; 0; 0; 0; 0; 0; 1; 0; 0; 0; 145; 202; 175; 44; 152; 0; 0; 0; 0; 0; 0; 0; 44; 64; 140; 140; 10; 71; 74; 75; 29; 42; 98; 45; 1; 122; 254; 205; 1; 48; 49; 46; 48; 48; 48; 0; 0; 0; 0; 0; 0; 0; 0; 0; 0; 0; 0; 0; 0; 0; 0; 0; 0; 0; 0; 0; 0; 0; 0; 0; 0; 0].
Lemma call_ids_refuted : exists l c, is_bytes l /\ call_from_bytes l = Ok c /\
  modem_id c <> map (fun d => 48 + d) (nibbles (field 46 8 l)).
Proof.
  exists call_example. eexists. split; [unfold call_example; bytes_tac|]. split; [vm_compute; reflexivity|].
  vm_compute. discriminate.
Qed.
