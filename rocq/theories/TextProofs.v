(** Proofs about the BCD, datetime, password, text and IP functions of Utils.v. *)
From Verif Require Import BitFacts SpecText Utils.
Open Scope Z_scope.

(** ** decimal digits *)
Lemma dec_value_snoc ds d : dec_value (ds ++ [d]) = 10 * dec_value ds + d.
Proof. unfold dec_value. rewrite fold_left_app. reflexivity. Qed.
Lemma dec_digits_spec fuel n : 0 <= n < 10 ^ Z.of_nat fuel -> (0 < fuel)%nat -> decimal_digits n (dec_digits fuel n).
Proof.
  revert n; induction fuel as [|f IH]; intros n Hn Hf; [lia|]. cbn [dec_digits].
  destruct (Z.ltb_spec n 10).
  - split; [|split; [|split]].
    + constructor; [unfold is_digit; lia|constructor].
    + unfold dec_value. cbn [fold_left]. lia.
    + discriminate.
    + cbn [hd]. intros ->. reflexivity.
  - assert (Hf' : (0 < f)%nat) by (destruct f; [change (10 ^ Z.of_nat 1) with 10 in Hn; lia|lia]).
    rewrite Nat2Z.inj_succ, Z.pow_succ_r in Hn by lia.
    assert (Hq : 0 <= n / 10 < 10 ^ Z.of_nat f) by (split; [lia|apply Z.div_lt_upper_bound; lia]).
    destruct (IH (n / 10) Hq Hf') as (H1 & H2 & H3 & H4).
    split; [|split; [|split]].
    + apply Forall_app. split; [exact H1|]. constructor; [unfold is_digit; lia|constructor].
    + rewrite dec_value_snoc, H2. lia.
    + destruct (dec_digits f (n / 10)); discriminate.
    + destruct (dec_digits f (n / 10)) as [|d ds] eqn:E; [contradiction|]. cbn [app hd] in *.
      intros ->. specialize (H4 eq_refl). rewrite H4 in H2. unfold dec_value in H2. cbn in H2. lia.
Qed.
Lemma log2_fuel n : 0 <= n -> n < 10 ^ Z.of_nat (S (Z.to_nat (Z.log2 n))).
Proof.
  intros Hn. destruct (Z.eq_dec n 0) as [->|]; [reflexivity|].
  pose proof (Z.log2_nonneg n). pose proof (Z.log2_spec n ltac:(lia)) as [_ H'].
  rewrite Nat2Z.inj_succ, Z2Nat.id by lia.
  eapply Z.lt_le_trans; [exact H'|]. apply Z.pow_le_mono_l. lia.
Qed.
Lemma digits_of_spec n : 0 <= n -> decimal_digits n (digits_of n).
Proof. intros H. apply dec_digits_spec; [split; [exact H|apply log2_fuel, H]|lia]. Qed.
Lemma str_int_spec n : 0 <= n -> decimal_text n (str_int n).
Proof.
  intros H. unfold str_int. destruct (Z.ltb_spec n 0); [lia|]. exists (digits_of n).
  split; [apply digits_of_spec, H|reflexivity].
Qed.

(** digits determine the number's digit list *)
Lemma dec_value_acc ds a : fold_left (fun a d => 10 * a + d) ds a = a * 10 ^ len ds + dec_value ds.
Proof.
  unfold dec_value. revert a. induction ds as [|d ds IH]; intros a.
  - unfold len; cbn [length fold_left]. change (10 ^ Z.of_nat 0) with 1. lia.
  - cbn [fold_left]. rewrite IH, (IH (10 * 0 + d)). rewrite len_cons.
    rewrite Z.pow_add_r by (try lia; apply len_nonneg). lia.
Qed.
Lemma dec_value_cons d ds : dec_value (d :: ds) = d * 10 ^ len ds + dec_value ds.
Proof. change (dec_value (d :: ds)) with (fold_left (fun a d => 10 * a + d) ds (10 * 0 + d)). rewrite dec_value_acc. f_equal. Qed.
Lemma dec_value_range ds : Forall is_digit ds -> 0 <= dec_value ds < 10 ^ len ds.
Proof.
  induction 1 as [|d ds Hd _ IH].
  - change (10 ^ len (@nil Z)) with 1. cbn. lia.
  - rewrite dec_value_cons, len_cons, Z.pow_add_r by (try lia; apply len_nonneg). unfold is_digit in Hd. nia.
Qed.
Lemma decimal_digits_unique n a b : decimal_digits n a -> decimal_digits n b -> a = b.
Proof.
  assert (forall a b, Forall is_digit a -> Forall is_digit b -> len a = len b -> dec_value a = dec_value b -> a = b) as G.
  { clear. intros a b Ha; revert b; induction Ha as [|x a Hx Ha IH]; intros [|y b] Hb Hl Hv; auto;
      try (exfalso; lenlia).
    apply Forall_cons_iff in Hb as [Hy Hb]. rewrite !len_cons in Hl. rewrite !dec_value_cons in Hv.
    pose proof (dec_value_range a Ha). pose proof (dec_value_range b Hb).
    assert (len a = len b) as E by lia. rewrite E in *. unfold is_digit in *.
    assert (x = y) as -> by nia. f_equal. apply IH; auto. lia. }
  assert (forall a b, decimal_digits n a -> decimal_digits n b -> len a <= len b) as L.
  { clear. intros a b (A1 & A2 & A3 & A4) (B1 & B2 & B3 & B4).
    destruct (Z.le_gt_cases (len a) (len b)) as [|Hgt]; [assumption|exfalso].
    destruct a as [|x a]; [contradiction|]. cbn [hd] in A4. rewrite len_cons in Hgt.
    destruct (Z.eq_dec x 0) as [->|Hx].
    - specialize (A4 eq_refl). injection A4 as ->. rewrite len_nil in Hgt.
      destruct b; [contradiction|]. rewrite len_cons in Hgt. pose proof (len_nonneg b). lia.
    - rewrite dec_value_cons in A2. apply Forall_cons_iff in A1 as [Hd A1].
      pose proof (dec_value_range a A1). pose proof (dec_value_range b B1).
      assert (10 ^ len b <= 10 ^ len a) by (apply Z.pow_le_mono_r; lia).
      unfold is_digit in Hd. assert (0 < 10 ^ len a) by (apply Z.pow_pos_nonneg; [lia|apply len_nonneg]). nia. }
  intros Ha Hb. pose proof (L a b Ha Hb). pose proof (L b a Hb Ha).
  destruct Ha as (A1 & A2 & _), Hb as (B1 & B2 & _). apply G; auto; lia.
Qed.
Lemma decimal_text_unique n a b : decimal_text n a -> decimal_text n b -> a = b.
Proof. intros (x & Hx & ->) (y & Hy & ->). rewrite (decimal_digits_unique n x y Hx Hy). reflexivity. Qed.
Lemma decimal_text_inj n m s : decimal_text n s -> decimal_text m s -> n = m.
Proof.
  intros (x & (X1 & X2 & _) & ->) (y & (Y1 & Y2 & _) & H).
  assert (x = y) as ->; [|congruence].
  clear -H. revert y H. induction x as [|a x IH]; intros [|b y] H; cbn [map] in H; try discriminate; auto.
  injection H as Ha H. f_equal; [lia|auto].
Qed.
Lemma decimal_text_digits n s : decimal_text n s -> Forall (fun c => 48 <= c <= 57) s.
Proof.
  intros (ds & (H & _) & ->). induction H as [|d ds Hd _ IH]; cbn [map]; constructor; auto.
  unfold is_digit in Hd. lia.
Qed.

(** ** BCD *)
Lemma hex_digit_value d : 0 <= d < 16 ->
  (48 <=? hex_digit d) && (hex_digit d <=? 57) = (d <=? 9) /\ (d <= 9 -> hex_digit d = 48 + d).
Proof. intros H. unfold hex_digit. destruct (Z.ltb_spec d 10); lia. Qed.
Lemma int_digits_hex l acc : is_bytes l ->
  int_digits acc (hex l) =
  if forallb (fun d => d <=? 9) (nibbles l) then Ok (fold_left (fun a d => 10 * a + d) (nibbles l) acc)
  else Err ValueError.
Proof.
  intros H; revert acc; induction H as [|b l Hb _ IH]; intros acc; [reflexivity|].
  cbn [hex nibbles flat_map app forallb fold_left int_digits].
  unfold is_byte in Hb.
  destruct (hex_digit_value (b / 16)) as [-> E1]; [lia|].
  destruct (Z.leb_spec (b / 16) 9); [|reflexivity]. rewrite E1 by lia.
  cbn [int_digits].
  destruct (hex_digit_value (b mod 16)) as [-> E2]; [lia|].
  destruct (Z.leb_spec (b mod 16) 9); [|reflexivity]. rewrite E2 by lia. cbn [andb].
  change (int_digits (10 * (10 * acc + (48 + b / 16 - 48)) + (48 + b mod 16 - 48)) (hex l)) with
    (int_digits (10 * (10 * acc + (48 + b / 16 - 48)) + (48 + b mod 16 - 48)) (hex l)).
  fold (hex l). rewrite IH. fold (nibbles l).
  replace (10 * (10 * acc + (48 + b / 16 - 48)) + (48 + b mod 16 - 48))
    with (10 * (10 * acc + b / 16) + b mod 16) by lia. reflexivity.
Qed.
Lemma from_bcd_spec l : is_bytes l ->
  from_bcd l = match l with
               | [] => Err ValueError
               | _ => if forallb (fun d => d <=? 9) (nibbles l) then Ok (dec_value (nibbles l)) else Err ValueError
               end.
Proof.
  intros H. unfold from_bcd, int_of_str. destruct l as [|b l]; [reflexivity|].
  transitivity (int_digits 0 (hex (b :: l))); [reflexivity|]. rewrite int_digits_hex by exact H. reflexivity.
Qed.
Lemma from_bcd_ok_iff l n : is_bytes l ->
  (from_bcd l = Ok n <-> l <> [] /\ Forall is_digit (nibbles l) /\ n = dec_value (nibbles l)).
Proof.
  intros H. rewrite from_bcd_spec by exact H.
  assert (Hn : forallb (fun d => d <=? 9) (nibbles l) = true <-> Forall is_digit (nibbles l)).
  { rewrite forallb_forall, Forall_forall. unfold nibbles, is_digit. split; intros G x Hx.
    - specialize (G x Hx). apply in_flat_map in Hx as (b & Hb & Hx).
      pose proof (proj1 (Forall_forall _ _) H b Hb) as Hbb. unfold is_byte in Hbb. cbn in Hx. lia.
    - specialize (G x Hx). lia. }
  destruct l as [|b l]; [split; [discriminate|intros [G _]; contradiction]|].
  destruct (forallb _ _).
  - split.
    + intros G; injection G as <-. split; [discriminate|]. tauto.
    + intros (_ & _ & ->). reflexivity.
  - split; [discriminate|]. intros (_ & G & _). apply Hn in G. discriminate.
Qed.
Lemma from_bcd_err l e : is_bytes l -> from_bcd l = Err e ->
  e = ValueError /\ (l = [] \/ ~ Forall is_digit (nibbles l)).
Proof.
  intros H E. split.
  - rewrite from_bcd_spec in E by exact H. destruct l; [congruence|]. destruct (forallb _ _); congruence.
  - destruct l as [|b l]; [left; reflexivity|right]. intros G.
    assert (from_bcd (b :: l) = Ok (dec_value (nibbles (b :: l)))) as E'
      by (apply from_bcd_ok_iff; [exact H|]; split; [discriminate|auto]).
    congruence.
Qed.

Lemma fromhex_digits ds : Forall is_digit ds -> Nat.Even (length ds) ->
  exists out, fromhex (map (fun d => 48 + d) ds) = Ok out /\ nibbles out = ds /\ is_bytes out /\
              (length ds = 2 * length out)%nat.
Proof.
  intros H [k Hk]. revert ds H Hk. induction k as [|k IH]; intros ds H Hk.
  - destruct ds; [|discriminate]. exists []. repeat split; constructor.
  - destruct ds as [|a [|b ds]]; cbn [length] in Hk; try lia.
    apply Forall_cons_iff in H as [Ha H]. apply Forall_cons_iff in H as [Hb H].
    destruct (IH ds H) as (out & E & N & B & L); [lia|].
    exists (16 * a + b :: out). unfold is_digit in *.
    assert (V : forall d, 0 <= d <= 9 -> hex_value (48 + d) = Some d).
    { intros d Hd. unfold hex_value. destruct (Z.leb_spec 48 (48 + d)), (Z.leb_spec (48 + d) 57); try lia.
      cbn [andb]. f_equal. lia. }
    cbn [map fromhex]. rewrite !V by assumption. rewrite E. cbn [bind].
    split; [reflexivity|]. split.
    + unfold nibbles in *. cbn [flat_map app]. rewrite N. f_equal; [lia|]. f_equal. lia.
    + split; [constructor; [unfold is_byte; lia|exact B]|]. cbn [length]. lia.
Qed.
Definition pad_even (ds : list Z) : list Z := if Nat.odd (length ds) then 0 :: ds else ds.
Lemma pad_even_digits ds : Forall is_digit ds -> Forall is_digit (pad_even ds) /\ Nat.Even (length (pad_even ds))
  /\ dec_value (pad_even ds) = dec_value ds.
Proof.
  intros H. unfold pad_even. destruct (Nat.odd (length ds)) eqn:E.
  - split; [constructor; [unfold is_digit; lia|exact H]|]. split; [|reflexivity].
    cbn [length]. apply Nat.Even_succ. apply Nat.odd_spec; exact E.
  - split; [exact H|]. split; [|reflexivity]. apply Nat.even_spec. rewrite <- Nat.negb_odd, E. reflexivity.
Qed.
Lemma len_mod2_odd {A} (l : list A) : negb (len l mod 2 =? 0) = Nat.odd (length l).
Proof.
  unfold len. destruct (Nat.odd (length l)) eqn:E.
  - apply Nat.odd_spec in E as [k E]. rewrite E. lia.
  - assert (Nat.even (length l) = true) as E' by (rewrite <- Nat.negb_odd, E; reflexivity).
    apply Nat.even_spec in E' as [k E']. rewrite E'. lia.
Qed.
Lemma to_bdc_spec n : 0 <= n -> exists ds out,
  decimal_digits n ds /\ to_bdc n = Ok out /\ nibbles out = pad_even ds /\ is_bytes out.
Proof.
  intros Hn. pose proof (digits_of_spec n Hn) as Hd. exists (digits_of n).
  unfold to_bdc, str_int. destruct (Z.ltb_spec n 0); [lia|]. cbv zeta.
  rewrite len_mod2_odd, map_length.
  destruct Hd as (H1 & H2 & H3).
  assert ((if Nat.odd (length (digits_of n)) then 48 :: map (fun d => 48 + d) (digits_of n)
           else map (fun d => 48 + d) (digits_of n)) = map (fun d => 48 + d) (pad_even (digits_of n))) as ->.
  { unfold pad_even. destruct (Nat.odd _); reflexivity. }
  destruct (pad_even_digits (digits_of n) H1) as (P1 & P2 & P3).
  destruct (fromhex_digits _ P1 P2) as (out & E & N & B & _).
  exists out. split; [split; [exact H1|split; [exact H2|exact H3]]|]. auto.
Qed.
Lemma bcd_roundtrip n : 0 <= n -> exists out, to_bdc n = Ok out /\ from_bcd out = Ok n.
Proof.
  intros Hn. destruct (to_bdc_spec n Hn) as (ds & out & (H1 & H2 & H3 & _) & E & N & B).
  exists out. split; [exact E|]. apply from_bcd_ok_iff; [exact B|].
  destruct (pad_even_digits ds H1) as (P1 & _ & P3). rewrite N, P3. split; [|split; [exact P1|auto]].
  intros ->. cbn in N. unfold pad_even in N. destruct (Nat.odd (length ds)); [discriminate|congruence].
Qed.
Lemma to_bdc_neg n : n < 0 -> to_bdc n = Err ValueError.
Proof.
  intros Hn. unfold to_bdc, str_int. destruct (Z.ltb_spec n 0); [|lia].
  set (t := map (fun d => 48 + d) (digits_of (- n))). cbv zeta.
  assert (t <> []) as Ht.
  { unfold t. destruct (digits_of_spec (- n)) as (_ & _ & G & _); [lia|].
    destruct (digits_of (- n)); [contradiction|discriminate]. }
  destruct t as [|c t]; [contradiction|]. destruct (negb _); reflexivity.
Qed.

(** single bytes *)
Definition range100 : list Z := map Z.of_nat (seq 0 100).
Lemma sweep100 (P : Z -> bool) : forallb P range100 = true -> forall n, 0 <= n < 100 -> P n = true.
Proof.
  intros H n Hn. eapply forallb_forall in H; [exact H|]. apply in_map_iff. exists (Z.to_nat n).
  split; [lia|]. apply in_seq. lia.
Qed.
Lemma to_bdc_2 n : 0 <= n < 100 -> to_bdc n = Ok [bcd_byte n].
Proof.
  intros Hn.
  pose proof (sweep100 (fun n => match to_bdc n with Ok [b] => b =? bcd_byte n | _ => false end) eq_refl n Hn) as G.
  cbn beta in G. destruct (to_bdc n) as [[|b [|c l]]|]; try discriminate. do 2 f_equal. lia.
Qed.
Lemma bcd_byte_range n : 0 <= n < 100 -> is_byte (bcd_byte n).
Proof. unfold bcd_byte, is_byte. lia. Qed.
Lemma bcd_value_byte n : 0 <= n < 100 -> bcd_value (bcd_byte n) = Some n.
Proof.
  intros Hn. pose proof (sweep100 (fun n => match bcd_value (bcd_byte n) with Some m => m =? n | None => false end) eq_refl n Hn) as G.
  cbn beta in G. destruct (bcd_value (bcd_byte n)); [f_equal; lia|discriminate].
Qed.
Lemma from_bcd_1 b : is_byte b ->
  from_bcd [b] = match bcd_value b with Some n => Ok n | None => Err ValueError end.
Proof.
  intros Hb. rewrite from_bcd_spec by (constructor; [exact Hb|constructor]).
  cbn [nibbles flat_map app forallb]. unfold bcd_value. rewrite andb_true_r.
  destruct ((b / 16 <=? 9) && (b mod 16 <=? 9)); [|reflexivity]. f_equal.
Qed.
Lemma bcd_value_range b n : is_byte b -> bcd_value b = Some n -> 0 <= n < 100 /\ bcd_byte n = b.
Proof.
  unfold bcd_value, is_byte, bcd_byte. intros Hb.
  destruct (Z.leb_spec (b / 16) 9), (Z.leb_spec (b mod 16) 9); cbn [andb]; try discriminate.
  intros E; injection E as <-. lia.
Qed.

(** ** calendar *)
Lemma is_leap_spec y : is_leap y = true <-> leap_year y.
Proof.
  unfold is_leap, leap_year. rewrite andb_true_iff, orb_true_iff, negb_true_iff.
  rewrite Z.eqb_neq, !Z.eqb_eq. rewrite <- !Z.mod_divide by lia. reflexivity.
Qed.
Lemma month_days_spec y m n : month_days y m n <-> (1 <= m <= 12 /\ n = days_in_month y m).
Proof.
  split.
  - intros H. destruct H as [y m H|y m H|y H|y H].
    + cbn in H. split; [lia|]. unfold days_in_month.
      destruct (Z.eqb_spec m 2); [lia|]. destruct (Z.eqb_spec m 4), (Z.eqb_spec m 6), (Z.eqb_spec m 9), (Z.eqb_spec m 11); try lia; reflexivity.
    + cbn in H. split; [lia|]. unfold days_in_month.
      destruct (Z.eqb_spec m 2); [lia|]. destruct (Z.eqb_spec m 4), (Z.eqb_spec m 6), (Z.eqb_spec m 9), (Z.eqb_spec m 11); try lia; reflexivity.
    + split; [lia|]. unfold days_in_month. cbn [Z.eqb Pos.eqb].
      rewrite <- is_leap_spec in H. destruct (is_leap y); [exfalso; apply H; reflexivity|reflexivity].
    + split; [lia|]. unfold days_in_month. cbn [Z.eqb Pos.eqb].
      rewrite <- is_leap_spec in H. rewrite H. reflexivity.
  - intros [Hm ->]. unfold days_in_month.
    destruct (Z.eqb_spec m 2) as [->|].
    + destruct (is_leap y) eqn:E; constructor; [apply is_leap_spec; exact E|].
      rewrite <- is_leap_spec, E. discriminate.
    + destruct (Z.eqb_spec m 4), (Z.eqb_spec m 6), (Z.eqb_spec m 9), (Z.eqb_spec m 11); cbn [orb]; constructor; cbn; lia.
Qed.
Lemma valid_datetime_spec t : valid_datetime t = true <-> calendar_time t.
Proof.
  unfold calendar_time. split.
  - unfold valid_datetime. intros H. split; [lia|]. split; [|lia].
    exists (days_in_month (year t) (month t)). split; [apply month_days_spec; lia|lia].
  - intros (H1 & (n & Hn & H2) & H3 & H4 & H5). apply month_days_spec in Hn as [Hm ->].
    unfold valid_datetime. lia.
Qed.
Lemma days_in_month_31 y m : days_in_month y m <= 31.
Proof.
  unfold days_in_month. destruct (m =? 2); [destruct (is_leap y); lia|].
  destruct ((m =? 4) || (m =? 6) || (m =? 9) || (m =? 11)); lia.
Qed.
Lemma calendar_bounds t : calendar_time t -> 1 <= month t <= 12 /\ 1 <= day t <= 31 /\
  0 <= hour t < 24 /\ 0 <= minute t < 60 /\ 0 <= second t < 60 /\ 1 <= year t <= 9999.
Proof.
  intros (H1 & (n & Hn & H2) & H3 & H4 & H5). apply month_days_spec in Hn as [Hm ->].
  pose proof (days_in_month_31 (year t) (month t)). lia.
Qed.

(** ** timestamps *)
Lemma datetime_to_bytes_calendar t : calendar_time t ->
  datetime_to_bytes t =
  (y <- to_bdc (year t - 2000) ;;
   Ok ([bcd_byte (second t); bcd_byte (minute t); bcd_byte (hour t); bcd_byte (day t); bcd_byte (month t)] ++ y)).
Proof.
  intros H. apply calendar_bounds in H as (H1 & H2 & H3 & H4 & H5 & H6).
  unfold datetime_to_bytes. rewrite !to_bdc_2 by lia. cbn [bind app]. reflexivity.
Qed.
Lemma datetime_to_bytes_century t : calendar_time t -> 2000 <= year t <= 2099 ->
  datetime_to_bytes t = Ok [bcd_byte (second t); bcd_byte (minute t); bcd_byte (hour t);
                            bcd_byte (day t); bcd_byte (month t); bcd_byte (year t - 2000)].
Proof.
  intros H Hy. rewrite datetime_to_bytes_calendar by exact H. rewrite to_bdc_2 by lia. reflexivity.
Qed.
Lemma datetime_to_bytes_early t : calendar_time t -> year t < 2000 -> datetime_to_bytes t = Err ValueError.
Proof.
  intros H Hy. rewrite datetime_to_bytes_calendar by exact H. rewrite to_bdc_neg by lia. reflexivity.
Qed.
Lemma datetime_to_bytes_late t : calendar_time t -> 2100 <= year t ->
  exists b, datetime_to_bytes t = Ok b /\ len b = 7.
Proof.
  intros H Hy. rewrite datetime_to_bytes_calendar by exact H.
  apply calendar_bounds in H as (_ & _ & _ & _ & _ & H6).
  destruct (to_bdc_spec (year t - 2000)) as (ds & out & (D1 & D2 & D3 & D4) & E & N & B); [lia|].
  rewrite E. cbn [bind]. eexists; split; [reflexivity|]. rewrite len_app.
  change (len [bcd_byte (second t); bcd_byte (minute t); bcd_byte (hour t); bcd_byte (day t); bcd_byte (month t)]) with 5.
  assert (len (nibbles out) = 2 * len out) as L.
  { clear. unfold nibbles. induction out as [|b l IH]; [reflexivity|]. cbn [flat_map app].
    rewrite !len_cons, IH. lia. }
  assert (3 <= len ds <= 4) as Lds.
  { pose proof (dec_value_range ds D1) as R. rewrite D2 in R. split.
    - destruct (Z_lt_ge_dec (len ds) 3) as [Hlt|]; [exfalso|lia].
      assert (10 ^ len ds <= 10 ^ 2) by (apply Z.pow_le_mono_r; lia). change (10 ^ 2) with 100 in *. lia.
    - destruct ds as [|d ds]; [contradiction|]. cbn [hd] in D4. rewrite len_cons in *.
      destruct (Z.eq_dec d 0) as [->|].
      + injection (D4 eq_refl) as ->. rewrite len_nil. lia.
      + rewrite dec_value_cons in D2. apply Forall_cons_iff in D1 as [Dd D1].
        pose proof (dec_value_range ds D1). unfold is_digit in Dd.
        destruct (Z_lt_ge_dec 3 (len ds)) as [Hlt|]; [exfalso|lia].
        assert (10 ^ 4 <= 10 ^ len ds) by (apply Z.pow_le_mono_r; lia). change (10 ^ 4) with 10000 in *. nia. }
  rewrite N in L. unfold pad_even in L. destruct (Nat.odd (length ds)) eqn:O.
  - rewrite len_cons in L. apply Nat.odd_spec in O as [k O]. unfold len in *. lia.
  - assert (Nat.even (length ds) = true) as E' by (rewrite <- Nat.negb_odd, O; reflexivity).
    apply Nat.even_spec in E' as [k E']. unfold len in *. lia.
Qed.

Lemma land_63 x : Z.land x 63 = x mod 64.
Proof. change 63 with (Z.ones 6). rewrite Z.land_ones by lia. reflexivity. Qed.
Lemma land_bit x i : 0 <= i -> negb (Z.land x (2 ^ i) =? 0) = Z.testbit x i.
Proof.
  intros Hi. destruct (Z.testbit x i) eqn:E.
  - apply negb_true_iff, Z.eqb_neq. intros H. apply (f_equal (fun z => Z.testbit z i)) in H.
    rewrite Z.land_spec, Z.pow2_bits_true, E, Z.bits_0 in H by lia. discriminate.
  - apply negb_false_iff, Z.eqb_eq. apply Z.bits_inj'. intros j Hj. rewrite Z.land_spec, Z.bits_0.
    destruct (Z.eq_dec j i) as [->|].
    + rewrite E. reflexivity.
    + rewrite Z.pow2_bits_false by lia. apply andb_false_r.
Qed.

(** decoding, stated with single-byte BCD values *)
Definition decoded (s mi h d mo y : Z) : option datetime :=
  match bcd_value s, bcd_value mi, bcd_value (h mod 64), bcd_value d, bcd_value mo, bcd_value y with
  | Some s, Some mi, Some h, Some d, Some mo, Some y => Some (mk_datetime (2000 + y) mo d h mi s)
  | _, _, _, _, _, _ => None
  end.
Lemma bytes_to_datetime_6 s mi h d mo y : is_bytes [s; mi; h; d; mo; y] ->
  bytes_to_datetime [s; mi; h; d; mo; y] =
  match decoded s mi h d mo y with
  | Some t => if valid_datetime t then Ok (t, Z.testbit h 7, Z.testbit h 6) else Err ValueError
  | None => Err ValueError
  end.
Proof.
  intros H. repeat match goal with H : is_bytes (_ :: _) |- _ => apply is_bytes_cons in H as [? ?] end.
  unfold bytes_to_datetime. cbn [negb len length Z.eqb Pos.eqb].
  change (slice 0 1 [s; mi; h; d; mo; y]) with [s].
  change (slice 1 2 [s; mi; h; d; mo; y]) with [mi].
  change (slice 3 4 [s; mi; h; d; mo; y]) with [d].
  change (slice 4 5 [s; mi; h; d; mo; y]) with [mo].
  change (slice_from 5 [s; mi; h; d; mo; y]) with [y].
  change (getitem 2 [s; mi; h; d; mo; y]) with (@Ok Z h).
  change (len [s; mi; h; d; mo; y]) with 6. cbn [Z.eqb Pos.eqb negb].
  unfold decoded.
  rewrite (from_bcd_1 s) by assumption. destruct (bcd_value s) as [s'|]; [|reflexivity]. cbn [bind].
  rewrite (from_bcd_1 mi) by assumption. destruct (bcd_value mi) as [mi'|]; [|reflexivity]. cbn [bind].
  rewrite land_63. assert (0 <= h mod 64 < 64) as Hh by (apply Z.mod_pos_bound; lia).
  rewrite to_le_ok by (change (256 ^ Z.of_nat 1) with 256; lia). cbn [bind le_bytes].
  rewrite (Z.mod_small (h mod 64) 256) by lia.
  rewrite (from_bcd_1 (h mod 64)) by (unfold is_byte; lia).
  destruct (bcd_value (h mod 64)) as [h'|]; [|reflexivity]. cbn [bind].
  rewrite (from_bcd_1 d) by assumption. destruct (bcd_value d) as [d'|]; [|reflexivity]. cbn [bind].
  rewrite (from_bcd_1 mo) by assumption. destruct (bcd_value mo) as [mo'|]; [|reflexivity]. cbn [bind].
  rewrite (from_bcd_1 y) by assumption. destruct (bcd_value y) as [y'|]; [|reflexivity]. cbn [bind].
  unfold make_datetime. replace (y' + 2000) with (2000 + y') by lia.
  change 128 with (2 ^ 7). change 64 with (2 ^ 6). rewrite !land_bit by lia.
  destruct (valid_datetime _); reflexivity.
Qed.
Lemma bytes_to_datetime_other l : len l <> 6 -> bytes_to_datetime l = Err ValueError.
Proof. intros H. unfold bytes_to_datetime. destruct (Z.eqb_spec (len l) 6); [contradiction|reflexivity]. Qed.
Lemma len6 (l : bytes) : len l = 6 -> exists s mi h d mo y, l = [s; mi; h; d; mo; y].
Proof.
  intros H. destruct l as [|a [|b [|c [|d [|e [|f [|g l]]]]]]]; try (exfalso; lenlia).
  do 6 eexists. reflexivity.
Qed.
Lemma bytes_to_datetime_err l e : is_bytes l -> bytes_to_datetime l = Err e -> e = ValueError.
Proof.
  intros H E. destruct (Z.eq_dec (len l) 6) as [L|L].
  - apply len6 in L as (s & mi & h & d & mo & y & ->). rewrite bytes_to_datetime_6 in E by exact H.
    destruct (decoded s mi h d mo y); [destruct (valid_datetime _)|]; congruence.
  - rewrite bytes_to_datetime_other in E by exact L. congruence.
Qed.
Lemma bytes_to_datetime_ok l t dst sup : is_bytes l ->
  (bytes_to_datetime l = Ok (t, dst, sup) <->
   exists s mi h d mo y, l = [s; mi; h; d; mo; y] /\ decoded s mi h d mo y = Some t /\
     calendar_time t /\ dst = Z.testbit h 7 /\ sup = Z.testbit h 6).
Proof.
  intros H. split.
  - intros E. destruct (Z.eq_dec (len l) 6) as [L|L].
    + apply len6 in L as (s & mi & h & d & mo & y & ->). exists s, mi, h, d, mo, y.
      rewrite bytes_to_datetime_6 in E by exact H.
      destruct (decoded s mi h d mo y) as [t'|]; [|discriminate].
      destruct (valid_datetime t') eqn:V; [|discriminate]. injection E as <- <- <-.
      apply valid_datetime_spec in V. auto.
    + rewrite bytes_to_datetime_other in E by exact L. discriminate.
  - intros (s & mi & h & d & mo & y & -> & E & V & -> & ->).
    rewrite bytes_to_datetime_6 by exact H. rewrite E. apply valid_datetime_spec in V. rewrite V. reflexivity.
Qed.
Lemma datetime_roundtrip t : calendar_time t -> 2000 <= year t <= 2099 ->
  exists b, datetime_to_bytes t = Ok b /\ len b = 6 /\ is_bytes b /\ bytes_to_datetime b = Ok (t, false, false).
Proof.
  intros H Hy. rewrite datetime_to_bytes_century by assumption. eexists; split; [reflexivity|].
  split; [reflexivity|].
  pose proof (calendar_bounds t H) as (H1 & H2 & H3 & H4 & H5 & H6).
  assert (B : is_bytes [bcd_byte (second t); bcd_byte (minute t); bcd_byte (hour t);
                        bcd_byte (day t); bcd_byte (month t); bcd_byte (year t - 2000)])
    by (repeat constructor; apply bcd_byte_range; lia).
  split; [exact B|].
  apply bytes_to_datetime_ok; [exact B|]. do 6 eexists. split; [reflexivity|].
  assert (Hh : 0 <= bcd_byte (hour t) < 64) by (unfold bcd_byte; lia).
  split.
  - unfold decoded. rewrite (Z.mod_small (bcd_byte (hour t))) by lia. rewrite !bcd_value_byte by lia.
    destruct t; cbn in *. do 2 f_equal. lia.
  - split; [exact H|]. split; symmetry; apply (testbit_high 6); try lia; change (2 ^ 6) with 64; lia.
Qed.
Lemma decoded_century s mi h d mo y t : is_bytes [s; mi; h; d; mo; y] ->
  decoded s mi h d mo y = Some t -> calendar_time t ->
  2000 <= year t <= 2099 /\ datetime_to_bytes t = Ok [s; mi; h mod 64; d; mo; y].
Proof.
  intros B E V. repeat match goal with H : is_bytes (_ :: _) |- _ => apply is_bytes_cons in H as [? ?] end.
  assert (is_byte (h mod 64)) by (unfold is_byte; pose proof (Z.mod_pos_bound h 64); lia).
  unfold decoded in E.
  destruct (bcd_value s) eqn:E1; [|discriminate]. destruct (bcd_value mi) eqn:E2; [|discriminate].
  destruct (bcd_value (h mod 64)) eqn:E3; [|discriminate]. destruct (bcd_value d) eqn:E4; [|discriminate].
  destruct (bcd_value mo) eqn:E5; [|discriminate]. destruct (bcd_value y) eqn:E6; [|discriminate].
  injection E as <-. cbn [year] in *.
  apply bcd_value_range in E1 as [? <-]; [|assumption]. apply bcd_value_range in E2 as [? <-]; [|assumption].
  apply bcd_value_range in E3 as [? <-]; [|assumption]. apply bcd_value_range in E4 as [? <-]; [|assumption].
  apply bcd_value_range in E5 as [? <-]; [|assumption]. apply bcd_value_range in E6 as [? <-]; [|assumption].
  split; [lia|]. rewrite datetime_to_bytes_century by (try assumption; cbn [year]; lia).
  cbn [year month day hour minute second]. do 7 f_equal. f_equal. lia.
Qed.

(** ** passwords *)
Lemma possible_chars_alnum : Forall alphanumeric possible_chars.
Proof.
  apply Forall_forall. intros c Hc. unfold alphanumeric.
  assert (forallb (fun c => ((48 <=? c) && (c <=? 57)) || ((65 <=? c) && (c <=? 90)) || ((97 <=? c) && (c <=? 122)))
    possible_chars = true) as H by reflexivity.
  eapply forallb_forall in H; [|exact Hc]. lia.
Qed.
Lemma random_choice_alnum rnd i : alphanumeric (random_choice rnd i).
Proof.
  unfold random_choice. apply (proj1 (Forall_forall _ _) possible_chars_alnum). apply nth_In.
  pose proof (Z.mod_pos_bound (rnd i) (len possible_chars) eq_refl).
  unfold len in *. lia.
Qed.
Lemma pad_password_spec rnd pw : exists c1 c2, alphanumeric c1 /\ alphanumeric c2 /\
  pad_password rnd pw = pw ++ [33; 3; c1; c2].
Proof. exists (random_choice rnd 0), (random_choice rnd 1). split; [apply random_choice_alnum|]. split; [apply random_choice_alnum|reflexivity]. Qed.

Lemma padding_iff c : padding_character c <-> In c possible_chars.
Proof.
  unfold padding_character, alphanumeric. split.
  - intros (A & N1 & N2). assert (forallb (fun k => let c := Z.of_nat k in
      implb ((((48 <=? c) && (c <=? 57)) || ((65 <=? c) && (c <=? 90)) || ((97 <=? c) && (c <=? 122))) && negb (c =? 87) && negb (c =? 119)) (existsb (Z.eqb c) possible_chars))
      (seq 0 123) = true) as H by (vm_compute; reflexivity).
    rewrite forallb_forall in H. specialize (H (Z.to_nat c)). rewrite in_seq in H. specialize (H ltac:(lia)). cbv zeta in H. rewrite Z2Nat.id in H by lia.
    replace ((((48 <=? c) && (c <=? 57)) || ((65 <=? c) && (c <=? 90)) || ((97 <=? c) && (c <=? 122))) && negb (c =? 87) && negb (c =? 119)) with true in H by lia.
    cbn [implb] in H. apply existsb_exists in H as (x & I & E). apply Z.eqb_eq in E as ->. exact I.
  - intros I. pose proof (proj1 (Forall_forall _ _) possible_chars_alnum c I) as A. split; [exact A|].
    assert (forallb (fun c => negb (c =? 87) && negb (c =? 119)) possible_chars = true) as H by (vm_compute; reflexivity).
    rewrite forallb_forall in H. specialize (H c I). lia.
Qed.
Lemma padding_index c : padding_character c -> exists i, 0 <= i < len possible_chars /\ nth (Z.to_nat i) possible_chars 0 = c.
Proof.
  intros P. apply padding_iff in P. apply (In_nth _ _ 0) in P as (n & L & E). exists (Z.of_nat n). rewrite Nat2Z.id. unfold len. split; [lia|exact E].
Qed.
Lemma paddings pw out : (exists rnd, pad_password rnd pw = out) <-> exists c1 c2, padding_character c1 /\ padding_character c2 /\ out = pw ++ [33; 3; c1; c2].
Proof.
  split.
  - intros (rnd & <-). exists (random_choice rnd 0), (random_choice rnd 1).
    assert (forall i, padding_character (random_choice rnd i)) as P.
    { intros i. apply padding_iff. unfold random_choice. apply nth_In. pose proof (Z.mod_pos_bound (rnd i) (len possible_chars) eq_refl). unfold len in *. lia. }
    split; [apply P|]. split; [apply P|reflexivity].
  - intros (c1 & c2 & P1 & P2 & ->). apply padding_index in P1 as (i & Hi & <-). apply padding_index in P2 as (j & Hj & <-).
    exists (fun k => match k with O => i | _ => j end). unfold pad_password, random_choice. rewrite !Z.mod_small by lia. reflexivity.
Qed.

(** ** text *)
Lemma is_space_spec b : is_space b = true <-> white b.
Proof. unfold is_space, white. lia. Qed.
Lemma lstrip_spec l : exists a, l = a ++ lstrip l /\ Forall white a /\
  (lstrip l = [] \/ exists x r, lstrip l = x :: r /\ ~ white x).
Proof.
  induction l as [|b l (a & E & F & G)].
  - exists []. repeat split; auto.
  - cbn [lstrip]. destruct (is_space b) eqn:S.
    + exists (b :: a). cbn [app]. rewrite E at 1. split; [reflexivity|]. split; [|exact G].
      constructor; [apply is_space_spec; exact S|exact F].
    + exists []. split; [reflexivity|]. split; [constructor|]. right. exists b, l. split; [reflexivity|].
      rewrite <- is_space_spec, S. discriminate.
Qed.
Lemma rstrip_spec l : exists b, l = rstrip l ++ b /\ Forall white b /\
  (rstrip l = [] \/ exists x r, rstrip l = r ++ [x] /\ ~ white x).
Proof.
  unfold rstrip. destruct (lstrip_spec (rev l)) as (a & E & F & G). exists (rev a).
  split; [|split].
  - apply (f_equal (@rev Z)) in E. rewrite rev_involutive, rev_app_distr in E. exact E.
  - apply Forall_rev; exact F.
  - destruct G as [->|(x & r & -> & Hx)]; [left; reflexivity|right]. exists x, (rev r).
    split; [reflexivity|exact Hx].
Qed.
Lemma strip_trimmed l : trimmed l (rstrip (lstrip l)).
Proof.
  destruct (lstrip_spec l) as (a & E & F & G). destruct (rstrip_spec (lstrip l)) as (b & E' & F' & G').
  exists a, b. rewrite <- E'. split; [exact E|]. split; [exact F|]. split; [exact F'|].
  destruct (rstrip (lstrip l)) as [|x r] eqn:R; [left; reflexivity|right].
  split.
  - destruct G as [G|(y & s & G & Hy)].
    + rewrite G in R. discriminate.
    + exists x, r. split; [reflexivity|]. rewrite G in E'. injection E' as -> _. exact Hy.
  - destruct G' as [G'|G']; [discriminate|]. exact G'.
Qed.
Lemma trimmed_unique l a b : trimmed l a -> trimmed l b -> a = b.
Proof.
  assert (forall l p s t, l = p ++ s ++ t -> Forall white p -> Forall white t ->
    (s = [] \/ (exists x r, s = x :: r /\ ~ white x) /\ (exists x r, s = r ++ [x] /\ ~ white x)) ->
    s = rstrip (lstrip l)) as G.
  { clear. intros l p s t -> Hp Ht Hs.
    assert (forall p m, Forall white p -> lstrip (p ++ m) = lstrip m) as G1.
    { clear. intros p m H. induction H as [|x p Hx _ IH]; [reflexivity|]. cbn [app lstrip].
      apply is_space_spec in Hx. rewrite Hx. exact IH. }
    rewrite G1 by exact Hp. destruct Hs as [->|[(x & r & -> & Hx) (y & q & E & Hy)]].
    - cbn [app]. replace t with (t ++ []) by apply app_nil_r. rewrite G1 by exact Ht. reflexivity.
    - cbn [app lstrip]. destruct (is_space x) eqn:S; [apply is_space_spec in S; contradiction|].
      change (x :: r ++ t) with ((x :: r) ++ t). rewrite E. unfold rstrip.
      rewrite <- app_assoc, !rev_app_distr. cbn [rev app]. rewrite <- app_assoc.
      rewrite G1 by (apply Forall_rev; exact Ht). cbn [app lstrip].
      destruct (is_space y) eqn:S'; [apply is_space_spec in S'; contradiction|].
      cbn [rev]. rewrite rev_involutive. reflexivity. }
  intros (p & t & E1 & P1 & T1 & H1) (p' & t' & E2 & P2 & T2 & H2).
  rewrite (G l p a t), (G l p' b t'); auto.
Qed.
Lemma app_cons_last {A} (b : A) p s p2 s2 :
  p ++ b :: s = p2 ++ b :: s2 -> ~ In b s -> ~ In b s2 -> p = p2 /\ s = s2.
Proof.
  intros E H1 H2. assert (length s = length s2) as L.
  { destruct (Nat.lt_trichotomy (length s) (length s2)) as [L|[L|L]]; [|exact L|]; exfalso.
    - apply H2. assert (s2 = skipn (S (length p2)) (p2 ++ b :: s2)) as -> by (rewrite skipn_app, skipn_all2, Nat.sub_succ_l, Nat.sub_diag by lia; reflexivity).
      rewrite <- E. pose proof (f_equal (@length A) E) as LE. rewrite !app_length in LE. cbn [length] in LE.
      rewrite skipn_app. apply in_or_app. right.
      replace (S (length p2) - length p)%nat with O by lia. left; reflexivity.
    - apply H1. assert (s = skipn (S (length p)) (p ++ b :: s)) as -> by (rewrite skipn_app, skipn_all2, Nat.sub_succ_l, Nat.sub_diag by lia; reflexivity).
      rewrite E. pose proof (f_equal (@length A) E) as LE. rewrite !app_length in LE. cbn [length] in LE.
      rewrite skipn_app. apply in_or_app. right.
      replace (S (length p) - length p2)%nat with O by lia. left; reflexivity. }
  apply app_inj_len_r in E as [-> E]; [|cbn [length]; lia]. injection E as ->. auto.
Qed.
Lemma rindex_of_spec b l :
  match rindex_of b l with
  | Some i => exists p s, l = p ++ b :: s /\ len p = i /\ ~ In b s
  | None => ~ In b l
  end.
Proof.
  induction l as [|x l IH]; cbn [rindex_of]; [auto|].
  destruct (rindex_of b l).
  - destruct IH as (p & s & -> & Hp & Hs). exists (x :: p), s. rewrite len_cons.
    split; [reflexivity|]. split; [lia|exact Hs].
  - destruct (Z.eqb_spec x b) as [->|].
    + exists [], l. split; [reflexivity|]. split; [reflexivity|exact IH].
    + intros [|]; auto.
Qed.
(** text up to the last NUL, NULs shown as spaces *)
Definition shown (l : bytes) : str := map (fun b => if b =? 0 then 32 else b) l.
Lemma replace1_shown l : replace1 0 [32] l = shown l.
Proof. unfold replace1, shown. induction l as [|b l IH]; [reflexivity|]. cbn [flat_map map]. rewrite IH. destruct (b =? 0); reflexivity. Qed.
Lemma pretty_text_spec l :
  (forall p s, l = p ++ 0 :: s -> ~ In 0 s -> trimmed (shown p) (pretty_text l)) /\
  (~ In 0 l -> trimmed l (pretty_text l)).
Proof.
  split.
  - intros p s E Hs. unfold pretty_text. pose proof (rindex_of_spec 0 l) as H.
    destruct (rindex_of 0 l).
    + destruct H as (p' & s' & E' & Hp & Hs'). rewrite E in E'.
      assert (p = p' /\ s = s') as [<- <-].
      { apply app_cons_last in E' as [? ?]; auto. }
      rewrite E, slice_to_app by (symmetry; exact Hp). rewrite replace1_shown. apply strip_trimmed.
    + exfalso. apply H. rewrite E. apply in_elt.
  - intros H. unfold pretty_text. pose proof (rindex_of_spec 0 l) as H'.
    destruct (rindex_of 0 l).
    + destruct H' as (p & s & -> & _). exfalso. apply H. apply in_elt.
    + rewrite replace1_shown. replace (shown l) with l; [apply strip_trimmed|].
      clear H'. unfold shown. induction l as [|b l IH]; [reflexivity|]. cbn [map].
      destruct (Z.eqb_spec b 0); [exfalso; apply H; left; auto|]. f_equal. apply IH.
      intros Hi. apply H. right; exact Hi.
Qed.
Lemma pretty_text_sub l : exists a b, pretty_text l = b /\ (exists c, shown l = a ++ b ++ c).
Proof.
  unfold pretty_text.
  assert (exists p s, l = p ++ s /\
    (match rindex_of 0 l with Some i => slice_to i l | None => l end) = p) as (p & s & E & Ep).
  { destruct (rindex_of 0 l); [|exists l, []; rewrite app_nil_r; auto].
    unfold slice_to. exists (firstn (Z.to_nat (clamp (len l) z)) l), (skipn (Z.to_nat (clamp (len l) z)) l).
    rewrite firstn_skipn. auto. }
  rewrite Ep, replace1_shown. destruct (strip_trimmed (shown p)) as (a & b & E1 & _).
  exists a, (rstrip (lstrip (shown p))). split; [reflexivity|]. exists (b ++ shown s).
  rewrite E. unfold shown at 1. rewrite map_app. fold (shown p) (shown s). rewrite E1 at 1.
  rewrite <- !app_assoc. reflexivity.
Qed.
Lemma pretty_text_len l : len (pretty_text l) <= len l.
Proof.
  destruct (pretty_text_sub l) as (a & b & -> & c & E). apply (f_equal len) in E.
  unfold shown in E. rewrite len_map, !len_app in E. pose proof (len_nonneg a). pose proof (len_nonneg c). lia.
Qed.
Lemma pretty_text_no_nul l : ~ In 0 (pretty_text l).
Proof.
  destruct (pretty_text_sub l) as (a & b & -> & c & E). intros H.
  assert (In 0 (shown l)) as H' by (rewrite E; apply in_or_app; right; apply in_or_app; left; exact H).
  unfold shown in H'. apply in_map_iff in H' as (x & Hx & _). destruct (Z.eqb_spec x 0); lia.
Qed.
Lemma pretty_text_bytes l : is_bytes l -> is_bytes (pretty_text l).
Proof.
  intros H. destruct (pretty_text_sub l) as (a & b & -> & c & E).
  assert (is_bytes (shown l)) as H'.
  { clear E. unfold shown. induction H as [|x l Hx _ IH]; [constructor|]. cbn [map]. constructor; [|exact IH].
    destruct (x =? 0); [unfold is_byte; lia|exact Hx]. }
  rewrite E in H'. apply is_bytes_app in H' as [_ H']. apply is_bytes_app in H' as [H' _]. exact H'.
Qed.
(** a clean text followed by NULs is returned unchanged *)
Lemma pretty_text_clean t n : t <> [] -> Forall (fun b => b <> 0) t -> trimmed t t ->
  pretty_text (t ++ repeat 0 n) = t.
Proof.
  intros Hne Hz Ht.
  assert (Hin : ~ In 0 t) by (intros H; apply (proj1 (Forall_forall _ _) Hz) in H; auto).
  destruct n as [|n].
  - cbn [repeat]. rewrite app_nil_r. destruct (pretty_text_spec t) as [_ H]. specialize (H Hin).
    apply (trimmed_unique t); assumption.
  - assert (t ++ repeat 0 (S n) = (t ++ repeat 0 n) ++ 0 :: []) as E.
    { rewrite <- app_assoc. f_equal. cbn [repeat]. apply repeat_cons. }
    destruct (pretty_text_spec (t ++ repeat 0 (S n))) as [H _].
    specialize (H _ _ E (fun H => H)).
    apply (trimmed_unique _ _ t) in H; [auto|].
    unfold shown. rewrite map_app.
    assert (map (fun b => if b =? 0 then 32 else b) t = t) as ->.
    { clear -Hz. induction Hz as [|x l Hx _ IH]; [reflexivity|]. cbn [map]. rewrite IH.
      destruct (Z.eqb_spec x 0); [contradiction|reflexivity]. }
    assert (map (fun b => if b =? 0 then 32 else b) (repeat 0 n) = repeat 32 n) as ->
      by (clear; induction n as [|n IH]; [reflexivity|]; cbn [repeat map Z.eqb]; rewrite IH; reflexivity).
    destruct Ht as (a & b & E' & A & B & [->|[T1 T2]]); [contradiction|].
    exists [], (repeat 32 n). split; [reflexivity|]. split; [constructor|]. split.
    + apply Forall_forall. intros x Hx. apply repeat_spec in Hx. subst. left; reflexivity.
    + right; split; assumption.
Qed.

(** ** IP addresses *)
Lemma sep_split {A} (x : A) a b c d : ~ In x a -> ~ In x c -> a ++ x :: b = c ++ x :: d -> a = c /\ b = d.
Proof.
  revert c; induction a as [|y a IH]; intros [|z c] Ha Hc E; cbn [app] in E.
  - injection E as ->. auto.
  - injection E as -> _. exfalso. apply Hc. left; reflexivity.
  - injection E as -> _. exfalso. apply Ha. left; reflexivity.
  - injection E as -> E. apply IH in E as [-> ->]; auto; intros H; [apply Ha|apply Hc]; right; exact H.
Qed.
Lemma decimal_text_no_dot n s : decimal_text n s -> ~ In 46 s.
Proof. intros H Hi. apply decimal_text_digits in H. apply (proj1 (Forall_forall _ _) H) in Hi. lia. Qed.
Lemma parse_ip_4 a b c d : is_bytes [a; b; c; d] -> exists sa sb sc sd,
  decimal_text a sa /\ decimal_text b sb /\ decimal_text c sc /\ decimal_text d sd /\
  parse_ip_address [a; b; c; d] = Ok (sa ++ [46] ++ sb ++ [46] ++ sc ++ [46] ++ sd).
Proof.
  intros H. repeat match goal with H : is_bytes (_ :: _) |- _ => apply is_bytes_cons in H as [? ?] end.
  unfold is_byte in *. exists (str_int a), (str_int b), (str_int c), (str_int d).
  repeat (split; [apply str_int_spec; lia|]). unfold parse_ip_address. cbn. reflexivity.
Qed.
Lemma parse_ip_other l : len l <> 4 -> parse_ip_address l = Err ValueError.
Proof. intros H. unfold parse_ip_address. destruct (Z.eqb_spec (len l) 4); [contradiction|reflexivity]. Qed.
Lemma parse_ip_ok_len l s : parse_ip_address l = Ok s -> exists a b c d, l = [a; b; c; d].
Proof.
  destruct (Z.eq_dec (len l) 4) as [L|L].
  - intros _. destruct l as [|a [|b [|c [|d [|e l]]]]]; try (exfalso; lenlia). do 4 eexists; reflexivity.
  - rewrite parse_ip_other by exact L. discriminate.
Qed.
Lemma parse_ip_inj l l' s : is_bytes l -> is_bytes l' ->
  parse_ip_address l = Ok s -> parse_ip_address l' = Ok s -> l = l'.
Proof.
  intros H H' E E'.
  destruct (parse_ip_ok_len _ _ E) as (a & b & c & d & ->).
  destruct (parse_ip_ok_len _ _ E') as (a' & b' & c' & d' & ->).
  destruct (parse_ip_4 a b c d H) as (sa & sb & sc & sd & Ha & Hb & Hc & Hd & R).
  destruct (parse_ip_4 a' b' c' d' H') as (sa' & sb' & sc' & sd' & Ha' & Hb' & Hc' & Hd' & R').
  rewrite R in E. rewrite R' in E'. injection E as <-. injection E' as E'. cbn [app] in E'.
  apply sep_split in E' as [-> E']; eauto using decimal_text_no_dot.
  apply sep_split in E' as [-> E']; eauto using decimal_text_no_dot.
  apply sep_split in E' as [-> ->]; eauto using decimal_text_no_dot.
  rewrite (decimal_text_inj a a' _ Ha Ha'), (decimal_text_inj b b' _ Hb Hb'),
    (decimal_text_inj c c' _ Hc Hc'), (decimal_text_inj d d' _ Hd Hd'). reflexivity.
Qed.
Lemma to_bcd_digits n : 0 <= n -> exists ds out,
  decimal_digits n ds /\ to_bdc n = Ok out /\ is_bytes out /\
  nibbles out = (if Nat.odd (length ds) then 0 :: ds else ds).
Proof. intros H. destruct (to_bdc_spec n H) as (ds & out & H1 & H2 & H3 & H4). exists ds, out. auto. Qed.
Lemma decoding_exact l t dst sup : is_bytes l ->
  (bytes_to_datetime l = Ok (t, dst, sup) <->
   exists s mi h d mo y vs vmi vh vd vmo vy,
     l = [s; mi; h; d; mo; y] /\
     bcd_value s = Some vs /\ bcd_value mi = Some vmi /\ bcd_value (h mod 64) = Some vh /\
     bcd_value d = Some vd /\ bcd_value mo = Some vmo /\ bcd_value y = Some vy /\
     t = mk_datetime (2000 + vy) vmo vd vh vmi vs /\ calendar_time t /\
     dst = Z.testbit h 7 /\ sup = Z.testbit h 6).
Proof.
  intros H. rewrite bytes_to_datetime_ok by exact H. split.
  - intros (s & mi & h & d & mo & y & -> & E & V & -> & ->). unfold decoded in E.
    destruct (bcd_value s) eqn:E1; [|discriminate]. destruct (bcd_value mi) eqn:E2; [|discriminate].
    destruct (bcd_value (h mod 64)) eqn:E3; [|discriminate]. destruct (bcd_value d) eqn:E4; [|discriminate].
    destruct (bcd_value mo) eqn:E5; [|discriminate]. destruct (bcd_value y) eqn:E6; [|discriminate].
    injection E as <-. exists s, mi, h, d, mo, y. do 6 eexists. repeat split; eauto; apply V.
  - intros (s & mi & h & d & mo & y & vs & vmi & vh & vd & vmo & vy & -> & E1 & E2 & E3 & E4 & E5 & E6 & -> & V & -> & ->).
    exists s, mi, h, d, mo, y. unfold decoded. rewrite E1, E2, E3, E4, E5, E6. auto.
Qed.
Lemma decoding_canonical l t dst sup : is_bytes l -> bytes_to_datetime l = Ok (t, dst, sup) ->
  calendar_time t /\ 2000 <= year t <= 2099 /\
  exists s mi h d mo y, l = [s; mi; h; d; mo; y] /\ datetime_to_bytes t = Ok [s; mi; h mod 64; d; mo; y].
Proof.
  intros H E. apply bytes_to_datetime_ok in E as (s & mi & h & d & mo & y & -> & E & V & _); [|exact H].
  destruct (decoded_century s mi h d mo y t H E V) as [Y B]. split; [exact V|]. split; [exact Y|].
  exists s, mi, h, d, mo, y. auto.
Qed.
Lemma pad_password_len rnd pw : len (pad_password rnd pw) = len pw + 4.
Proof. unfold pad_password. rewrite len_app. reflexivity. Qed.
Lemma pad_password_short rnd pw : len pw < 6 -> len (pad_password rnd pw) < 10.
Proof. rewrite pad_password_len. lia. Qed.
Lemma pretty_text_with_nul p s : ~ In 0 s ->
  trimmed (map (fun b => if b =? 0 then 32 else b) p) (pretty_text (p ++ 0 :: s)).
Proof. intros H. exact (proj1 (pretty_text_spec (p ++ 0 :: s)) p s eq_refl H). Qed.
