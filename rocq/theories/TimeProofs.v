(** 2000-01-01 plus a number of seconds is the time the calendar clock shows
    after that many ticks. *)
From Verif Require Import PyFacts SpecText SpecApplication TextProofs PyTime.
Open Scope Z_scope.

Definition day0 : Z := 730120.  (* ordinal of 2000-01-01 *)
Definition ndays : nat := 49711.  (* days touched by 2^32 seconds *)
(** [f start], [f (start+1)], ... ([n] times) all hold *)
Fixpoint all_from (n : nat) (start : Z) (f : Z -> bool) : bool :=
  match n with O => true | S n' => if f start then all_from n' (start + 1) f else false end.
Lemma all_from_spec n start f : all_from n start f = true -> forall k, start <= k < start + Z.of_nat n -> f k = true.
Proof.
  revert start; induction n as [|n IH]; intros start H k Hk; [lia|]. cbn [all_from] in H.
  destruct (f start) eqn:E; [|discriminate]. destruct (Z.eq_dec k start) as [->|]; [exact E|].
  apply (IH (start + 1)); [exact H|lia].
Qed.

Definition day_ok (k : Z) : bool :=
  let '(y, m, d) := ord2ymd k in
  let '(y', m', d') := ord2ymd (k + 1) in
  (1 <=? y) && (y <=? 9999) && (1 <=? m) && (m <=? 12) && (1 <=? d) && (d <=? days_in_month y m) &&
  (((d <? days_in_month y m) && (y' =? y) && (m' =? m) && (d' =? d + 1)) ||
   ((d =? days_in_month y m) && (m <? 12) && (y' =? y) && (m' =? m + 1) && (d' =? 1)) ||
   ((m =? 12) && (d =? 31) && (y' =? y + 1) && (m' =? 1) && (d' =? 1))).
Lemma days_ok : all_from ndays day0 day_ok = true.
Proof. vm_compute. reflexivity. Qed.
Lemma day_ok_at q : 0 <= q < 49711 -> day_ok (day0 + q) = true.
Proof.
  intros H. apply (all_from_spec ndays day0 day_ok days_ok). unfold ndays.
  assert (Z.of_nat 49711 = 49711) as -> by (vm_compute; reflexivity). lia.
Qed.
Global Opaque ndays.

Definition clock (q r : Z) : datetime :=
  let '(y, m, d) := ord2ymd (day0 + q) in
  mk_datetime y m d (r / 3600) (r mod 3600 / 60) (r mod 60).
Lemma add_seconds_clock n : 0 <= n < 2 ^ 32 ->
  add_seconds year_2000 n = Ok (clock (n / 86400) (n mod 86400)).
Proof.
  intros Hn. unfold add_seconds.
  change (ymd2ord (year year_2000) (month year_2000) (day year_2000)) with day0.
  cbn [hour minute second year_2000].
  replace (day0 * 86400 + 0 * 3600 + 0 * 60 + 0 + n) with (n + day0 * 86400) by lia.
  rewrite Z.div_add, Z.mod_add by lia. rewrite (Z.add_comm (n / 86400) day0).
  unfold day0 at 1 2. destruct (Z.ltb_spec 0 (730120 + n / 86400)); [|lia].
  destruct (Z.leb_spec (730120 + n / 86400) 3652059); [|lia]. cbn [andb].
  unfold clock. destruct (ord2ymd (day0 + n / 86400)) as [[y m] d]. reflexivity.
Qed.
Lemma clock_calendar q r : 0 <= q < 49711 -> 0 <= r < 86400 -> calendar_time (clock q r).
Proof.
  intros Hq Hr. pose proof (day_ok_at q Hq) as H. unfold day_ok in H. unfold clock.
  destruct (ord2ymd (day0 + q)) as [[y m] d]. destruct (ord2ymd (day0 + q + 1)) as [[y' m'] d'].
  unfold calendar_time. cbn [year month day hour minute second].
  split; [lia|]. split; [|lia]. exists (days_in_month y m). split; [apply month_days_spec; lia|lia].
Qed.
Lemma clock_tick_day q r : 0 <= r < 86399 -> next_second (clock q r) (clock q (r + 1)).
Proof.
  intros Hr. unfold clock. destruct (ord2ymd (day0 + q)) as [[y m] d].
  destruct (Z.eq_dec (r mod 60) 59) as [Es|Es].
  - destruct (Z.eq_dec (r mod 3600 / 60) 59) as [Em|Em].
    + replace ((r + 1) / 3600) with (r / 3600 + 1) by lia.
      replace ((r + 1) mod 3600 / 60) with 0 by lia. replace ((r + 1) mod 60) with 0 by lia.
      rewrite Es, Em. apply tick_hour. lia.
    + replace ((r + 1) / 3600) with (r / 3600) by lia.
      replace ((r + 1) mod 3600 / 60) with (r mod 3600 / 60 + 1) by lia. replace ((r + 1) mod 60) with 0 by lia.
      rewrite Es. apply tick_minute. lia.
  - replace ((r + 1) / 3600) with (r / 3600) by lia.
    replace ((r + 1) mod 3600 / 60) with (r mod 3600 / 60) by lia.
    replace ((r + 1) mod 60) with (r mod 60 + 1) by lia. apply tick_second. lia.
Qed.
Lemma clock_tick_midnight q : 0 <= q < 49711 -> next_second (clock q 86399) (clock (q + 1) 0).
Proof.
  intros Hq. pose proof (day_ok_at q Hq) as H. unfold day_ok in H. unfold clock.
  replace (day0 + (q + 1)) with (day0 + q + 1) by lia.
  destruct (ord2ymd (day0 + q)) as [[y m] d]. destruct (ord2ymd (day0 + q + 1)) as [[y' m'] d'].
  change (86399 / 3600) with 23. change (86399 mod 3600 / 60) with 59. change (86399 mod 60) with 59.
  change (0 / 3600) with 0. change (0 mod 3600 / 60) with 0. change (0 mod 60) with 0.
  rewrite andb_true_iff, !orb_true_iff in H. destruct H as [V [[C|C]|C]].
  - assert (y' = y /\ m' = m /\ d' = d + 1) as (-> & -> & ->) by lia.
    apply (tick_day y m d (days_in_month y m)); [apply month_days_spec; lia|lia].
  - assert (y' = y /\ m' = m + 1 /\ d' = 1 /\ d = days_in_month y m) as (-> & -> & -> & Ed) by lia.
    apply tick_month; [apply month_days_spec; lia|lia].
  - assert (y' = y + 1 /\ m' = 1 /\ d' = 1 /\ m = 12 /\ d = 31) as (-> & -> & -> & -> & ->) by lia.
    apply tick_year.
Qed.
Lemma clock_later n : 0 <= n -> n < 2 ^ 32 -> seconds_later n year_2000 (clock (n / 86400) (n mod 86400)).
Proof.
  intros H. pattern n. apply natlike_ind; [| |exact H]; clear n H.
  - intros _. change (clock (0 / 86400) (0 mod 86400)) with year_2000. constructor.
  - intros n Hn IH Hlt. unfold Z.succ in *. eapply later_S; [apply IH; lia|].
    destruct (Z.eq_dec (n mod 86400) 86399) as [E|E].
    + replace ((n + 1) / 86400) with (n / 86400 + 1) by lia. replace ((n + 1) mod 86400) with 0 by lia.
      rewrite E. apply clock_tick_midnight. lia.
    + replace ((n + 1) / 86400) with (n / 86400) by lia. replace ((n + 1) mod 86400) with (n mod 86400 + 1) by lia.
      apply clock_tick_day. lia.
Qed.
Lemma add_seconds_spec n : 0 <= n < 2 ^ 32 ->
  exists t, add_seconds year_2000 n = Ok t /\ seconds_later n year_2000 t /\ calendar_time t.
Proof.
  intros H. eexists. split; [apply add_seconds_clock, H|]. split; [apply clock_later; lia|].
  apply clock_calendar; lia.
Qed.

Lemma next_second_det t a b : calendar_time t -> next_second t a -> next_second t b -> a = b.
Proof.
  intros C Ha Hb. inversion Ha; subst; inversion Hb; subst; try reflexivity; try lia;
    repeat match goal with H : month_days _ _ _ |- _ => apply month_days_spec in H as [? H] end; try lia; subst.
  all: try (change (days_in_month y 12) with 31 in *; lia).
Qed.
Lemma seconds_later_clock n b t : seconds_later n b t -> b = year_2000 -> 0 <= n /\ (n < 2 ^ 32 -> t = clock (n / 86400) (n mod 86400)).
Proof.
  induction 1 as [t|n t t' t'' H IH Ht]; intros ->.
  - split; [lia|]. intros _. reflexivity.
  - destruct (IH eq_refl) as [Hn E]. split; [lia|]. intros Hlt. specialize (E ltac:(lia)). subst t'.
    apply (next_second_det (clock (n / 86400) (n mod 86400))); [apply clock_calendar; lia|exact Ht|].
    destruct (Z.eq_dec (n mod 86400) 86399) as [E|E].
    + replace ((n + 1) / 86400) with (n / 86400 + 1) by lia. replace ((n + 1) mod 86400) with 0 by lia.
      rewrite E. apply clock_tick_midnight. lia.
    + replace ((n + 1) / 86400) with (n / 86400) by lia. replace ((n + 1) mod 86400) with (n mod 86400 + 1) by lia.
      apply clock_tick_day. lia.
Qed.
Lemma seconds_later_unique n a b : n < 2 ^ 32 -> seconds_later n year_2000 a -> seconds_later n year_2000 b -> a = b.
Proof.
  intros Hn Ha Hb. apply seconds_later_clock in Ha as [_ Ha]; [|reflexivity]. apply seconds_later_clock in Hb as [_ Hb]; [|reflexivity].
  rewrite Ha, Hb by exact Hn. reflexivity.
Qed.
