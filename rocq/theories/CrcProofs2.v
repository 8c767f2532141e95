(** The CRC detects odd numbers of changed bits, and two changed bits in messages up to
    4095 bytes. *)
From Verif Require Import PyFacts BitFacts Utils SpecUtils UtilsProofs CrcProofs SpecCrc.
Open Scope Z_scope.

Fixpoint ones (l : list bool) : nat := match l with [] => 0%nat | b :: l' => ((if b then 1 else 0) + ones l')%nat end.
Lemma flips_ones a b : length a = length b -> flips a b = ones (zip_xor a b).
Proof.
  revert b; induction a as [|x a IH]; intros [|y b] H; try discriminate; [reflexivity|]. cbn. rewrite IH by (injection H; auto). destruct x, y; reflexivity.
Qed.
Lemma same_crc a b : is_bytes a -> is_bytes b -> length a = length b -> calculate_crc a = calculate_crc b ->
  fold_left bit_step (zip_xor (bits_of a) (bits_of b)) 0 = 0.
Proof.
  intros Ha Hb Hl H. rewrite !crc_closed in H by assumption. apply swap16_inj in H; [|apply crc16_modbus_16; assumption..].
  unfold crc16_modbus in H. rewrite !crc_bits in H by assumption. apply lxor_eq_0 in H. rewrite <- fold_bit_lxor in H by (rewrite !bits_of_length, Hl; reflexivity).
  rewrite Z.lxor_nilpotent in H. exact H.
Qed.

(** ** parity of the register *)
Definition parity (x : Z) : bool := fold_right xorb false (map (fun i => Z.testbit x (Z.of_nat i)) (seq 0 16)).
Lemma parity_lxor x y : parity (Z.lxor x y) = xorb (parity x) (parity y).
Proof.
  unfold parity. generalize (seq 0 16). induction l as [|i l IH]; [reflexivity|]. cbn [map fold_right]. rewrite Z.lxor_spec, IH.
  destruct (Z.testbit x (Z.of_nat i)), (Z.testbit y (Z.of_nat i)), (fold_right xorb false (map (fun i => Z.testbit x (Z.of_nat i)) l)), (fold_right xorb false (map (fun i => Z.testbit y (Z.of_nat i)) l)); reflexivity.
Qed.
Fixpoint all_from (f : Z -> bool) (n : nat) (x : Z) : bool := match n with O => true | S n' => f x && all_from f n' (x + 1) end.
Lemma all_from_ok f n : forall x y, all_from f n x = true -> x <= y < x + Z.of_nat n -> f y = true.
Proof.
  induction n as [|n IH]; intros x y A H; [lia|]. cbn [all_from] in A. apply andb_prop in A as [A1 A2]. destruct (Z.eq_dec y x) as [->|]; [exact A1|]. apply (IH (x + 1)); [exact A2|lia].
Qed.
Lemma parity_sweep : all_from (fun x => Bool.eqb (parity (crc16_bit x)) (parity x)) (Z.to_nat 65536) 0 = true.
Proof. vm_compute. reflexivity. Qed.
Lemma parity_bit x : is16 x -> parity (crc16_bit x) = parity x.
Proof. intros H. apply Bool.eqb_prop. apply (all_from_ok _ _ 0 x parity_sweep). rewrite Z2Nat.id by lia. unfold is16 in H. lia. Qed.
Lemma bit_step_16 c b : is16 c -> is16 (bit_step c b).
Proof.
  intros H. unfold bit_step. apply crc16_bit_16. destruct b; cbn [b2z]; [|rewrite Z.lxor_0_r; exact H]. unfold is16 in *.
  split; [apply Z.lxor_nonneg; lia|]. assert (Z.log2 (Z.lxor c 1) <= 15) as L.
  { etransitivity; [apply Z.log2_lxor; lia|]. apply Z.max_lub; [|cbn; lia]. destruct (Z.eq_dec c 0) as [->|]; [cbn; lia|]. apply Z.lt_succ_r. apply Z.log2_lt_pow2; [lia|]. change (2 ^ Z.succ 15) with 65536. lia. }
  destruct (Z.eq_dec (Z.lxor c 1) 0) as [->|N]; [lia|]. assert (0 <= Z.lxor c 1) by (apply Z.lxor_nonneg; lia). pose proof (Z.log2_spec (Z.lxor c 1) ltac:(lia)) as [_ U].
  assert (2 ^ Z.succ (Z.log2 (Z.lxor c 1)) <= 2 ^ 16) by (apply Z.pow_le_mono_r; lia). change (2 ^ 16) with 65536 in *. lia.
Qed.
Lemma lxor_1_16 c : is16 c -> is16 (Z.lxor c 1).
Proof.
  unfold is16. intros H. split; [apply Z.lxor_nonneg; lia|]. assert (Z.log2 (Z.lxor c 1) <= 15) as L.
  { etransitivity; [apply Z.log2_lxor; lia|]. apply Z.max_lub; [|cbn; lia]. destruct (Z.eq_dec c 0) as [->|]; [cbn; lia|]. apply Z.lt_succ_r. apply Z.log2_lt_pow2; [lia|]. change (2 ^ Z.succ 15) with 65536. lia. }
  destruct (Z.eq_dec (Z.lxor c 1) 0) as [->|N]; [lia|]. assert (0 <= Z.lxor c 1) by (apply Z.lxor_nonneg; lia). pose proof (Z.log2_spec (Z.lxor c 1) ltac:(lia)) as [_ U].
  assert (2 ^ Z.succ (Z.log2 (Z.lxor c 1)) <= 2 ^ 16) by (apply Z.pow_le_mono_r; lia). change (2 ^ 16) with 65536 in *. lia.
Qed.
Lemma parity_fold e : forall c, is16 c -> parity (fold_left bit_step e c) = xorb (parity c) (Nat.odd (ones e)).
Proof.
  induction e as [|b e IH]; intros c H; [change (Nat.odd (ones [])) with false; symmetry; apply xorb_false_r|]. cbn [fold_left]. rewrite IH by (apply bit_step_16, H).
  assert (parity (bit_step c b) = xorb (parity c) b) as ->.
  { unfold bit_step. rewrite parity_bit, parity_lxor; [destruct b; reflexivity|]. destruct b; [apply lxor_1_16, H|cbn [b2z]; rewrite Z.lxor_0_r; exact H]. }
  cbn [ones]. destruct b; cbn [plus]; [rewrite Nat.odd_succ, <- Nat.negb_odd|]; destruct (parity c), (Nat.odd (ones e)); reflexivity.
Qed.
Theorem crc_odd a b : is_bytes a -> is_bytes b -> length a = length b -> Nat.odd (flips (bits_of a) (bits_of b)) = true -> calculate_crc a <> calculate_crc b.
Proof.
  intros Ha Hb Hl O E. pose proof (same_crc a b Ha Hb Hl E) as F. pose proof (parity_fold (zip_xor (bits_of a) (bits_of b)) 0 ltac:(unfold is16; lia)) as P.
  rewrite F, <- flips_ones, O in P by (rewrite !bits_of_length, Hl; reflexivity). discriminate.
Qed.

(** ** two bits *)
Fixpoint avoids (n : nat) (x : Z) : bool := match n with O => true | S n' => let y := crc16_bit x in negb (y =? 1) && avoids n' y end.
Lemma avoids_ok n : forall x d, avoids n x = true -> (0 < d <= n)%nat -> Nat.iter d crc16_bit x <> 1.
Proof.
  induction n as [|n IH]; intros x d A H; [lia|]. cbn [avoids] in A. apply andb_prop in A as [A1 A2]. destruct d as [|d]; [lia|].
  change (Nat.iter (S d) crc16_bit x) with (crc16_bit (Nat.iter d crc16_bit x)). rewrite <- iter_shift. destruct d as [|d]; [cbn; intros E; rewrite E in A1; discriminate|]. apply (IH (crc16_bit x)); [exact A2|lia].
Qed.
Lemma order_sweep : avoids (Z.to_nat 32766) 1 = true.
Proof. vm_compute. reflexivity. Qed.
(** the generator has order 32767 *)
Lemma order d : 0 < Z.of_nat d < 32767 -> Nat.iter d crc16_bit 1 <> 1.
Proof. intros H. apply (avoids_ok (Z.to_nat 32766)); [exact order_sweep|]. split; [lia|]. apply Nat2Z.inj_le. rewrite Z2Nat.id by lia. lia. Qed.
Lemma no_ones e : ones e = 0%nat -> e = repeat false (length e).
Proof. induction e as [|b e IH]; intros H; [reflexivity|]. cbn in *. destruct b; [discriminate|]. f_equal. apply IH, H. Qed.
Lemma split_one n e : ones e = S n -> exists i e', e = repeat false i ++ true :: e' /\ ones e' = n.
Proof.
  induction e as [|b e IH]; intros H; [discriminate|]. cbn in H. destruct b.
  - exists 0%nat, e. split; [reflexivity|]. injection H; auto.
  - destruct (IH H) as (i & e' & -> & O). exists (S i), e'. split; [reflexivity|exact O].
Qed.
Lemma iter_zero n : Nat.iter n crc16_bit 0 = 0.
Proof. induction n as [|n IH]; [reflexivity|]. change (Nat.iter (S n) crc16_bit 0) with (crc16_bit (Nat.iter n crc16_bit 0)). rewrite IH. reflexivity. Qed.
Theorem crc_two_flips a b : is_bytes a -> is_bytes b -> length a = length b -> len a <= 4095 -> flips (bits_of a) (bits_of b) = 2%nat -> calculate_crc a <> calculate_crc b.
Proof.
  intros Ha Hb Hl L F E. pose proof (same_crc a b Ha Hb Hl E) as Z0. assert (length (bits_of a) = length (bits_of b)) as Hl' by (rewrite !bits_of_length, Hl; reflexivity).
  rewrite flips_ones in F by exact Hl'. pose proof (zip_xor_length _ _ Hl') as Le. set (e := zip_xor (bits_of a) (bits_of b)) in *. clearbody e.
  destruct (split_one _ _ F) as (i & e1 & -> & F1). destruct (split_one _ _ F1) as (k & e2 & -> & F2). apply no_ones in F2. rewrite F2 in Z0.
  rewrite fold_left_app, fold_bit_zero_bits, iter_zero in Z0. cbn [fold_left] in Z0. rewrite fold_left_app, fold_bit_zero_bits in Z0. cbn [fold_left] in Z0. rewrite fold_bit_zero_bits in Z0.
  assert (is16 (Z.lxor (Nat.iter k crc16_bit (bit_step 0 true)) 1)) as R.
  { apply lxor_1_16, iter_bit_16. apply bit_step_16. unfold is16. lia. }
  apply iter_bit_inj0 in Z0; [|apply crc16_bit_16; exact R]. apply bit_inj0 in Z0; [|exact R]. apply (proj1 (lxor_eq_0 _ _)) in Z0.
  unfold bit_step in Z0. cbn [b2z] in Z0. change (Z.lxor 0 1) with 1 in Z0. rewrite iter_shift in Z0. apply (order (S k)); [|exact Z0].
  rewrite bits_of_length in Le. rewrite !app_length, repeat_length in Le. cbn [length] in Le. rewrite app_length, repeat_length in Le. cbn [length] in Le. unfold len in L. lia.
Qed.
Theorem crc_three_flips a b : is_bytes a -> is_bytes b -> length a = length b -> len a <= 4095 -> (1 <= flips (bits_of a) (bits_of b) <= 3)%nat -> calculate_crc a <> calculate_crc b.
Proof.
  intros Ha Hb Hl L F. destruct (flips (bits_of a) (bits_of b)) as [|[|[|[|n]]]] eqn:Q; try lia.
  - apply crc_odd; try assumption. rewrite Q. reflexivity.
  - apply crc_two_flips; assumption.
  - apply crc_odd; try assumption. rewrite Q. reflexivity.
Qed.
Definition far_apart : bytes := 1 :: repeat 0 (Z.to_nat 4094) ++ [128].
Theorem two_flips_far : exists a b, is_bytes a /\ is_bytes b /\ len a = 4096 /\ length a = length b /\ flips (bits_of a) (bits_of b) = 2%nat /\ calculate_crc a = calculate_crc b.
Proof.
  exists far_apart, (repeat 0 (Z.to_nat 4096)). assert (forall n, is_bytes (repeat 0 n)) as R by (intros n; apply Forall_forall; intros x I; apply repeat_spec in I; subst x; unfold is_byte; lia).
  split; [constructor; [unfold is_byte; lia|]; apply Forall_app; split; [apply R|constructor; [unfold is_byte; lia|constructor]]|]. split; [apply R|].
  assert ((len far_apart =? 4096) && (length far_apart =? length (repeat 0 (Z.to_nat 4096)))%nat && (flips (bits_of far_apart) (bits_of (repeat 0%Z (Z.to_nat 4096))) =? 2)%nat && (calculate_crc far_apart =? calculate_crc (repeat 0 (Z.to_nat 4096))) = true) as H by (vm_compute; reflexivity).
  apply andb_prop in H as [H H4]. apply andb_prop in H as [H H3]. apply andb_prop in H as [H1 H2]. apply Z.eqb_eq in H1, H4. apply Nat.eqb_eq in H2, H3. exact (conj H1 (conj H2 (conj H3 H4))).
Qed.
