(** Proofs about calculate_crc. *)
From Verif Require Import BitFacts SpecUtils Utils UtilsProofs.
Open Scope Z_scope.

Definition is16 (x : Z) : Prop := 0 <= x < 65536.

Lemma crc16_bit_alt x : crc16_bit x = Z.lxor (x / 2) (if Z.odd x then 40961 else 0).
Proof. unfold crc16_bit. destruct (Z.odd x); [reflexivity|]. rewrite Z.lxor_0_r. reflexivity. Qed.
Lemma crc16_bit_lxor a b : crc16_bit (Z.lxor a b) = Z.lxor (crc16_bit a) (crc16_bit b).
Proof.
  rewrite !crc16_bit_alt, lxor_div2, odd_lxor, lxor_4. f_equal.
  destruct (Z.odd a), (Z.odd b); reflexivity.
Qed.
Lemma iter_bit_lxor n a b :
  Nat.iter n crc16_bit (Z.lxor a b) = Z.lxor (Nat.iter n crc16_bit a) (Nat.iter n crc16_bit b).
Proof.
  induction n as [|n IH]; [reflexivity|]. cbn [Nat.iter]. change (Nat.iter (S n) crc16_bit) with (fun x => crc16_bit (Nat.iter n crc16_bit x)). cbv beta.
  rewrite IH. apply crc16_bit_lxor.
Qed.
Lemma crc16_bit_16 x : is16 x -> is16 (crc16_bit x).
Proof.
  unfold is16. intros H. rewrite crc16_bit_alt. apply (lxor_range 16); [lia| |].
  - change (2 ^ 16) with 65536. lia.
  - change (2 ^ 16) with 65536. destruct (Z.odd x); lia.
Qed.
Lemma iter_bit_16 n x : is16 x -> is16 (Nat.iter n crc16_bit x).
Proof. intros H. induction n as [|n IH]; [exact H|]. apply crc16_bit_16, IH. Qed.

Lemma crc_step_spec crc a : is16 crc -> is_byte a -> crc_step crc a = crc16_byte crc a.
Proof.
  intros Hc Ha. unfold crc16_byte, crc_step.
  assert (Hx : 0 <= Z.lxor crc a < 2 ^ 16)
    by (apply lxor_range; [lia|exact Hc|unfold is_byte in Ha; change (2 ^ 16) with 65536; lia]).
  change (2 ^ 16) with 65536 in Hx.
  set (x := Z.lxor crc a) in *.
  assert (Hhi : Z.land (Z.shiftr crc 8) 255 = x / 256).
  { rewrite land_255, Z.shiftr_div_pow2 by lia. change (2 ^ 8) with 256.
    unfold is16 in Hc. rewrite Z.mod_small by lia.
    unfold x. change 256 with (2 ^ 8). rewrite <- !Z.shiftr_div_pow2 by lia.
    rewrite Z.shiftr_lxor. rewrite (Z.shiftr_div_pow2 a) by lia.
    unfold is_byte in Ha. rewrite (Z.div_small a) by (change (2 ^ 8) with 256; lia).
    rewrite Z.lxor_0_r. reflexivity. }
  cbv zeta. rewrite Hhi, land_255.
  assert (Hsplit : x = Z.lxor (256 * (x / 256)) (x mod 256)).
  { apply Z.bits_inj'. intros i Hi. rewrite Z.lxor_spec.
    replace (256 * (x / 256)) with ((x / 2 ^ 8) * 2 ^ 8) by (change (2 ^ 8) with 256; lia).
    change 256 with (2 ^ 8).
    destruct (Z_lt_dec i 8).
    - rewrite Z.mul_pow2_bits_low, Z.mod_pow2_bits_low by lia. symmetry; apply xorb_false_l.
    - rewrite Z.mul_pow2_bits, Z.mod_pow2_bits_high, Z.div_pow2_bits by lia.
      rewrite xorb_false_r. f_equal. lia. }
  rewrite Hsplit at 3. rewrite iter_bit_lxor.
  assert (H1 : is_byte (x / 256)) by (unfold is_byte; lia).
  assert (H2 : is_byte (x mod 256)) by (unfold is_byte; apply Z.mod_pos_bound; lia).
  assert (G1 : forall h, is_byte h -> Nat.iter 8 crc16_bit (256 * h) = h).
  { intros h Hh. apply Z.eqb_eq.
    apply (byte_sweep (fun h => Nat.iter 8 crc16_bit (256 * h) =? h)); [vm_compute; reflexivity|exact Hh]. }
  assert (G2 : forall h, is_byte h -> nth (Z.to_nat h) crc16_table 0 = Nat.iter 8 crc16_bit h).
  { intros h Hh. apply Z.eqb_eq.
    apply (byte_sweep (fun h => nth (Z.to_nat h) crc16_table 0 =? Nat.iter 8 crc16_bit h));
      [vm_compute; reflexivity|exact Hh]. }
  rewrite G1, G2 by assumption. reflexivity.
Qed.
Lemma crc16_byte_16 c b : is16 c -> is_byte b -> is16 (crc16_byte c b).
Proof.
  intros Hc Hb. apply iter_bit_16. apply (lxor_range 16); [lia|exact Hc|].
  unfold is_byte in Hb. change (2 ^ 16) with 65536; lia.
Qed.
Lemma crc_fold l c : is_bytes l -> is16 c ->
  fold_left crc_step l c = fold_left crc16_byte l c /\ is16 (fold_left crc16_byte l c).
Proof.
  intros H; revert c; induction H as [|b l Hb Hl IH]; intros c Hc; cbn [fold_left]; [auto|].
  rewrite crc_step_spec by assumption. apply IH. apply crc16_byte_16; assumption.
Qed.
Lemma crc16_modbus_16 l : is_bytes l -> is16 (crc16_modbus l).
Proof. intros H. apply (crc_fold l 65535 H). unfold is16; lia. Qed.
Lemma crc_closed l : is_bytes l -> calculate_crc l = swap16 (crc16_modbus l).
Proof.
  intros H. unfold calculate_crc, crc16_modbus.
  assert (is16 65535) as H0 by (unfold is16; lia).
  destruct (crc_fold l 65535 H H0) as [-> Hr].
  set (c := fold_left crc16_byte l 65535) in *. clearbody c. unfold is16 in Hr. unfold swap16.
  rewrite land_255, Z.shiftr_div_pow2 by lia. change (2 ^ 8) with 256.
  rewrite (Z.mod_small (c / 256)) by lia.
  assert (Z.land (Z.shiftl c 8) 65280 = (c mod 256) * 2 ^ 8) as ->.
  { apply Z.bits_inj'. intros i Hi. rewrite Z.land_spec, Z.shiftl_spec by lia.
    change 65280 with (255 * 2 ^ 8). rewrite !Z.mul_pow2_bits by lia.
    change 255 with (Z.ones 8). change 256 with (2 ^ 8).
    destruct (Z_lt_dec i 8).
    - rewrite !(Z.testbit_neg_r _ (i - 8)) by lia. reflexivity.
    - destruct (Z_lt_dec (i - 8) 8).
      + rewrite Z.ones_spec_low, Z.mod_pow2_bits_low by lia. apply andb_true_r.
      + rewrite Z.ones_spec_high, Z.mod_pow2_bits_high by lia. apply andb_false_r. }
  replace (256 * (c mod 256)) with ((c mod 256) * 2 ^ 8) by (change (2 ^ 8) with 256; lia).
  rewrite <- Z.lxor_lor, <- Z.add_nocarry_lxor; auto.
  all: apply Z.bits_inj'; intros i Hi; rewrite Z.land_spec, Z.bits_0;
    destruct (Z_lt_dec i 8);
    [rewrite Z.mul_pow2_bits_low by lia; reflexivity
    |rewrite (testbit_high 8 (c / 256)) by (change (2 ^ 8) with 256; lia); apply andb_false_r].
Qed.
Lemma swap16_16 c : is16 c -> is16 (swap16 c).
Proof. unfold is16, swap16. lia. Qed.
Lemma swap16_inj a b : is16 a -> is16 b -> swap16 a = swap16 b -> a = b.
Proof. unfold is16, swap16. lia. Qed.
Lemma crc_16 l : is_bytes l -> is16 (calculate_crc l).
Proof. intros H. rewrite crc_closed by exact H. apply swap16_16, crc16_modbus_16, H. Qed.

(** ** bit-serial view *)
Definition b2z (b : bool) : Z := if b then 1 else 0.
Definition bit_step (c : Z) (b : bool) : Z := crc16_bit (Z.lxor c (b2z b)).
Lemma bit_step_lxor c d a b :
  bit_step (Z.lxor c d) (xorb a b) = Z.lxor (bit_step c a) (bit_step d b).
Proof.
  unfold bit_step. rewrite <- crc16_bit_lxor, lxor_4. f_equal. f_equal. destruct a, b; reflexivity.
Qed.
Fixpoint zip_xor (a b : list bool) : list bool :=
  match a, b with x :: a', y :: b' => xorb x y :: zip_xor a' b' | _, _ => [] end.
Lemma fold_bit_lxor a b c d : length a = length b ->
  fold_left bit_step (zip_xor a b) (Z.lxor c d) = Z.lxor (fold_left bit_step a c) (fold_left bit_step b d).
Proof.
  revert b c d; induction a as [|x a IH]; intros [|y b] c d H; try discriminate; [reflexivity|].
  cbn [zip_xor fold_left]. rewrite bit_step_lxor. apply IH. injection H; auto.
Qed.
Lemma fold_bit_zero_bits n c : fold_left bit_step (repeat false n) c = Nat.iter n crc16_bit c.
Proof.
  revert c; induction n as [|n IH]; intros c; [reflexivity|]. cbn [repeat fold_left].
  rewrite IH. unfold bit_step. cbn [b2z]. rewrite Z.lxor_0_r.
  clear. induction n as [|n IH]; [reflexivity|]. cbn. f_equal. exact IH.
Qed.
Lemma crc16_byte_bits c b : is_byte b -> crc16_byte c b = fold_left bit_step (byte_bits b) c.
Proof.
  intros Hb. unfold crc16_byte. rewrite iter_bit_lxor.
  replace (fold_left bit_step (byte_bits b) c)
    with (fold_left bit_step (zip_xor (repeat false 8) (byte_bits b)) (Z.lxor c 0)).
  2:{ rewrite Z.lxor_0_r. f_equal. unfold byte_bits. cbn [seq map repeat zip_xor]. rewrite !xorb_false_l. reflexivity. }
  rewrite fold_bit_lxor by reflexivity. rewrite fold_bit_zero_bits. f_equal.
  apply Z.eqb_eq.
  apply (byte_sweep (fun b => Nat.iter 8 crc16_bit b =? fold_left bit_step (byte_bits b) 0));
    [vm_compute; reflexivity|exact Hb].
Qed.
Lemma crc_bits l c : is_bytes l -> fold_left crc16_byte l c = fold_left bit_step (bits_of l) c.
Proof.
  intros H; revert c; induction H as [|b l Hb Hl IH]; intros c; [reflexivity|].
  cbn [fold_left]. change (bits_of (b :: l)) with (byte_bits b ++ bits_of l).
  rewrite fold_left_app, crc16_byte_bits, IH by exact Hb. reflexivity.
Qed.

Lemma bit_inj0 x : is16 x -> crc16_bit x = 0 -> x = 0.
Proof.
  unfold is16. intros H. rewrite crc16_bit_alt, lxor_eq_0.
  destruct (Z.odd x) eqn:O; intros E.
  - change (x / 2 = 40961) in E. lia.
  - change (x / 2 = 0) in E. pose proof (Zmod_odd x) as M. rewrite O in M. lia.
Qed.
Lemma iter_bit_inj0 n x : is16 x -> Nat.iter n crc16_bit x = 0 -> x = 0.
Proof.
  intros H. induction n as [|n IH]; intros E; [exact E|]. apply IH. apply bit_inj0; [apply iter_bit_16, H|exact E].
Qed.

Fixpoint bits_value (l : list bool) : Z :=
  match l with [] => 0 | b :: l' => b2z b + 2 * bits_value l' end.
Lemma bits_value_range l : 0 <= bits_value l < 2 ^ len l.
Proof.
  induction l as [|b l IH]; [change (2 ^ len (@nil bool)) with 1; cbn; lia|]. cbn [bits_value]. unfold len in *. cbn [length].
  rewrite Nat2Z.inj_succ, Z.pow_succ_r by lia. destruct b; cbn [b2z]; lia.
Qed.
Lemma bits_value_0 l : bits_value l = 0 -> Forall (fun b => b = false) l.
Proof.
  induction l as [|b l IH]; intros H; constructor; cbn [bits_value] in H;
    pose proof (bits_value_range l); destruct b; cbn [b2z] in H; try lia; auto.
  apply IH. lia.
Qed.
Lemma iter_shift {A} (f : A -> A) n x : Nat.iter n f (f x) = f (Nat.iter n f x).
Proof. induction n as [|n IH]; [reflexivity|]. cbn. f_equal. exact IH. Qed.
Lemma fold_bits_value l : fold_left bit_step l 0 = Nat.iter (length l) crc16_bit (bits_value l).
Proof.
  assert (forall c, fold_left bit_step l c = Nat.iter (length l) crc16_bit (Z.lxor c (bits_value l))) as G.
  { induction l as [|b l IH]; intros c; [cbn; rewrite Z.lxor_0_r; reflexivity|].
    cbn [fold_left length bits_value]. rewrite IH.
    change (Nat.iter (S (length l)) crc16_bit) with (fun x => crc16_bit (Nat.iter (length l) crc16_bit x)).
    cbv beta. rewrite <- iter_shift. f_equal. unfold bit_step.
    assert (b2z b + 2 * bits_value l = Z.lxor (b2z b) (2 * bits_value l)) as ->.
    { apply Z.add_nocarry_lxor. apply Z.bits_inj'. intros i Hi. rewrite Z.land_spec, Z.bits_0.
      destruct (Z.eq_dec i 0) as [->|].
      - rewrite Z.testbit_even_0. apply andb_false_r.
      - destruct b; cbn [b2z]; [rewrite (testbit_high 1 1) by lia|rewrite Z.bits_0]; reflexivity. }
    rewrite <- Z.lxor_assoc. rewrite (crc16_bit_lxor (Z.lxor c (b2z b))). f_equal.
    unfold crc16_bit. rewrite Z.odd_mul. cbn [Z.odd]. rewrite Z.mul_comm, Z.div_mul by lia. reflexivity. }
  rewrite G, Z.lxor_0_l. reflexivity.
Qed.

Lemma zip_xor_length a b : length a = length b -> length (zip_xor a b) = length a.
Proof.
  revert b; induction a as [|x a IH]; intros [|y b] H; try discriminate; [reflexivity|].
  cbn. f_equal. apply IH. injection H; auto.
Qed.
Lemma zip_xor_nth a b i : length a = length b ->
  nth i (zip_xor a b) false = xorb (nth i a false) (nth i b false).
Proof.
  revert b i; induction a as [|x a IH]; intros [|y b] i H; try discriminate; [destruct i; reflexivity|].
  destruct i; cbn; [reflexivity|]. apply IH. injection H; auto.
Qed.
Lemma zip_xor_false a b : length a = length b -> Forall (fun x => x = false) (zip_xor a b) -> a = b.
Proof.
  revert b; induction a as [|x a IH]; intros [|y b] H F; try discriminate; [reflexivity|].
  cbn in F. inversion F as [|? ? F1 F2]; subst. f_equal.
  - destruct x, y; cbn in F1; congruence.
  - apply IH; [injection H; auto|exact F2].
Qed.
Lemma all_false_repeat l : (forall i, nth i l false = false) -> l = repeat false (length l).
Proof.
  induction l as [|b l IH]; intros H; [reflexivity|]. cbn. f_equal; [exact (H O)|].
  apply IH. intros i. exact (H (S i)).
Qed.
Lemma nth_skipn {A} n i (l : list A) d : nth i (skipn n l) d = nth (n + i) l d.
Proof.
  revert l; induction n as [|n IH]; intros l; [reflexivity|].
  destruct l as [|x l]; cbn; [destruct i; reflexivity|]. apply IH.
Qed.
Lemma nth_firstn {A} n i (l : list A) d : (i < n)%nat -> nth i (firstn n l) d = nth i l d.
Proof.
  revert i l; induction n as [|n IH]; intros i l H; [lia|].
  destruct l as [|x l]; [destruct i; reflexivity|]. destruct i; cbn; [reflexivity|]. apply IH; lia.
Qed.

(** a non-zero error confined to 16 bits is never mapped to 0 *)
Lemma burst_nonzero s e :
  (forall i, (i < s \/ s + 16 <= i)%nat -> nth i e false = false) ->
  fold_left bit_step e 0 = 0 -> Forall (fun x => x = false) e.
Proof.
  intros H E.
  rewrite <- (firstn_skipn s e) in E |- *.
  rewrite <- (firstn_skipn 16 (skipn s e)) in E |- *.
  assert (H1 : firstn s e = repeat false (length (firstn s e))).
  { apply all_false_repeat. intros i. destruct (Nat.lt_ge_cases i s) as [Hi|Hi].
    - rewrite nth_firstn by exact Hi. apply H. lia.
    - apply nth_overflow. rewrite firstn_length. lia. }
  assert (H3 : skipn 16 (skipn s e) = repeat false (length (skipn 16 (skipn s e)))).
  { apply all_false_repeat. intros i. rewrite !nth_skipn. apply H. lia. }
  set (m := firstn 16 (skipn s e)) in *.
  assert (Hm : (length m <= 16)%nat) by (unfold m; rewrite firstn_length; lia).
  rewrite H1, H3 in E. rewrite H1, H3. rewrite !fold_left_app, !fold_bit_zero_bits in E.
  assert (Z0 : forall n, Nat.iter n crc16_bit 0 = 0)
    by (intros n; induction n as [|n IH]; [reflexivity|]; rewrite <- (iter_shift crc16_bit n 0 : Nat.iter n crc16_bit (crc16_bit 0) = Nat.iter (S n) crc16_bit 0); exact IH).
  rewrite Z0, fold_bits_value in E.
  assert (Hv : is16 (bits_value m)).
  { pose proof (bits_value_range m). unfold is16. split; [lia|].
    assert (2 ^ len m <= 2 ^ 16) by (apply Z.pow_le_mono_r; [lia|lenlia]).
    change (2 ^ 16) with 65536 in *. lia. }
  apply iter_bit_inj0 in E; [|apply iter_bit_16; exact Hv].
  apply iter_bit_inj0 in E; [|exact Hv].
  apply bits_value_0 in E.
  rewrite !Forall_app. split; [|split; [exact E|]]; apply Forall_forall; intros x Hx;
    apply repeat_spec in Hx; exact Hx.
Qed.

Lemma byte_bits_inj a b : is_byte a -> is_byte b -> byte_bits a = byte_bits b -> a = b.
Proof.
  intros Ha Hb H. apply Z.bits_inj'. intros i Hi.
  destruct (Z_lt_dec i 8).
  - unfold byte_bits in H. cbn [seq map] in H. injection H as E0 E1 E2 E3 E4 E5 E6 E7.
    assert (i = 0 \/ i = 1 \/ i = 2 \/ i = 3 \/ i = 4 \/ i = 5 \/ i = 6 \/ i = 7)
      as [->|[->|[->|[->|[->|[->|[->| ->]]]]]]] by lia; assumption.
  - rewrite !(testbit_high 8); auto; lia.
Qed.
Lemma bits_of_length l : length (bits_of l) = (8 * length l)%nat.
Proof. unfold bits_of. induction l as [|b l IH]; [reflexivity|]. cbn [flat_map]. rewrite app_length, IH. cbn [length]. change (length (byte_bits b)) with 8%nat. lia. Qed.
Lemma bits_of_inj a b : is_bytes a -> is_bytes b -> bits_of a = bits_of b -> a = b.
Proof.
  intros Ha; revert b; induction Ha as [|x a Hx Ha IH]; intros [|y b] Hb H; try discriminate; [reflexivity|].
  apply is_bytes_cons in Hb as [Hy Hb].
  change (byte_bits x ++ bits_of a = byte_bits y ++ bits_of b) in H.
  apply app_inj_len in H as [H1 H2]; [|reflexivity].
  apply byte_bits_inj in H1; auto. subst. f_equal. apply IH; auto.
Qed.

Lemma crc_burst a b s : is_bytes a -> is_bytes b -> length a = length b ->
  burst16 s (bits_of a) (bits_of b) -> calculate_crc a = calculate_crc b -> a = b.
Proof.
  intros Ha Hb Hl Hs H. rewrite !crc_closed in H by assumption.
  apply swap16_inj in H; [|apply crc16_modbus_16; assumption..].
  unfold crc16_modbus in H. rewrite !crc_bits in H by assumption.
  apply lxor_eq_0 in H. rewrite <- fold_bit_lxor in H by (rewrite !bits_of_length, Hl; reflexivity).
  rewrite Z.lxor_nilpotent in H.
  apply bits_of_inj; auto. apply zip_xor_false; [rewrite !bits_of_length, Hl; reflexivity|].
  apply (burst_nonzero s); [|exact H].
  intros i Hi. rewrite zip_xor_nth by (rewrite !bits_of_length, Hl; reflexivity).
  rewrite (Hs i Hi). apply xorb_nilpotent.
Qed.

(** two adjacent bytes are such a window *)
Lemma nth_bits_app p x q i : (i < 8 * length p)%nat ->
  nth i (bits_of (p ++ x ++ q)) false = nth i (bits_of p) false.
Proof.
  intros H. unfold bits_of. rewrite flat_map_app. rewrite app_nth1; [reflexivity|].
  fold (bits_of p). rewrite bits_of_length. exact H.
Qed.
Lemma crc_two_bytes p q x y : is_bytes p -> is_bytes q -> is_bytes x -> is_bytes y ->
  length x = length y -> (length x <= 2)%nat ->
  calculate_crc (p ++ x ++ q) = calculate_crc (p ++ y ++ q) -> x = y.
Proof.
  intros Hp Hq Hx Hy Hl H2 H.
  apply (crc_burst _ _ (8 * length p)) in H.
  - apply app_inv_head in H. apply app_inv_tail in H. exact H.
  - bytes_tac.
  - bytes_tac.
  - rewrite !app_length, Hl. reflexivity.
  - intros i Hi. destruct (Nat.lt_ge_cases i (8 * length p)) as [Hlt|Hge].
    + rewrite !nth_bits_app by exact Hlt. reflexivity.
    + unfold bits_of. rewrite !flat_map_app. fold (bits_of p) (bits_of x) (bits_of y) (bits_of q).
      rewrite !(app_nth2 (bits_of p)) by (rewrite bits_of_length; lia).
      rewrite !app_nth2 by (rewrite !bits_of_length; lia).
      rewrite !bits_of_length, Hl. reflexivity.
Qed.

Lemma crc_two_byte_range l : is_bytes l -> 0 <= calculate_crc l <= 65535.
Proof. intros H. pose proof (crc_16 l H) as G. unfold is16 in G. lia. Qed.
(** bits 0, 1 and 16..: x^16 + x^15 + x^2 + 1 reflected is 0x14003 on the line *)
Lemma crc_17_bit_burst : exists a b, is_bytes a /\ is_bytes b /\ length a = length b /\ a <> b /\
  (forall i, (17 <= i)%nat -> nth i (bits_of a) false = nth i (bits_of b) false) /\
  calculate_crc a = calculate_crc b.
Proof.
  exists [0; 0; 0], [3; 64; 1].
  split; [repeat constructor; unfold is_byte; lia|]. split; [repeat constructor; unfold is_byte; lia|].
  split; [reflexivity|]. split; [discriminate|]. split; [|vm_compute; reflexivity].
  intros i Hi. do 24 (destruct i as [|i]; [try reflexivity; exfalso; lia|]).
  rewrite !nth_overflow by (cbn; lia). reflexivity.
Qed.
