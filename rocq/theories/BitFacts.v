(** Lemmas on bitwise operations of Z and finite sweeps. *)
From Verif Require Export PyFacts.
Open Scope Z_scope.

Definition byte_list : list Z := map Z.of_nat (seq 0 256).
Lemma in_byte_list b : is_byte b -> In b byte_list.
Proof.
  unfold is_byte, byte_list; intros H. apply in_map_iff. exists (Z.to_nat b).
  split; [lia|]. apply in_seq. lia.
Qed.
Lemma byte_sweep (P : Z -> bool) : forallb P byte_list = true -> forall b, is_byte b -> P b = true.
Proof. intros H b Hb. eapply forallb_forall in H; [exact H|apply in_byte_list; exact Hb]. Qed.
Lemma byte_sweep2 (P : Z -> Z -> bool) :
  forallb (fun a => forallb (P a) byte_list) byte_list = true ->
  forall a b, is_byte a -> is_byte b -> P a b = true.
Proof.
  intros H a b Ha Hb. pose proof (byte_sweep _ H a Ha) as H'.
  exact (byte_sweep _ H' b Hb).
Qed.

Lemma land_255 x : Z.land x 255 = x mod 256.
Proof. change 255 with (Z.ones 8). rewrite Z.land_ones by lia. reflexivity. Qed.

Lemma testbit_high n a i : 0 <= n -> 0 <= a < 2 ^ n -> n <= i -> Z.testbit a i = false.
Proof.
  intros Hn Ha Hi. destruct (Z.eq_dec a 0) as [->|Hz]; [apply Z.bits_0|].
  apply Z.bits_above_log2; [lia|].
  assert (Z.log2 a < n) by (apply Z.log2_lt_pow2; lia). lia.
Qed.
Lemma range_of_bits n a : 0 <= n -> (forall i, n <= i -> Z.testbit a i = false) -> 0 <= a < 2 ^ n.
Proof.
  intros Hn H. assert (a = a mod 2 ^ n) as ->.
  { apply Z.bits_inj'. intros i Hi. destruct (Z_lt_dec i n).
    - rewrite Z.mod_pow2_bits_low by lia. reflexivity.
    - rewrite Z.mod_pow2_bits_high by lia. apply H; lia. }
  apply Z.mod_pos_bound. apply Z.pow_pos_nonneg; lia.
Qed.
Lemma lxor_range n a b : 0 <= n -> 0 <= a < 2 ^ n -> 0 <= b < 2 ^ n -> 0 <= Z.lxor a b < 2 ^ n.
Proof.
  intros Hn Ha Hb. apply range_of_bits; [lia|]. intros i Hi.
  rewrite Z.lxor_spec, !(testbit_high n) by lia. reflexivity.
Qed.
Lemma lxor_byte a b : is_byte a -> is_byte b -> is_byte (Z.lxor a b).
Proof. intros; apply (lxor_range 8); [lia|assumption|assumption]. Qed.

Lemma odd_lxor a b : Z.odd (Z.lxor a b) = xorb (Z.odd a) (Z.odd b).
Proof. rewrite <- !Z.bit0_odd. apply Z.lxor_spec. Qed.
Lemma lxor_div2 a b : Z.lxor a b / 2 = Z.lxor (a / 2) (b / 2).
Proof.
  change 2 with (2 ^ 1). rewrite <- !Z.shiftr_div_pow2 by lia. apply Z.shiftr_lxor.
Qed.
Lemma lxor_4 a b c d : Z.lxor (Z.lxor a b) (Z.lxor c d) = Z.lxor (Z.lxor a c) (Z.lxor b d).
Proof.
  rewrite !Z.lxor_assoc. f_equal. rewrite <- !Z.lxor_assoc. f_equal. apply Z.lxor_comm.
Qed.
Lemma lxor_cancel_l a b c : Z.lxor a b = Z.lxor a c -> b = c.
Proof.
  intros H. apply (f_equal (Z.lxor a)) in H.
  rewrite <- !Z.lxor_assoc, Z.lxor_nilpotent, !Z.lxor_0_l in H. exact H.
Qed.
Lemma lxor_eq_0 a b : Z.lxor a b = 0 <-> a = b.
Proof. apply Z.lxor_eq_0_iff. Qed.
Lemma lxor_0_eq a b : Z.lxor a b = 0 -> a = b.
Proof. apply Z.lxor_eq_0_iff. Qed.
Lemma eq_lxor_0 a b : a = b -> Z.lxor a b = 0.
Proof. apply Z.lxor_eq_0_iff. Qed.
