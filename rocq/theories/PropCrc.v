(** C88: which changed bits the CRC finds (elgas/utils.py:105-116). *)
From Verif Require Import PyFacts Utils SpecUtils SpecCrc CrcProofs2.
Open Scope Z_scope.

(** any odd number of changed bits, in messages of any length *)
Theorem C88_odd_flips : forall a b, is_bytes a -> is_bytes b -> length a = length b ->
  Nat.odd (flips (bits_of a) (bits_of b)) = true -> calculate_crc a <> calculate_crc b.
Proof. exact crc_odd. Qed.
Print Assumptions C88_odd_flips.
(** any one, two or three changed bits in messages of at most 4095 bytes *)
Theorem C88_three_flips : forall a b, is_bytes a -> is_bytes b -> length a = length b -> len a <= 4095 ->
  (1 <= flips (bits_of a) (bits_of b) <= 3)%nat -> calculate_crc a <> calculate_crc b.
Proof. exact crc_three_flips. Qed.
Print Assumptions C88_three_flips.
(** both bounds are exact: two bits in 4096 bytes, four bits in three bytes *)
Theorem C88_length_is_tight : exists a b, is_bytes a /\ is_bytes b /\ len a = 4096 /\ length a = length b /\
  flips (bits_of a) (bits_of b) = 2%nat /\ calculate_crc a = calculate_crc b.
Proof. exact two_flips_far. Qed.
Print Assumptions C88_length_is_tight.
Theorem C88_four_flips_undetected : exists a b, is_bytes a /\ is_bytes b /\ length a = length b /\
  flips (bits_of a) (bits_of b) = 4%nat /\ calculate_crc a = calculate_crc b.
Proof. exists [3; 64; 1], [0; 0; 0]. split; [repeat constructor; lia|]. split; [repeat constructor; lia|]. repeat split. Qed.
Print Assumptions C88_four_flips_undetected.
Example C88_hypotheses : flips (bits_of [1; 2; 3; 4]) (bits_of [1; 130; 3; 5]) = 2%nat /\ flips (bits_of [255; 0]) (bits_of [24; 1]) = 7%nat.
Proof. split; reflexivity. Qed.
