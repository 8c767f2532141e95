(** Independent specifications for elgas/utils.py: written from the protocol
    description, not from the code. *)
From Verif Require Import Py.
Open Scope Z_scope.

(** *** Escaping: the table in the documentation *)
Definition esc_byte (b : Z) : bytes :=
  if b =? 13 then [27; 14] else if b =? 27 then [27; 27] else if b =? 141 then [27; 15] else [b].

(** One-pass reading of escaped data: [unesc d o] says that d reads as o. *)
Inductive unesc : bytes -> bytes -> Prop :=
| unesc_nil : unesc [] []
| unesc_lit b d o : b <> 27 -> unesc d o -> unesc (b :: d) (b :: o)
| unesc_0d d o : unesc d o -> unesc (27 :: 14 :: d) (13 :: o)
| unesc_1b d o : unesc d o -> unesc (27 :: 27 :: d) (27 :: o)
| unesc_8d d o : unesc d o -> unesc (27 :: 15 :: d) (141 :: o)
| unesc_other b d o : b <> 14 -> b <> 27 -> b <> 15 -> unesc d o ->
    unesc (27 :: b :: d) (27 :: b :: o).
(** ... and [dangling d] that the reading stops inside an escape pair. *)
Inductive dangling : bytes -> Prop :=
| dangling_end : dangling [27]
| dangling_lit b d : b <> 27 -> dangling d -> dangling (b :: d)
| dangling_pair b d : dangling d -> dangling (27 :: b :: d).

(** cutting a stream after every 0x0D: telegrams and unterminated rest *)
Fixpoint cut (cur l : bytes) : list bytes * bytes :=
  match l with
  | [] => ([], cur)
  | b :: l' => if b =? 13
               then let '(ts, rest) := cut [] l' in ((cur ++ [13]) :: ts, rest)
               else cut (cur ++ [b]) l'
  end.

(** *** Redundancy codes *)
(** XOR of all bytes *)
Definition xor_all (l : bytes) : Z := fold_right Z.lxor 0 l.
(** sum of all bytes *)
Definition sum_all (l : bytes) : Z := fold_right Z.add 0 l.
(** 8-bit rotation to the left by k *)
Definition rotl8 (k : nat) (b : Z) : Z :=
  let j := Z.of_nat (k mod 8) in
  (b * 2 ^ j) mod 256 + b / 2 ^ (8 - j).
(** each byte rotated by the number of bytes that follow it *)
Fixpoint drc_spec (l : bytes) : Z :=
  match l with [] => 0 | b :: r => Z.lxor (rotl8 (length r) b) (drc_spec r) end.

(** *** CRC-16/MODBUS, bit by bit: reflected polynomial 0xA001 *)
Definition crc16_bit (crc : Z) : Z :=
  if Z.odd crc then Z.lxor (crc / 2) 40961 else crc / 2.
Definition crc16_byte (crc b : Z) : Z := Nat.iter 8 crc16_bit (Z.lxor crc b).
Definition crc16_modbus (l : bytes) : Z := fold_left crc16_byte l 65535.
Definition swap16 (n : Z) : Z := 256 * (n mod 256) + n / 256.

(** *** Bits in transmission order (least significant bit of each byte first) *)
Definition byte_bits (b : Z) : list bool := map (fun i => Z.testbit b (Z.of_nat i)) (seq 0 8).
Definition bits_of (l : bytes) : list bool := flat_map byte_bits l.
(** [x] and [y] agree outside the 16 bit positions starting at [s] *)
Definition burst16 (s : nat) (x y : list bool) : Prop :=
  forall i, (i < s \/ s + 16 <= i)%nat -> nth i x false = nth i y false.
