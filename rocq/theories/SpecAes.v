(** Independent specification: AES (FIPS-197) in the mode CBC (SP 800-38A).  The names
    are those of the standard. *)
From Verif Require Import Py.
Open Scope list_scope.
Open Scope Z_scope.

(** ** 4: bytes as polynomials over GF(2), bit i is the coefficient of x^i *)
Definition xor_all (l : list Z) : Z := fold_right Z.lxor 0 l.
(** the product as polynomials *)
Definition product (a b : Z) : Z := xor_all (map (fun i => if Z.testbit b i then Z.shiftl a i else 0) [0; 1; 2; 3; 4; 5; 6; 7]).
(** the remainder on division by x^8 + x^4 + x^3 + x + 1 of a polynomial of degree below 15 *)
Definition remainder (p : Z) : Z :=
  fold_left (fun p i => if Z.testbit p (8 + i) then Z.lxor p (Z.shiftl 283 i) else p) [6; 5; 4; 3; 2; 1; 0] p.
Definition times (a b : Z) : Z := remainder (product a b).

(** ** 5.1: the state, row and column *)
Definition state := nat -> nat -> Z.
Definition state_of (block : bytes) : state := fun r c => nth (r + 4 * c) block 0.
Definition block_of (s : state) : bytes := map (fun i => s (i mod 4)%nat (i / 4)%nat) (seq 0 16).
(** *** 5.1.1: the multiplicative inverse, then an affine transformation of the bits *)
Definition inverse (a : Z) : Z := match find (fun b => times a b =? 1) (map Z.of_nat (seq 0 256)) with Some b => b | None => 0 end.
Definition S_box (a : Z) : Z :=
  let b := inverse a in
  let bit i := xorb (Z.testbit b i) (xorb (Z.testbit b ((i + 4) mod 8)) (xorb (Z.testbit b ((i + 5) mod 8))
    (xorb (Z.testbit b ((i + 6) mod 8)) (xorb (Z.testbit b ((i + 7) mod 8)) (Z.testbit 99 i))))) in
  xor_all (map (fun i => if bit i then 2 ^ i else 0) [0; 1; 2; 3; 4; 5; 6; 7]).
Definition SubBytes (s : state) : state := fun r c => S_box (s r c).
Definition ShiftRows (s : state) : state := fun r c => s r ((c + r) mod 4)%nat.
(** *** 5.1.3: the columns times 3 x^3 + x^2 + x + 2 modulo x^4 + 1 *)
Definition coefficient (i : nat) : Z := nth i [2; 1; 1; 3] 0.
Definition MixColumns (s : state) : state :=
  fun r c => xor_all (map (fun k => times (coefficient ((r + 4 - k) mod 4)) (s k c)) [0; 1; 2; 3]%nat).
(** the words of the key schedule: word, byte *)
Definition schedule := nat -> nat -> Z.
Definition AddRoundKey (w : schedule) (round : nat) (s : state) : state := fun r c => Z.lxor (s r c) (w (4 * round + c)%nat r).

(** ** 5.2: [w] is the key schedule of [key]; Nk words of the key, Nr = Nk + 6 rounds *)
Definition Nk (key : bytes) : nat := (length key / 4)%nat.
Definition Nr (key : bytes) : nat := (Nk key + 6)%nat.
Fixpoint power_of_x (n : nat) : Z := match n with O => 1 | S n => times 2 (power_of_x n) end.
Definition temp (nk : nat) (w : schedule) (i j : nat) : Z :=
  if (i mod nk =? 0)%nat
  then Z.lxor (S_box (w (i - 1)%nat ((j + 1) mod 4)%nat)) (if (j =? 0)%nat then power_of_x (i / nk - 1) else 0)
  else if ((6 <? nk) && (i mod nk =? 4))%nat then S_box (w (i - 1)%nat j)
  else w (i - 1)%nat j.
Definition key_schedule (key : bytes) (w : schedule) : Prop :=
  (forall i j, (i < Nk key)%nat -> (j < 4)%nat -> w i j = nth (4 * i + j) key 0) /\
  (forall i j, (Nk key <= i < 4 * (Nr key + 1))%nat -> (j < 4)%nat ->
    w i j = Z.lxor (w (i - Nk key)%nat j) (temp (Nk key) w i j)).

(** ** 5.1: Cipher *)
Definition Cipher (w : schedule) (nr : nat) (block : bytes) : bytes :=
  let s := AddRoundKey w 0 (state_of block) in
  let s := fold_left (fun s round => AddRoundKey w round (MixColumns (ShiftRows (SubBytes s)))) (seq 1 (nr - 1)) s in
  block_of (AddRoundKey w nr (ShiftRows (SubBytes s))).

(** ** SP 800-38A, 6.2: every block is combined with the previous ciphertext, the first one with the iv *)
Definition combined (a b : bytes) : bytes := map (fun i => Z.lxor (nth i a 0) (nth i b 0)) (seq 0 16).
Inductive chained (w : schedule) (nr : nat) : bytes -> bytes -> bytes -> Prop :=
| chain_end iv : chained w nr iv [] []
| chain_block iv p c plain ct : length p = 16%nat -> c = Cipher w nr (combined p iv) -> chained w nr c plain ct ->
    chained w nr iv (p ++ plain) (c ++ ct).
(** [ct] is the AES-CBC encryption of [plain] *)
Definition aes_cbc (key iv plain ct : bytes) : Prop := exists w, key_schedule key w /\ chained w (Nr key) iv plain ct.
(** the keys of AES-128, AES-192 and AES-256 *)
Definition aes_key_length (key : bytes) : Prop := len key = 16 \/ len key = 24 \/ len key = 32.
