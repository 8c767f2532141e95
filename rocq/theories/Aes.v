(** AES (FIPS-197) and CBC mode: what elgas/security.py:93-106 obtains from
    cryptography's Cipher(algorithms.AES(key), modes.CBC(iv)). Nothing here
    models a file of /repo; that the library computes this function is part of
    the trusted base (the vectors in PropSecurity.v are a test of it). *)
From Verif Require Export Py.
Open Scope Z_scope.

(** multiplication by x in GF(2^8) modulo x^8+x^4+x^3+x+1 *)
Definition xtime (b : Z) : Z :=
  Z.lxor (Z.land (Z.shiftl b 1) 255) (if Z.testbit b 7 then 27 else 0).
Definition gmul2 (b : Z) := xtime b.
Definition gmul3 (b : Z) := Z.lxor (xtime b) b.
Definition gmul4 (b : Z) := xtime (xtime b).
Definition gmul8 (b : Z) := xtime (xtime (xtime b)).
Definition gmul9 (b : Z) := Z.lxor (gmul8 b) b.
Definition gmul11 (b : Z) := Z.lxor (Z.lxor (gmul8 b) (gmul2 b)) b.
Definition gmul13 (b : Z) := Z.lxor (Z.lxor (gmul8 b) (gmul4 b)) b.
Definition gmul14 (b : Z) := Z.lxor (Z.lxor (gmul8 b) (gmul4 b)) (gmul2 b).

(** general product, used only to compute the S-box *)
Fixpoint gmul_loop (n : nat) (a b acc : Z) : Z :=
  match n with
  | O => acc
  | S n' => gmul_loop n' (xtime a) (Z.shiftr b 1) (if Z.odd b then Z.lxor acc a else acc)
  end.
Definition gmul (a b : Z) : Z := gmul_loop 8 a b 0.
(** multiplicative inverse: a^254, with 0 for 0 *)
Definition ginv (a : Z) : Z :=
  let a2 := gmul a a in let a4 := gmul a2 a2 in let a8 := gmul a4 a4 in
  let a16 := gmul a8 a8 in let a32 := gmul a16 a16 in let a64 := gmul a32 a32 in
  let a128 := gmul a64 a64 in
  gmul a2 (gmul a4 (gmul a8 (gmul a16 (gmul a32 (gmul a64 a128))))).
Definition rotl (b k : Z) : Z := Z.lor (Z.land (Z.shiftl b k) 255) (Z.shiftr b (8 - k)).
Definition sbox_entry (a : Z) : Z :=
  let b := ginv a in
  Z.lxor (Z.lxor (Z.lxor (Z.lxor (Z.lxor b (rotl b 1)) (rotl b 2)) (rotl b 3)) (rotl b 4)) 99.
Definition sbox_table : list Z := Eval vm_compute in map (fun i => sbox_entry (Z.of_nat i)) (seq 0 256).
Fixpoint position (x : Z) (l : list Z) (i : Z) : Z :=
  match l with [] => 0 | y :: l' => if y =? x then i else position x l' (i + 1) end.
Definition inv_sbox_table : list Z :=
  Eval vm_compute in map (fun i => position (Z.of_nat i) sbox_table 0) (seq 0 256).
(** indices are bytes, so the defaults are never used *)
Definition sbox (b : Z) : Z := nth (Z.to_nat b) sbox_table 0.
Definition inv_sbox (b : Z) : Z := nth (Z.to_nat b) inv_sbox_table 0.

(** xor of two blocks of equal length *)
Fixpoint xor_bytes (a b : bytes) : bytes :=
  match a, b with
  | x :: a', y :: b' => Z.lxor x y :: xor_bytes a' b'
  | _, _ => []
  end.

(** state: 16 bytes, column after column *)
Definition sub_bytes (s : bytes) : bytes := map sbox s.
Definition inv_sub_bytes (s : bytes) : bytes := map inv_sbox s.
Definition shift_rows (s : bytes) : bytes :=
  match s with
  | [a0; a1; a2; a3; b0; b1; b2; b3; c0; c1; c2; c3; d0; d1; d2; d3] =>
    [a0; b1; c2; d3; b0; c1; d2; a3; c0; d1; a2; b3; d0; a1; b2; c3]
  | _ => s
  end.
Definition inv_shift_rows (s : bytes) : bytes :=
  match s with
  | [a0; a1; a2; a3; b0; b1; b2; b3; c0; c1; c2; c3; d0; d1; d2; d3] =>
    [a0; d1; c2; b3; b0; a1; d2; c3; c0; b1; a2; d3; d0; c1; b2; a3]
  | _ => s
  end.
Definition xor4 (a b c d : Z) : Z := Z.lxor (Z.lxor (Z.lxor a b) c) d.
Definition mix_column (a b c d : Z) : bytes :=
  [xor4 (gmul2 a) (gmul3 b) c d; xor4 a (gmul2 b) (gmul3 c) d;
   xor4 a b (gmul2 c) (gmul3 d); xor4 (gmul3 a) b c (gmul2 d)].
Definition inv_mix_column (a b c d : Z) : bytes :=
  [xor4 (gmul14 a) (gmul11 b) (gmul13 c) (gmul9 d); xor4 (gmul9 a) (gmul14 b) (gmul11 c) (gmul13 d);
   xor4 (gmul13 a) (gmul9 b) (gmul14 c) (gmul11 d); xor4 (gmul11 a) (gmul13 b) (gmul9 c) (gmul14 d)].
Fixpoint columns (f : Z -> Z -> Z -> Z -> bytes) (s : bytes) : bytes :=
  match s with
  | a :: b :: c :: d :: s' => f a b c d ++ columns f s'
  | _ => []
  end.
Definition mix_columns := columns mix_column.
Definition inv_mix_columns := columns inv_mix_column.

(** rounds; the last one has no MixColumns *)
Fixpoint rounds (ks : list bytes) (s : bytes) : bytes :=
  match ks with
  | [] => s
  | [k] => xor_bytes (shift_rows (sub_bytes s)) k
  | k :: ks' => rounds ks' (xor_bytes (mix_columns (shift_rows (sub_bytes s))) k)
  end.
Definition cipher (ks : list bytes) (s : bytes) : bytes :=
  match ks with
  | [] => s
  | k :: ks' => rounds ks' (xor_bytes s k)
  end.
Fixpoint inv_rounds (ks : list bytes) (s : bytes) : bytes :=
  match ks with
  | [] => s
  | [k] => inv_sub_bytes (inv_shift_rows (xor_bytes s k))
  | k :: ks' => inv_sub_bytes (inv_shift_rows (inv_mix_columns (xor_bytes (inv_rounds ks' s) k)))
  end.
Definition inv_cipher (ks : list bytes) (s : bytes) : bytes :=
  match ks with
  | [] => s
  | k :: ks' => xor_bytes (inv_rounds ks' s) k
  end.

(** key expansion; [ws] are the words so far, latest first *)
Definition rot_word (w : bytes) : bytes := match w with a :: w' => w' ++ [a] | [] => [] end.
Fixpoint rcon (i : nat) : Z := match i with O => 1 | S i' => xtime (rcon i') end.
Fixpoint expand (n : nat) (nk i : nat) (ws : list bytes) : list bytes :=
  match n with
  | O => rev ws
  | S n' =>
      let temp := hd [] ws in
      let temp :=
        if (i mod nk =? 0)%nat then xor_bytes (map sbox (rot_word temp)) [rcon (i / nk - 1); 0; 0; 0]
        else if ((6 <? nk) && (i mod nk =? 4))%nat then map sbox temp
        else temp in
      expand n' nk (S i) (xor_bytes (nth (nk - 1) ws []) temp :: ws)
  end.
Fixpoint chunks (k : nat) (n : nat) (l : bytes) : list bytes :=
  match n with
  | O => []
  | S n' => firstn k l :: chunks k n' (skipn k l)
  end.
Fixpoint group4 (ws : list bytes) : list bytes :=
  match ws with
  | a :: b :: c :: d :: ws' => (a ++ b ++ c ++ d) :: group4 ws'
  | _ => []
  end.
Definition round_keys (key : bytes) : list bytes :=
  let nk := Nat.div (length key) 4 in
  group4 (expand (4 * (nk + 7) - nk) nk nk (rev (chunks 4 nk key))).

(** CBC over whole blocks *)
Fixpoint cbc_encrypt (ks : list bytes) (iv : bytes) (blocks : list bytes) : bytes :=
  match blocks with
  | [] => []
  | p :: ps => let c := cipher ks (xor_bytes p iv) in c ++ cbc_encrypt ks c ps
  end.
Fixpoint cbc_decrypt (ks : list bytes) (iv : bytes) (blocks : list bytes) : bytes :=
  match blocks with
  | [] => []
  | c :: cs => xor_bytes (inv_cipher ks c) iv ++ cbc_decrypt ks c cs
  end.
Definition blocks_of (l : bytes) : list bytes := chunks 16 (Nat.div (length l) 16) l.
