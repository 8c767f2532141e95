(** C25-C27, C59, C60, C97: encrypted payloads (elgas/security.py). *)
From Verif Require Import PyFacts SpecUtils SpecFrames SpecAes SpecSecurity Security SecurityProofs.
Open Scope Z_scope.

Definition key33 : bytes := repeat 51 16.
Definition vector_ct : bytes :=
  [141; 50; 30; 14; 66; 109; 249; 191; 142; 114; 43; 91; 185; 175; 166; 46; 149; 4; 169; 42; 136; 107; 29; 113; 187; 255; 47; 87; 248; 91; 138; 91].
Definition vector_pt : bytes :=
  [107; 4; 165; 177; 179; 112; 161; 176; 239; 129; 0; 0; 0; 0; 224; 3; 29; 165; 73; 137; 64; 189; 163; 9; 100; 214; 102; 31; 100; 104; 70; 163].
(** the appendix C.1 vector of FIPS-197, and the vector of tests/test_security.py *)
Example aes_fips197 : cipher (round_keys [0;1;2;3;4;5;6;7;8;9;10;11;12;13;14;15])
  [0; 17; 34; 51; 68; 85; 102; 119; 136; 153; 170; 187; 204; 221; 238; 255] =
  [105; 196; 224; 216; 106; 123; 4; 48; 216; 205; 183; 128; 112; 180; 197; 90].
Proof. vm_compute. reflexivity. Qed.
Example aes_repo_vector : aes_cbc_decrypt vector_ct key33 key33 = Ok vector_pt /\
  aes_cbc_encrypt vector_pt key33 key33 = Ok vector_ct.
Proof. split; vm_compute; reflexivity. Qed.

(** C25 *)
Theorem C25_decrypt_encrypt : forall rnd id k data,
  key16 k -> is_bytes data -> 0 <= id <= 255 -> len data <= 65535 ->
  exists p, context_encrypt rnd (mk_context id k) data = Ok p /\ context_decrypt (mk_context id k) p = Ok data.
Proof. exact encrypt_decrypt. Qed.
Print Assumptions C25_decrypt_encrypt.
Theorem C25_other_key_sizes_encrypt : forall rnd id k data,
  is_bytes data -> len data <= 65535 -> len k <> 16 -> context_encrypt rnd (mk_context id k) data = Err ValueError.
Proof. exact encrypt_bad_key. Qed.
Print Assumptions C25_other_key_sizes_encrypt.
Theorem C25_other_key_sizes_decrypt : forall id k a b ct, len k <> 16 ->
  context_decrypt (mk_context id k) (a :: b :: id :: ct) = Err ValueError.
Proof. exact decrypt_bad_key. Qed.
Print Assumptions C25_other_key_sizes_decrypt.
Theorem C25_too_long : forall rnd id k data, len data > 65535 ->
  context_encrypt rnd (mk_context id k) data = Err OverflowError.
Proof. exact encrypt_too_long. Qed.
Print Assumptions C25_too_long.
Example C25_ex : key16 key33 /\ is_bytes [13; 27; 0] /\
  match context_encrypt (fun i => Z.of_nat i * 77) (mk_context 3 key33) [13; 27; 0] with
  | Ok p => len p = 19 /\ firstn 3 p = [3; 0; 3] /\ context_decrypt (mk_context 3 key33) p = Ok [13; 27; 0]
  | Err _ => False
  end.
Proof.
  split; [split; [repeat constructor; lia|reflexivity]|]. split; [repeat constructor; lia|]. vm_compute. repeat split.
Qed.

(** C26 *)
Theorem C26_payload_format : forall rnd id k data p, key16 k -> is_bytes data ->
  context_encrypt rnd (mk_context id k) data = Ok p ->
  exists ct, p = le2 (len data) ++ [id] ++ ct /\ len ct mod 16 = 0 /\ len data + 2 <= len ct < len data + 2 + 16.
Proof. exact encrypt_format. Qed.
Print Assumptions C26_payload_format.
(** the ciphertext hides data, padding of 0..125 and the CRC over everything *)
Theorem C26_payload_content : forall rnd id k data,
  key16 k -> is_bytes data -> 0 <= id <= 255 -> len data <= 65535 ->
  exists p pad, context_encrypt rnd (mk_context id k) data = Ok p /\
    payload k id (len data) (data ++ pad) p /\ is_bytes p /\
    Forall (fun b => 0 <= b <= 125) pad /\ len pad < 16.
Proof. exact encrypt_payload. Qed.
Print Assumptions C26_payload_content.
Theorem C26_crc_method : forall rnd id k data, is_bytes data -> 0 <= id <= 255 -> len data <= 65535 ->
  context_crc rnd (mk_context id k) data = Ok (payload_crc (len data) id (data ++ data_padding rnd data)).
Proof. exact context_crc_spec. Qed.
Print Assumptions C26_crc_method.
Example C26_ex : match context_encrypt (fun i => Z.of_nat i) (mk_context 1 key33) (repeat 7 15) with
  | Ok p => len p = 35 | Err _ => False end /\
  match context_encrypt (fun i => Z.of_nat i) (mk_context 1 key33) (repeat 7 14) with
  | Ok p => len p = 19 | Err _ => False end.
Proof. split; vm_compute; reflexivity. Qed.

(** C27 *)
(** exactly the sealed payloads are opened *)
Theorem C27_accepted_iff_sealed : forall id k p d, is_bytes p -> key16 k ->
  context_decrypt (mk_context id k) p = Ok d <->
  exists n body, 0 <= n <= 65535 /\ 0 <= id <= 255 /\ is_bytes body /\ payload k id n body p /\
    d = firstn (Z.to_nat n) (body ++ be2 (payload_crc n id body)).
Proof. exact decrypt_iff. Qed.
Print Assumptions C27_accepted_iff_sealed.
Theorem C27_other_key_id_rejected : forall id k a b i ct, i <> id ->
  context_decrypt (mk_context id k) (a :: b :: i :: ct) = Err AssertionError.
Proof. exact decrypt_key_id. Qed.
Print Assumptions C27_other_key_id_rejected.
Theorem C27_changed_length_rejected : forall id k a b a' b' ct d,
  is_bytes (a :: b :: id :: ct) -> is_byte a' -> is_byte b' -> key16 k ->
  context_decrypt (mk_context id k) (a :: b :: id :: ct) = Ok d -> (a', b') <> (a, b) ->
  context_decrypt (mk_context id k) (a' :: b' :: id :: ct) = Err ValueError.
Proof. exact decrypt_length_tamper. Qed.
Print Assumptions C27_changed_length_rejected.
Theorem C27_ragged_ciphertext_rejected : forall id k a b i ct, len ct mod 16 <> 0 ->
  context_decrypt (mk_context id k) (a :: b :: i :: ct) = Err ValueError \/
  context_decrypt (mk_context id k) (a :: b :: i :: ct) = Err AssertionError.
Proof. exact decrypt_ragged. Qed.
Print Assumptions C27_ragged_ciphertext_rejected.
Theorem C27_errors : forall id k p e, is_bytes p -> key16 k -> context_decrypt (mk_context id k) p = Err e ->
  (e = IndexError /\ len p < 3) \/ (e = AssertionError /\ exists a b i ct, p = a :: b :: i :: ct /\ i <> id) \/
  (e = ValueError /\ exists a b ct, p = a :: b :: id :: ct).
Proof. exact decrypt_errors. Qed.
Print Assumptions C27_errors.
(** the repository's vector is a sealed payload; with another length it is not *)
Example C27_ex : context_decrypt (mk_context 3 key33) ([16; 0; 3] ++ vector_ct) = Ok (firstn 16 vector_pt) /\
  context_decrypt (mk_context 3 key33) ([17; 0; 3] ++ vector_ct) = Err ValueError /\
  context_decrypt (mk_context 3 key33) ([16; 0; 4] ++ vector_ct) = Err AssertionError.
Proof. repeat split; vm_compute; reflexivity. Qed.

(** C59 *)
(** a user expects as many bytes as the header announces; this holds whenever
    they fit in front of the CRC *)
Theorem C59_announced_length : forall id k p d, is_bytes p -> key16 k -> context_decrypt (mk_context id k) p = Ok d ->
  let n := from_le (firstn 2 p) in let room := len p - 5 in
  (n <= room -> len d = n) /\ (room < n -> len d = Z.min n (room + 2) /\ room < len d).
Proof. exact decrypt_length. Qed.
Print Assumptions C59_announced_length.
(** but a larger announced length is accepted, and the CRC is returned as data *)
Theorem C59_overlong_rejected_refuted : forall id k n body, key16 k -> is_bytes body -> 0 <= id <= 255 ->
  (len body + 2) mod 16 = 0 -> len body + 2 <= n <= 65535 ->
  exists p crc, is_bytes p /\ len p = len body + 5 /\ firstn 3 p = le2 n ++ [id] /\ len crc = 2 /\
    context_decrypt (mk_context id k) p = Ok (body ++ crc).
Proof. exact overlong_accepted. Qed.
Print Assumptions C59_overlong_rejected_refuted.
Example C59_ex : key16 key33 /\ (len (repeat 9 30) + 2) mod 16 = 0.
Proof. split; [split; [repeat constructor; lia|reflexivity]|reflexivity]. Qed.

(** C60 *)
(** equal leading blocks of data give equal leading blocks of ciphertext,
    whatever is drawn *)
Theorem C60_equal_prefixes_visible_refuted : forall rnd rnd' id k common d1 d2 p1 p2,
  key16 k -> is_bytes common -> is_bytes d1 -> is_bytes d2 -> len common mod 16 = 0 ->
  context_encrypt rnd (mk_context id k) (common ++ d1) = Ok p1 ->
  context_encrypt rnd' (mk_context id k) (common ++ d2) = Ok p2 ->
  firstn (length common) (skipn 3 p1) = firstn (length common) (skipn 3 p2).
Proof. exact encrypt_deterministic_prefix. Qed.
Print Assumptions C60_equal_prefixes_visible_refuted.
Theorem C60_unpadded_data_repeats_refuted : forall rnd rnd' ctx data, (len data + 2) mod 16 = 0 ->
  context_encrypt rnd ctx data = context_encrypt rnd' ctx data.
Proof. exact encrypt_unpadded_deterministic. Qed.
Print Assumptions C60_unpadded_data_repeats_refuted.
Example C60_ex : match context_encrypt (fun _ => 5) (mk_context 3 key33) (repeat 1 16 ++ [8]),
                       context_encrypt (fun _ => 6) (mk_context 3 key33) (repeat 1 16 ++ [9; 9]) with
  | Ok p1, Ok p2 => p1 <> p2 | _, _ => False end.
Proof. vm_compute. discriminate. Qed.

(** C97: the functions encrypt and decrypt of the module are AES-CBC of the standards *)
Theorem C97_encrypts : forall data key iv ct, is_bytes data -> is_bytes key -> is_bytes iv ->
  (aes_cbc_encrypt data key iv = Ok ct <-> aes_key_length key /\ len iv = 16 /\ len data mod 16 = 0 /\ aes_cbc key iv data ct).
Proof. exact encrypt_standard. Qed.
Print Assumptions C97_encrypts.
Theorem C97_decrypts : forall data key iv ct, is_bytes ct -> is_bytes key -> is_bytes iv ->
  (aes_cbc_decrypt ct key iv = Ok data <-> aes_key_length key /\ len iv = 16 /\ len ct mod 16 = 0 /\ is_bytes data /\ aes_cbc key iv data ct).
Proof. exact decrypt_standard. Qed.
Print Assumptions C97_decrypts.
Theorem C97_refused : forall data key iv x,
  (aes_cbc_encrypt data key iv = Err x <-> x = ValueError /\ ~ (aes_key_length key /\ len iv = 16 /\ len data mod 16 = 0)) /\
  (aes_cbc_decrypt data key iv = Err x <-> x = ValueError /\ ~ (aes_key_length key /\ len iv = 16 /\ len data mod 16 = 0)).
Proof. exact aes_refused. Qed.
Print Assumptions C97_refused.
(** the vectors of FIPS-197, appendix C *)
Definition fips_plain : bytes := [0; 17; 34; 51; 68; 85; 102; 119; 136; 153; 170; 187; 204; 221; 238; 255].
Example C97_appendix_C1 : aes_cbc (map Z.of_nat (seq 0 16)) (repeat 0 16) fips_plain [105; 196; 224; 216; 106; 123; 4; 48; 216; 205; 183; 128; 112; 180; 197; 90].
Proof.
  apply (proj1 (encrypt_standard fips_plain (map Z.of_nat (seq 0 16)) (repeat 0 16) _ ltac:(repeat constructor; lia) ltac:(repeat constructor; lia) ltac:(repeat constructor; lia))).
  vm_compute. reflexivity.
Qed.
Example C97_ex : aes_key_length (map Z.of_nat (seq 0 24)) /\ is_bytes fips_plain /\
  aes_cbc_encrypt fips_plain (map Z.of_nat (seq 0 24)) (repeat 0 16) = Ok [221; 169; 124; 164; 134; 76; 223; 224; 110; 175; 112; 160; 236; 13; 113; 145] /\
  aes_cbc_encrypt fips_plain (map Z.of_nat (seq 0 32)) (repeat 0 16) = Ok [142; 162; 183; 202; 81; 103; 69; 191; 234; 252; 73; 144; 75; 73; 96; 137].
Proof. split; [right; left; reflexivity|]. split; [repeat constructor; lia|]. split; vm_compute; reflexivity. Qed.
