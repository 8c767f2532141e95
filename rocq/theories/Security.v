(** Model of /repo/elgas/security.py. *)
From Verif Require Export Utils Aes.
Open Scope Z_scope.

(** elgas/security.py:34-39: [n] draws of random.randint(0, 125); draw i is
    determined by the arbitrary oracle [rnd i] *)
Definition random_padding (rnd : nat -> Z) (n : Z) : bytes :=
  map (fun i => rnd i mod 126) (seq 0 (Z.to_nat n)).
(** elgas/security.py:20-39 data_padding *)
Definition data_padding (rnd : nat -> Z) (data : bytes) : bytes :=
  let rest := (len data + 2) mod 16 in
  if rest =? 0 then []
  else
    let to_pad := 16 - rest in
    random_padding rnd to_pad.

(** elgas/security.py:93-98 encrypt. The library raises ValueError for a key
    that is not 16, 24 or 32 bytes long, an iv that is not 16 bytes long
    (construction of Cipher), and for data that is not a multiple of the block
    size (finalize). *)
Definition aes_cbc_encrypt (data key iv : bytes) : res bytes :=
  guard (len key =? 16) || (len key =? 24) || (len key =? 32) else ValueError ;;
  guard len iv =? 16 else ValueError ;;
  guard len data mod 16 =? 0 else ValueError ;;
  Ok (cbc_encrypt (round_keys key) iv (blocks_of data)).
(** elgas/security.py:101-106 decrypt *)
Definition aes_cbc_decrypt (cipher_text key iv : bytes) : res bytes :=
  guard (len key =? 16) || (len key =? 24) || (len key =? 32) else ValueError ;;
  guard len iv =? 16 else ValueError ;;
  guard len cipher_text mod 16 =? 0 else ValueError ;;
  Ok (cbc_decrypt (round_keys key) iv (blocks_of cipher_text)).

(** elgas/security.py:42-45 CipherContext; [key_id] is any int, the annotation
    EncryptionKeyId (security.py:10-17) is not enforced *)
Record cipher_context := mk_context { key_id : Z; key : bytes }.

(** elgas/security.py:47-53 CipherContext.crc *)
Definition context_crc (rnd : nat -> Z) (self : cipher_context) (data : bytes) : res Z :=
  l <- to_le 2 (len data) ;;
  let for_crc := [] ++ l in
  for_crc <- append for_crc (key_id self) ;;
  let for_crc := for_crc ++ data in
  let for_crc := for_crc ++ data_padding rnd data in
  Ok (calculate_crc for_crc).

(** elgas/security.py:55-69 CipherContext.encrypt *)
Definition context_encrypt (rnd : nat -> Z) (self : cipher_context) (data : bytes) : res bytes :=
  l <- to_le 2 (len data) ;;
  let for_crc := [] ++ l in
  for_crc <- append for_crc (key_id self) ;;
  let padded_data := data_padding rnd data in
  let for_crc := for_crc ++ data in
  let for_crc := for_crc ++ padded_data in
  let crc := calculate_crc for_crc in
  c <- to_be 2 crc ;;
  let unencrypted := for_crc ++ c in
  let header := slice_to 3 unencrypted in
  let to_cipher := slice_from 3 unencrypted in
  cipher_text <- aes_cbc_encrypt to_cipher (key self) (key self) ;;
  Ok (header ++ cipher_text).

(** elgas/security.py:71-90 CipherContext.decrypt *)
Definition context_decrypt (self : cipher_context) (in_data : bytes) : res bytes :=
  let header := slice_to 3 in_data in
  let encrypted := slice_from 3 in_data in
  let original_length := from_le (slice_to 2 header) in
  id <- getitem 2 header ;;
  guard id =? key_id self else AssertionError ;;
  decrypted_data <- aes_cbc_decrypt encrypted (key self) (key self) ;;
  l <- to_le 2 original_length ;;
  let for_crc := [] ++ l in
  for_crc <- append for_crc id ;;
  let for_crc := for_crc ++ slice_to (-2) decrypted_data in
  crc <- to_be 2 (calculate_crc for_crc) ;;
  let correct_crc := slice_from (-2) decrypted_data in
  guard list_eqb crc correct_crc else ValueError ;;
  let original_data := slice_to original_length decrypted_data in
  Ok original_data.
