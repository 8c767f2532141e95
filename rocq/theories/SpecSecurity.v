(** Independent specification of encrypted payloads. AES and CBC are those of
    FIPS-197 and SP 800-38A as written down in SpecAes.v. *)
From Verif Require Import Py SpecAes SpecUtils SpecFrames.
Open Scope Z_scope.

Definition key16 (k : bytes) : Prop := is_bytes k /\ len k = 16.
(** AES-128-CBC, the key being its own initialisation vector *)
Definition enciphers (k plain ct : bytes) : Prop := aes_cbc k k plain ct.

(** what the CRC protects: announced length, key id, data with padding *)
Definition payload_crc (n id : Z) (body : bytes) : Z := swap16 (crc16_modbus (le2 n ++ [id] ++ body)).
(** [payload k id n body p]: p is header [n], [id] and the ciphertext of body and CRC *)
Definition payload (k : bytes) (id n : Z) (body p : bytes) : Prop :=
  exists ct, p = le2 n ++ [id] ++ ct /\ (len body + 2) mod 16 = 0 /\
    enciphers k (body ++ be2 (payload_crc n id body)) ct.
(** [p] is sealed with this key; what is inside is cut to the announced length *)
Definition unseals (id : Z) (k p d : bytes) : Prop :=
  exists n body, 0 <= n <= 65535 /\ is_bytes body /\ payload k id n body p /\
    d = firstn (Z.to_nat n) (body ++ be2 (payload_crc n id body)).
