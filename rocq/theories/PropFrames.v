(** C07-C13: telegrams (elgas/frames.py). *)
From Verif Require Import PyFacts SpecUtils SpecFrames Utils Frames FramesProofs SpecNumbers NumberProofs.
Open Scope Z_scope.

(** a non-trivial frame used in the examples *)
Definition sample : frame := mk_frame READ_ARCHIVES 258 3 1 0 [13; 27; 200; 55; 0].
Definition sample_wire : bytes :=
  [2; 254; 134; 124; 20; 0; 2; 1; 3; 1; 0; 0; 13; 27; 200; 55; 0; 248; 66; 220; 13].
Example sample_ok : response_to_bytes 134 sample = Ok sample_wire /\ telegram_type 134 /\
  is_bytes (f_data sample) /\ in_range sample.
Proof.
  split; [vm_compute; reflexivity|]. split; [unfold telegram_type; lia|].
  split; [repeat constructor; unfold is_byte; lia|]. unfold in_range, len. cbn. lia.
Qed.

(** C07 *)
Theorem C07_response_single_byte_corruption_rejected : forall TYPE f t t',
  telegram_type TYPE -> is_bytes (f_data f) ->
  response_to_bytes TYPE f = Ok t -> one_byte_changed t t' -> is_bytes t' ->
  response_from_bytes TYPE t' = Err ValueError /\ response_factory t' = Err ValueError.
Proof. exact corrupt_response. Qed.
Print Assumptions C07_response_single_byte_corruption_rejected.
Theorem C07_request_single_byte_corruption_rejected : forall TYPE f t t',
  telegram_type TYPE -> is_bytes (f_data f) ->
  request_to_bytes TYPE f = Ok t -> one_byte_changed t t' -> is_bytes t' ->
  request_from_bytes TYPE t' = Err ValueError.
Proof. exact corrupt_request. Qed.
Print Assumptions C07_request_single_byte_corruption_rejected.
Example C07_ex : one_byte_changed sample_wire
  [2; 254; 134; 124; 20; 0; 2; 1; 3; 1; 0; 0; 13; 27; 201; 55; 0; 248; 66; 220; 13].
Proof. exists [2; 254; 134; 124; 20; 0; 2; 1; 3; 1; 0; 0; 13; 27], 200, 201, [55; 0; 248; 66; 220; 13].
  repeat split; lia. Qed.

(** C08 *)
Theorem C08_adjacent_exchange_rejected : forall TYPE f t p a b q,
  telegram_type TYPE -> is_bytes (f_data f) ->
  response_to_bytes TYPE f = Ok t -> t = with_region t (p ++ a :: b :: q) ->
  a <> b -> a + b <> 255 ->
  response_from_bytes TYPE (with_region t (p ++ b :: a :: q)) = Err ValueError.
Proof. exact swap_adjacent. Qed.
Print Assumptions C08_adjacent_exchange_rejected.
Theorem C08_adjacent_exchange_rejected_request : forall TYPE f t p a b q,
  telegram_type TYPE -> is_bytes (f_data f) ->
  request_to_bytes TYPE f = Ok t -> t = with_region t (p ++ a :: b :: q) ->
  a <> b -> a + b <> 255 ->
  request_from_bytes TYPE (with_region t (p ++ b :: a :: q)) = Err ValueError.
Proof. exact swap_adjacent_request. Qed.
Print Assumptions C08_adjacent_exchange_rejected_request.
(** exchanging complementary payload bytes leaves the trailer as it is, and the
    telegram is accepted with the exchanged payload *)
Theorem C08_complement_exchange_undetected : forall TYPE f t p a b q,
  telegram_type TYPE -> is_bytes (f_data f) -> f_data f = p ++ a :: b :: q -> a + b = 255 ->
  response_to_bytes TYPE f = Ok t ->
  exists f' t', f_data f' = p ++ b :: a :: q /\ f_service f' = f_service f /\
    skipn (length t' - 4) t' = skipn (length t - 4) t /\ response_from_bytes TYPE t' = Ok f'.
Proof. exact swap_complement_accepted. Qed.
Print Assumptions C08_complement_exchange_undetected.
Theorem C08_two_bit_flips_rejected : forall TYPE f t p x m y q i j,
  telegram_type TYPE -> is_bytes (f_data f) ->
  response_to_bytes TYPE f = Ok t -> t = with_region t (p ++ x :: m ++ y :: q) ->
  0 <= i < 8 -> 0 <= j < 8 ->
  ~ (i = j /\ (Z.testbit x i <> Z.testbit y i \/ i = 7) /\ ((length m + 1) mod 8 = 0)%nat) ->
  response_from_bytes TYPE (with_region t (p ++ flip i x :: m ++ flip j y :: q)) = Err ValueError.
Proof. exact two_bit_flips. Qed.
Print Assumptions C08_two_bit_flips_rejected.
(** the exception is real: bit 0 flipped in two payload bytes 8 apart *)
Theorem C08_two_bit_flips_undetected : exists f f' t t',
  f <> f' /\ response_to_bytes 134 f = Ok t /\ response_from_bytes 134 t' = Ok f' /\
  skipn (length t - 4) t = skipn (length t' - 4) t' /\
  f_data f = [1; 9; 9; 9; 9; 9; 9; 9; 0] /\ f_data f' = [0; 9; 9; 9; 9; 9; 9; 9; 1].
Proof. exact two_flips_undetected. Qed.
Print Assumptions C08_two_bit_flips_undetected.
Example C08_ex : sample_wire =
  with_region sample_wire ([254; 134; 124; 20; 0; 2; 1; 3; 1; 0; 0; 13] ++ 27 :: 200 :: [55; 0]).
Proof. reflexivity. Qed.

(** C09 *)
Theorem C09_response_roundtrip : forall TYPE f, is_byte TYPE -> is_bytes (f_data f) -> in_range f ->
  exists t, response_to_bytes TYPE f = Ok t /\ response_from_bytes TYPE t = Ok f.
Proof. exact response_roundtrip. Qed.
Print Assumptions C09_response_roundtrip.
Theorem C09_to_bytes_injective : forall TYPE f g t,
  is_byte TYPE -> is_bytes (f_data f) -> is_bytes (f_data g) ->
  response_to_bytes TYPE f = Ok t -> response_to_bytes TYPE g = Ok t -> f = g.
Proof. exact to_bytes_injective. Qed.
Print Assumptions C09_to_bytes_injective.
Example C09_ex : response_from_bytes 134 sample_wire = Ok sample.
Proof. vm_compute. reflexivity. Qed.

(** C10 *)
Theorem C10_request_roundtrip_refuted : exists f, is_bytes (f_data f) /\ in_range f /\
  exists t g, request_to_bytes 132 f = Ok t /\ request_from_bytes 132 t = Ok g /\ g <> f.
Proof. exact request_roundtrip_fails. Qed.
Print Assumptions C10_request_roundtrip_refuted.
(** what does come back: both two-byte addresses with their bytes exchanged *)
Theorem C10_request_roundtrip_swapped : forall TYPE f, is_byte TYPE -> is_bytes (f_data f) -> in_range f ->
  exists t, request_to_bytes TYPE f = Ok t /\
    request_from_bytes TYPE t =
    Ok (mk_frame (f_service f) (swap2 (destination_address_1 f)) (destination_address_2 f)
          (swap2 (source_address_1 f)) (source_address_2 f) (f_data f)).
Proof. exact request_roundtrip_swapped. Qed.
Print Assumptions C10_request_roundtrip_swapped.
Theorem C10_request_roundtrip_iff_palindrome : forall TYPE f,
  is_byte TYPE -> is_bytes (f_data f) -> in_range f ->
  exists t, request_to_bytes TYPE f = Ok t /\
   (request_from_bytes TYPE t = Ok f <->
    swap2 (destination_address_1 f) = destination_address_1 f /\
    swap2 (source_address_1 f) = source_address_1 f).
Proof. exact request_roundtrip_iff. Qed.
Print Assumptions C10_request_roundtrip_iff_palindrome.

(** C11 *)
Theorem C11_response_layout : forall TYPE f, is_byte TYPE -> is_bytes (f_data f) ->
  response_to_bytes TYPE f =
  match first_misfit (destination_address_1 f) (destination_address_2 f)
          (source_address_1 f) (source_address_2 f) (f_data f) with
  | Some two_byte_field => Err OverflowError
  | Some one_byte_field => Err ValueError
  | None => Ok (response_wire TYPE (service_number (f_service f)) (destination_address_1 f)
                  (destination_address_2 f) (source_address_1 f) (source_address_2 f) (f_data f))
  end.
Proof. exact response_layout. Qed.
Print Assumptions C11_response_layout.
Theorem C11_request_layout : forall TYPE f, is_byte TYPE -> is_bytes (f_data f) ->
  request_to_bytes TYPE f =
  match first_misfit (destination_address_1 f) (destination_address_2 f)
          (source_address_1 f) (source_address_2 f) (f_data f) with
  | Some two_byte_field => Err OverflowError
  | Some one_byte_field => Err ValueError
  | None => Ok (request_wire TYPE (service_number (f_service f)) (destination_address_1 f)
                  (destination_address_2 f) (source_address_1 f) (source_address_2 f) (f_data f))
  end.
Proof. exact request_layout. Qed.
Print Assumptions C11_request_layout.
Theorem C11_service_numbers : forall n s, service_number s = n <-> In (n, s) service_numbers.
Proof. exact service_numbers_iff. Qed.
Print Assumptions C11_service_numbers.
Theorem C11_service_lookup : forall n s, service_of_number n = Ok s <-> In (n, s) service_numbers.
Proof. exact service_numbers_lookup. Qed.
Print Assumptions C11_service_lookup.
Theorem C11_service_numbers_distinct : forall s s', service_number s = service_number s' -> s = s'.
Proof. exact service_number_inj. Qed.
Print Assumptions C11_service_numbers_distinct.
Example C11_ex : response_wire 134 124 258 3 1 0 [13; 27; 200; 55; 0] = sample_wire /\
  first_misfit 65536 0 0 300 [] = Some two_byte_field.
Proof. split; vm_compute; reflexivity. Qed.

(** C12 *)
Theorem C12_accepted_is_canonical : forall TYPE b f, is_bytes b -> is_byte TYPE -> 16 <= len b ->
  response_from_bytes TYPE b = Ok f ->
  in_range f /\ is_bytes (f_data f) /\ response_to_bytes TYPE f = Ok b.
Proof. exact accepted_canonical. Qed.
Print Assumptions C12_accepted_is_canonical.
(** without the length hypothesis it is false: a 10 byte runt (no addresses,
    trailer read as addresses) is accepted, and re-encodes to 16 bytes *)
Theorem C12_runt_accepted_refuted : exists b f, is_bytes b /\ len b < 16 /\
  response_from_bytes 134 b = Ok f /\ response_to_bytes 134 f <> Ok b.
Proof. exact runt_accepted. Qed.
Print Assumptions C12_runt_accepted_refuted.
Example C12_ex : 16 <= len sample_wire /\ is_bytes sample_wire /\ response_from_bytes 134 sample_wire = Ok sample.
Proof. split; [vm_compute; discriminate|]. split; [repeat constructor; unfold is_byte; lia|vm_compute; reflexivity]. Qed.

(** C13 *)
Theorem C13_response_errors : forall TYPE b e, telegram_type TYPE ->
  response_from_bytes TYPE b = Err e -> e = ValueError.
Proof. exact response_errors. Qed.
Print Assumptions C13_response_errors.
Theorem C13_request_errors : forall TYPE b e, telegram_type TYPE ->
  request_from_bytes TYPE b = Err e -> e = ValueError.
Proof. exact request_errors. Qed.
Print Assumptions C13_request_errors.
Theorem C13_factory_errors : forall b e, response_factory b = Err e -> e = ValueError.
Proof. exact response_factory_errs. Qed.
Print Assumptions C13_factory_errors.
Theorem C13_factory_plain_iff_0x86 : forall b f,
  response_factory b = Ok (PlainResponse f) <-> response_from_bytes 134 b = Ok f.
Proof. exact response_factory_plain. Qed.
Print Assumptions C13_factory_plain_iff_0x86.
Theorem C13_factory_encrypted_iff_0x87 : forall b f,
  response_factory b = Ok (EncryptedResponse f) <-> response_from_bytes 135 b = Ok f.
Proof. exact response_factory_encrypted. Qed.
Print Assumptions C13_factory_encrypted_iff_0x87.
Example C13_ex : response_from_bytes 134 [2; 254; 134] = Err ValueError /\
  response_factory sample_wire = Ok (PlainResponse sample).
Proof. split; vm_compute; reflexivity. Qed.
