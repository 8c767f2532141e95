(** Independent specification of the telegram format. *)
From Verif Require Import Py SpecUtils.
Open Scope Z_scope.

(** two-byte numbers, least / most significant byte first *)
Definition le2 (n : Z) : bytes := [n mod 256; n / 256].
Definition be2 (n : Z) : bytes := [n / 256; n mod 256].

(** STX, protected region, LRC, checksum, DRC, end character *)
Definition sealed (R : bytes) : bytes :=
  2 :: R ++ [xor_all R; sum_all R mod 256; drc_spec R; 13].

(** type, service, count of all bytes but STX, addresses, data *)
Definition wire (addr : Z -> bytes) (type service_no d1 d2 s1 s2 : Z) (data : bytes) : bytes :=
  sealed ([254; type; service_no] ++ le2 (len data + 15) ++
          addr d1 ++ [d2] ++ addr s1 ++ [s2] ++ data).
(** requests carry the two-byte addresses most significant byte first,
    responses least significant byte first *)
Definition request_wire := wire be2.
Definition response_wire := wire le2.

(** the first field (in wire order) that is out of range decides the error:
    [true] for a two-byte field, [false] for a one-byte field *)
Inductive field_error := two_byte_field | one_byte_field.
Definition fits2 (n : Z) : bool := (0 <=? n) && (n <=? 65535).
Definition fits1 (n : Z) : bool := (0 <=? n) && (n <=? 255).
Definition first_misfit (d1 d2 s1 s2 : Z) (data : bytes) : option field_error :=
  if len data >? 65520 then Some two_byte_field
  else if negb (fits2 d1) then Some two_byte_field
  else if negb (fits1 d2) then Some one_byte_field
  else if negb (fits2 s1) then Some two_byte_field
  else if negb (fits1 s2) then Some one_byte_field
  else None.

(** exchange of the two bytes of a two-byte number *)
Definition swap2 (n : Z) : Z := 256 * (n mod 256) + n / 256.

(** same bytes except at one position *)
Definition one_byte_changed (t t' : bytes) : Prop :=
  exists p x y q, t = p ++ x :: q /\ t' = p ++ y :: q /\ x <> y.

(** the four telegram classes and the two factories, by type byte *)
Definition telegram_type (TYPE : Z) : Prop := TYPE = 132 \/ TYPE = 133 \/ TYPE = 134 \/ TYPE = 135.
(** the telegram [t] with its protected region (all but STX and the last four
    bytes) replaced *)
Definition with_region (t : bytes) (R' : bytes) : bytes :=
  firstn 1 t ++ R' ++ skipn (length t - 4) t.
Definition flip (i x : Z) : Z := Z.lxor x (2 ^ i).
