(** Parameter objects and parameter blocks: properties C43-C48 and C58. *)
From Coq Require Import QArith.
From Verif Require Import Py PyFacts Utils PyFloat ParamLang Parameters SpecText SpecApplication SpecParameters FloatProofs ParamProofs ParserProofs SpecNumbers NumberProofs.
Open Scope string_scope.
Open Scope list_scope.
Open Scope Z_scope.

(** ** C43 Parameter block parsing *)

(** a block of objects gives the list of the individual readings, in order *)
Theorem C43_parse_block : forall objs vs,
  objs <> [] -> read_one_by_one objs vs ->
  parse None (Some (transmission objs)) = Some (Ok vs).
Proof. exact parse_objects. Qed.

(** the first object that cannot be read decides; what follows is not looked at *)
Theorem C43_first_error : forall objs vs t c e following,
  read_one_by_one objs vs -> parameter_from_bytes t c = Err e ->
  parse None (Some (transmission objs ++ transmitted (t, c) ++ following)) = Some (Err e).
Proof. exact parse_first_error. Qed.

(** the loop ends on every input: any number of iterations not below the number of
    bytes gives the same, defined, result *)
Theorem C43_terminates : forall iterations l,
  l <> [] -> (length l <= iterations)%nat ->
  parse_loop iterations [] l = parse None (Some l) /\ exists r, parse None (Some l) = Some r.
Proof. exact parse_any_fuel. Qed.

(** no data, and data given to the constructor *)
Theorem C43_no_data :
  parse None (Some []) = Some (Err ValueError) /\ parse (Some []) (Some []) = Some (Err ValueError) /\
  parse None None = Some (Err TypeError) /\
  (forall b l d, parse (Some (b :: l)) d = parse None (Some (b :: l))) /\
  (forall d, parse (Some []) d = parse None d).
Proof. repeat split. Qed.

Definition timer1 : bytes := map Z.of_nat (seq 1 36).
Definition window2 : bytes := map Z.of_nat (seq 3 31) ++ [33; 34; 35; 2] ++ map Z.of_nat (seq 36 20).
Example C43_hypotheses : exists v1 v2 v3, v1 <> v2 /\
  read_one_by_one [(TIMER, timer1); (TIME_WINDOW, window2); (TIMER, timer1)] [v1; v2; v3] /\
  transmission [(TIMER, timer1); (TIME_WINDOW, window2); (TIMER, timer1)] =
    [39; 0; 65] ++ timer1 ++ [58; 0; 48] ++ window2 ++ [39; 0; 65] ++ timer1 /\
  parameter_from_bytes TIMER [1] = Err IndexError.
Proof.
  do 3 eexists. split; [|split; [repeat constructor; vm_compute; reflexivity|split; vm_compute; reflexivity]].
  discriminate.
Qed.

(** ** C44 Malformed parameter blocks *)

(** an announced length below 3, after any objects *)
Theorem C44_short_length_raises : forall objs n code content,
  0 <= n < 3 -> is_bytes content ->
  exists e, parse None (Some (transmission objs ++ object_header n code ++ content)) = Some (Err e).
Proof. exact parse_short_length. Qed.

(** a type code no type has, after any objects: an error, and ValueError if it is
    the first problem of the block *)
Theorem C44_unknown_type_raises : forall objs n code content,
  (forall t, type_code t <> code) ->
  exists e, parse None (Some (transmission objs ++ object_header n code ++ content)) = Some (Err e) /\
  (forall vs, read_one_by_one objs vs -> e = ValueError).
Proof. exact parse_unknown_type. Qed.

(** the type codes: the enumeration finds exactly the types of the table, and refuses
    all other codes *)
Theorem C44_type_codes : forall n t, type_code t = n <-> In (n, t) type_numbers.
Proof. exact type_numbers_iff. Qed.
Print Assumptions C44_type_codes.
Theorem C44_type_lookup : forall n t, parameter_type_of n = Ok t <-> In (n, t) type_numbers.
Proof. exact type_numbers_lookup. Qed.
Print Assumptions C44_type_lookup.

(** one or two bytes left over *)
Theorem C44_cut_header_raises : forall objs l,
  0 < len l < 3 ->
  exists e, parse None (Some (transmission objs ++ l)) = Some (Err e) /\
  (forall vs, read_one_by_one objs vs -> e = IndexError).
Proof. exact parse_cut_header. Qed.

(** refuted: an announced length beyond the end of the block is accepted, the
    object is read as if its length were the number of bytes left *)
Theorem C44_overlong_accepted : forall objs vs t c v n,
  read_one_by_one objs vs -> parameter_from_bytes t c = Ok v -> len c + 3 <= n ->
  parse None (Some (transmission objs ++ object_header n (type_code t) ++ c)) = Some (Ok (vs ++ [v])).
Proof. exact parse_overlong. Qed.

(** and nothing else is accepted: whatever parses is a block of objects whose last
    one may announce more bytes than there are *)
Theorem C44_accepted_blocks : forall l vs,
  is_bytes l -> parse None (Some l) = Some (Ok vs) ->
  exists objs t c n,
    l = transmission objs ++ object_header n (type_code t) ++ c /\ len c + 3 <= n < 65536 /\
    is_bytes c /\ Forall sendable objs /\ read_one_by_one (objs ++ [(t, c)]) vs.
Proof. exact parse_ok_inv. Qed.

Example C44_hypotheses : (forall t, type_code t <> 29) /\ (forall t, type_code t <> 255) /\
  (exists v, parameter_from_bytes TIMER timer1 = Ok v) /\
  (exists v, parse None (Some (object_header 200 65 ++ timer1)) = Some (Ok [v])).
Proof.
  split; [intros []; discriminate|]. split; [intros []; discriminate|].
  split; eexists; vm_compute; reflexivity.
Qed.

(** ** C45 Parameter fields are read at their offsets *)
Theorem C45_fields : forall t l r cls fields,
  is_bytes l -> In (r, Object cls fields) (documented t (byte_at 34 l)) -> within (len l) r ->
  exists attrs, parameter_from_bytes t l = Ok (VObj cls attrs) /\
    Forall2 (fun a f => fst a = fst f /\ shows l (snd f) (snd a)) attrs fields.
Proof. exact (fun t l r cls fields Hl I W => parameter_conforms t l r (Object cls fields) Hl I W). Qed.

(** by name: an attribute has the value shown at its documented place *)
Theorem C45_attribute : forall t l r cls fields name place,
  is_bytes l -> In (r, Object cls fields) (documented t (byte_at 34 l)) -> within (len l) r ->
  lookup name fields = Some place ->
  exists attrs v, parameter_from_bytes t l = Ok (VObj cls attrs) /\ lookup name attrs = Some v /\ shows l place v.
Proof. exact attribute_shown. Qed.

Definition counter_object : bytes :=
  [7; 1; 2; 0; 44; 1; 0; 2; 91] ++ map Z.of_nat (seq 65 23) ++ [109; 51; 32; 32; 32; 32; 32; 32] ++
  [0; 0; 0; 0; 0; 0; 240; 63; 4; 3; 2; 1; 1; 0; 2; 0; 3; 0; 4; 0; 5; 0; 6; 0] ++ repeat 32 17 ++ [2].
Example C45_hypotheses : is_bytes counter_object /\ exists r cls fields attrs,
  In (r, Object cls fields) (documented COUNTER (byte_at 34 counter_object)) /\ within (len counter_object) r /\
  lookup "digit" fields = Some (Double 40) /\
  parameter_from_bytes COUNTER counter_object = Ok (VObj cls attrs) /\
  lookup "digit" attrs = Some (VFloat (Fin false 1 0)) /\ lookup "number" attrs = Some (VInt 263) /\
  lookup "in_monthly_archive" attrs = Some (VBool false) /\ lookup "unit" attrs = Some (VStr [109; 51]) /\
  lookup "decimals" attrs = Some (VInt 2).
Proof.
  split; [repeat constructor; vm_compute; try discriminate; reflexivity|].
  do 4 eexists. split; [right; right; left; reflexivity|]. split; [split; [discriminate|exact I]|].
  split; [reflexivity|]. split; [vm_compute; reflexivity|]. repeat split.
Qed.

(** ** C46 Parameter object lengths *)

(** an object is readable exactly when its length is among the documented ones *)
Theorem C46_accepted_lengths : forall t l, is_bytes l ->
  ((exists v, parameter_from_bytes t l = Ok v) <->
   exists r cls fields, In (r, Object cls fields) (documented t (byte_at 34 l)) /\ within (len l) r).
Proof. exact accepted_lengths. Qed.

(** every other length raises, and which exception is documented too *)
Theorem C46_other_lengths : forall t l r e,
  is_bytes l -> In (r, Raises e) (documented t (byte_at 34 l)) -> within (len l) r ->
  parameter_from_bytes t l = Err e.
Proof. exact (fun t l r e Hl I W => parameter_conforms t l r (Raises e) Hl I W). Qed.

(** the documented lengths leave no gap *)
Theorem C46_every_length : forall t l, is_bytes l ->
  exists r d, In (r, d) (documented t (byte_at 34 l)) /\ within (len l) r.
Proof. exact lengths_covered. Qed.

(** nothing shorter than the shortest documented length is readable *)
Theorem C46_shorter_raises : forall t l, is_bytes l -> len l < min_length t ->
  exists e, parameter_from_bytes t l = Err e.
Proof. exact shorter_raises. Qed.

Example C46_hypotheses : is_bytes (repeat 0 35) /\ parameter_from_bytes TIMER (repeat 0 35) = Err IndexError /\
  parameter_from_bytes TIMER (repeat 0 37) = Err AssertionError /\
  (exists v, parameter_from_bytes TIMER (repeat 0 36) = Ok v) /\ min_length TIMER = 36.
Proof.
  split; [repeat constructor; vm_compute; try discriminate; reflexivity|]. split; [vm_compute; reflexivity|].
  split; [vm_compute; reflexivity|]. split; [eexists; vm_compute; reflexivity|reflexivity].
Qed.

(** ** C47 Every listed parameter type can be parsed *)
Theorem C47_readable : forall t, ~ unreadable_type t ->
  exists l v, is_bytes l /\ len l = min_length t /\ parameter_from_bytes t l = Ok v.
Proof. exact shortest_readable. Qed.
Theorem C47_registered_class : forall t l v, is_bytes l -> parameter_from_bytes t l = Ok v ->
  exists c attrs, registered_class t = Some c /\ v = VObj (class_name c) attrs /\ map fst attrs = class_attrs c.
Proof. exact registered_result. Qed.
(** refuted for four types *)
Theorem C47_unreadable : forall t l, unreadable_type t -> is_bytes l ->
  exists e, parameter_from_bytes t l = Err e.
Proof. exact unreadable_raises. Qed.
(** hence no block containing one of these objects can be parsed *)
Theorem C47_unreadable_block : forall objs t c following, unreadable_type t -> is_bytes c ->
  exists e, parse None (Some (transmission objs ++ transmitted (t, c) ++ following)) = Some (Err e).
Proof. exact unreadable_block. Qed.

Example C47_hypotheses : ~ unreadable_type MODEM /\ unreadable_type DEVICE_ERROR /\
  parameter_from_bytes DEVICE_ERROR (repeat 0 34) = Err TypeError.
Proof. split; [intros [|[|[|[|[]]]]]; discriminate|]. split; [left; reflexivity|vm_compute; reflexivity]. Qed.

(** ** C48 Control bits *)
Theorem C48_control_bits : forall t l cls attrs name b,
  is_bytes l -> parameter_from_bytes t l = Ok (VObj cls attrs) ->
  (lookup name attrs = Some (VBool b) <->
   exists bit, In (name, bit) (snd (control_bits t)) /\
               b = Z.testbit (byte_at (fst (control_bits t)) l) bit).
Proof. exact booleans. Qed.

Example C48_hypotheses : exists cls attrs,
  parameter_from_bytes COUNTER counter_object = Ok (VObj cls attrs) /\
  lookup "accept_counting_direction" attrs = Some (VBool true) /\
  lookup "in_data_archive" attrs = Some (VBool true) /\ lookup "in_monthly_archive" attrs = Some (VBool false).
Proof. do 2 eexists. split; [vm_compute; reflexivity|repeat split]. Qed.

(** ** C58 Float fields are decoded exactly *)

(** every pattern of 4 or 8 bytes is decoded to the number it stands for *)
Theorem C58_single : forall b, is_bytes b -> len b = 4 ->
  exists x, unpack_single b = Ok x /\ denotes 8 23 (le_value b) x.
Proof. exact single_exact. Qed.
Theorem C58_double : forall b, is_bytes b -> len b = 8 ->
  exists x, unpack_double b = Ok x /\ denotes 11 52 (le_value b) x.
Proof. exact double_exact. Qed.
(** and that number is unique *)
Theorem C58_unique : forall w f n x y, denotes w f n x -> denotes w f n y -> x = y.
Proof. exact denotes_unique. Qed.
(** rounding to seven decimals; no finite single rounds to an infinity *)
Theorem C58_round_finite : forall b x, is_bytes b -> len b = 4 -> unpack_single b = Ok x ->
  rounded_to_7 x (round7 x) /\
  ((exists s m e, x = Fin s m e) -> exists s m e, round7 x = Fin s m e).
Proof. exact single_round_finite. Qed.

(** 0.01f = 0.00999999977648258..., rounded to 0.01 *)
Example C58_hypotheses : unpack_single [10; 215; 35; 60] = Ok (Fin false 5368709 (-29)) /\
  round7 (Fin false 5368709 (-29)) = Fin false 5764607523034235 (-59) /\
  unpack_double [0; 0; 0; 0; 0; 0; 240; 127] = Ok (Inf false) /\ unpack_single [1; 0; 128; 255] = Ok NaN.
Proof. vm_compute. repeat split. Qed.

Print Assumptions C43_parse_block.
Print Assumptions C43_first_error.
Print Assumptions C43_terminates.
Print Assumptions C43_no_data.
Print Assumptions C44_short_length_raises.
Print Assumptions C44_unknown_type_raises.
Print Assumptions C44_cut_header_raises.
Print Assumptions C44_overlong_accepted.
Print Assumptions C44_accepted_blocks.
Print Assumptions C45_fields.
Print Assumptions C45_attribute.
Print Assumptions C46_accepted_lengths.
Print Assumptions C46_other_lengths.
Print Assumptions C46_every_length.
Print Assumptions C46_shorter_raises.
Print Assumptions C47_readable.
Print Assumptions C47_registered_class.
Print Assumptions C47_unreadable.
Print Assumptions C47_unreadable_block.
Print Assumptions C48_control_bits.
Print Assumptions C58_single.
Print Assumptions C58_double.
Print Assumptions C58_unique.
Print Assumptions C58_round_finite.
