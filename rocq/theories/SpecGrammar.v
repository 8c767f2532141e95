(** Which texts are JSON, and which data they stand for: the grammar of RFC 8259, with the
    additions of Python's json module (NaN, Infinity, -Infinity; of a key that is given
    twice the last value counts; surrogates need not be paired).  Uses nothing of Json.v
    but [chars].  Simplification as in Json.v: keys hold characters up to 255 only. *)
From Coq Require Import QArith String.
From Verif Require Import Py PyFloat ParamLang SpecParameters SpecNumeral SpecJson Json.
Open Scope string_scope.
Open Scope list_scope.
Open Scope Z_scope.

(** section 2: white space *)
Definition json_blank (t : str) : Prop := Forall (fun c => c = 32 \/ c = 9 \/ c = 10 \/ c = 13) t.

(** section 6: numbers *)
Definition digits (t : str) (ds : list Z) : Prop := t = map (fun d => 48 + d) ds /\ Forall (fun d => 0 <= d <= 9) ds /\ ds <> [].
Definition minus (neg : bool) : str := if neg then [45] else [].
(** no leading zeros *)
Definition whole_part (t : str) (ds : list Z) : Prop := digits t ds /\ (ds = [0] \/ hd 0 ds <> 0).
Inductive fraction_part : str -> list Z -> Prop :=
| no_fraction : fraction_part [] []
| a_fraction t ds : digits t ds -> fraction_part (46 :: t) ds.
Inductive json_exponent : str -> Z -> Prop :=
| no_json_exponent : json_exponent [] 0
| a_json_exponent (c : Z) sign (neg : bool) t ds : c = 101 \/ c = 69 -> signed sign neg -> digits t ds ->
    json_exponent (c :: sign ++ t) (if neg then - decimal ds else decimal ds).
(** an int without fraction and exponent, otherwise the nearest float *)
Inductive json_number : str -> value -> Prop :=
| json_int (neg : bool) w ds : whole_part w ds ->
    json_number (minus neg ++ w) (VInt (if neg then - decimal ds else decimal ds))
| json_real (neg : bool) w ds f fs x k r : whole_part w ds -> fraction_part f fs -> json_exponent x k -> f ++ x <> [] ->
    rounds_to_float neg ((decimal (ds ++ fs) # 1) * (10 # 1) ^ (k - len fs))%Q r ->
    json_number (minus neg ++ w ++ f ++ x) (VFloat r).

(** section 7: strings *)
Inductive hex_char : Z -> Z -> Prop :=
| hex_digit_char d : 0 <= d <= 9 -> hex_char (48 + d) d
| hex_small d : 10 <= d <= 15 -> hex_char (87 + d) d
| hex_capital d : 10 <= d <= 15 -> hex_char (55 + d) d.
(** \uXXXX *)
Inductive code_unit : str -> Z -> Prop :=
| a_code_unit a b c d a' b' c' d' : hex_char a a' -> hex_char b b' -> hex_char c c' -> hex_char d d' ->
    code_unit [92; 117; a; b; c; d] (4096 * a' + 256 * b' + 16 * c' + d').
(** the character after the backslash, and what is meant *)
Definition escapes : list (Z * Z) := [(34, 34); (92, 92); (47, 47); (98, 8); (102, 12); (110, 10); (114, 13); (116, 9)].
(** the text, and how it is written between the quotes *)
Inductive string_body : str -> str -> Prop :=
| body_end : string_body [] []
| body_char c s t : 32 <= c -> c <> 34 -> c <> 92 -> string_body s t -> string_body (c :: s) (c :: t)
| body_escape e c s t : In (e, c) escapes -> string_body s t -> string_body (c :: s) (92 :: e :: t)
| body_unit u e s t : code_unit e u -> (high u -> forall u2 e2 t2, code_unit e2 u2 -> low u2 -> t <> e2 ++ t2) ->
    string_body s t -> string_body (u :: s) (e ++ t)
| body_pair u e u2 e2 s t : code_unit e u -> high u -> code_unit e2 u2 -> low u2 -> string_body s t ->
    string_body (0x10000 + (u - 0xD800) * 0x400 + (u2 - 0xDC00) :: s) (e ++ e2 ++ t).

(** ** repeated keys: each key once, where it is first given, with the value given last *)
Fixpoint first_keys (l : list (string * value)) : list string :=
  match l with [] => [] | (k, _) :: l => k :: filter (fun k' => negb (String.eqb k k')) (first_keys l) end.
Fixpoint last_value (k : string) (l : list (string * value)) : option value :=
  match l with
  | [] => None
  | (k', v) :: l => match last_value k l with Some w => Some w | None => if String.eqb k' k then Some v else None end
  end.
Definition dict_of (l d : list (string * value)) : Prop :=
  map fst d = first_keys l /\ forall k v, In (k, v) d -> last_value k l = Some v.

(** ** sections 3 to 5: values, arrays, objects *)
Inductive json_value : value -> str -> Prop :=
| jv_null : json_value VNone (chars "null")
| jv_true : json_value (VBool true) (chars "true")
| jv_false : json_value (VBool false) (chars "false")
| jv_nan : json_value (VFloat NaN) (chars "NaN")
| jv_infinity : json_value (VFloat (Inf false)) (chars "Infinity")
| jv_minus_infinity : json_value (VFloat (Inf true)) (chars "-Infinity")
| jv_number t v : json_number t v -> json_value v t
| jv_string s t : string_body s t -> json_value (VStr s) (34 :: t ++ [34])
| jv_no_items w : json_blank w -> json_value (VList []) (91 :: w ++ [93])
| jv_items l w t : json_blank w -> json_items l t -> json_value (VList l) (91 :: w ++ t ++ [93])
| jv_no_members w : json_blank w -> json_value (VDict []) (123 :: w ++ [125])
| jv_members l d w t : json_blank w -> json_members l t -> dict_of l d -> json_value (VDict d) (123 :: w ++ t ++ [125])
with json_items : list value -> str -> Prop :=
| items_last v t w : json_value v t -> json_blank w -> json_items [v] (t ++ w)
| items_more v t w w' l t' : json_value v t -> json_blank w -> json_blank w' -> json_items l t' ->
    json_items (v :: l) (t ++ w ++ 44 :: w' ++ t')
with json_members : list (string * value) -> str -> Prop :=
| members_last name v k t w1 w2 w : string_body (chars name) k -> json_blank w1 -> json_blank w2 -> json_value v t -> json_blank w ->
    json_members [(name, v)] (34 :: k ++ 34 :: w1 ++ 58 :: w2 ++ t ++ w)
| members_more name v k t w1 w2 w w' l t' : string_body (chars name) k -> json_blank w1 -> json_blank w2 -> json_value v t ->
    json_blank w -> json_blank w' -> json_members l t' ->
    json_members ((name, v) :: l) (34 :: k ++ 34 :: w1 ++ 58 :: w2 ++ t ++ w ++ 44 :: w' ++ t').
(** a whole text *)
Definition json_text (v : value) (t : str) : Prop :=
  exists before body after, t = before ++ body ++ after /\ json_blank before /\ json_blank after /\ json_value v body.
