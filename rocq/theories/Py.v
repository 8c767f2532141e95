(** Python primitives used by u9n/elgas, as total Gallina functions.
    Nothing in this file models a file of /repo: it models the built-in
    operations those files call (the semantics is that of CPython 3). *)
From Coq Require Export ZArith List Bool Lia.
Export ListNotations.
Open Scope Z_scope.

(** ** Exceptions as values.
    The Python exception classes that the modelled code can raise.
    [UnicodeEncodeError] is a subclass of [ValueError] in Python, see
    [is_value_error]. The last nine are elgas/exceptions.py:5-50. *)
Inductive exn : Type :=
| ValueError | IndexError | KeyError | TypeError | AttributeError
| AssertionError | OverflowError | UnicodeEncodeError | StructError
| RuntimeError | ValidationError | OSError
| LocalElgasProtocolError        (* elgas/exceptions.py:5-6 *)
| CommunicationError             (* elgas/exceptions.py:9-10 *)
| WrongPasswordError             (* elgas/exceptions.py:13-15 *)
| SettingArchiveFull             (* elgas/exceptions.py:18-20 *)
| SwitchOff                      (* elgas/exceptions.py:23-25 *)
| BlockedBuffer                  (* elgas/exceptions.py:28-30 *)
| DataError                      (* elgas/exceptions.py:33-35 *)
| CipherKeyError                 (* elgas/exceptions.py:38-40 *)
| WrongEncryptionKeysError       (* elgas/exceptions.py:43-45 *)
| WriteError.                    (* elgas/exceptions.py:48-50 *)

(** what an [except ValueError] clause catches *)
Definition is_value_error (e : exn) : bool :=
  match e with ValueError | UnicodeEncodeError => true | _ => false end.

Inductive res (A : Type) : Type :=
| Ok (a : A)
| Err (e : exn).
Arguments Ok {A} a.
Arguments Err {A} e.

Definition bind {A B} (r : res A) (f : A -> res B) : res B :=
  match r with Ok a => f a | Err e => Err e end.
Notation "x <- e ;; k" := (bind e (fun x => k))
  (at level 61, e at next level, right associativity).
Notation "'guard' c 'else' e ;; k" := (if c then k else Err e)
  (at level 61, c at next level, e at next level, right associativity, only parsing).

(** ** bytes / bytearray / str *)

(** [bytes] and [bytearray]: list of integers; [is_bytes] is the invariant the
    Python type enforces. [str]: list of code points. *)
Definition bytes := list Z.
Definition str := list Z.
Definition is_byte (b : Z) : Prop := 0 <= b < 256.
Definition is_bytes (l : bytes) : Prop := Forall is_byte l.

Definition len {A} (l : list A) : Z := Z.of_nat (length l).

(** slice bounds: negative values count from the end, then clamped to 0..n *)
Definition clamp (n i : Z) : Z := if i <? 0 then Z.max 0 (i + n) else Z.min i n.

Definition slice_from {A} (i : Z) (l : list A) : list A :=      (* l[i:] *)
  skipn (Z.to_nat (clamp (len l) i)) l.
Definition slice_to {A} (i : Z) (l : list A) : list A :=        (* l[:i] *)
  firstn (Z.to_nat (clamp (len l) i)) l.
Definition slice {A} (i j : Z) (l : list A) : list A :=         (* l[i:j] *)
  let a := clamp (len l) i in
  let b := clamp (len l) j in
  firstn (Z.to_nat (b - a)) (skipn (Z.to_nat a) l).

(** l[i], IndexError outside -n..n-1 *)
Definition getitem (i : Z) (l : bytes) : res Z :=
  let k := if i <? 0 then i + len l else i in
  if (k <? 0) || (len l <=? k) then Err IndexError
  else match nth_error l (Z.to_nat k) with Some b => Ok b | None => Err IndexError end.

Fixpoint list_eqb (a b : bytes) : bool :=
  match a, b with
  | [], [] => true
  | x :: a', y :: b' => (x =? y) && list_eqb a' b'
  | _, _ => false
  end.

(** l.startswith(p), l.endswith(p) *)
Definition startswith (l p : bytes) : bool := list_eqb (firstn (length p) l) p.
Definition endswith (l p : bytes) : bool :=
  (len p <=? len l) && list_eqb (skipn (length l - length p) l) p.

(** l.replace(bytes([b]), r) for a one-byte pattern *)
Definition replace1 (b : Z) (r : bytes) (l : bytes) : bytes :=
  flat_map (fun x => if x =? b then r else [x]) l.

(** l.index(bytes([b])), [None] standing for ValueError *)
Fixpoint index_of (b : Z) (l : bytes) : option Z :=
  match l with
  | [] => None
  | x :: l' => if x =? b then Some 0
               else match index_of b l' with Some i => Some (i + 1) | None => None end
  end.

(** l.rindex(bytes([b])), [None] standing for ValueError *)
Fixpoint rindex_of (b : Z) (l : bytes) : option Z :=
  match l with
  | [] => None
  | x :: l' => match rindex_of b l' with
               | Some i => Some (i + 1)
               | None => if x =? b then Some 0 else None
               end
  end.

(** bytearray.append(b): ValueError outside 0..255 *)
Definition append (out : bytes) (b : Z) : res bytes :=
  if (0 <=? b) && (b <? 256) then Ok (out ++ [b]) else Err ValueError.

(** bytearray.pop(0) *)
Definition pop0 (l : bytes) : res (Z * bytes) :=
  match l with [] => Err IndexError | b :: l' => Ok (b, l') end.

(** bytes.lstrip() / rstrip(): ASCII white space *)
Definition is_space (b : Z) : bool :=
  (b =? 32) || (b =? 9) || (b =? 10) || (b =? 11) || (b =? 12) || (b =? 13).
Fixpoint lstrip (l : bytes) : bytes :=
  match l with
  | [] => []
  | b :: l' => if is_space b then lstrip l' else b :: l'
  end.
Definition rstrip (l : bytes) : bytes := rev (lstrip (rev l)).

(** ** integers and bytes *)

(** int.from_bytes(l, "little") / (l, "big") *)
Fixpoint from_le (l : bytes) : Z :=
  match l with [] => 0 | b :: l' => b + 256 * from_le l' end.
Definition from_be (l : bytes) : Z := from_le (rev l).

Fixpoint le_bytes (w : nat) (n : Z) : bytes :=
  match w with O => [] | S w' => (n mod 256) :: le_bytes w' (n / 256) end.

(** n.to_bytes(w, "little") / (w, "big"): OverflowError when n is negative or
    does not fit *)
Definition to_le (w : nat) (n : Z) : res bytes :=
  if (0 <=? n) && (n <? 256 ^ Z.of_nat w) then Ok (le_bytes w n) else Err OverflowError.
Definition to_be (w : nat) (n : Z) : res bytes :=
  if (0 <=? n) && (n <? 256 ^ Z.of_nat w) then Ok (rev (le_bytes w n)) else Err OverflowError.

(** ** decimal and hexadecimal text *)

(** digits of n >= 0, most significant first; [fuel] bounds the number of digits *)
Fixpoint dec_digits (fuel : nat) (n : Z) : list Z :=
  match fuel with
  | O => []
  | S f => if n <? 10 then [n] else dec_digits f (n / 10) ++ [n mod 10]
  end.
Definition digits_of (n : Z) : list Z := dec_digits (S (Z.to_nat (Z.log2 n))) n.

(** str(n): code points. CPython's limit of 4300 digits (sys.set_int_max_str_digits)
    is not modelled. *)
Definition str_int (n : Z) : str :=
  if n <? 0 then 45 :: map (fun d => 48 + d) (digits_of (- n))
  else map (fun d => 48 + d) (digits_of n).

Definition hex_digit (d : Z) : Z := if d <? 10 then 48 + d else 87 + d.
(** data.hex() *)
Definition hex (l : bytes) : str :=
  flat_map (fun b => [hex_digit (b / 16); hex_digit (b mod 16)]) l.

Definition hex_value (c : Z) : option Z :=
  if (48 <=? c) && (c <=? 57) then Some (c - 48)
  else if (97 <=? c) && (c <=? 102) then Some (c - 87)
  else if (65 <=? c) && (c <=? 70) then Some (c - 55)
  else None.
(** bytes.fromhex(s). Simplification: white space between the pairs, which
    fromhex skips, is rejected here; the only caller passes str(int). *)
Fixpoint fromhex (s : str) : res bytes :=
  match s with
  | [] => Ok []
  | [_] => Err ValueError
  | a :: b :: s' =>
      match hex_value a, hex_value b with
      | Some x, Some y => r <- fromhex s' ;; Ok (16 * x + y :: r)
      | _, _ => Err ValueError
      end
  end.

(** int(s) for the output of bytes.hex(): ValueError on an empty string or a
    non-digit (signs, white space and underscores cannot occur in hex output) *)
Fixpoint int_digits (acc : Z) (s : str) : res Z :=
  match s with
  | [] => Ok acc
  | c :: s' => if (48 <=? c) && (c <=? 57) then int_digits (10 * acc + (c - 48)) s'
               else Err ValueError
  end.
Definition int_of_str (s : str) : res Z :=
  match s with [] => Err ValueError | _ => int_digits 0 s end.

(** s.encode("latin-1") *)
Definition encode_latin1 (s : str) : res bytes :=
  if forallb (fun c => (0 <=? c) && (c <? 256)) s then Ok s else Err UnicodeEncodeError.

(** ** datetime.datetime, naive, whole seconds *)
Record datetime := mk_datetime {
  year : Z; month : Z; day : Z; hour : Z; minute : Z; second : Z }.

Definition is_leap (y : Z) : bool :=
  (y mod 4 =? 0) && (negb (y mod 100 =? 0) || (y mod 400 =? 0)).
Definition days_in_month (y m : Z) : Z :=
  if m =? 2 then (if is_leap y then 29 else 28)
  else if (m =? 4) || (m =? 6) || (m =? 9) || (m =? 11) then 30
  else 31.
Definition valid_datetime (t : datetime) : bool :=
  (1 <=? year t) && (year t <=? 9999) && (1 <=? month t) && (month t <=? 12) &&
  (1 <=? day t) && (day t <=? days_in_month (year t) (month t)) &&
  (0 <=? hour t) && (hour t <=? 23) && (0 <=? minute t) && (minute t <=? 59) &&
  (0 <=? second t) && (second t <=? 59).
(** the datetime(...) constructor *)
Definition make_datetime (y mo d h mi s : Z) : res datetime :=
  let t := mk_datetime y mo d h mi s in
  if valid_datetime t then Ok t else Err ValueError.
