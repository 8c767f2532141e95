(** [json.dumps] and [json.loads] of the Python library with their default arguments,
    on None, bools, ints, floats, texts, lists and dicts with text keys.  The methods
    [Schema().dumps] and [Schema().loads] of marshmallow (tests/test_schema.py:694-698)
    are [json.dumps(dump(obj))] and [load(json.loads(text))].  Like Py.v this file models
    library code called by /repo.  Simplifications: a dict key is a Coq string, so keys
    hold characters up to 255 only; RecursionError is left out. *)
From Verif Require Export PyText.
From Verif Require Import ParamLang Schema.
Open Scope string_scope.
Open Scope list_scope.
Open Scope Z_scope.

Definition chars (s : string) : str := map (fun c => Z.of_nat (Ascii.nat_of_ascii c)) (list_ascii_of_string s).
Definition null_text : str := chars "null".
Definition true_text : str := chars "true".
Definition false_text : str := chars "false".
Definition nan_json : str := chars "NaN".
Definition infinity_json : str := chars "Infinity".
Definition minus_infinity_json : str := chars "-Infinity".

(** ** writing *)
(** \uXXXX *)
Definition unicode_escape (n : Z) : str :=
  [92; 117; hex_digit (n / 4096 mod 16); hex_digit (n / 256 mod 16); hex_digit (n / 16 mod 16); hex_digit (n mod 16)].
(** json.encoder.py_encode_basestring_ascii *)
Definition json_char (c : Z) : str :=
  if c =? 34 then [92; 34]
  else if c =? 92 then [92; 92]
  else if c =? 10 then [92; 110]
  else if c =? 13 then [92; 114]
  else if c =? 9 then [92; 116]
  else if c =? 12 then [92; 102]
  else if c =? 8 then [92; 98]
  else if (32 <=? c) && (c <=? 126) then [c]
  else if c <? 0x10000 then unicode_escape c
  else unicode_escape (0xD800 + (c - 0x10000) / 1024) ++ unicode_escape (0xDC00 + (c - 0x10000) mod 1024).
Definition json_string (s : str) : str := 34 :: flat_map json_char s ++ [34].
(** float.__repr__, and the names of the values that have none in JSON (allow_nan=True) *)
Definition json_float (x : pyfloat) : str :=
  match x with
  | NaN => nan_json
  | Inf false => infinity_json
  | Inf true => minus_infinity_json
  | Fin _ _ _ => py_float_text x
  end.
Fixpoint json_dumps (v : value) : res str :=
  match v with
  | VNone => Ok null_text
  | VBool true => Ok true_text
  | VBool false => Ok false_text
  | VInt n => Ok (str_int n)
  | VFloat x => Ok (json_float x)
  | VStr s => Ok (json_string s)
  | VList [] => Ok [91; 93]
  | VList (v :: l) =>
      t <- json_dumps v ;;
      ts <- (fix go (l : list value) : res str :=
               match l with [] => Ok [93] | v :: l' => t <- json_dumps v ;; ts <- go l' ;; Ok ([44; 32] ++ t ++ ts) end) l ;;
      Ok (91 :: t ++ ts)
  | VDict [] => Ok [123; 125]
  | VDict ((name, v) :: l) =>
      t <- json_dumps v ;;
      ts <- (fix go (l : list (string * value)) : res str :=
               match l with
               | [] => Ok [125]
               | (name, v) :: l' => t <- json_dumps v ;; ts <- go l' ;; Ok ([44; 32] ++ json_string (chars name) ++ [58; 32] ++ t ++ ts)
               end) l ;;
      Ok (123 :: json_string (chars name) ++ [58; 32] ++ t ++ ts)
  | VBytes _ | VObj _ _ => Err TypeError
  end.

(** ** reading *)
Definition json_space (c : Z) : bool := (c =? 32) || (c =? 9) || (c =? 10) || (c =? 13).
Fixpoint skip_space (s : str) : str :=
  match s with c :: s' => if json_space c then skip_space s' else s | [] => [] end.
(** the text after a given beginning *)
Fixpoint after_text (w s : str) : option str :=
  match w, s with
  | [], _ => Some s
  | c :: w', c' :: s' => if c =? c' then after_text w' s' else None
  | _, [] => None
  end.
Definition hex4 (a b c d : Z) : option Z :=
  match hex_value a, hex_value b, hex_value c, hex_value d with
  | Some a, Some b, Some c, Some d => Some (4096 * a + 256 * b + 16 * c + d)
  | _, _, _, _ => None
  end.
Definition short_escape (c : Z) : option Z :=
  if c =? 34 then Some 34 else if c =? 92 then Some 92 else if c =? 47 then Some 47
  else if c =? 98 then Some 8 else if c =? 102 then Some 12 else if c =? 110 then Some 10
  else if c =? 114 then Some 13 else if c =? 116 then Some 9 else None.
Definition add_char (c : Z) (r : option (str * str)) : option (str * str) :=
  match r with Some (s, rest) => Some (c :: s, rest) | None => None end.
Definition high_surrogate (c : Z) : bool := (0xD800 <=? c) && (c <=? 0xDBFF).
Definition low_surrogate (c : Z) : bool := (0xDC00 <=? c) && (c <=? 0xDFFF).
(** json.decoder.py_scanstring: what follows the opening quote *)
Fixpoint scan_string (s : str) : option (str * str) :=
  match s with
  | [] => None
  | c :: s1 =>
      if c =? 34 then Some ([], s1)
      else if c =? 92 then
        match s1 with
        | [] => None
        | e :: s2 =>
            if e =? 117 then
              match s2 with
              | a1 :: a2 :: a3 :: a4 :: s3 =>
                  match hex4 a1 a2 a3 a4 with
                  | None => None
                  | Some u =>
                      if high_surrogate u then
                        match s3 with
                        | x :: y :: b1 :: b2 :: b3 :: b4 :: s4 =>
                            if (x =? 92) && (y =? 117) then
                              match hex4 b1 b2 b3 b4 with
                              | Some u2 =>
                                  if low_surrogate u2
                                  then add_char (0x10000 + (u - 0xD800) * 1024 + (u2 - 0xDC00)) (scan_string s4)
                                  else add_char u (scan_string s3)
                              | None => None
                              end
                            else add_char u (scan_string s3)
                        | _ => add_char u (scan_string s3)
                        end
                      else add_char u (scan_string s3)
                  end
              | _ => None
              end
            else match short_escape e with Some x => add_char x (scan_string s2) | None => None end
        end
      else if c <? 32 then None
      else add_char c (scan_string s1)
  end.
(** a dict key as a Coq string *)
Definition key_of (s : str) : option string :=
  if forallb (fun c => (0 <=? c) && (c <? 256)) s
  then Some (string_of_list_ascii (map (fun c => Ascii.ascii_of_nat (Z.to_nat c)) s)) else None.
(** d[key] = value *)
Fixpoint dict_set (key : string) (v : value) (l : list (string * value)) : list (string * value) :=
  match l with
  | [] => [(key, v)]
  | (k, w) :: l' => if String.eqb k key then (k, v) :: l' else (k, w) :: dict_set key v l'
  end.
Definition make_dict (l : list (string * value)) : list (string * value) := fold_left (fun d kv => dict_set (fst kv) (snd kv) d) l [].
(** json.scanner.NUMBER_RE: -?(0|[1-9][0-9]* )(\.[0-9]+)?([eE][-+]?[0-9]+)? ; the text of the
    number, whether it has a fraction or an exponent, and the rest *)
Definition scan_fraction (s : str) : str * str :=
  match s with
  | c :: s1 => if c =? 46 then match take_digits s1 with ((_ :: _) as d, r) => (46 :: d, r) | _ => ([], s) end else ([], s)
  | [] => ([], [])
  end.
Definition scan_exponent (s : str) : str * str :=
  match s with
  | e :: s1 =>
      if (e =? 101) || (e =? 69) then
        match s1 with
        | c :: s2 =>
            if (c =? 45) || (c =? 43)
            then match take_digits s2 with ((_ :: _) as d, r) => (e :: c :: d, r) | _ => ([], s) end
            else match take_digits s1 with ((_ :: _) as d, r) => (e :: d, r) | _ => ([], s) end
        | [] => ([], s)
        end
      else ([], s)
  | [] => ([], [])
  end.
Definition scan_whole (s : str) : option (str * str) :=
  match s with
  | c :: s1 => if c =? 48 then Some ([48], s1) else if digit_char c then Some (take_digits s) else None
  | [] => None
  end.
Definition scan_number (s : str) : option (str * bool * str) :=
  let (sign, s) := match s with c :: s1 => if c =? 45 then ([45], s1) else ([], s) | [] => ([], []) end in
  match scan_whole s with
  | None => None
  | Some (w, s) =>
      let (f, s) := scan_fraction s in
      let (x, s) := scan_exponent s in
      Some (sign ++ w ++ f ++ x, match f ++ x with [] => false | _ => true end, s)
  end.
Definition read_json_number (s : str) : option (value * str) :=
  match scan_number s with
  | None => None
  | Some (t, true, r) => match py_read_float (fun c => c) t with Ok x => Some (VFloat x, r) | Err _ => None end
  | Some (t, false, r) => match py_read_int (fun c => c) t with Ok n => Some (VInt n, r) | Err _ => None end
  end.
(** json.scanner: constants and numbers *)
Definition read_scalar (s : str) : option (value * str) :=
  match after_text null_text s with Some r => Some (VNone, r) | None =>
  match after_text true_text s with Some r => Some (VBool true, r) | None =>
  match after_text false_text s with Some r => Some (VBool false, r) | None =>
  match read_json_number s with Some x => Some x | None =>
  match after_text nan_json s with Some r => Some (VFloat NaN, r) | None =>
  match after_text infinity_json s with Some r => Some (VFloat (Inf false), r) | None =>
  match after_text minus_infinity_json s with Some r => Some (VFloat (Inf true), r) | None => None
  end end end end end end end.
(** json.scanner.py_make_scanner, json.decoder.JSONArray and JSONObject; [fuel] bounds
    the number of nested calls by the length of the text *)
Fixpoint scan_value (fuel : nat) (s : str) : option (value * str) :=
  match fuel with
  | O => None
  | S fuel =>
      match s with
      | [] => None
      | c :: s1 =>
          if c =? 34 then match scan_string s1 with Some (t, r) => Some (VStr t, r) | None => None end
          else if c =? 91 then
            match skip_space s1 with
            | d :: r => if d =? 93 then Some (VList [], r)
                        else match scan_items fuel (d :: r) with Some (l, r) => Some (VList l, r) | None => None end
            | [] => None
            end
          else if c =? 123 then
            match skip_space s1 with
            | d :: r => if d =? 125 then Some (VDict [], r)
                        else match scan_members fuel (d :: r) with Some (l, r) => Some (VDict (make_dict l), r) | None => None end
            | [] => None
            end
          else read_scalar s
      end
  end
with scan_items (fuel : nat) (s : str) : option (list value * str) :=
  match fuel with
  | O => None
  | S fuel =>
      match scan_value fuel s with
      | None => None
      | Some (v, r) =>
          match skip_space r with
          | c :: r => if c =? 93 then Some ([v], r)
                      else if c =? 44 then match scan_items fuel (skip_space r) with Some (l, r) => Some (v :: l, r) | None => None end
                      else None
          | [] => None
          end
      end
  end
with scan_members (fuel : nat) (s : str) : option (list (string * value) * str) :=
  match fuel with
  | O => None
  | S fuel =>
      match s with
      | c :: s1 =>
          if c =? 34 then
            match scan_string s1 with
            | None => None
            | Some (key, r) =>
                match key_of key, skip_space r with
                | Some name, c :: r =>
                    if c =? 58 then
                      match scan_value fuel (skip_space r) with
                      | None => None
                      | Some (v, r) =>
                          match skip_space r with
                          | c :: r => if c =? 125 then Some ([(name, v)], r)
                                      else if c =? 44 then match scan_members fuel (skip_space r) with Some (l, r) => Some ((name, v) :: l, r) | None => None end
                                      else None
                          | [] => None
                          end
                      end
                    else None
                | _, _ => None
                end
            end
          else None
      | [] => None
      end
  end.
(** json.JSONDecoder.decode; JSONDecodeError is a ValueError *)
Definition json_loads (s : str) : res value :=
  match scan_value (S (length s)) (skip_space s) with
  | Some (v, r) => match skip_space r with [] => Ok v | _ => Err ValueError end
  | None => Err ValueError
  end.

(** [Schema().dumps(obj)] and [Schema().loads(text)] *)
Definition dumps (py : python) (s : schema) (obj : value) : res str := d <- dump py s obj ;; json_dumps d.
Definition loads (py : python) (s : schema) (text : str) : res value := d <- json_loads text ;; load py s d.
