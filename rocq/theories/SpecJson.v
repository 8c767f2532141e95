(** Independent specification of what is kept when data is written as JSON text. *)
From Verif Require Import Py PyFloat ParamLang Parameters Schema Schemas SpecSchema Json.
Open Scope string_scope.
Open Scope list_scope.
Open Scope Z_scope.

(** ** Texts: code points of Unicode, no high surrogate directly before a low one (JSON
    reads such a pair as one character) *)
Definition high (c : Z) : Prop := 0xD800 <= c <= 0xDBFF.
Definition low (c : Z) : Prop := 0xDC00 <= c <= 0xDFFF.
Definition text_ok (s : str) : Prop :=
  Forall (fun c => 0 <= c <= 0x10FFFF) s /\ forall p a b q, s = p ++ a :: b :: q -> high a -> low b -> False.
(** the text [s] is somewhere in the value *)
Inductive text_in (s : str) : value -> Prop :=
| text_here : text_in s (VStr s)
| text_list v l : In v l -> text_in s v -> text_in s (VList l)
| text_obj c name v attrs : In (name, v) attrs -> text_in s v -> text_in s (VObj c attrs)
| text_dict name v l : In (name, v) l -> text_in s v -> text_in s (VDict l).
Definition texts_ok (v : value) : Prop := forall s, text_in s v -> text_ok s.

(** ** Data that JSON text can hold *)
Inductive json_data : value -> Prop :=
| jd_none : json_data VNone
| jd_bool b : json_data (VBool b)
| jd_int n : json_data (VInt n)
| jd_float x : is_double x -> json_data (VFloat x)
| jd_str s : text_ok s -> json_data (VStr s)
| jd_list l : Forall json_data l -> json_data (VList l)
| jd_dict l : NoDup (map fst l) -> Forall (fun a => json_data (snd a)) l -> json_data (VDict l).

(** ** The same data: the same kinds, texts, numbers, items, and keys in the same order *)
Inductive alike : value -> value -> Prop :=
| alike_none : alike VNone VNone
| alike_bool b : alike (VBool b) (VBool b)
| alike_int n : alike (VInt n) (VInt n)
| alike_float x y : same_float x y -> alike (VFloat x) (VFloat y)
| alike_str s : alike (VStr s) (VStr s)
| alike_bytes b : alike (VBytes b) (VBytes b)
| alike_list l l' : Forall2 alike l l' -> alike (VList l) (VList l')
| alike_obj c l l' : Forall2 (fun a a' => fst a = fst a' /\ alike (snd a) (snd a')) l l' -> alike (VObj c l) (VObj c l')
| alike_dict l l' : Forall2 (fun a a' => fst a = fst a' /\ alike (snd a) (snd a')) l l' -> alike (VDict l) (VDict l').

(** ** A configuration as one text, as it is sent or kept in a file *)
Definition save_text (py : python) (objs : list (parameter_type * value * option str)) : res str :=
  d <- save py objs ;; json_dumps d.
Definition restore_text (py : python) (text : str) : res (list (parameter_type * value * option str)) :=
  d <- json_loads text ;; restore py d.
Definition printable (s : str) : Prop := Forall (fun c => 32 <= c <= 126) s.
Definition series_ok (o : parameter_type * value * option str) : Prop := match snd o with Some s => text_ok s | None => True end.

(** ** Any text: Unicode characters, which the surrogates are not *)
Definition unicode (c : Z) : Prop := 0 <= c <= 0x10FFFF /\ ~ 0xD800 <= c <= 0xDFFF.
Definition unicode_text (s : str) : Prop := Forall unicode s.
(** every float in the data is a float of Python *)
Definition doubles (v : value) : Prop := forall x, occurs x v -> is_double x.
