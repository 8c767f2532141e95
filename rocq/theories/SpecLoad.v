(** Independent specification: which data a schema accepts and what it makes of it. *)
From Coq Require Import QArith.
From Verif Require Import Py PyFloat ParamLang Parameters Schema SpecParameters.
Open Scope string_scope.
Open Scope list_scope.
Open Scope Z_scope.

(** [n] is [x] without its fraction *)
Definition without_fraction (x : pyfloat) (n : Z) : Prop :=
  exists s m e, x = Fin s m e /\
  ((0 <= dyadic s m e)%Q -> ((n # 1) <= dyadic s m e /\ dyadic s m e < (n + 1 # 1))%Q) /\
  ((dyadic s m e <= 0)%Q -> ((n - 1 # 1) < dyadic s m e /\ dyadic s m e <= (n # 1))%Q).
(** the whole number, the number given as [v]: as such or as a text; no booleans *)
Inductive whole (py : python) : value -> Z -> Prop :=
| whole_int n : whole py (VInt n) n
| whole_float x n : without_fraction x n -> whole py (VFloat x) n
| whole_text s n : read_int py s = Ok n -> whole py (VStr s) n.
Inductive number (py : python) : value -> pyfloat -> Prop :=
| number_int n x : float_of_int n = Ok x -> number py (VInt n) x
| number_float x : number py (VFloat x) x
| number_text s x : read_float py s = Ok x -> number py (VStr s) x.

(** the words for yes and no, in small letters, in capitals or with a first capital *)
Definition letters (w : string) : str := map (fun c => Z.of_nat (Ascii.nat_of_ascii c)) (list_ascii_of_string w).
Definition capital (c : Z) : Z := if (97 <=? c) && (c <=? 122) then c - 32 else c.
Definition yes_words : list string := ["t"; "true"; "on"; "y"; "yes"; "1"].
Definition no_words : list string := ["f"; "false"; "off"; "n"; "no"; "0"].
Inductive spelled : string -> str -> Prop :=
| small w : spelled w (letters w)
| capitals w : spelled w (map capital (letters w))
| first_capital w c rest : letters w = c :: rest -> spelled w (capital c :: rest).
Definition says (words : list string) (s : str) : Prop := exists w, In w words /\ spelled w s.
(** [x] is the number [n] *)
Definition is_number (x : pyfloat) (n : Z) : Prop := exists s m e, x = Fin s m e /\ (dyadic s m e == (n # 1))%Q.
Inductive answer : value -> bool -> Prop :=
| answer_bool b : answer (VBool b) b
| answer_one : answer (VInt 1) true
| answer_zero : answer (VInt 0) false
| answer_float_one x : is_number x 1 -> answer (VFloat x) true
| answer_float_zero x : is_number x 0 -> answer (VFloat x) false
| answer_yes s : says yes_words s -> answer (VStr s) true
| answer_no s : says no_words s -> answer (VStr s) false.

(** the keyword arguments become a dict, or an object of the class with exactly its attributes *)
Inductive built : option class -> list (string * value) -> value -> Prop :=
| built_dict kw : built None kw (VDict kw)
| built_object c kw attrs :
    Forall2 (fun name a => fst a = name /\ lookup name kw = Some (snd a)) (class_attrs c) attrs ->
    (forall name, In name (map fst kw) -> In name (class_attrs c)) ->
    built (Some c) kw (VObj (class_name c) attrs).

(** [accepted k d v]: data [d] for a field declared as [k] is taken and gives [v] *)
Inductive accepted (py : python) : kind -> value -> value -> Prop :=
| accepted_int d n : whole py d n -> accepted py Integer d (VInt n)
| accepted_float b d x : number py d x -> (exists s m e, x = Fin s m e) -> accepted py (Float b) d (VFloat x)
| accepted_number d x : number py d x -> accepted py Number d (VFloat x)
| accepted_text s : accepted py String_ (VStr s) (VStr s)
| accepted_bytes b s : as_text py (VBytes b) = Ok s -> accepted py String_ (VBytes b) (VStr s)
| accepted_bool d b : answer d b -> accepted py Boolean d (VBool b)
| accepted_dict l : accepted py Dict (VDict l) (VDict l)
| accepted_list k l vs : accepted_items py k l vs -> accepted py (List_ k) (VList l) (VList vs)
| accepted_nested fields c l kw v :
    (forall key, In key (map fst l) -> In key (map f_name fields)) ->
    accepted_fields py l fields kw -> built c kw v -> accepted py (Nested fields c) (VDict l) v
(** every item, none of them null *)
with accepted_items (py : python) : kind -> list value -> list value -> Prop :=
| no_items k : accepted_items py k [] []
| one_item k d v l vs : d <> VNone -> accepted py k d v -> accepted_items py k l vs -> accepted_items py k (d :: l) (v :: vs)
(** every declared field: left out only if it is not required, null only if that is allowed *)
with accepted_fields (py : python) : list (string * value) -> list (spec kind) -> list (string * value) -> Prop :=
| no_fields l : accepted_fields py l [] []
| field_left_out l f fs kw : lookup (f_name f) l = None -> f_required f = false ->
    accepted_fields py l fs kw -> accepted_fields py l (f :: fs) kw
| field_null l f fs kw : lookup (f_name f) l = Some VNone -> f_allow_none f = true ->
    accepted_fields py l fs kw -> accepted_fields py l (f :: fs) ((f_name f, VNone) :: kw)
| field_given l f fs kw d v : lookup (f_name f) l = Some d -> d <> VNone -> accepted py (f_kind f) d v ->
    accepted_fields py l fs kw -> accepted_fields py l (f :: fs) ((f_name f, v) :: kw).

(** the data of a whole object *)
Definition accepts (py : python) (s : schema) (d v : value) : Prop :=
  accepted py (Nested (schema_fields s) (schema_post_load s)) d v.

(** [written k v d]: an attribute [v] of its declared kind is written as [d]; floats as
    text where the declaration says so *)
Inductive written (py : python) : kind -> value -> value -> Prop :=
| written_none k : written py k VNone VNone
| written_int n : written py Integer (VInt n) (VInt n)
| written_truth (b : bool) : written py Integer (VBool b) (VInt (if b then 1 else 0))
| written_float_text x : written py (Float true) (VFloat x) (VStr (float_text py x))
| written_float x : written py (Float false) (VFloat x) (VFloat x)
| written_number x : written py Number (VFloat x) (VFloat x)
| written_text s : written py String_ (VStr s) (VStr s)
| written_bool b : written py Boolean (VBool b) (VBool b)
| written_list k l ds : written_items py k l ds -> written py (List_ k) (VList l) (VList ds)
| written_object fields p c attrs ds : written_fields py attrs fields ds -> written py (Nested fields p) (VObj c attrs) (VDict ds)
with written_items (py : python) : kind -> list value -> list value -> Prop :=
| nothing_written k : written_items py k [] []
| item_written k v d l ds : written py k v d -> written_items py k l ds -> written_items py k (v :: l) (d :: ds)
(** the entries are in the order of the declarations *)
with written_fields (py : python) : list (string * value) -> list (spec kind) -> list (string * value) -> Prop :=
| no_fields_written attrs : written_fields py attrs [] []
| field_written attrs f fs v d ds : lookup (f_name f) attrs = Some v -> written py (f_kind f) v d ->
    written_fields py attrs fs ds -> written_fields py attrs (f :: fs) ((f_name f, d) :: ds).
Definition writes (py : python) (s : schema) (v d : value) : Prop :=
  written py (Nested (schema_fields s) (schema_post_load s)) v d.
