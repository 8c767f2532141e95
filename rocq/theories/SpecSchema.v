(** Independent specification of what the schemas are for: data that can be sent as
    JSON and turned back into equal objects. *)
From Coq Require Import QArith.
From Verif Require Import Py PyFloat ParamLang Parameters Schema Schemas SpecParameters.
Open Scope string_scope.
Open Scope list_scope.
Open Scope Z_scope.

(** ** Equality of Python objects: True equals 1 and False equals 0, floats are equal
    when they are the same number (with the sign of zero; a NaN is taken to equal a
    NaN), lists and dicts item by item, instances of attrs classes when they are of
    the same class and have equal attributes *)
Definition same_float (x y : pyfloat) : Prop :=
  match x, y with
  | NaN, NaN => True
  | Inf s, Inf s' => s = s'
  | Fin s m e, Fin s' m' e' => s = s' /\ (dyadic s m e == dyadic s' m' e')%Q
  | _, _ => False
  end.
Inductive same : value -> value -> Prop :=
| same_none : same VNone VNone
| same_int n : same (VInt n) (VInt n)
| same_bool b : same (VBool b) (VBool b)
| same_bool_int (b : bool) n : n = (if b then 1 else 0) -> same (VBool b) (VInt n)
| same_int_bool (b : bool) n : n = (if b then 1 else 0) -> same (VInt n) (VBool b)
| same_floats x y : same_float x y -> same (VFloat x) (VFloat y)
| same_str s : same (VStr s) (VStr s)
| same_bytes b : same (VBytes b) (VBytes b)
| same_list l l' : Forall2 same l l' -> same (VList l) (VList l')
| same_obj c attrs attrs' :
    Forall2 (fun a a' => fst a = fst a' /\ same (snd a) (snd a')) attrs attrs' -> same (VObj c attrs) (VObj c attrs')
| same_dict l l' :
    (forall name, lookup name l = None <-> lookup name l' = None) ->
    (forall name v v', lookup name l = Some v -> lookup name l' = Some v' -> same v v') ->
    same (VDict l) (VDict l').

(** ** Floats *)
Definition is_double (x : pyfloat) : Prop :=
  match x with Fin s m e => 0 <= m /\ double_value (dyadic s m e) | _ => True end.
(** what Python guarantees about the text of a float: it is read back as the same float *)
Definition lawful (py : python) : Prop :=
  forall x, is_double x -> exists y, read_float py (float_text py x) = Ok y /\ same_float x y.
(** the float [x] is somewhere in the value *)
Inductive occurs (x : pyfloat) : value -> Prop :=
| occurs_here : occurs x (VFloat x)
| occurs_list v l : In v l -> occurs x v -> occurs x (VList l)
| occurs_obj c name v attrs : In (name, v) attrs -> occurs x v -> occurs x (VObj c attrs)
| occurs_dict name v l : In (name, v) l -> occurs x v -> occurs x (VDict l).
Definition finite_floats (v : value) : Prop := forall x, occurs x v -> exists s m e, x = Fin s m e.

(** ** Instances: objects whose attributes are what the annotations of the class say *)
Inductive annotated : annotation -> value -> Prop :=
| an_int n : annotated AInt (VInt n)
| an_bool_int b : annotated AInt (VBool b)       (* bool is a subclass of int *)
| an_bool b : annotated ABool (VBool b)
| an_float x : is_double x -> annotated AFloat (VFloat x)
| an_str s : annotated AStr (VStr s)
| an_none a : annotated (AOptional a) VNone
| an_some a v : annotated a v -> annotated (AOptional a) v
| an_strs l : annotated AStrs (VList (map VStr l))
| an_gas xs : Forall is_double xs -> length xs = length gas_components ->
    annotated AGasComposition (VObj "GasComposition" (combine gas_components (map VFloat xs))).
Definition fits (attrs : list (string * value)) (annotations : list (string * annotation)) : Prop :=
  Forall2 (fun a n => fst a = fst n /\ annotated (snd n) (snd a)) attrs annotations.
(** [v] is an instance of the class registered for [t] *)
Definition instance (t : parameter_type) (v : value) : Prop :=
  exists c annotations attrs, registered_class t = Some c /\ registered_annotations t = Some annotations /\
    v = VObj (class_name c) attrs /\ fits attrs annotations.
Definition attribute (name : string) (v : value) : option value :=
  match v with VObj _ attrs => lookup name attrs | _ => None end.

(** ** The gaps *)
(** the types whose schema makes no object *)
Definition makes_no_object (t : parameter_type) : Prop := In t [SET_POINT; ERROR_STANDARD_COUNTER; MODEM].
(** the objects the schema of their type cannot carry *)
Inductive lossy : parameter_type -> value -> Prop :=
| lossy_flow_rate v : attribute "decimals" v = Some VNone -> lossy FLOW_RATE v
| lossy_device_error v name s : name = "text_log_0" \/ name = "text_log_1" -> attribute name v = Some (VStr s) -> lossy DEVICE_ERROR v
| lossy_difference v : lossy DIFFERENCE_BASE_COUNTER v.

(** the types with fields.Number, or fields.Float without as_string *)
Definition numeric_type (t : parameter_type) : Prop := In t [ANALOG_MEASURAND; TARIFF_COUNTER; DOUBLE_TARIFF_COUNTER].

(** ** JSON *)
Inductive json : value -> Prop :=
| json_none : json VNone
| json_bool b : json (VBool b)
| json_int n : json (VInt n)
| json_number s m e : json (VFloat (Fin s m e))
| json_str s : json (VStr s)
| json_list l : Forall json l -> json (VList l)
| json_dict l : Forall (fun a => json (snd a)) l -> json (VDict l).

(** ** What a schema accepts *)
(** int(text), float(text) and bytes.decode raise nothing but ValueError *)
Definition value_errors (py : python) : Prop :=
  (forall s e, read_int py s = Err e -> e = ValueError) /\
  (forall s e, read_float py s = Err e -> e = ValueError) /\
  (forall b e, as_text py (VBytes b) = Err e -> e = ValueError).
Definition accepts_keys (s : schema) (l : list (string * value)) : Prop :=
  (forall name v, In (name, v) l -> In name (map f_name (schema_fields s))) /\
  (forall f, In f (schema_fields s) -> f_required f = true -> exists v, lookup (f_name f) l = Some v) /\
  (forall f, In f (schema_fields s) -> f_allow_none f = false -> lookup (f_name f) l <> Some VNone).

(** ** A configuration: what a program does to keep parameter objects as JSON data
    (tests/test_schema.py:681-696) and to get them back *)
Definition by_parameter_id (t : parameter_type) : res schema :=
  match registered_schema t with Some s => Ok s | None => Err KeyError end.
Definition find_type (code : value) : res parameter_type :=
  match code with
  | VInt n => match find (fun t => type_code t =? n) all_types with Some t => Ok t | None => Err ValueError end
  | _ => Err ValueError
  end.
Fixpoint each {A B} (f : A -> res B) (l : list A) : res (list B) :=
  match l with [] => Ok [] | x :: l' => y <- f x ;; ys <- each f l' ;; Ok (y :: ys) end.
Definition save_object (py : python) (o : parameter_type * value * option str) : res value :=
  let '(t, v, series) := o in
  s <- by_parameter_id t ;;
  out <- dump py s v ;;
  dump py UtilitarianConfigurationObjectSchema
    (VObj "UtilitarianConfigurationObject"
       [("parameter_type", VInt (type_code t)); ("data", out); ("series_name", match series with Some x => VStr x | None => VNone end)]).
Definition save (py : python) (objs : list (parameter_type * value * option str)) : res value :=
  items <- each (save_object py) objs ;;
  dump py UtilitarianConfigurationSchema (VObj "UtilitarianConfiguration" [("objects", VList items)]).
Definition item_of (key : string) (d : value) : res value :=
  match d with VDict l => match lookup key l with Some v => Ok v | None => Err KeyError end | _ => Err TypeError end.
Definition restore_object (py : python) (d : value) : res (parameter_type * value * option str) :=
  code <- item_of "parameter_type" d ;;
  t <- find_type code ;;
  s <- by_parameter_id t ;;
  out <- item_of "data" d ;;
  v <- load py s out ;;
  series <- item_of "series_name" d ;;
  Ok (t, v, match series with VStr x => Some x | _ => None end).
Definition restore (py : python) (data : value) : res (list (parameter_type * value * option str)) :=
  c <- load py UtilitarianConfigurationSchema data ;;
  objects <- item_of "objects" c ;;
  match objects with VList l => each (restore_object py) l | _ => Err TypeError end.
(** the objects (type, object, series name) that survive *)
Definition kept (o : parameter_type * value * option str) : Prop :=
  instance (fst (fst o)) (snd (fst o)) /\ finite_floats (snd (fst o)) /\ ~ lossy (fst (fst o)) (snd (fst o)) /\ ~ makes_no_object (fst (fst o)).
