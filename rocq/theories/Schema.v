(** The part of the library marshmallow (setup.py:24, version 3) that the schemas of
    elgas/parameters/*.py and elgas/integration.py are written with: fields, and the
    methods [dump] and [load] of a schema.  Like Py.v this file models library code
    called by /repo; Schemas.v holds the schemas themselves. *)
From Verif Require Export Parameters.
From Verif Require Import Utils.
Open Scope string_scope.
Open Scope list_scope.
Open Scope Z_scope.

(** What Python does with numerals and texts: [str(x)] and [float(s)] for a float x
    and a text s, [int(s)], and the text of an object that is not a text already
    (marshmallow.utils.ensure_text_type). *)
Record python := mk_python {
  float_text : pyfloat -> str;
  read_float : str -> res pyfloat;
  read_int : str -> res Z;
  as_text : value -> res str }.

(** [float(n)] and [int(x)] for an int n and a float x *)
Definition float_of_int (n : Z) : res pyfloat :=
  match nearest_double (n <? 0) (Z.abs n) 1 with Inf _ => Err OverflowError | f => Ok f end.
Definition int_of_float (x : pyfloat) : res Z :=
  match x with
  | NaN => Err ValueError
  | Inf _ => Err OverflowError
  | Fin neg m e => let n := if 0 <=? e then m * 2 ^ e else m / 2 ^ (- e) in Ok (if neg then - n else n)
  end.
Definition finite (x : pyfloat) : bool := match x with Fin _ _ _ => true | _ => false end.
(** [x == 1] and [x == 0] *)
Definition is_one (x : pyfloat) : bool :=
  match x with Fin false m e => if 0 <=? e then m * 2 ^ e =? 1 else m =? 2 ^ (- e) | _ => false end.
Definition is_zero (x : pyfloat) : bool := match x with Fin _ m _ => m =? 0 | _ => false end.
Definition int_of_bool (b : bool) : Z := if b then 1 else 0.

(** A field that is declared [marshmallow.fields.Kind(required=.., allow_none=..)];
    the fields of a schema, its [post_load] method if it has one (they all are
    "return Class(**data)"). *)
Record spec (K : Type) := mk_spec { f_name : string; f_required : bool; f_allow_none : bool; f_kind : K }.
Arguments mk_spec {K}. Arguments f_name {K}. Arguments f_required {K}. Arguments f_allow_none {K}. Arguments f_kind {K}.
Inductive kind :=
| Integer
| Float (as_string : bool)
| Number
| String_
| Boolean
| Dict
| List_ (inner : kind)                                       (* fields.List(fields.Inner) *)
| Nested (fields : list (spec kind)) (post_load : option class).  (* fields.Nested(Schema) *)
Record schema := mk_schema { schema_fields : list (spec kind); schema_post_load : option class }.

Definition texts (l : list string) : list str :=
  map (fun s => map (fun c => Z.of_nat (Ascii.nat_of_ascii c)) (list_ascii_of_string s)) l.
(** the texts in fields.Boolean.truthy and .falsy *)
Definition truthy : list str := texts ["t"; "T"; "true"; "True"; "TRUE"; "on"; "On"; "ON"; "y"; "Y"; "yes"; "Yes"; "YES"; "1"].
Definition falsy : list str := texts ["f"; "F"; "false"; "False"; "FALSE"; "off"; "Off"; "OFF"; "n"; "N"; "no"; "No"; "NO"; "0"].
Definition among (s : str) (l : list str) : bool := existsb (list_eqb s) l.

Section Marshmallow.
Variable py : python.

(** Number._format_num with num_type int and float; [format_float] serves Float and Number *)
Definition format_int (v : value) : res Z :=
  match v with
  | VInt n => Ok n
  | VBool b => Ok (int_of_bool b)
  | VFloat x => int_of_float x
  | VStr s => read_int py s
  | _ => Err TypeError
  end.
Definition format_float (v : value) : res pyfloat :=
  match v with
  | VInt n => float_of_int n
  | VBool b => float_of_int (int_of_bool b)
  | VFloat x => Ok x
  | VStr s => read_float py s
  | _ => Err TypeError
  end.

(** Boolean._serialize: the sets truthy and falsy, else bool(value) *)
Definition truth (v : value) : bool :=
  match v with
  | VBool b => b
  | VInt n => negb (n =? 0)
  | VFloat (Fin _ m _) => negb (m =? 0)
  | VStr s => if among s truthy then true else if among s falsy then false else match s with [] => false | _ => true end
  | VBytes [] | VList [] | VDict [] | VNone => false
  | _ => true
  end.

(** marshmallow.utils.get_value(obj, name): None is [missing].  Simplification: objects
    other than instances and dicts are taken to have no attributes. *)
Definition get_value (name : string) (obj : value) : option value :=
  match obj with VObj _ attrs => lookup name attrs | VDict l => lookup name l | _ => None end.

(** Field._serialize; None is serialized as None by every kind *)
Fixpoint serialize (k : kind) (v : value) {struct k} : res value :=
  match v with
  | VNone => Ok VNone
  | _ =>
      match k with
      | Integer => n <- format_int v ;; Ok (VInt n)
      | Float true => x <- format_float v ;; Ok (VStr (float_text py x))
      | Float false | Number => x <- format_float v ;; Ok (VFloat x)
      | String_ => match v with VStr s => Ok (VStr s) | _ => s <- as_text py v ;; Ok (VStr s) end
      | Boolean => Ok (VBool (truth v))
      | Dict => match v with VDict l => Ok (VDict l) | _ => Err TypeError end
      | List_ inner =>
          match v with
          | VList l =>
              vs <- (fix go (l : list value) : res (list value) :=
                       match l with
                       | [] => Ok []
                       | v :: l' => x <- serialize inner v ;; xs <- go l' ;; Ok (x :: xs)
                       end) l ;; Ok (VList vs)
          | _ => Err TypeError
          end
      | Nested fields _ =>
          vs <- (fix go (l : list (spec kind)) : res (list (string * value)) :=
                   match l with
                   | [] => Ok []
                   | mk_spec name _ _ k :: l' =>
                       match get_value name v with
                       | None => go l'
                       | Some w => x <- serialize k w ;; xs <- go l' ;; Ok ((name, x) :: xs)
                       end
                   end) fields ;; Ok (VDict vs)
      end
  end.

(** Number._validated: a bool is refused, and the exceptions of the conversion
    (ValueError, TypeError, OverflowError) turn into ValidationError *)
Definition validated {A} (format : value -> res A) (v : value) : res A :=
  match v with
  | VBool _ => Err ValidationError
  | _ => match format v with
         | Ok x => Ok x
         | Err (ValueError | TypeError | OverflowError) => Err ValidationError
         | Err e => Err e
         end
  end.

(** what Schema._deserialize has collected: values, or that there was an error *)
Definition collected := option (list (string * value)).
Definition collect (name : string) (r : res (option value)) (rest : res collected) : res collected :=
  match r with
  | Err ValidationError => match rest with Ok _ => Ok None | Err e => Err e end
  | Err e => Err e
  | Ok None => rest
  | Ok (Some v) => match rest with Ok (Some l) => Ok (Some ((name, v) :: l)) | _ => rest end
  end.
(** the end of Schema._do_load: unknown keys (unknown=RAISE), ValidationError if
    anything is wrong, else the post_load method *)
Definition finish_load (names : list string) (post_load : option class) (l : list (string * value)) (r : res collected) : res value :=
  match r with
  | Err e => Err e
  | Ok None => Err ValidationError
  | Ok (Some kwargs) =>
      if forallb (fun kv => existsb (String.eqb (fst kv)) names) l then
        match post_load with Some c => construct c kwargs | None => Ok (VDict kwargs) end
      else Err ValidationError
  end.
(** Field.deserialize: [raw] None is [missing] *)
Definition deserialize_field (required allow_none : bool) (des : value -> res value) (raw : option value) : res (option value) :=
  match raw with
  | None => if required then Err ValidationError else Ok None
  | Some VNone => if allow_none then Ok (Some VNone) else Err ValidationError
  | Some v => x <- des v ;; Ok (Some x)
  end.
(** List._deserialize: goes on after a ValidationError, and raises one at the end *)
Definition collect_item (r : res value) (rest : res (option (list value))) : res (option (list value)) :=
  match r with
  | Err ValidationError => match rest with Ok _ => Ok None | Err e => Err e end
  | Err e => Err e
  | Ok v => match rest with Ok (Some l) => Ok (Some (v :: l)) | _ => rest end
  end.

(** Field._deserialize *)
Fixpoint deserialize (k : kind) (v : value) {struct k} : res value :=
  match k with
  | Integer => n <- validated format_int v ;; Ok (VInt n)
  | Float _ => x <- validated format_float v ;; if finite x then Ok (VFloat x) else Err ValidationError
  | Number => x <- validated format_float v ;; Ok (VFloat x)
  | String_ =>
      match v with
      | VStr s => Ok (VStr s)
      | VBytes _ =>
          match as_text py v with
          | Ok s => Ok (VStr s)
          | Err ValueError => Err ValidationError   (* UnicodeDecodeError *)
          | Err e => Err e
          end
      | _ => Err ValidationError
      end
  | Boolean =>
      match v with
      | VBool b => Ok (VBool b)
      | VInt 1 => Ok (VBool true)
      | VInt 0 => Ok (VBool false)
      | VFloat x => if is_one x then Ok (VBool true) else if is_zero x then Ok (VBool false) else Err ValidationError
      | VStr s => if among s truthy then Ok (VBool true) else if among s falsy then Ok (VBool false) else Err ValidationError
      | _ => Err ValidationError
      end
  | Dict => match v with VDict l => Ok (VDict l) | _ => Err ValidationError end
  | List_ inner =>
      match v with
      | VList l =>
          r <- (fix go (l : list value) : res (option (list value)) :=
                  match l with
                  | [] => Ok (Some [])
                  | v :: l' =>
                      (* the inner field has allow_none=False *)
                      collect_item (match v with VNone => Err ValidationError | _ => deserialize inner v end) (go l')
                  end) l ;;
          match r with Some l => Ok (VList l) | None => Err ValidationError end
      | _ => Err ValidationError
      end
  | Nested fields post_load =>
      match v with
      | VDict l =>
          finish_load (map f_name fields) post_load l
            ((fix go (fs : list (spec kind)) : res collected :=
                match fs with
                | [] => Ok (Some [])
                | mk_spec name required allow_none k :: fs' =>
                    collect name (deserialize_field required allow_none (deserialize k) (lookup name l)) (go fs')
                end) fields)
      | _ => Err ValidationError
      end
  end.

(** [Schema().dump(obj)] and [Schema().load(data)] *)
Definition dump (s : schema) (obj : value) : res value :=
  match obj with
  | VNone => Ok (VDict [])      (* no attributes: every field is missing *)
  | _ => serialize (Nested (schema_fields s) (schema_post_load s)) obj
  end.
Definition load (s : schema) (data : value) : res value := deserialize (Nested (schema_fields s) (schema_post_load s)) data.
End Marshmallow.
