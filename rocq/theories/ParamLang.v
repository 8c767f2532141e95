(** The fragment of Python in which every [from_bytes] of elgas/parameters/*.py is
    written, as an abstract syntax with an evaluator.  Parameters.v holds the
    bodies of these methods, statement by statement, in this syntax. *)
From Coq Require Export String.
From Verif Require Export Py PyFloat.
From Verif Require Import Utils.
Open Scope Z_scope.

(** ** Values *)
Inductive value :=
| VNone
| VInt (n : Z)
| VBool (b : bool)
| VFloat (f : pyfloat)
| VStr (s : str)
| VBytes (b : bytes)                              (* bytes and bytearray *)
| VList (l : list value)
| VObj (cls : string) (attrs : list (string * value))   (* an attrs instance *)
| VDict (l : list (string * value)).              (* a dict with text keys: only the schemas make these *)

Fixpoint lookup {A} (x : string) (env : list (string * A)) : option A :=
  match env with
  | [] => None
  | (y, v) :: env' => if String.eqb x y then Some v else lookup x env'
  end.

(** ** Expressions *)
Inductive op :=
| FromLe                     (* int.from_bytes(_, "little") *)
| PrettyText                 (* elgas.utils.pretty_text(_) *)
| Hex                        (* _.hex() *)
| IpAddress                  (* elgas.utils.parse_ip_address(_) *)
| UnpackF                    (* struct.unpack("<f", _)[0] *)
| UnpackD                    (* struct.unpack("<d", _)[0] *)
| Round7                     (* round(_, 7) *)
| BitAnd (mask : Z)          (* _ & mask *)
| ShiftRight (n : Z)         (* _ >> n *)
| ToBool                     (* bool(_) *)
| ToInt                      (* int(_) *)
| FromBytes (cls : string).  (* cls.from_bytes(_) *)

Inductive expr :=
| Var (x : string)
| None_
| EmptyList                  (* list() *)
| Pop                        (* data.pop(0) *)
| PopMany (n : Z)            (* pop_many(data, n) *)
| App (o : op) (e : expr).

(** ** Statements.  The first statement of every method, [data = bytearray(in_data)],
    is the initial state of the evaluator. *)
Inductive stmt :=
| Assign (x : string) (e : expr)                       (* x = e *)
| AppendTo (x : string) (e : expr)                     (* x.append(e) *)
| IfData (s1 s2 : stmt)                                (* if data: s1 else: s2 *)
| ForRange (x : string) (s : stmt)                     (* for _ in range(0, x): s *)
| AssertNotData                                        (* assert not data *)
| Return (kwargs : list (string * expr))               (* return cls(k=e, ...) *)
| Skip
| Seq (s1 s2 : stmt).
Definition block (l : list stmt) : stmt := fold_right Seq Skip l.

(** An attrs class: its name, the names of its attributes in order (none of the
    classes of elgas/parameters gives one a default, so all are required), and the
    body of its [from_bytes], if it has one. *)
Record class := mk_class {
  class_name : string;
  class_attrs : list string;
  class_body : option stmt }.

(** [cls(k=v, ...)], the constructor attrs generates: it raises TypeError for an
    unknown keyword and for a missing attribute *)
Fixpoint arrange {A} (names : list string) (kwargs : list (string * A)) : option (list (string * A)) :=
  match names with
  | [] => Some []
  | a :: names' =>
      match lookup a kwargs, arrange names' kwargs with
      | Some v, Some l => Some ((a, v) :: l)
      | _, _ => None
      end
  end.
Definition all_known {A} (names : list string) (kwargs : list (string * A)) : bool :=
  forallb (fun kv => existsb (String.eqb (fst kv)) names) kwargs.
Definition construct (c : class) (kwargs : list (string * value)) : res value :=
  if all_known (class_attrs c) kwargs then
    match arrange (class_attrs c) kwargs with
    | Some attrs => Ok (VObj (class_name c) attrs)
    | None => Err TypeError
    end
  else Err TypeError.

Section Evaluator.
(** what [cls.from_bytes] means inside the method being evaluated *)
Variable call : string -> bytes -> res value.

Definition apply_op (o : op) (v : value) : res value :=
  match o, v with
  | FromLe, VBytes b => Ok (VInt (from_le b))
  | PrettyText, VBytes b => Ok (VStr (pretty_text b))
  | Hex, VBytes b => Ok (VStr (hex b))
  | IpAddress, VBytes b => s <- parse_ip_address b ;; Ok (VStr s)
  | UnpackF, VBytes b => f <- unpack_single b ;; Ok (VFloat f)
  | UnpackD, VBytes b => f <- unpack_double b ;; Ok (VFloat f)
  | Round7, VFloat f => Ok (VFloat (round7 f))
  | BitAnd m, VInt n => Ok (VInt (Z.land n m))
  | ShiftRight k, VInt n => Ok (VInt (Z.shiftr n k))
  | ToBool, VInt n => Ok (VBool (negb (n =? 0)))
  | ToInt, VInt n => Ok (VInt n)
  | FromBytes c, VBytes b => call c b
  | _, _ => Err TypeError
  end.

(** the state: the local variables and what is left of [data] *)
Definition locals := list (string * value).

Fixpoint eval (env : locals) (data : bytes) (e : expr) : res (value * bytes) :=
  match e with
  | Var x => match lookup x env with Some v => Ok (v, data) | None => Err KeyError end
  | None_ => Ok (VNone, data)
  | EmptyList => Ok (VList [], data)
  | Pop => match pop0 data with Ok (b, data') => Ok (VInt b, data') | Err e => Err e end
  | PopMany n => match pop_many data n with Ok (b, data') => Ok (VBytes b, data') | Err e => Err e end
  | App o e =>
      match eval env data e with
      | Ok (v, data') => match apply_op o v with Ok v' => Ok (v', data') | Err e => Err e end
      | Err e => Err e
      end
  end.

(** keyword arguments are evaluated from left to right *)
Fixpoint eval_kwargs (env : locals) (data : bytes) (kws : list (string * expr)) : res (locals * bytes) :=
  match kws with
  | [] => Ok ([], data)
  | (k, e) :: kws' =>
      match eval env data e with
      | Err e => Err e
      | Ok (v, data') =>
          match eval_kwargs env data' kws' with
          | Ok (vs, data'') => Ok ((k, v) :: vs, data'')
          | Err e => Err e
          end
      end
  end.

(** how a statement ends *)
Inductive outcome :=
| Next (env : locals) (data : bytes)
| Returned (v : value)
| Raised (e : exn).

Variable cls : class.

Fixpoint exec (s : stmt) (env : locals) (data : bytes) : outcome :=
  match s with
  | Assign x e =>
      match eval env data e with
      | Ok (v, data') => Next ((x, v) :: env) data'
      | Err e => Raised e
      end
  | AppendTo x e =>
      match lookup x env with
      | Some (VList l) =>
          match eval env data e with
          | Ok (v, data') => Next ((x, VList (l ++ [v])) :: env) data'
          | Err e => Raised e
          end
      | _ => Raised AttributeError
      end
  | IfData s1 s2 =>
      match data with
      | [] => exec s2 env data
      | _ => exec s1 env data
      end
  | ForRange x s =>
      match lookup x env with
      | Some (VInt n) =>
          (fix loop (k : nat) (env : locals) (data : bytes) : outcome :=
             match k with
             | O => Next env data
             | S k' => match exec s env data with
                       | Next env' data' => loop k' env' data'
                       | o => o
                       end
             end) (Z.to_nat n) env data
      | _ => Raised TypeError
      end
  | AssertNotData =>
      match data with
      | [] => Next env data
      | _ => Raised AssertionError
      end
  | Return kwargs =>
      match eval_kwargs env data kwargs with
      | Ok (vs, _) => match construct cls vs with Ok v => Returned v | Err e => Raised e end
      | Err e => Raised e
      end
  | Skip => Next env data
  | Seq s1 s2 =>
      match exec s1 env data with
      | Next env' data' => exec s2 env' data'
      | o => o
      end
  end.

(** [cls.from_bytes(in_data)]; a class without that method raises AttributeError *)
Definition run_from_bytes (in_data : bytes) : res value :=
  match class_body cls with
  | None => Err AttributeError
  | Some s =>
      match exec s [] in_data with
      | Next _ _ => Ok VNone
      | Returned v => Ok v
      | Raised e => Err e
      end
  end.
End Evaluator.
