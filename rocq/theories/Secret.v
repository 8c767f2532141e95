(** Model of the classes SecretStr and SecretByte of /repo/elgas/utils.py and of the
    representations (repr) of the objects that hold such values. *)
From Coq Require Import String.
From Verif Require Export Client.
Open Scope string_scope.
Open Scope list_scope.
Open Scope Z_scope.

Definition text (s : string) : str := map (fun c => Z.of_nat (Ascii.nat_of_ascii c)) (list_ascii_of_string s).

(** Python objects as repr sees them.  Simplifications: the object graph is a
    tree; the only Python code that runs during repr is that of the classes of
    elgas: [__repr__] of SecretStr and SecretByte, and the [__repr__] functions
    attrs generates. *)
Inductive object :=
| SecretString (s : str)                                    (* utils.SecretStr(s) *)
| SecretBytes (b : bytes)                                   (* utils.SecretByte(b) *)
| Plain (shown : str)                                       (* any other object, with its repr *)
| BuiltIn (opening : str) (items : list (str * object)) (closing : str)
    (* a list, tuple, dict, ...: its repr is C code, that has no Python frame;
       before each item a separator or key *)
| Instance (cls : str) (attrs : list (str * object)).       (* an instance of an attrs class *)

Section Repr.
(** str.__repr__ and bytes.__repr__ *)
Variable str_repr : str -> str.
Variable bytes_repr : bytes -> str.

(** elgas/utils.py:12-26 and 34-48: sys._getframe(1), (2), ... are the frames of
    the callers, [stack] the names of their functions, innermost first; the loop
    ends with ValueError when there are no more. *)
Fixpoint censors (stack : list string) : bool :=
  match stack with
  | [] => false
  | co_name :: stack' => if String.eqb co_name "__repr__" then true else censors stack'
  end.

(** repr(o), called from a function whose call stack is [stack].  The function that
    attrs generates for a class is named __repr__ and gives
    Class(attribute=repr(value), ...). *)
Fixpoint object_repr (stack : list string) (o : object) {struct o} : str :=
  match o with
  | SecretString s => if censors stack then text "<SECRET>" else str_repr s
  | SecretBytes b => if censors stack then text "<SECRET>" else bytes_repr b
  | Plain shown => shown
  | BuiltIn opening items closing =>
      opening ++
      (fix go (l : list (str * object)) : str :=
         match l with
         | [] => []
         | (before, o) :: l' => before ++ object_repr stack o ++ go l'
         end) items ++ closing
  | Instance cls attrs =>
      let stack := "__repr__" :: stack in
      cls ++ text "(" ++
      (fix go (first : bool) (l : list (str * object)) : str :=
         match l with
         | [] => []
         | (name, o) :: l' =>
             (if first then [] else text ", ") ++ name ++ text "=" ++ object_repr stack o ++ go false l'
         end) true attrs ++ text ")"
  end.
End Repr.

(** ** The objects of elgas that hold a password or a key.
    [shown] holds the representations of their other attributes and of the
    transport object. *)
Record shown := mk_shown {
  show_int : Z -> str; show_optional_int : option Z -> str; show_bool : bool -> str;
  show_buffer : bytes -> str; show_state : protocol_state -> str; show_datetime : datetime -> str;
  show_transport : str }.

(** the value of an optional key attribute: a SecretByte, or None (utils.py:51-53) *)
Definition key_object (k : option bytes) : object :=
  match k with Some b => SecretBytes b | None => Plain (text "None") end.
(** elgas/security.py:42-45, an attrs class; connection.py:34-45 passes the key on *)
Definition context_object (sh : shown) (ctx : cipher_context) : object :=
  Instance (text "CipherContext") [(text "key_id", Plain (show_int sh (key_id ctx))); (text "key", SecretBytes (key ctx))].
(** elgas/connection.py:69-106, an attrs class.  The password and key given to it by a
    client (client.py:27-37) are secrets. *)
Definition connection_object (sh : shown) (c : connection) : object :=
  Instance (text "ElgasConnection")
    [(text "source_address_1", Plain (show_int sh (c_source_1 c))); (text "source_address_2", Plain (show_int sh (c_source_2 c)));
     (text "destination_address_1", Plain (show_int sh (c_destination_1 c))); (text "destination_address_2", Plain (show_int sh (c_destination_2 c)));
     (text "password", SecretString (c_password c)); (text "password_id", Plain (show_int sh (c_password_id c)));
     (text "encryption_key", key_object (encryption_key c)); (text "encryption_key_id", Plain (show_optional_int sh (encryption_key_id c)));
     (text "buffer", Plain (show_buffer sh (buffer c)));
     (text "elgas_state", Instance (text "ElgasState") [(text "current_state", Plain (show_state sh (elgas_state c)))]);
     (text "cipher_context", match context c with Some ctx => context_object sh ctx | None => Plain (text "None") end)].
(** a connection that the user made from a plain str and plain bytes: its
    attributes have no converter (connection.py:93-99) *)
Definition plain_connection_object (str_repr : str -> str) (bytes_repr : bytes -> str) (sh : shown) (c : connection) : object :=
  Instance (text "ElgasConnection")
    [(text "source_address_1", Plain (show_int sh (c_source_1 c))); (text "source_address_2", Plain (show_int sh (c_source_2 c)));
     (text "destination_address_1", Plain (show_int sh (c_destination_1 c))); (text "destination_address_2", Plain (show_int sh (c_destination_2 c)));
     (text "password", Plain (str_repr (c_password c))); (text "password_id", Plain (show_int sh (c_password_id c)));
     (text "encryption_key", match encryption_key c with Some b => Plain (bytes_repr b) | None => Plain (text "None") end);
     (text "encryption_key_id", Plain (show_optional_int sh (encryption_key_id c)));
     (text "buffer", Plain (show_buffer sh (buffer c)));
     (text "elgas_state", Instance (text "ElgasState") [(text "current_state", Plain (show_state sh (elgas_state c)))]);
     (text "cipher_context", match context c with
        | Some ctx => Instance (text "CipherContext") [(text "key_id", Plain (show_int sh (key_id ctx))); (text "key", Plain (bytes_repr (key ctx)))]
        | None => Plain (text "None") end)].
(** elgas/client.py:13-39, an attrs class with converters for password and key *)
Definition client_object (sh : shown) (cl : client) : object :=
  Instance (text "ElgasClient")
    [(text "transport", Plain (show_transport sh));
     (text "password", SecretString (cl_password cl)); (text "password_id", Plain (show_int sh (c_password_id (cl_connection cl))));
     (text "encryption_key", key_object (encryption_key (cl_connection cl)));
     (text "encryption_key_id", Plain (show_optional_int sh (encryption_key_id (cl_connection cl))));
     (text "elgas_connection", connection_object sh (cl_connection cl))].
(** the request PDUs a client makes (client.py:63, 71, 79-81, 92-96, 112-117,
    125-130), attrs classes: application.py:25-31, 81-88, 129-141, 171-180,
    219-229, 266-274 *)
Definition request_object (sh : shown) (r : request) : object :=
  match r with
  | ReadInstantaneousValuesRequest password =>
      Instance (text "ReadInstantaneousValuesRequest") [(text "password", SecretString password)]
  | ReadTimeRequest => Instance (text "ReadTimeRequest") []
  | WriteTimeRequest password device_time cryout =>
      Instance (text "WriteTimeRequest") [(text "password", SecretString password); (text "device_time", Plain (show_datetime sh device_time));
        (text "cryout", Plain (show_bool sh cryout))]
  | ReadDeviceParametersRequest password object_count buffer_length =>
      Instance (text "ReadDeviceParametersRequest") [(text "password", SecretString password);
        (text "object_count", Plain (show_int sh object_count)); (text "buffer_length", Plain (show_int sh buffer_length))]
  | ReadArchiveByTimeRequest password archive amount oldest_timestamp =>
      Instance (text "ReadArchiveByTimeRequest") [(text "password", SecretString password); (text "archive", Plain (show_int sh archive));
        (text "amount", Plain (show_int sh amount)); (text "oldest_timestamp", Plain (show_datetime sh oldest_timestamp))]
  | ReadArchiveRequest password archive amount oldest_record_id =>
      Instance (text "ReadArchiveRequest") [(text "password", SecretString password); (text "archive", Plain (show_int sh archive));
        (text "amount", Plain (show_int sh amount)); (text "oldest_record_id", Plain (show_int sh oldest_record_id))]
  end.
