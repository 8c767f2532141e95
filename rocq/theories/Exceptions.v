(** Model of the class hierarchy of /repo/elgas/exceptions.py. *)
From Verif Require Import Py.

(** elgas/exceptions.py:1-50: the classes derived from ElgasError (line 1), i.e.
    what an [except ElgasError] clause catches.  ElgasError itself derives from
    Exception; the built-in classes do not derive from it. *)
Definition is_elgas_error (e : exn) : bool :=
  match e with
  | LocalElgasProtocolError | CommunicationError | WrongPasswordError | SettingArchiveFull | SwitchOff
  | BlockedBuffer | DataError | CipherKeyError | WrongEncryptionKeysError | WriteError => true
  | _ => false
  end.
