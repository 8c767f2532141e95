(** Independent specification of what C102 is about: the memory of a device, read over a
    socket or serial port and kept as JSON text. *)
From Verif Require Import Py PyFloat ParamLang Parameters Schema Connection Client PyText Json.
From Verif Require Import SpecUtils SpecFrames SpecSecurity SpecConnection SpecApplication SpecPdu SpecText SpecParameters SpecSchema SpecJson SpecClassVars SpecBlock SpecNumbers SpecClient SpecStack.
Open Scope list_scope.
Open Scope Z_scope.
(** [lines] are the telegrams of the pages [front ++ [last]] of the memory [objs]: pages of
    any size, cut anywhere, the last one with the end flag *)
Definition memory_sent (ctx : option cipher_context) (objs : list (parameter_type * bytes)) (front : list content) (last : content) (lines : list bytes) : Prop :=
  objs <> [] /\ Forall sendable objs /\ concat (map c_data (front ++ [last])) = transmission objs /\
  Forall (fun c => c_end c = false) front /\ c_end last = true /\ total (map c_amount front) <= 65535 /\
  Forall2 (says_page ctx) (front ++ [last]) lines.
(** an object that the schema of its type carries without loss *)
Definition carried (o : parameter_type * bytes) (v : value) : Prop :=
  finite_floats v /\ ~ lossy (fst o) v /\ ~ makes_no_object (fst o).
(** the program of tests/test_schema.py:681-696 for what read_parameters returned *)
Definition kept_as_text (py : python) (vs : list value) : res str :=
  d <- save_parameters py vs ;; json_dumps d.
