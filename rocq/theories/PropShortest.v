(** C101: how a float is written (Schema().dumps and the Decimal and String fields of
    elgas/parameters/*.py).  [py_float_text] is [str(x)], also used by json.dumps. *)
From Coq Require Import QArith Qabs.
From Verif Require Import PyFacts PyFloat ParamLang Schema PyText SpecParameters SpecSchema SpecNumeral Json SpecGrammar SpecShortest ShortestProofs.
Open Scope list_scope.
Open Scope Z_scope.

(** C101 *)
(** the text of a finite float other than zero is the shortest decimal that is read back
    as it, and no other text *)
Theorem C101_text : forall neg m e t, is_double (Fin neg m e) -> 0 < m -> py_float_text (Fin neg m e) = t <-> written_float neg (dyadic false m e) t.
Proof. exact float_text_iff. Qed.
Print Assumptions C101_text.
(** the others *)
Theorem C101_others : forall neg, py_float_text (Fin neg 0 0) = minus neg ++ [48; 46; 48] /\ py_float_text (Inf neg) = minus neg ++ [105; 110; 102] /\ py_float_text NaN = [110; 97; 110].
Proof. exact other_floats. Qed.
Print Assumptions C101_others.
(** json.dumps writes the same text, for every finite float *)
Theorem C101_json : forall neg m e, json_dumps (VFloat (Fin neg m e)) = Ok (py_float_text (Fin neg m e)).
Proof. exact json_float_text. Qed.
Print Assumptions C101_json.
(** the specification allows one text only *)
Theorem C101_one_text : forall neg v t t', written_float neg v t -> written_float neg v t' -> t = t'.
Proof. exact written_once. Qed.
Print Assumptions C101_one_text.

(** 0.1; the limits of the notation with a point; the smallest double; of two equally near
    decimals with 17 digits the even one (2^50 + 1/4); -1.5e300 *)
Definition double (neg : bool) (a b : Z) : pyfloat := nearest_double neg a b.
Example C101_hypotheses : is_double (Fin false 3602879701896397 (-55)) /\ 0 < 3602879701896397 /\ double false 1 10 = Fin false 3602879701896397 (-55) /\
  written_float false (dyadic false 3602879701896397 (-55)) [48; 46; 49].
Proof.
  assert (is_double (Fin false 3602879701896397 (-55))) as D by (split; [discriminate|]; exists 3602879701896397, (-55); repeat split; discriminate || reflexivity).
  split; [exact D|]. split; [reflexivity|]. split; [vm_compute; reflexivity|]. apply C101_text; [exact D|reflexivity|]. vm_compute. reflexivity.
Qed.
Example C101_texts :
  py_float_text (double false 1 10000) = [48; 46; 48; 48; 48; 49] /\
  py_float_text (double false 1 100000) = [49; 101; 45; 48; 53] /\
  py_float_text (double false (10 ^ 16) 1) = [49; 101; 43; 49; 54] /\
  py_float_text (double false (10 ^ 15) 1) = [49; 48; 48; 48; 48; 48; 48; 48; 48; 48; 48; 48; 48; 48; 48; 48; 46; 48] /\
  py_float_text (Fin false 1 (-1074)) = [53; 101; 45; 51; 50; 52] /\
  py_float_text (Fin false (2 ^ 52 + 1) (-2)) = [49; 49; 50; 53; 56; 57; 57; 57; 48; 54; 56; 52; 50; 54; 50; 52; 46; 50] /\
  py_float_text (double true (15 * 10 ^ 299) 1) = [45; 49; 46; 53; 101; 43; 51; 48; 48].
Proof. vm_compute. repeat split. Qed.
