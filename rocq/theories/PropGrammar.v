(** C100: which texts are JSON, and what they stand for (Schema().loads of
    elgas/parameters/*.py, tests/test_schema.py:694-698). *)
From Coq Require Import Lia QArith String.
From Verif Require Import PyFacts PyFloat ParamLang Schema Schemas PyText SpecParameters SpecNumeral Json SpecJson SpecGrammar GrammarProofs.
Open Scope string_scope.
Open Scope list_scope.
Open Scope Z_scope.

(** C100 *)
(** exactly the texts of the grammar are read, as the data the grammar gives *)
Theorem C100_read : forall t v, json_loads t = Ok v <-> json_text v t.
Proof. exact loads_iff. Qed.
Print Assumptions C100_read.
(** every other text: ValueError (JSONDecodeError) *)
Theorem C100_refused : forall t, (forall v, ~ json_text v t) -> json_loads t = Err ValueError.
Proof. exact loads_refuses. Qed.
Print Assumptions C100_refused.
(** a text stands for one value *)
Theorem C100_one_value : forall t v v', json_text v t -> json_text v' t -> v = v'.
Proof. exact one_value. Qed.
Print Assumptions C100_one_value.
(** what is written is JSON *)
Theorem C100_written : forall v, json_data v -> exists t v', json_dumps v = Ok t /\ json_text v' t /\ alike v v'.
Proof. exact written_json. Qed.
Print Assumptions C100_written.
(** a schema loads the data the text stands for *)
Theorem C100_schema : forall py s t v, json_text v t -> loads py s t = load py s v.
Proof. exact schema_loads. Qed.
Print Assumptions C100_schema.

(** white space, a repeated key, every short escape, a pair of surrogates, numbers *)
Definition example_text : str :=
  32 :: chars "{" ++ [34; 97; 34; 58; 32; 49; 44; 10] ++ [34; 98; 34; 58; 91; 45; 48; 46; 53; 101; 43; 49; 32; 44; 9; 110; 117; 108; 108; 93; 44; 34; 97; 34; 32; 58; 34] ++
    [92; 34; 92; 92; 92; 47; 92; 98; 92; 102; 92; 110; 92; 114; 92; 116] ++ chars "\uD83d\uDe00\ud83d" ++ [34] ++ chars "}" ++ [13].
Definition example_value : value :=
  VDict [("a", VStr [34; 92; 47; 8; 12; 10; 13; 9; 0x1F600; 0xD83D]); ("b", VList [VFloat (Fin true 5 0); VNone])].
Example C100_example : json_text example_value example_text.
Proof. apply loads_iff. vm_compute. reflexivity. Qed.
Example C100_example_refused : Forall (fun t => forall v, ~ json_text v (chars t)) [""; "01"; "1."; ".5"; "+1"; "1e"; "[1,]"; "{a:1}"; "[1 2]"; "nul"; "1 2"; "[1"; "-"; "{,}"].
Proof. repeat (constructor; [intros v H; apply loads_iff in H; vm_compute in H; discriminate|]). constructor. Qed.
