(** C86, C87: a configuration as JSON text (elgas/integration.py, elgas/parameters/*.py;
    [Schema().dumps] and [Schema().loads] as in tests/test_schema.py:681-698). *)
From Verif Require Import PyFacts PyFloat ParamLang Parameters Schema Schemas PyText Json SpecParameters SpecSchema SpecJson SchemaProofs3 JsonProofs JsonProofs2 JsonProofs3 PropParameters PropSchema PropNumerals.
Open Scope string_scope.
Open Scope list_scope.
Open Scope Z_scope.

(** data that JSON can hold is read back from its text as the same data; the text is printable ASCII *)
Theorem C86_data_survives : forall v, json_data v -> exists txt v', json_dumps v = Ok txt /\ printable txt /\ json_loads txt = Ok v' /\ alike v v'.
Proof. exact json_text_round_trip. Qed.
Print Assumptions C86_data_survives.
(** one object: Schema().dumps, Schema().loads *)
Theorem C86_object_survives : forall uni text t s v, registered_schema t = Some s -> instance t v -> finite_floats v -> ~ lossy t v -> ~ makes_no_object t -> texts_ok v ->
  exists txt v', dumps (cpython uni text) s v = Ok txt /\ printable txt /\ loads (cpython uni text) s txt = Ok v' /\ same v v'.
Proof. exact object_text_round_trip. Qed.
Print Assumptions C86_object_survives.
(** a whole configuration *)
Theorem C86_configuration_survives : forall uni text objs, Forall kept objs -> Forall (fun o => texts_ok (snd (fst o))) objs -> Forall series_ok objs ->
  exists txt objs', save_text (cpython uni text) objs = Ok txt /\ printable txt /\ restore_text (cpython uni text) txt = Ok objs' /\
    Forall2 (fun o o' => fst (fst o) = fst (fst o') /\ same (snd (fst o)) (snd (fst o')) /\ snd o = snd o') objs objs'.
Proof. exact configuration_text. Qed.
Print Assumptions C86_configuration_survives.
(** what a device sends always satisfies the condition on texts *)
Theorem C86_parsed_texts : forall t l v, is_bytes l -> parameter_from_bytes t l = Ok v -> texts_ok v.
Proof. exact parsed_texts. Qed.
Print Assumptions C86_parsed_texts.
(** any text at all: an object, ValidationError or ValueError (JSONDecodeError) *)
Theorem C86_any_text : forall uni text t s txt, (forall b x, text (VBytes b) = Err x -> x = ValueError) -> registered_schema t = Some s -> t <> DIFFERENCE_BASE_COUNTER ->
  (exists v, loads (cpython uni text) s txt = Ok v) \/ loads (cpython uni text) s txt = Err ValidationError \/ loads (cpython uni text) s txt = Err ValueError.
Proof. exact any_text. Qed.
Print Assumptions C86_any_text.
(** the condition is needed: a high surrogate before a low one comes back as one character *)
Theorem C86_surrogates_refuted : exists s txt s', json_dumps (VStr s) = Ok txt /\ json_loads txt = Ok (VStr s') /\ s <> s'.
Proof. exists [0xD83D; 0xDE00]. eexists. exists [0x1F600]. split; [reflexivity|]. split; [reflexivity|discriminate]. Qed.
Print Assumptions C86_surrogates_refuted.

Definition configuration : list (parameter_type * value * option str) := [(CONVERSION_COEFFICIENT, coefficient, None); (TIMER, parsed TIMER timer1, Some [84; 49])].
Example C86_hypotheses : Forall kept configuration /\ Forall (fun o => texts_ok (snd (fst o))) configuration /\ Forall series_ok configuration.
Proof.
  split; [exact C72_hypotheses|]. split.
  - constructor; [|constructor; [|constructor]]; cbn [fst snd].
    + apply (parsed_texts CONVERSION_COEFFICIENT (repeat 65 51)); [repeat constructor; lia|vm_compute; reflexivity].
    + apply (parsed_texts TIMER timer1); [repeat constructor; lia|vm_compute; reflexivity].
  - constructor; [exact I|constructor; [|constructor]]. split; [repeat constructor; lia|]. intros p a b q E Ha. unfold high in Ha.
    destruct p as [|x [|y p]]; cbn in E; [injection E as <- <- <-; lia|discriminate|]. destruct p; discriminate.
Qed.
(** {"objects": [{"parameter_type": 1, ... *)
Example C86_text : exists rest, save_text plain configuration = Ok (chars "{""objects"": [{""parameter_type"": " ++ rest) /\
  exists objs, restore_text plain (chars "{""objects"": [{""parameter_type"": " ++ rest) = Ok objs /\ length objs = 2%nat.
Proof.
  destruct (save_text plain configuration) as [txt|] eqn:E; [|vm_compute in E; discriminate].
  exists (skipn 32 txt). assert (txt = chars "{""objects"": [{""parameter_type"": " ++ skipn 32 txt) as Q.
  { assert (firstn 32 txt = chars "{""objects"": [{""parameter_type"": ") as F; [|rewrite <- F, firstn_skipn; reflexivity].
    assert ((match save_text plain configuration with Ok t => firstn 32 t | Err _ => [] end) = chars "{""objects"": [{""parameter_type"": ") as G by (vm_compute; reflexivity). rewrite E in G. exact G. }
  rewrite <- Q. split; [reflexivity|].
  destruct (restore_text plain txt) as [objs|] eqn:R.
  - exists objs. split; [reflexivity|]. assert ((match save_text plain configuration with Ok t => match restore_text plain t with Ok o => length o | Err _ => 0%nat end | Err _ => 0%nat end) = 2%nat) as G by (vm_compute; reflexivity).
    rewrite E, R in G. exact G.
  - assert ((match save_text plain configuration with Ok t => match restore_text plain t with Ok o => true | Err _ => false end | Err _ => false end) = true) as G by (vm_compute; reflexivity).
    rewrite E, R in G. discriminate.
Qed.
Example C86_any_text_refused : loads plain TimerSchema (chars "{""id"": 1}") = Err ValidationError /\ loads plain TimerSchema (chars "{""id"": 1,}") = Err ValueError.
Proof. split; vm_compute; reflexivity. Qed.

(** C87: whatever a schema accepts is dumped in the normal form, which is accepted again with the same result *)
Theorem C87_loaded_objects : forall uni text t s data v, registered_schema t = Some s -> doubles data -> load (cpython uni text) s data = Ok v ->
  exists d v', dump (cpython uni text) s v = Ok d /\ load (cpython uni text) s d = Ok v' /\ alike v v' /\ (json_data data -> json_data d).
Proof. exact loads_settle. Qed.
Print Assumptions C87_loaded_objects.
(** the data of any text without surrogates *)
Theorem C87_read_data : forall txt d, unicode_text txt -> json_loads txt = Ok d -> json_data d.
Proof. exact read_data. Qed.
Print Assumptions C87_read_data.
Theorem C87_loaded_texts : forall uni text t s txt v, registered_schema t = Some s -> unicode_text txt -> loads (cpython uni text) s txt = Ok v ->
  exists txt' v', dumps (cpython uni text) s v = Ok txt' /\ printable txt' /\ loads (cpython uni text) s txt' = Ok v' /\ alike v v'.
Proof. exact text_settles. Qed.
Print Assumptions C87_loaded_texts.
Theorem C87_restored_configurations : forall uni text txt objs, unicode_text txt -> restore_text (cpython uni text) txt = Ok objs ->
  exists txt' objs', save_text (cpython uni text) objs = Ok txt' /\ printable txt' /\ restore_text (cpython uni text) txt' = Ok objs' /\
    Forall2 (fun o o' => fst (fst o) = fst (fst o') /\ alike (snd (fst o)) (snd (fst o')) /\ snd o = snd o') objs objs'.
Proof. exact configuration_settles. Qed.
Print Assumptions C87_restored_configurations.
(** numbers as text, as floats and in other notations, escapes, a key given twice *)
Definition untidy : str := chars "{""objects"": [ {""series_name"": null, ""parameter_type"": ""65"", ""data"": {""number"": 7, ""number"": "" 1_0"", ""id"": 2.9, ""address_in_actual_values"": 1.0, ""address_in_data_archive_record"": 1e1, ""bit_control"": 0, ""in_data_archive"": 0, ""in_daily_archive"": 0, ""in_monthly_archive"": 0, ""is_metrological_quantity"": 0, ""name"": ""\u00e9"", ""address_in_daily_archive_record"": 0, ""address_in_monthly_archive_record"": -0 }}]}".
Definition tidy : str := chars "{""objects"": [{""parameter_type"": 65, ""data"": {""number"": 10, ""id"": 2, ""address_in_actual_values"": 1, ""address_in_data_archive_record"": 10, ""bit_control"": 0, ""in_data_archive"": 0, ""in_daily_archive"": 0, ""in_monthly_archive"": 0, ""is_metrological_quantity"": 0, ""name"": ""\u00e9"", ""address_in_daily_archive_record"": 0, ""address_in_monthly_archive_record"": 0}, ""series_name"": null}]}".
Example C87_hypotheses : unicode_text untidy /\ exists objs, restore_text plain untidy = Ok objs /\ save_text plain objs = Ok tidy.
Proof.
  split; [apply Forall_forall; intros c I; apply (proj1 (forallb_forall (fun c => (0 <=? c) && (c <? 256)) untidy) eq_refl) in I; unfold unicode; lia|].
  eexists. split; [vm_compute; reflexivity|vm_compute; reflexivity].
Qed.
