(** C103: the client and a device with a state (elgas/client.py, elgas/connection.py). *)
From Verif Require Import PyFacts SpecUtils SpecFrames SpecText SpecApplication SpecPdu SpecSecurity SpecMeaning.
From Verif Require Import SpecConnection Connection ConnectionProofs PropConnection MeansProofs ParamLang Parameters SpecBlock BlockProofs Client SpecClient ClientProofs PropParameters PropClient.
From Verif Require Import TextProofs PropBlock SpecDevice DeviceProofs.
Open Scope list_scope.
Open Scope Z_scope.

(** the device hears exactly the queries of the operations, and what they return is its state *)
Theorem C103_device_served : forall pw pid k id w cl d os results qs vs d' rest,
  make_client pw pid k id w = Ok cl -> usable_context (client_context k id) -> latin1 pw -> tx w = [] -> sent w = [] ->
  serves (client_context k id) d os results qs vs d' -> rx w = results ++ rest ->
  exists cl', session cl os = (vs, cl') /\ Forall2 (hears_only (client_context k id) pw) qs (sent (cl_world cl')) /\
    rx (cl_world cl') = rest.
Proof. exact client_served. Qed.
Print Assumptions C103_device_served.
(** a line is heard as one query at most *)
Theorem C103_heard_once : forall ctx pw t q q', usable_context ctx -> hears ctx pw t q -> hears ctx pw t q' -> q = q'.
Proof. exact hears_fun. Qed.
Print Assumptions C103_heard_once.
(** the time that is set is the time that is read, later by the time that passed *)
Theorem C103_set_and_read : forall ctx t cryout os d results qs vs d',
  serves ctx d (OpWriteTime t cryout :: OpReadTime :: os) results qs vs d' ->
  exists n t' vs', 0 <= n /\ seconds_later n t t' /\ vs = Done (Ok RNothing) :: Done (Ok (RTime t')) :: vs'.
Proof. exact set_and_read. Qed.
Print Assumptions C103_set_and_read.
(** the parameters that are read are the memory from the number on, whatever the pages were *)
Theorem C103_memory_read : forall ctx n os d results qs vs d',
  serves ctx d (OpReadParameters n :: os) results qs vs d' ->
  exists outcome vs', reads (concat (skipn (Z.to_nat n) (dv_memory d))) outcome /\
    vs = Done (match outcome with Ok l => Ok (RObjects l) | Err e => Err e end) :: vs'.
Proof. exact memory_read. Qed.
Print Assumptions C103_memory_read.

(** a device with two objects and a clock; the time is set, all parameters are read in two
    pages, a second passes and the time is read *)
Definition device0 : device := mk_device (mk_datetime 2024 1 1 0 0 0) [] [[39; 0; 65]; timer1] (fun _ _ _ => []) (fun _ _ _ => (0, [])).
Definition written_line : bytes := line_of (response_wire 134 113 4660 5 0 0 []).
Lemma written_delivered ctx : delivers ctx WRITE_DEVICE_TIME WriteTimeResponse [Ok written_line].
Proof.
  exists [], [], written_line, [], written_line. split; [reflexivity|]. split; [constructor|]. split; [reflexivity|]. split; [vm_compute; discriminate|].
  split; [|split; [intros i _ X; discriminate|constructor]].
  apply plain_answer with (d1 := 4660) (d2 := 5) (s1 := 0) (s2 := 0); [unfold addresses; lia|constructor|vm_compute; discriminate|].
  apply line_of_on_line, sealed_end.
Qed.
Definition second_before : datetime := mk_datetime 2024 2 29 23 59 57.
Example C103_hypotheses ctx : exists v results d',
  serves ctx device0 [OpWriteTime second_before false; OpReadParameters 0; OpReadTime] results
    [SetTime second_before; AskParameters 0 1024; AskParameters 1 1024; AskTime]
    [Done (Ok RNothing); Done (Ok (RObjects [v])); Done (Ok (RTime (mk_datetime 2024 2 29 23 59 58)))] d'.
Proof.
  destruct (parse None (Some (concat (dv_memory device0)))) as [[[|v [|? ?]]|]|] eqn:E; try (vm_compute in E; discriminate).
  exists v. eexists. eexists.
  eapply serves_query; [apply meant_set; split; [apply valid_datetime_spec; reflexivity|cbn; lia]|apply do_set|apply written_delivered|constructor|].
  eapply (serves_parameters ctx _ 0 _ [_; _] _ _ _ _ _ (Ok [v])); [lia|vm_compute; discriminate| | |].
  - eapply (page_more _ _ 0 0 [39; 0; 65] 1).
    + apply (do_parameters _ 0 1024 [[39; 0; 65]] [timer1] 0). reflexivity.
    + apply (page_of_ok ctx 1 0 [39; 0; 65]); [lia|lia|reflexivity|vm_compute; discriminate].
    + apply (page_final _ _ 1 0 timer1 1).
      * apply (do_parameters _ 1 1024 [timer1] [] 0). reflexivity.
      * apply (page_of_ok ctx 1 1 timer1); [lia|lia|reflexivity|vm_compute; discriminate].
  - apply reads_iff; [repeat constructor; lia|exact E].
  - eapply serves_tick; [exists 1, (mk_datetime 2024 2 29 23 59 58); split; [lia|]; split; [apply (later_S 0 _ second_before); [constructor|constructor; lia]|reflexivity]|].
    eapply serves_query; [apply meant_time|apply do_time|apply time_delivered|constructor|]. apply serves_end.
Qed.
