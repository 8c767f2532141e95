(** C102: from the memory of a device, over a socket or serial port, to JSON text and back
    (elgas/client.py, connection.py, transport.py, parser.py, parameters/*.py, integration.py). *)
From Verif Require Import PyFacts SpecUtils SpecFrames SpecSecurity SpecConnection SpecApplication SpecPdu SpecText.
From Verif Require Import Connection PropConnection ParamLang Parameters Schema Schemas ClassVars PyText Json Client SpecClient PropClient Transport SpecTransport Stack SpecStack PropStack.
From Verif Require Import SpecParameters SpecSchema SpecJson SpecClassVars SpecNumbers SpecBlock PropClassVars PropParameters PropSchema SpecSession SpecWhole SchemaProofs3 WholeProofs.
Open Scope list_scope.
Open Scope Z_scope.

(** The memory of the device is cut into pages and telegrams anywhere, the telegrams are
    sealed if there is a key, the bytes arrive in any pieces at any time; connect(),
    read_parameters(), disconnect() give exactly the objects of the memory, every field as
    documented.  Written as JSON text and read again, they are the same objects, of the
    same types, in the same order. *)
Theorem C102_device_to_text : forall kd to e pw pid k id dr s uni text objs vs front last lines rest later,
  make_stack (make_transport kd to e) pw pid k id dr = Ok s -> usable_context (client_context k id) -> latin1 pw ->
  memory_sent (client_context k id) objs front last lines -> Forall2 object_shown objs vs ->
  outcomes e = [] -> arriving (incoming e) (concat lines ++ rest) later ->
  (exists ts s', stack_session s [OpConnect; OpReadParameters 0; OpDisconnect] = ([Done (Ok RNothing); Done (Ok (RObjects vs)); Done (Ok RNothing)], s') /\
    Forall2 (request_line (client_context k id)) (page_calls pw 0 (map c_amount (front ++ [last]))) ts /\
    log (env (st_transport s')) = log e ++ [SOpen] ++ map SWrite ts ++ closing kd /\
    arriving (incoming (env (st_transport s'))) rest later) /\
  (Forall2 carried objs vs ->
   exists txt objs', kept_as_text (cpython uni text) vs = Ok txt /\ printable txt /\ restore_text (cpython uni text) txt = Ok objs' /\
    Forall2 (fun o o' => fst o = fst (fst o') /\ snd o' = None) objs objs' /\ Forall2 (fun v o' => same v (snd (fst o'))) vs objs').
Proof. exact device_to_text. Qed.
Print Assumptions C102_device_to_text.
(** what a memory shows is what its objects are read as, one by one, and there is only one such reading *)
Theorem C102_memory_read : forall objs vs, Forall sendable objs -> (Forall2 object_shown objs vs <-> read_one_by_one objs vs).
Proof. exact memory_objects_iff. Qed.
Print Assumptions C102_memory_read.

(** two objects in two pages that cut the first in its header, in pieces, to both kinds of transport *)
Definition memory_lines : list bytes := [page_line 1 0 (firstn 40 (transmission memory)); page_line 1 1 (skipn 40 (transmission memory))].
Example C102_hypotheses : forall kd, exists s vs front last,
  let e := mk_environment [] [Ok (firstn 9 (concat memory_lines)); Ok []; Ok (skipn 9 (concat memory_lines) ++ [1; 2])] (fun i => Z.of_nat i) 0 [] in
  make_stack (make_transport kd (Some 3) e) [49; 50] 801 None None (fun _ => (fun _ => 48, fun _ => 0)) = Ok s /\
  memory_sent None memory front last memory_lines /\ Forall2 object_shown memory vs /\ Forall2 carried memory vs /\
  arriving (incoming e) (concat memory_lines ++ [1; 2]) [] /\ length vs = 2%nat.
Proof.
  intros kd. eexists. exists [parsed CONVERSION_COEFFICIENT coefficient_bytes; parsed TIMER timer1].
  exists [mk_content (firstn 40 (transmission memory)) 0 1 false], (mk_content (skipn 40 (transmission memory)) 0 1 true).
  assert (Forall sendable memory) as S.
  { assert (is_bytes coefficient_bytes) as B1 by (repeat constructor; lia). assert (is_bytes timer1) as B2 by (repeat constructor; lia).
    constructor; [|constructor; [|constructor]]; (split; [assumption|vm_compute; reflexivity]). }
  assert (forall amount e data, 0 <= amount <= 255 -> 0 <= e <= 255 -> byte_data data = true -> len data <= 1000 ->
    says_page None (mk_content data 0 amount (negb (e =? 0))) (page_line amount e data)) as P.
  { intros amount e data Ha He Hd Hl.
    assert (is_bytes data) as B by (apply Forall_forall; intros z Hz; eapply forallb_forall in Hd; [|exact Hz]; cbn beta in Hd; unfold is_byte; lia).
    assert (is_bytes ([0; 0; amount; 0; e] ++ data)) as B' by (apply is_bytes_app; split; [repeat constructor; lia|exact B]).
    exists ([0; 0; amount; 0; e] ++ data). split; [|split].
    - apply plain_answer with (d1 := 4660) (d2 := 5) (s1 := 0) (s2 := 0); [unfold addresses; lia|exact B'| |].
      + rewrite len_app. unfold len at 1. cbn [length]. lia.
      + apply line_of_on_line, sealed_end.
    - intros i _ X. discriminate.
    - apply MeansProofs.decodes_means; [exact B'|]. apply dec_parameters. pose proof (ApplicationProofs.device_parameters_split 0 amount e data) as X.
      unfold le2 in X. rewrite (Z.mod_small amount), (Z.div_small amount) in X by lia. change (0 mod 256) with 0 in X. change (0 / 256) with 0 in X. apply X; lia. }
  split; [destruct kd; reflexivity|]. split; [|split; [|split; [|split; [|reflexivity]]]].
  - split; [discriminate|]. split; [exact S|]. split; [vm_compute; reflexivity|]. split; [repeat constructor|]. split; [reflexivity|]. split; [cbn; lia|].
    constructor; [|constructor; [|constructor]]; (apply P; [lia|lia|vm_compute; reflexivity|vm_compute; discriminate]).
  - apply memory_objects_iff; [exact S|]. constructor; [|constructor; [|constructor]]; vm_compute; reflexivity.
  - constructor; [|constructor; [|constructor]].
    all: split; [apply all_finite_ok; vm_compute; reflexivity|split; [intros L; inversion L|intros [H|[H|[H|[]]]]; discriminate]].
  - eexists [_; _; _]. split; [reflexivity|vm_compute; reflexivity].
Qed.
