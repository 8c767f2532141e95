(** C94: every byte string as parameter data (elgas/parser.py, elgas/parameters.py). *)
From Verif Require Import Py PyFacts ParamLang Parameters SpecText SpecApplication SpecParameters PropParameters SpecNumbers NumberProofs SpecBlock BlockProofs.
Open Scope string_scope.
Open Scope list_scope.
Open Scope Z_scope.

(** C94 *)
(** every data is cut into objects in exactly one way, with or without a failure at
    the end; the parser raises the exception of the failure, or returns the objects
    in this order, every field of every one read at its documented place *)
Theorem C94_every_block : forall l, is_bytes l -> exists objs failure, block l objs failure /\
  (forall objs' failure', block l objs' failure' -> objs' = objs /\ failure' = failure) /\
  (l <> [] -> match failure with
   | Some e => parse None (Some l) = Some (Err e)
   | None => exists vs, parse None (Some l) = Some (Ok vs) /\ Forall2 object_shown objs vs
   end).
Proof. exact every_block. Qed.
Print Assumptions C94_every_block.
(** the parser returns or raises exactly what the specification says, and the
    specification says one thing, down to every attribute of every object *)
Theorem C94_read_iff : forall l r, is_bytes l -> (parse None (Some l) = Some r <-> reads l r).
Proof. exact reads_iff. Qed.
Print Assumptions C94_read_iff.
Theorem C94_one_reading : forall l r r', is_bytes l -> reads l r -> reads l r' -> r = r'.
Proof. exact reads_once. Qed.
Print Assumptions C94_one_reading.

(** two objects, the second announcing more bytes than there are *)
Example C94_ex : block ([39; 0; 65] ++ timer1 ++ [200; 0; 65] ++ timer1) [(TIMER, timer1); (TIMER, timer1)] None.
Proof.
  assert (forall n, 39 <= n <= 511 -> forall c, len c = 36 -> form TIMER c (Object "Timer" (quantity (in_archives ++ metrological) (addresses2 32)))) as F.
  { intros n Hn c Hc. exists (mk_range 36 (Some 36)). split; [right; left; reflexivity|]. rewrite Hc. split; cbn; lia. }
  apply (block_object 39 0 65 TIMER (timer1 ++ [200; 0; 65] ++ timer1) "Timer" (quantity (in_archives ++ metrological) (addresses2 32))
           [(TIMER, timer1)] None); [cbn; tauto|apply (F 39); [lia|reflexivity]|].
  apply (block_object 200 0 65 TIMER timer1 "Timer" (quantity (in_archives ++ metrological) (addresses2 32)) [] None); [cbn; tauto|apply (F 200); [lia|reflexivity]|].
  exact block_end.
Qed.
(** failures: a cut header, an unknown type, a timer that is a byte short *)
Example C94_ex_failures : block [39; 0] [] (Some IndexError) /\ block ([39; 0; 29] ++ timer1) [] (Some ValueError) /\
  block ([38; 0; 65] ++ timer1) [] (Some IndexError).
Proof.
  split; [constructor; unfold len; cbn [length]; lia|]. split; [apply (block_unknown_type 39 0 29 timer1); intros t H; apply type_numbers_iff in H; destruct t; discriminate H|].
  apply (block_unreadable 38 0 65 TIMER timer1 IndexError); [cbn; tauto|]. exists (mk_range 0 (Some 35)). split; [left; reflexivity|]. vm_compute. split; discriminate.
Qed.
(** refuted: an announced length is not always what is read; with the length 1 the
    object is everything up to the last two bytes *)
Theorem C94_length_from_the_end_refuted : exists v, parameter_from_bytes TIMER timer1 = Ok v /\
  block ([1; 0; 65] ++ timer1 ++ [9; 9]) [(TIMER, timer1)] (Some IndexError).
Proof.
  destruct (parameter_from_bytes TIMER timer1) as [v|] eqn:E; [|vm_compute in E; discriminate]. exists v. split; [reflexivity|].
  apply (block_object 1 0 65 TIMER (timer1 ++ [9; 9]) "Timer" (quantity (in_archives ++ metrological) (addresses2 32)) [] (Some IndexError)).
  - cbn; tauto.
  - exists (mk_range 36 (Some 36)). split; [right; left; reflexivity|vm_compute; split; discriminate].
  - apply (block_cut_header [9; 9]). unfold len; cbn [length]; lia.
Qed.
Print Assumptions C94_length_from_the_end_refuted.
