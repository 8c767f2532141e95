(** C76: what the calls of the client raise. *)
From Verif Require Import PyFacts SpecUtils SpecFrames SpecText SpecApplication SpecPdu SpecSecurity SpecConnection.
From Verif Require Import Connection ConnectionProofs PropConnection ParamLang Parameters Client SpecClient ClientProofs PropParameters PropClient.
From Verif Require Import Exceptions SpecErrors ErrorProofs.
Open Scope list_scope.
Open Scope Z_scope.

(** C76 *)
(** every exception of every call has one of the listed reasons *)
Theorem C76_exceptions_explained : forall pw pid k id w cl os o x,
  make_client pw pid k id w = Ok cl -> key_bytes k -> receives_bytes w -> Forall operation_times_valid os ->
  raised os (fst (session cl os)) o x -> explained pw (client_context k id) w o x.
Proof. exact client_raises. Qed.
Print Assumptions C76_exceptions_explained.
(** an error flag in the answer to a request, in any pieces, after any conversation *)
Theorem C76_error_flag_raised : forall pw pid k id wd cl os results rs vs o r srv i x t pieces more,
  make_client pw pid k id wd = Ok cl -> usable_context (client_context k id) -> tx wd = [] ->
  converses (client_context k id) pw os results rs vs -> opens pw o = Some r -> encodable r ->
  answers (client_context k id) srv [2 ^ i] t -> device_error i x ->
  first_telegram t (concat pieces) -> rx wd = results ++ map Ok pieces ++ more ->
  fst (session cl (os ++ [o])) = vs ++ [Done (Err x)] /\ is_elgas_error x = true.
Proof. exact flag_raised. Qed.
Print Assumptions C76_error_flag_raised.
(** a device can cause exceptions that are not ElgasErrors: a response of a service
    without response class, an encrypted response to a client without key *)
Theorem C76_only_elgas_errors_refuted : forall pw pid k id wd cl os results rs vs o r srv d t pieces more,
  make_client pw pid k id wd = Ok cl -> usable_context (client_context k id) -> tx wd = [] ->
  converses (client_context k id) pw os results rs vs -> opens pw o = Some r -> encodable r ->
  answers (client_context k id) srv d t -> no_flag d -> unanswered srv ->
  first_telegram t (concat pieces) -> rx wd = results ++ map Ok pieces ++ more ->
  fst (session cl (os ++ [o])) = vs ++ [Done (Err KeyError)] /\ is_elgas_error KeyError = false.
Proof. exact unknown_raised. Qed.
Print Assumptions C76_only_elgas_errors_refuted.
Theorem C76_encrypted_without_key_refuted : forall pw pid k id wd cl os results rs vs o r t pieces more,
  make_client pw pid k id wd = Ok cl -> client_context k id = None -> tx wd = [] ->
  converses None pw os results rs vs -> opens pw o = Some r -> encodable r -> encrypted_telegram t ->
  first_telegram t (concat pieces) -> rx wd = results ++ map Ok pieces ++ more ->
  fst (session cl (os ++ [o])) = vs ++ [Done (Err AttributeError)] /\ is_elgas_error AttributeError = false.
Proof. exact encrypted_raised. Qed.
Print Assumptions C76_encrypted_without_key_refuted.
(** with arguments that fit, a usable key and a transport that raises ElgasErrors
    only: besides ElgasErrors these, and no others, have to be caught *)
Theorem C76_what_to_catch : forall pw pid k id w cl os o x,
  make_client pw pid k id w = Ok cl -> key_bytes k -> receives_bytes w -> Forall operation_times_valid os ->
  raised os (fst (session cl os)) o x ->
  usable_context (client_context k id) -> (forall y, transport_raises w y -> is_elgas_error y = true) ->
  (forall r, asked pw o r -> request_misfit r = None) ->
  is_elgas_error x = true \/
  In x [KeyError; IndexError; ValueError; AssertionError; AttributeError] \/ (x = TypeError /\ exists n, o = OpReadParameters n).
Proof. exact uncaught. Qed.
Print Assumptions C76_what_to_catch.

(** each of these is raised by some session: a wrong password, then a refusal; a
    service without response class; a cut answer; an invalid date; another key
    id; an encrypted answer without key; parameter objects of a type that cannot
    be read *)
Definition raises_of (key : option bytes) (id : option Z) (results : list (res bytes)) (os : list operation) : list (answer returned) :=
  fst (session (client_of key id results) os).
Definition unreadable_page : bytes := page_line 1 1 ([37; 0; 61] ++ repeat 0 34).
Example C76_ex :
  raises_of None None [Ok []; Ok (firstn 7 (flag_line 100 1)); Ok (skipn 7 (flag_line 100 1))] [OpConnect; OpReadValues; OpReadTime] =
    [Done (Ok RNothing); Done (Err WrongPasswordError); Done (Err LocalElgasProtocolError)] /\
  raises_of None None [Ok (flag_line 101 0)] [OpReadTime] = [Done (Err KeyError)] /\
  raises_of None None [Ok (flag_line 112 0)] [OpReadParameters 0] = [Done (Err IndexError)] /\
  raises_of None None [Ok (flag_line 124 11)] [OpReadArchive 1 1 1] = [Done (Err ValueError)] /\
  raises_of (Some key7) (Some 7) [Ok (line_of (response_wire 135 108 1 2 3 4 [0; 0; 8]))] [OpReadTime] = [Done (Err AssertionError)] /\
  raises_of None None [Ok sealed_time_line] [OpReadTime] = [Done (Err AttributeError)] /\
  raises_of (Some [1; 2; 3]) (Some 7) [] [OpReadTime] = [Done (Err ValueError)] /\
  raises_of None None [] [OpReadArchive 1 1 (-1)] = [Done (Err OverflowError)] /\
  raises_of None None [Err OSError] [OpReadTime] = [Done (Err OSError)] /\
  raises_of None None [Ok unreadable_page] [OpReadParameters 0] = [Done (Err TypeError)].
Proof. do 9 (split; [vm_compute; reflexivity|]); vm_compute; reflexivity. Qed.
Example C76_hypotheses : encrypted_telegram sealed_time_line /\ unanswered WRITE_VALUES /\
  answers None WRITE_VALUES [0] (flag_line 101 0) /\ answers None READ_VALUES [2 ^ 0] (flag_line 100 1) /\
  first_telegram (flag_line 101 0) (concat [[]; flag_line 101 0]).
Proof.
  assert (addresses 4660 5 0 0) as A by (unfold addresses; lia).
  split; [|split; [|split; [|split]]].
  - exists READ_DEVICE_TIME, 4660, 5, 0, 0, (sealed_data time_data). split; [exact A|].
    split; [vm_compute; repeat constructor; discriminate|]. split; [vm_compute; discriminate|].
    apply line_of_on_line. vm_compute. reflexivity.
  - intros H. cbn in H. repeat (destruct H as [H|H]; [discriminate|]). exact H.
  - apply plain_answer with (d1 := 4660) (d2 := 5) (s1 := 0) (s2 := 0); auto; [repeat constructor; lia|vm_compute; discriminate|].
    apply line_of_on_line. vm_compute. reflexivity.
  - apply plain_answer with (d1 := 4660) (d2 := 5) (s1 := 0) (s2 := 0); auto; [repeat constructor; lia|vm_compute; discriminate|].
    apply line_of_on_line. vm_compute. reflexivity.
  - exists []. rewrite app_nil_r. reflexivity.
Qed.
