(** C93: what the data of a response means (elgas/application.py, elgas/utils.py,
    ResponsePduFactory of elgas/connection.py). *)
From Verif Require Import PyFacts SpecUtils SpecFrames SpecText SpecApplication Application SpecConnection Connection SpecErrors SpecDecode MeansProofs.
Open Scope list_scope.
Open Scope Z_scope.

(** C93 *)
(** the factory returns exactly what the data means, for every data *)
Theorem C93_decoded_iff : forall f p, is_bytes (f_data f) ->
  (pdu_from_response f = Ok p <-> means (f_service f) (f_data f) p).
Proof. exact decoded_iff. Qed.
Print Assumptions C93_decoded_iff.
(** the classes of the responses, one by one (the form used in C30, C40 and others) *)
Theorem C93_classes : forall srv d p, is_bytes d -> (decodes srv d p <-> means srv d p).
Proof. exact decodes_means. Qed.
Print Assumptions C93_classes.
(** and raises, this exception and no other, exactly for the data without meaning *)
Theorem C93_rejected_iff : forall f x, is_bytes (f_data f) ->
  (pdu_from_response f = Err x <-> means_nothing (f_service f) (f_data f) x).
Proof. exact rejected_iff. Qed.
Print Assumptions C93_rejected_iff.
(** every data has one meaning or one reason to have none *)
Theorem C93_one_meaning : forall srv d, is_bytes d ->
  (exists p, means srv d p /\ (forall q, means srv d q -> q = p) /\ forall x, ~ means_nothing srv d x) \/
  (exists x, means_nothing srv d x /\ (forall y, means_nothing srv d y -> y = x) /\ forall p, ~ means srv d p).
Proof. exact one_meaning. Qed.
Print Assumptions C93_one_meaning.

(** a leap day with the flag of summer time, with two status bytes too many *)
Example C93_ex : means READ_DEVICE_TIME ([88; 89; 163; 41; 2; 36] ++ [13] ++ [1; 2] ++ [27; 141])
    (ReadTimeResponse (mk_datetime 2024 2 29 23 59 58) [13] true false [1; 2]) /\
  means READ_ARCHIVES ([4] ++ [1; 2; 3] ++ [255] ++ [9; 9]) (ReadArchiveResponse 4 197121 [9; 9]) /\
  means READ_ARCHIVES [4; 1; 2] (ReadArchiveResponse 4 513 []) /\
  means READ_SCADA_PARAMETERS [1; 1; 2; 0; 7; 5; 6] (ReadDeviceParametersResponse [5; 6] 257 2 true) /\
  means_nothing READ_ARCHIVES [11; 1] ValueError /\
  means_nothing WRITE_VALUES [1; 2] KeyError /\
  means_nothing READ_DEVICE_TIME [88; 89; 35; 48; 2; 36; 13] ValueError.
Proof.
  assert (forall l, forallb (fun b => (0 <=? b) && (b <=? 255)) l = true -> is_bytes l) as Y.
  { intros l H. apply Forall_forall. intros b Hb. rewrite forallb_forall in H. specialize (H b Hb). unfold is_byte. lia. }
  repeat split; try (apply means_iff; [apply Y; reflexivity|vm_compute; reflexivity]); apply means_nothing_iff; (try (apply Y; reflexivity)); vm_compute; reflexivity.
Qed.
