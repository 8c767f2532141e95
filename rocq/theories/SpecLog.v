(** Independent specification of what the log may show. *)
From Coq Require Import String.
From Verif Require Import Py SpecUtils SpecFrames SpecSecurity SpecConnection SpecApplication SpecClient SpecSecret.
From Verif Require Import Connection Client Transport Stack Secret Log.
Open Scope string_scope.
Open Scope list_scope.
Open Scope Z_scope.

(** the two entries look the same *)
Definition look_same (e e' : entry) : Prop :=
  forall str_repr bytes_repr stack, rendered str_repr bytes_repr stack e = rendered str_repr bytes_repr stack e'.
(** [d] is some data, sealed under the key of the context; any data without one *)
Definition covered (ctx : option cipher_context) (d : bytes) : Prop :=
  match ctx with Some (mk_context id k) => exists plain, seals k id plain d | None => True end.
(** the same up to the data *)
Definition same_header (f f' : frame) : Prop :=
  f_service f = f_service f' /\ destination_address_1 f = destination_address_1 f' /\
  destination_address_2 f = destination_address_2 f' /\ source_address_1 f = source_address_1 f' /\
  source_address_2 f = source_address_2 f'.
(** The two entries look the same, except for the data of a request that is shown:
    as a frame, or as the line telegram *)
Inductive same_but_requests (sh : log_shown) (ctx ctx' : option cipher_context) : entry -> entry -> Prop :=
| entry_same e e' : look_same e e' -> same_but_requests sh ctx ctx' e e'
| entry_frame cls f f' : same_header f f' -> covered ctx (f_data f) -> covered ctx' (f_data f') ->
    same_but_requests sh ctx ctx'
      (mk_entry Debug (text "Sending ELGAS request") [(text "request", frame_object sh cls f)])
      (mk_entry Debug (text "Sending ELGAS request") [(text "request", frame_object sh cls f')])
| entry_line r r' t t' x : request_line ctx r t -> request_line ctx' r' t' -> same_request r r' ->
    same_but_requests sh ctx ctx'
      (mk_entry Debug (text "Sent data") [(text "data", Plain (show_bytes sh t)); (text "transport", x)])
      (mk_entry Debug (text "Sent data") [(text "data", Plain (show_bytes sh t')); (text "transport", x)]).

(** the entries of level INFO *)
Definition info (l : list entry) : list entry := filter (fun e => match severity e with Info => true | Debug => false end) l.
(** the text [part] is shown in the entry *)
Definition entry_shows (e : entry) (part : str) : Prop :=
  forall str_repr bytes_repr stack, exists key value,
    In (key, value) (snd (rendered str_repr bytes_repr stack e)) /\ contains value part.

(** [b] starts with a line telegram that is an encrypted response with payload [d] *)
Definition encrypted_payload (b d : bytes) : Prop :=
  exists t rest w f, b = t ++ rest /\ on_line w t /\ response_factory w = Ok (EncryptedResponse f) /\ f_data f = d.
(** what the two connections make of a payload is the same *)
Definition same_decryption (c c' : connection) (d : bytes) : Prop :=
  match context c, context c' with
  | Some x, Some x' => context_decrypt x d = context_decrypt x' d
  | None, None => True
  | _, _ => False
  end.
