(** C73-C75: bytes changed, lost and added on the line. *)
From Verif Require Import Py PyFacts SpecUtils SpecFrames SpecConnection SpecLine Utils Frames Connection.
From Verif Require Import LineProofs.
Open Scope Z_scope.

(** a response that needs every kind of escape sequence, and its line form *)
Definition busy : bytes := [2; 254; 134; 108; 19; 0; 1; 0; 1; 2; 0; 3; 13; 18; 27; 14; 12; 82; 27; 13].
Definition busy_line : bytes :=
  [2; 254; 134; 108; 19; 0; 1; 0; 1; 2; 0; 3; 27; 14; 18; 27; 27; 14; 12; 82; 27; 27; 13].
Example busy_made : made busy /\ escape_characters busy = Ok busy_line.
Proof.
  split; [|vm_compute; reflexivity]. exists 134, (mk_frame READ_DEVICE_TIME 1 1 2 3 [13; 18; 27; 14]).
  split; [unfold telegram_type; lia|]. split; [repeat constructor; unfold is_byte; lia|]. left. vm_compute. reflexivity.
Qed.

(** C73. [t] is the telegram, [w] its escaped form, [w'] what arrives of it,
    [rest] whatever arrives later; [tel] is what the receiver cuts out (up to and
    including the first 0x0D) and [o] what it reads after unescaping. *)
Theorem C73_changed_line_byte : forall t w w' rest tel o,
  made t -> escape_characters t = Ok w -> one_byte_changed w w' -> is_bytes tel ->
  first_telegram tel (w' ++ rest) -> on_line o tel -> o = t \/ refused o.
Proof. exact line_changed. Qed.
Print Assumptions C73_changed_line_byte.
(** the first 0x1B of a run becomes another byte: refused; the last escape
    sequence becomes the end character: read as it was *)
Example C73_ex :
  one_byte_changed busy_line ([2; 254; 134; 108; 19; 0; 1; 0; 1; 2; 0; 3; 27; 14; 18; 99; 27; 14; 12; 82; 27; 27; 13]) /\
  return_characters [2; 254; 134; 108; 19; 0; 1; 0; 1; 2; 0; 3; 27; 14; 18; 99; 27; 14; 12; 82; 27; 27; 13] =
    Ok [2; 254; 134; 108; 19; 0; 1; 0; 1; 2; 0; 3; 13; 18; 99; 13; 12; 82; 27; 13] /\
  one_byte_changed busy_line (firstn 20 busy_line ++ [27; 13; 13]) /\
  on_line busy (firstn 20 busy_line ++ [27; 13]).
Proof.
  split; [|split; [vm_compute; reflexivity|split]].
  - exists (firstn 15 busy_line), 27, 99, (skipn 16 busy_line). repeat split; lia.
  - exists (firstn 21 busy_line), 27, 13, [13]. repeat split; lia.
  - exists (firstn 21 busy_line). split; [reflexivity|]. split; [cbn; lia|].
    apply UtilsProofs.return_unesc. vm_compute. reflexivity.
Qed.

(** C74 *)
Theorem C74_lost_line_byte : forall t w w' rest tel o,
  made t -> escape_characters t = Ok w -> one_byte_lost w w' -> is_bytes tel ->
  first_telegram tel (w' ++ rest) -> on_line o tel -> o = t \/ refused o.
Proof. exact line_lost. Qed.
Print Assumptions C74_lost_line_byte.
Example C74_ex :
  one_byte_lost busy_line [2; 254; 134; 108; 19; 0; 1; 0; 1; 2; 0; 3; 14; 18; 27; 27; 14; 12; 82; 27; 27; 13] /\
  one_byte_lost busy_line (firstn 20 busy_line ++ [27; 13]) /\
  on_line busy (firstn 20 busy_line ++ [27; 13]).
Proof.
  split; [|split].
  - exists (firstn 12 busy_line), 27, (skipn 13 busy_line). split; reflexivity.
  - exists (firstn 20 busy_line), 27, [27; 13]. split; reflexivity.
  - exists (firstn 21 busy_line). split; [reflexivity|]. split; [cbn; lia|].
    apply UtilsProofs.return_unesc. vm_compute. reflexivity.
Qed.

(** C75 *)
Theorem C75_added_line_byte : forall t w w' rest tel o,
  made t -> escape_characters t = Ok w -> one_byte_added w w' -> is_bytes tel ->
  first_telegram tel (w' ++ rest) -> on_line o tel -> o = t \/ refused o.
Proof. exact line_added. Qed.
Print Assumptions C75_added_line_byte.
(** whatever one byte of damage a telegram suffered on its way into an empty
    buffer, next_event takes nothing and changes nothing, unless what it reads is
    the telegram itself *)
Theorem C75_next_event_on_damage : forall c t w w' rest,
  made t -> escape_characters t = Ok w ->
  one_byte_changed w w' \/ one_byte_lost w w' \/ one_byte_added w w' ->
  is_bytes (buffer c) -> buffer c = w' ++ rest ->
  next_event c = (Ok None, c) \/ exists tel, first_telegram tel (buffer c) /\ on_line t tel.
Proof. exact connection_damage. Qed.
Print Assumptions C75_next_event_on_damage.
Example C75_ex :
  one_byte_added busy_line [2; 254; 134; 108; 19; 0; 1; 0; 1; 2; 0; 3; 27; 14; 18; 27; 15; 27; 14; 12; 82; 27; 27; 13] /\
  return_characters [2; 254; 134; 108; 19; 0; 1; 0; 1; 2; 0; 3; 27; 14; 18; 27; 15; 27; 14; 12; 82; 27; 27; 13] =
    Ok [2; 254; 134; 108; 19; 0; 1; 0; 1; 2; 0; 3; 13; 18; 141; 13; 12; 82; 27; 13].
Proof.
  split; [|vm_compute; reflexivity].
  exists (firstn 16 busy_line), 15, (skipn 16 busy_line). split; reflexivity.
Qed.
