(** Independent specification: how any bytes are cut into parameter objects. *)
From Verif Require Import Py ParamLang Parameters SpecText SpecApplication SpecParameters SpecNumbers.
Open Scope list_scope.
Open Scope Z_scope.

(** the documented form of an object of type [t] with the content [c] *)
Definition form (t : parameter_type) (c : bytes) (d : reading) : Prop :=
  exists r, In (r, d) (documented t (byte_at 34 c)) /\ within (len c) r.
(** [v] shows every field of the content at its documented place *)
Definition object_shown (o : parameter_type * bytes) (v : value) : Prop :=
  exists cls fields, form (fst o) (snd o) (Object cls fields) /\ conforms (snd o) (Ok v) (Object cls fields).
(** after the three bytes of the header come the announced number of bytes, less
    three, or what is left; an announced length below three counts from the end *)
Definition content_size (n : Z) (l : bytes) : nat := Z.to_nat (if 3 <=? n then n - 3 else len l - (3 - n)).
(** [block l objs failure]: the objects of [l], up to the first failure *)
Inductive block : bytes -> list (parameter_type * bytes) -> option exn -> Prop :=
| block_end : block [] [] None
| block_cut_header l : 0 < len l < 3 -> block l [] (Some IndexError)
| block_unknown_type lo hi code l : (forall t, ~ In (code, t) type_numbers) -> block (lo :: hi :: code :: l) [] (Some ValueError)
| block_unreadable lo hi code t l e : In (code, t) type_numbers -> form t (firstn (content_size (lo + 256 * hi) l) l) (Raises e) ->
    block (lo :: hi :: code :: l) [] (Some e)
| block_object lo hi code t l cls fields objs failure : In (code, t) type_numbers -> form t (firstn (content_size (lo + 256 * hi) l) l) (Object cls fields) ->
    block (skipn (content_size (lo + 256 * hi) l) l) objs failure ->
    block (lo :: hi :: code :: l) ((t, firstn (content_size (lo + 256 * hi) l) l) :: objs) failure.
(** what reading the bytes gives: no data is refused, then the first failure or all objects *)
Inductive reads : bytes -> res (list value) -> Prop :=
| reads_nothing : reads [] (Err ValueError)
| reads_failure l objs e : block l objs (Some e) -> reads l (Err e)
| reads_objects l objs vs : l <> [] -> block l objs None -> Forall2 object_shown objs vs -> reads l (Ok vs).
