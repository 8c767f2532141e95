(** Reading from the front of a buffer, in terms of offsets. *)
From Verif Require Export PyFacts BitFacts.
From Verif Require Import Utils SpecApplication.
Open Scope Z_scope.

Definition rest (k : Z) (l : bytes) : bytes := skipn (Z.to_nat k) l.
Lemma rest_0 l : rest 0 l = l. Proof. reflexivity. Qed.
Lemma len_rest k l : 0 <= k <= len l -> len (rest k l) = len l - k.
Proof. intros H. unfold rest. rewrite len_skipn. lia. Qed.

Lemma skipn_skipn_add {A} a b (l : list A) : skipn a (skipn b l) = skipn (b + a) l.
Proof. revert l; induction b as [|b IH]; intros l; [reflexivity|]. destruct l; [rewrite !skipn_nil; reflexivity|]. cbn [skipn Nat.add]. apply IH. Qed.

Lemma pop_loop_spec n l :
  pop_loop n l = if (n <=? length l)%nat then Ok (firstn n l, skipn n l) else Err IndexError.
Proof.
  revert l; induction n as [|n IH]; intros l; [reflexivity|].
  cbn [pop_loop]. destruct l as [|b l]; [reflexivity|]. cbn [pop0 bind]. rewrite IH.
  cbn [length firstn skipn]. change (S n <=? S (length l))%nat with (n <=? length l)%nat.
  destruct (n <=? length l)%nat; reflexivity.
Qed.
Lemma pop_many_rest k n k' l : k' = k + n -> 0 <= k -> 2 <= n ->
  pop_many (rest k l) n = if k' <=? len l then Ok (field k n l, rest k' l) else Err IndexError.
Proof.
  intros -> Hk Hn. unfold pop_many. destruct (Z.ltb_spec n 2); [lia|]. rewrite pop_loop_spec.
  unfold rest, field. rewrite skipn_skipn_add.
  replace (Z.to_nat k + Z.to_nat n)%nat with (Z.to_nat (k + n)) by lia.
  destruct (Nat.leb_spec (Z.to_nat n) (length (skipn (Z.to_nat k) l))) as [H0|H0];
    rewrite skipn_length in H0; destruct (Z.leb_spec (k + n) (len l)); try reflexivity; lenlia.
Qed.
Lemma pop0_rest k k' l : k' = k + 1 -> 0 <= k ->
  pop0 (rest k l) = if k' <=? len l then Ok (byte_at k l, rest k' l) else Err IndexError.
Proof.
  intros -> Hk. unfold rest, byte_at. replace (Z.to_nat (k + 1)) with (S (Z.to_nat k)) by lia.
  assert ((k + 1 <=? len l) = (S (Z.to_nat k) <=? length l)%nat) as ->.
  { unfold len. destruct (Z.leb_spec (k + 1) (Z.of_nat (length l))), (Nat.leb_spec (S (Z.to_nat k)) (length l)); try reflexivity; lia. }
  generalize (Z.to_nat k) as n. clear k Hk. intros n; revert l. induction n as [|n IH]; intros [|b l]; try reflexivity.
  cbn [skipn nth length]. rewrite IH. reflexivity.
Qed.
Lemma rest_empty k l : 0 <= k -> rest k l = [] <-> len l <= k.
Proof.
  intros Hk. unfold rest. split; intros H.
  - apply (f_equal (@length Z)) in H. rewrite skipn_length in H. cbn in H. unfold len. lia.
  - apply skipn_all2. unfold len in H. lia.
Qed.

Lemma field_len k n l : 0 <= k -> 0 <= n -> k + n <= len l -> len (field k n l) = n.
Proof. intros. unfold field. rewrite len_firstn, len_skipn. lia. Qed.
Lemma field_bytes k n l : is_bytes l -> is_bytes (field k n l).
Proof. intros. unfold field. auto with bytes. Qed.
Lemma byte_at_byte k l : is_bytes l -> is_byte (byte_at k l).
Proof.
  intros H. unfold byte_at. destruct (Nat.lt_ge_cases (Z.to_nat k) (length l)) as [L|L].
  - apply (proj1 (Forall_forall _ _) H), nth_In, L.
  - rewrite nth_overflow by exact L. unfold is_byte; lia.
Qed.
Lemma le_value_from_le l : le_value l = from_le l.
Proof. induction l as [|b l IH]; [reflexivity|]. cbn [from_le]. rewrite <- IH. reflexivity. Qed.
#[export] Hint Resolve field_bytes byte_at_byte : bytes.

(** symbolic execution of one read *)
Ltac read_step :=
  match goal with
  | |- context [pop_many (rest ?k ?l) ?n] =>
      let k' := eval vm_compute in (k + n) in
      rewrite (pop_many_rest k n k' l eq_refl ltac:(lia) ltac:(lia));
      destruct (Z.leb_spec k' (len l)); cbn [bind]
  | |- context [pop0 (rest ?k ?l)] =>
      let k' := eval vm_compute in (k + 1) in
      rewrite (pop0_rest k k' l eq_refl ltac:(lia));
      destruct (Z.leb_spec k' (len l)); cbn [bind]
  end.
