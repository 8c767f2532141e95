(** Lemmas about the primitives of Py.v. *)
From Coq Require Import ZifyBool ZifyNat.
From Verif Require Export Py.
Open Scope Z_scope.
Ltac Zify.zify_post_hook ::= Z.div_mod_to_equations.

Arguments Z.mul : simpl never.
Arguments Z.add : simpl never.
Arguments Z.sub : simpl never.
Arguments Z.of_nat : simpl never.
Arguments Z.to_nat : simpl never.
Arguments Z.pow : simpl never.
Arguments Z.modulo : simpl never.
Arguments Z.div : simpl never.
Arguments Z.opp : simpl never.
Arguments Z.land : simpl never.
Arguments Z.lxor : simpl never.
Arguments Z.lor : simpl never.
Arguments Z.shiftl : simpl never.
Arguments Z.shiftr : simpl never.

(** ** lengths *)
Lemma len_nil {A} : len (@nil A) = 0. Proof. reflexivity. Qed.
Lemma len_cons {A} (x : A) l : len (x :: l) = 1 + len l.
Proof. unfold len; cbn [length]; lia. Qed.
Lemma len_app {A} (l r : list A) : len (l ++ r) = len l + len r.
Proof. unfold len; rewrite app_length; lia. Qed.
Lemma len_nonneg {A} (l : list A) : 0 <= len l.
Proof. unfold len; lia. Qed.
Lemma len_firstn {A} n (l : list A) : len (firstn n l) = Z.min (Z.of_nat n) (len l).
Proof. unfold len; rewrite firstn_length; lia. Qed.
Lemma len_skipn {A} n (l : list A) : len (skipn n l) = Z.max 0 (len l - Z.of_nat n).
Proof. unfold len; rewrite skipn_length; lia. Qed.
Lemma len_map {A B} (f : A -> B) l : len (map f l) = len l.
Proof. unfold len; rewrite map_length; reflexivity. Qed.
Lemma len_rev {A} (l : list A) : len (rev l) = len l.
Proof. unfold len; rewrite rev_length; reflexivity. Qed.
Ltac lenlia := unfold len in *; repeat (rewrite ?app_length, ?map_length, ?rev_length, ?firstn_length, ?skipn_length in *; cbn [length app] in * ); lia.
Lemma len_0_nil {A} (l : list A) : len l = 0 -> l = [].
Proof. destruct l; [reflexivity|]; rewrite len_cons; pose proof (len_nonneg l); lia. Qed.

Lemma clamp_pos n i : 0 <= i -> clamp n i = Z.min i n.
Proof. intros; unfold clamp; destruct (Z.ltb_spec i 0); lia. Qed.
Lemma clamp_neg n i : i < 0 -> clamp n i = Z.max 0 (i + n).
Proof. intros; unfold clamp; destruct (Z.ltb_spec i 0); lia. Qed.

Lemma clamp_range n i : 0 <= n -> 0 <= clamp n i <= n.
Proof. intros; unfold clamp; destruct (Z.ltb_spec i 0); lia. Qed.

(** ** lists *)
Lemma firstn_app_exact {A} (l r : list A) n : n = length l -> firstn n (l ++ r) = l.
Proof. intros ->. rewrite firstn_app, Nat.sub_diag, firstn_all, app_nil_r; reflexivity. Qed.
Lemma skipn_app_exact {A} (l r : list A) n : n = length l -> skipn n (l ++ r) = r.
Proof. intros ->. rewrite skipn_app, Nat.sub_diag, skipn_all; reflexivity. Qed.

Lemma app_inj_len {A} (a b c d : list A) :
  length a = length c -> a ++ b = c ++ d -> a = c /\ b = d.
Proof.
  revert c; induction a as [|x a IH]; intros [|y c] Hl H; cbn in *; try discriminate; auto.
  injection H as -> H. injection Hl as Hl. destruct (IH c Hl H) as [-> ->]; auto.
Qed.
Lemma app_inj_len_r {A} (a b c d : list A) :
  length b = length d -> a ++ b = c ++ d -> a = c /\ b = d.
Proof.
  intros Hl H. apply app_inj_len; auto.
  apply (f_equal (@length A)) in H. rewrite !app_length in H. lia.
Qed.

Lemma list_eqb_eq a b : list_eqb a b = true <-> a = b.
Proof.
  revert b; induction a as [|x a IH]; intros [|y b]; cbn; split; intros H; try discriminate; auto.
  - apply andb_prop in H as [H1 H2]. apply Z.eqb_eq in H1. apply IH in H2. congruence.
  - injection H as -> ->. rewrite Z.eqb_refl. apply IH; reflexivity.
Qed.
Lemma list_eqb_refl a : list_eqb a a = true. Proof. apply list_eqb_eq; reflexivity. Qed.

Lemma startswith_app p l : startswith (p ++ l) p = true.
Proof. unfold startswith. rewrite firstn_app_exact by reflexivity. apply list_eqb_refl. Qed.
Lemma startswith_spec l p : startswith l p = true <-> exists r, l = p ++ r.
Proof.
  unfold startswith; split.
  - intros H; apply list_eqb_eq in H. exists (skipn (length p) l).
    rewrite <- (firstn_skipn (length p) l) at 1. rewrite H; reflexivity.
  - intros [r ->]. apply startswith_app.
Qed.
Lemma endswith_app p l : endswith (l ++ p) p = true.
Proof.
  unfold endswith. rewrite len_app, app_length.
  replace (length l + length p - length p)%nat with (length l) by lia.
  rewrite skipn_app_exact by reflexivity. rewrite list_eqb_refl.
  pose proof (len_nonneg l). destruct (Z.leb_spec (len p) (len l + len p)); auto; lia.
Qed.
Lemma endswith_spec l p : endswith l p = true <-> exists r, l = r ++ p.
Proof.
  unfold endswith; split.
  - intros H; apply andb_prop in H as [_ H]. apply list_eqb_eq in H.
    exists (firstn (length l - length p) l).
    rewrite <- (firstn_skipn (length l - length p) l) at 1. rewrite H; reflexivity.
  - intros [r ->]. apply endswith_app.
Qed.
Lemma endswith1_false l b : endswith l [b] = false <-> ~ exists r, l = r ++ [b].
Proof.
  rewrite <- endswith_spec. destruct (endswith l [b]); split; congruence.
Qed.

(** ** slices *)
Lemma slice_to_neg1 {A} (l : list A) x : slice_to (-1) (l ++ [x]) = l.
Proof.
  unfold slice_to. rewrite clamp_neg by lia.
  apply firstn_app_exact. unfold len. rewrite app_length. cbn [length]. lia.
Qed.
Lemma slice_full_pos {A} i j (l : list A) :
  0 <= i -> i <= j -> j <= len l ->
  slice i j l = firstn (Z.to_nat (j - i)) (skipn (Z.to_nat i) l).
Proof.
  intros. unfold slice. rewrite !clamp_pos by lia. rewrite !Z.min_l by lia. reflexivity.
Qed.
Lemma slice_mid {A} (a b c : list A) i j :
  i = len a -> j = len a + len b -> slice i j (a ++ b ++ c) = b.
Proof.
  intros -> ->. pose proof (len_nonneg a). pose proof (len_nonneg b). pose proof (len_nonneg c).
  rewrite slice_full_pos by (rewrite ?len_app; lia).
  rewrite skipn_app_exact by (unfold len; lia).
  apply firstn_app_exact. unfold len; lia.
Qed.
Lemma slice_mid_neg {A} (a b c : list A) i j :
  i = len a -> j = - len c -> 0 < len c -> slice i j (a ++ b ++ c) = b.
Proof.
  intros -> -> Hc. pose proof (len_nonneg a). pose proof (len_nonneg b).
  unfold slice. rewrite (clamp_pos _ (len a)), (clamp_neg _ (- len c)) by lia. rewrite !len_app.
  rewrite Z.min_l, Z.max_r by lia.
  rewrite skipn_app_exact by (unfold len; lia).
  apply firstn_app_exact. unfold len; lia.
Qed.
Lemma slice_from_app {A} (a b : list A) i : i = len a -> slice_from i (a ++ b) = b.
Proof.
  intros ->. pose proof (len_nonneg a). pose proof (len_nonneg b).
  unfold slice_from. rewrite clamp_pos by lia. rewrite len_app, Z.min_l by lia.
  apply skipn_app_exact. unfold len; lia.
Qed.
Lemma slice_to_app {A} (a b : list A) i : i = len a -> slice_to i (a ++ b) = a.
Proof.
  intros ->. pose proof (len_nonneg a). pose proof (len_nonneg b).
  unfold slice_to. rewrite clamp_pos by lia. rewrite len_app, Z.min_l by lia.
  apply firstn_app_exact. unfold len; lia.
Qed.
Lemma slice_from_neg_app {A} (a b : list A) i : i = - len b -> 0 < len b -> slice_from i (a ++ b) = b.
Proof.
  intros -> Hb. pose proof (len_nonneg a).
  unfold slice_from. rewrite clamp_neg by lia. rewrite len_app, Z.max_r by lia.
  apply skipn_app_exact. unfold len; lia.
Qed.
Lemma slice_to_neg_app {A} (a b : list A) i : i = - len b -> 0 < len b -> slice_to i (a ++ b) = a.
Proof.
  intros -> Hb. pose proof (len_nonneg a).
  unfold slice_to. rewrite clamp_neg by lia. rewrite len_app, Z.max_r by lia.
  apply firstn_app_exact. unfold len; lia.
Qed.

Lemma getitem_app (a : bytes) x b i : i = len a -> getitem i (a ++ x :: b) = Ok x.
Proof.
  intros ->. unfold getitem. pose proof (len_nonneg a). pose proof (len_nonneg b).
  destruct (Z.ltb_spec (len a) 0); [lia|]. rewrite len_app, len_cons.
  destruct (Z.ltb_spec (len a) 0); [lia|]. cbn.
  destruct (Z.leb_spec (len a + (1 + len b)) (len a)); [lia|].
  rewrite nth_error_app2 by (unfold len; lia).
  replace (Z.to_nat (len a) - length a)%nat with O by (unfold len; lia). reflexivity.
Qed.
Lemma getitem_neg_app (a : bytes) x b i : i = - len b - 1 -> getitem i (a ++ x :: b) = Ok x.
Proof.
  intros ->. pose proof (len_nonneg a). pose proof (len_nonneg b).
  rewrite <- (getitem_app a x b (len a) eq_refl). unfold getitem.
  rewrite len_app, len_cons.
  destruct (Z.ltb_spec (- len b - 1) 0); [|lia].
  destruct (Z.ltb_spec (len a) 0); [lia|].
  replace (- len b - 1 + (len a + (1 + len b))) with (len a) by lia. reflexivity.
Qed.

(** ** bytes *)
Lemma is_bytes_app l r : is_bytes (l ++ r) <-> is_bytes l /\ is_bytes r.
Proof. apply Forall_app. Qed.
Lemma is_bytes_cons b l : is_bytes (b :: l) <-> is_byte b /\ is_bytes l.
Proof. apply Forall_cons_iff. Qed.
Lemma is_bytes_firstn n l : is_bytes l -> is_bytes (firstn n l).
Proof. intros H. rewrite <- (firstn_skipn n l) in H. apply is_bytes_app in H; tauto. Qed.
Lemma is_bytes_skipn n l : is_bytes l -> is_bytes (skipn n l).
Proof. intros H. rewrite <- (firstn_skipn n l) in H. apply is_bytes_app in H; tauto. Qed.
Lemma is_bytes_slice i j l : is_bytes l -> is_bytes (slice i j l).
Proof. intros; unfold slice; apply is_bytes_firstn, is_bytes_skipn; assumption. Qed.
Lemma is_bytes_slice_from i l : is_bytes l -> is_bytes (slice_from i l).
Proof. intros; apply is_bytes_skipn; assumption. Qed.
Lemma is_bytes_slice_to i l : is_bytes l -> is_bytes (slice_to i l).
Proof. intros; apply is_bytes_firstn; assumption. Qed.
Lemma is_bytes_rev l : is_bytes l -> is_bytes (rev l).
Proof. intros H. apply Forall_rev; exact H. Qed.

Lemma is_bytes_nil : is_bytes []. Proof. constructor. Qed.
#[export] Hint Resolve is_bytes_nil is_bytes_firstn is_bytes_skipn is_bytes_slice
  is_bytes_slice_from is_bytes_slice_to is_bytes_rev : bytes.

Ltac bytes_tac :=
  repeat first [ apply is_bytes_app; split | apply is_bytes_cons; split | apply is_bytes_nil ];
  try assumption; try (unfold is_byte; lia); auto with bytes.

Lemma append_ok out b : is_byte b -> append out b = Ok (out ++ [b]).
Proof.
  unfold is_byte, append; intros H.
  destruct (Z.leb_spec 0 b); destruct (Z.ltb_spec b 256); cbn; auto; lia.
Qed.
Lemma append_err out b : ~ is_byte b -> append out b = Err ValueError.
Proof.
  unfold is_byte, append; intros H.
  destruct (Z.leb_spec 0 b); destruct (Z.ltb_spec b 256); cbn; auto; lia.
Qed.
Lemma append_cases out b :
  (is_byte b /\ append out b = Ok (out ++ [b])) \/ (~ is_byte b /\ append out b = Err ValueError).
Proof.
  destruct (Z_le_dec 0 b); [destruct (Z_lt_dec b 256)|].
  - left; split; [unfold is_byte; lia | apply append_ok; unfold is_byte; lia].
  - right; split; [unfold is_byte; lia | apply append_err; unfold is_byte; lia].
  - right; split; [unfold is_byte; lia | apply append_err; unfold is_byte; lia].
Qed.

Lemma pow256_S w : 256 ^ Z.of_nat (S w) = 256 * 256 ^ Z.of_nat w.
Proof. rewrite Nat2Z.inj_succ, Z.pow_succ_r by lia. reflexivity. Qed.
Lemma pow256_pos w : 0 < 256 ^ Z.of_nat w.
Proof. apply Z.pow_pos_nonneg; lia. Qed.

Lemma le_bytes_length w n : length (le_bytes w n) = w.
Proof. revert n; induction w; intros; cbn; auto. Qed.
Lemma len_le_bytes w n : len (le_bytes w n) = Z.of_nat w.
Proof. unfold len; rewrite le_bytes_length; reflexivity. Qed.
Lemma le_bytes_is_bytes w n : is_bytes (le_bytes w n).
Proof.
  revert n; induction w; intros; cbn; [constructor|]. constructor; [|apply IHw].
  unfold is_byte. pose proof (Z.mod_pos_bound n 256). lia.
Qed.
Lemma from_le_le_bytes w n : 0 <= n < 256 ^ Z.of_nat w -> from_le (le_bytes w n) = n.
Proof.
  revert n; induction w as [|w IH]; intros n Hn; cbn [le_bytes from_le].
  - change (256 ^ Z.of_nat 0) with 1 in Hn. lia.
  - rewrite pow256_S in Hn. rewrite IH.
    + pose proof (Z.div_mod n 256). lia.
    + pose proof (pow256_pos w). split; [apply Z.div_pos; lia|].
      apply Z.div_lt_upper_bound; lia.
Qed.
Lemma from_le_range l : is_bytes l -> 0 <= from_le l < 256 ^ len l.
Proof.
  induction l as [|b l IH]; intros H.
  - cbn. change (256 ^ len (@nil Z)) with 1. lia.
  - apply is_bytes_cons in H as [Hb Hl]. specialize (IH Hl). cbn [from_le].
    unfold len in *. cbn [length]. rewrite pow256_S. unfold is_byte in Hb. nia.
Qed.
Lemma le_bytes_from_le l : is_bytes l -> le_bytes (length l) (from_le l) = l.
Proof.
  induction l as [|b l IH]; intros H; cbn; [reflexivity|].
  apply is_bytes_cons in H as [Hb Hl]. unfold is_byte in Hb.
  replace (b + 256 * from_le l) with (b + from_le l * 256) by lia.
  rewrite Z.mod_add, Z.div_add by lia.
  rewrite Z.mod_small, Z.div_small by lia. rewrite Z.add_0_l, IH by assumption. reflexivity.
Qed.
Lemma from_le_app a b : from_le (a ++ b) = from_le a + 256 ^ len a * from_le b.
Proof.
  induction a as [|x a IH]; cbn [app from_le].
  - change (256 ^ len (@nil Z)) with 1. lia.
  - rewrite IH. unfold len; cbn [length]. rewrite pow256_S. lia.
Qed.
Lemma from_le_1 b : from_le [b] = b. Proof. cbn [from_le]. lia. Qed.

Lemma to_le_ok w n : 0 <= n < 256 ^ Z.of_nat w -> to_le w n = Ok (le_bytes w n).
Proof.
  intros; unfold to_le. destruct (Z.leb_spec 0 n); destruct (Z.ltb_spec n (256 ^ Z.of_nat w)); cbn; auto; lia.
Qed.
Lemma to_le_err w n : ~ (0 <= n < 256 ^ Z.of_nat w) -> to_le w n = Err OverflowError.
Proof.
  intros; unfold to_le. destruct (Z.leb_spec 0 n); destruct (Z.ltb_spec n (256 ^ Z.of_nat w)); cbn; auto; lia.
Qed.
Lemma to_be_ok w n : 0 <= n < 256 ^ Z.of_nat w -> to_be w n = Ok (rev (le_bytes w n)).
Proof.
  intros; unfold to_be. destruct (Z.leb_spec 0 n); destruct (Z.ltb_spec n (256 ^ Z.of_nat w)); cbn; auto; lia.
Qed.
Lemma to_be_err w n : ~ (0 <= n < 256 ^ Z.of_nat w) -> to_be w n = Err OverflowError.
Proof.
  intros; unfold to_be. destruct (Z.leb_spec 0 n); destruct (Z.ltb_spec n (256 ^ Z.of_nat w)); cbn; auto; lia.
Qed.

(** ** monad *)
Lemma bind_ok {A B} (r : res A) (f : A -> res B) b :
  bind r f = Ok b <-> exists a, r = Ok a /\ f a = Ok b.
Proof.
  destruct r; cbn; split.
  - intros H; eauto.
  - intros (x & H & H'). injection H as ->. exact H'.
  - discriminate.
  - intros (x & H & _). discriminate.
Qed.

Lemma index_of_spec b l :
  match index_of b l with
  | Some i => exists p s, l = p ++ b :: s /\ len p = i /\ ~ In b p
  | None => ~ In b l
  end.
Proof.
  induction l as [|x l IH]; cbn; [tauto|].
  destruct (Z.eqb_spec x b) as [->|Hx].
  - exists [], l. cbn. auto.
  - destruct (index_of b l).
    + destruct IH as (p & s & -> & Hp & Hn). exists (x :: p), s.
      rewrite len_cons. split; [reflexivity|]. split; [lia|]. cbn. intros [|]; auto.
    + intros [|]; auto.
Qed.
Lemma index_of_app b p s : ~ In b p -> index_of b (p ++ b :: s) = Some (len p).
Proof.
  induction p as [|x p IH]; intros H; cbn.
  - rewrite Z.eqb_refl. reflexivity.
  - destruct (Z.eqb_spec x b); [exfalso; apply H; left; auto|].
    rewrite IH by (intros Hi; apply H; right; auto). rewrite len_cons. f_equal. lia.
Qed.
Lemma index_of_none b l : index_of b l = None <-> ~ In b l.
Proof.
  pose proof (index_of_spec b l) as H. destruct (index_of b l).
  - destruct H as (p & s & -> & _). split; [discriminate|].
    intros Hn. exfalso; apply Hn. apply in_elt.
  - tauto.
Qed.
