(** Line errors: one byte changed, lost or added on the line, between the
    escaping of the sender and the unescaping of the receiver. *)
From Verif Require Import PyFacts BitFacts SpecUtils SpecFrames UtilsProofs FramesProofs.
From Verif Require Import Frames Connection SpecConnection ConnectionProofs.
From Verif Require Export SpecLine.
Open Scope Z_scope.

(** ** what every accepted telegram looks like *)
Definition header_byte (x : Z) : Prop :=
  x = 2 \/ x = 254 \/ 132 <= x <= 135 \/ exists s, x = service_number s.
Lemma header_byte_not x : header_byte x -> x <> 0 /\ x <> 13 /\ x <> 27 /\ x <> 141.
Proof. intros [->|[->|[H|[s ->]]]]; [lia..|]. destruct s; cbn; lia. Qed.

Inductive fine (T : bytes) : Prop :=
| fine_intro t sv lo hi tl R :
    T = 2 :: 254 :: t :: sv :: lo :: hi :: tl -> header_byte t -> header_byte sv ->
    Z.lxor (Z.lxor (rotl8 2 254) (rotl8 1 t)) sv <> 0 -> Z.lxor (Z.lxor (rotl8 2 254) (rotl8 1 t)) sv <> 255 ->
    lo + 256 * hi = len T - 1 -> is_bytes T -> T = sealed R -> is_bytes R -> fine T.

Lemma endswith_last (a : bytes) x y : endswith (a ++ [x]) [y] = true -> x = y.
Proof. intros H. apply endswith_spec in H as [r E]. apply app_inj_tail in E as [_ ->]. reflexivity. Qed.

Lemma type_service_drc TYPE s : telegram_type TYPE ->
  Z.lxor (Z.lxor (rotl8 2 254) (rotl8 1 TYPE)) (service_number s) <> 0 /\
  Z.lxor (Z.lxor (rotl8 2 254) (rotl8 1 TYPE)) (service_number s) <> 255.
Proof. intros [->|[->|[->| ->]]]; destruct s; vm_compute; split; discriminate. Qed.

Lemma accepted_fine TYPE b f : telegram_type TYPE -> is_bytes b ->
  response_from_bytes TYPE b = Ok f -> fine b.
Proof.
  intros HT Hb H. pose proof H as H0.
  unfold response_from_bytes in H0.
  destruct (startswith b [2; 254; TYPE]) eqn:Es; [|discriminate].
  destruct (endswith b [13]) eqn:Ee; [|discriminate].
  destruct (service_of_number (from_le (slice 3 4 b))) as [s|] eqn:Ev; [|discriminate]. cbn [bind] in H0. cbv zeta in H0.
  destruct (Z.eqb_spec (from_le (slice 4 6 b)) (len b - 1)) as [El|]; [|discriminate]. clear H0.
  apply startswith_spec in Es as [r Er]. cbn [app] in Er. rewrite Er in Hb, Ee, Ev, El.
  destruct r as [|sv [|lo [|hi tl]]].
  - apply (endswith_last [2; 254]) in Ee. exfalso. destruct HT as [->|[->|[->| ->]]]; discriminate.
  - apply (endswith_last [2; 254; TYPE]) in Ee. subst sv. discriminate Ev.
  - apply (endswith_last [2; 254; TYPE; sv]) in Ee. subst lo. vm_compute in El. discriminate.
  - apply service_of_number_inv in Ev.
    assert (slice 3 4 (2 :: 254 :: TYPE :: sv :: lo :: hi :: tl) = [sv]) as S3
      by exact (slice_mid [2; 254; TYPE] [sv] (lo :: hi :: tl) 3 4 eq_refl eq_refl).
    assert (slice 4 6 (2 :: 254 :: TYPE :: sv :: lo :: hi :: tl) = [lo; hi]) as S4
      by exact (slice_mid [2; 254; TYPE; sv] [lo; hi] tl 4 6 eq_refl eq_refl).
    rewrite S3 in Ev. rewrite S4 in El. cbn [from_le] in Ev, El.
    apply from_bytes_inv in H as (R & HR & HRb & _); [|rewrite Er; exact Hb|].
    + assert (sv = service_number s) as -> by lia. destruct (type_service_drc TYPE s HT) as [D1 D2].
      rewrite <- Er in Hb, El.
      apply (fine_intro b TYPE (service_number s) lo hi tl R); auto; try lia.
      * right; right; left. unfold telegram_type in HT. lia.
      * right; right; right. eauto.
    + rewrite Er. repeat rewrite len_cons. pose proof (len_nonneg tl). lia.
Qed.
Lemma factory_fine b r : is_bytes b -> response_factory b = Ok r -> fine b.
Proof.
  intros Hb H. destruct r as [f|f].
  - apply response_factory_plain in H. eapply accepted_fine; eauto. unfold telegram_type; lia.
  - apply response_factory_encrypted in H. eapply accepted_fine; eauto. unfold telegram_type; lia.
Qed.

(** ** the redundancy codes of an accepted telegram *)
Lemma sealed_mid R : is_bytes R -> exists k d, sealed R = 2 :: (R ++ [xor_all R]) ++ [k; d; 13] /\ xor_all (R ++ [xor_all R]) = 0.
Proof.
  intros H. exists (sum_all R mod 256), (drc_spec R). split.
  - unfold sealed. rewrite <- app_assoc. reflexivity.
  - rewrite xor_all_app. cbn [xor_all fold_right]. rewrite Z.lxor_0_r, Z.lxor_nilpotent. reflexivity.
Qed.
Lemma fine_mid T q : fine T -> forall A w, T = q ++ A ++ w -> (1 <= length q)%nat -> (3 <= length w)%nat ->
  Z.lxor (xor_all (tl q)) (Z.lxor (xor_all A) (xor_all (firstn (length w - 3) w))) = 0.
Proof.
  intros [t sv lo hi tl0 R E _ _ _ _ _ _ ES HR] A w Eq Lq Lw.
  destruct (sealed_mid R HR) as (k & d & E2 & X). rewrite <- ES in E2.
  destruct q as [|q0 q]; [cbn in Lq; lia|]. cbn [tl].
  rewrite Eq in E2. cbn [app] in E2. injection E2 as -> E2.
  rewrite <- (firstn_skipn (length w - 3) w) in E2.
  rewrite !app_assoc in E2. rewrite <- (app_assoc q A) in E2.
  apply app_inj_len_r in E2 as [E2 _]; [|rewrite skipn_length; cbn [length]; lia].
  rewrite <- E2 in X. rewrite <- ?app_assoc, !xor_all_app in X. exact X.
Qed.
Lemma fine_xor T T' q A A' w w' : fine T -> fine T' -> T = q ++ A ++ w -> T' = q ++ A' ++ w' ->
  (1 <= length q)%nat -> (3 <= length w)%nat -> length w' = length w ->
  Z.lxor (xor_all A) (xor_all (firstn (length w - 3) w)) =
  Z.lxor (xor_all A') (xor_all (firstn (length w - 3) w')).
Proof.
  intros F F' E E' Lq Lw Lw'.
  pose proof (fine_mid T q F A w E Lq Lw) as X. pose proof (fine_mid T' q F' A' w' E' Lq ltac:(lia)) as X'.
  rewrite Lw' in X'. rewrite <- X' in X. apply lxor_cancel_l in X. exact X.
Qed.

(** [c] reads as [c'] after a 0x1B *)
Inductive joined : Z -> Z -> Prop := joined_0d : joined 14 13 | joined_8d : joined 15 141.

Lemma fine_xor_same T T' q A A' w : fine T -> fine T' -> T = q ++ A ++ w -> T' = q ++ A' ++ w ->
  (1 <= length q)%nat -> (3 <= length w)%nat -> xor_all A = xor_all A'.
Proof.
  intros F F' E E' Lq Lw. pose proof (fine_xor T T' q A A' w w F F' E E' Lq Lw eq_refl) as X.
  rewrite !(Z.lxor_comm _ (xor_all (firstn _ _))) in X. apply lxor_cancel_l in X. exact X.
Qed.
Lemma fine_xor_two T T' q A A' u c c' z : fine T -> fine T' ->
  T = q ++ A ++ u ++ c :: z -> T' = q ++ A' ++ u ++ c' :: z ->
  (1 <= length q)%nat -> (3 <= length (u ++ c :: z))%nat ->
  xor_all A = xor_all A' \/ Z.lxor (xor_all A) c = Z.lxor (xor_all A') c'.
Proof.
  intros F F' E E' Lq Lw.
  assert (length (u ++ c' :: z) = length (u ++ c :: z)) as Lw' by (rewrite !app_length; reflexivity).
  pose proof (fine_xor T T' q A A' _ _ F F' E E' Lq Lw Lw') as X.
  rewrite !firstn_app in X. rewrite app_length in X. cbn [length] in X.
  destruct (Nat.le_gt_cases (length u + S (length z) - 3) (length u)) as [H|H].
  - left. replace (length u + S (length z) - 3 - length u)%nat with 0%nat in X by lia. cbn [firstn] in X. rewrite !app_nil_r in X.
    rewrite !(Z.lxor_comm _ (xor_all (firstn _ _))) in X. apply lxor_cancel_l in X. exact X.
  - right. replace (length u + S (length z) - 3 - length u)%nat with (S (length z - 3)) in X by lia.
    cbn [firstn] in X. rewrite !xor_all_app in X. cbn [xor_all fold_right] in X.
    fold (xor_all (firstn (length z - 3) z)) in X.
    set (U := xor_all (firstn (length u + S (length z) - 3) u)) in *. set (V := xor_all (firstn (length z - 3) z)) in *.
    assert (forall a c, Z.lxor a (Z.lxor U (Z.lxor c V)) = Z.lxor (Z.lxor U V) (Z.lxor a c)) as G.
    { intros a b. rewrite !Z.lxor_assoc. rewrite (Z.lxor_comm a), !Z.lxor_assoc. f_equal.
      rewrite (Z.lxor_comm b), Z.lxor_assoc. reflexivity. }
    change (fold_right Z.lxor 0 (firstn (length z - 3) z)) with V in X.
    rewrite !G in X. apply lxor_cancel_l in X. exact X.
Qed.

(** ** two telegrams that differ in length *)
Lemma fine_len T : fine T -> 6 <= len T.
Proof. intros [t sv lo hi tl R -> _ _ _ _ _ _ _ _]. repeat rewrite len_cons. pose proof (len_nonneg tl). lia. Qed.
Lemma fine_byte T q a m : fine T -> T = q ++ a :: m -> is_byte a.
Proof.
  intros [t sv lo hi tl R _ _ _ _ _ _ Hb _ _] E. rewrite E in Hb. apply is_bytes_app in Hb as [_ Hb].
  apply is_bytes_cons in Hb. tauto.
Qed.
Lemma fine_lengths T T' q a a' m m' : fine T -> fine T' -> T = q ++ a :: m -> T' = q ++ a' :: m' ->
  len m' <> len m -> Z.abs (len m' - len m) < 256 ->
  (len q < 4 /\ header_byte a /\ header_byte a') \/
  (len q = 4 /\ a' mod 256 = (a + (len m' - len m)) mod 256).
Proof.
  intros F F' E E' Ne Sm. pose proof (fine_byte _ _ _ _ F E) as Ba. pose proof (fine_byte _ _ _ _ F' E') as Ba'.
  destruct F as [t sv lo hi tl R H1 H2 H3 _ _ H6 _ _ _]. destruct F' as [t' sv' lo' hi' tl' R' H1' H2' H3' _ _ H6' _ _ _].
  rewrite E in H6. rewrite E' in H6'. rewrite len_app, len_cons in H6, H6'.
  rewrite E in H1. rewrite E' in H1'.
  destruct q as [|q0 [|q1 [|q2 [|q3 [|q4 [|q5 q]]]]]]; cbn [app] in H1, H1'.
  - left. injection H1 as -> _. injection H1' as -> _. split; [lenlia|]. unfold header_byte; auto.
  - left. injection H1 as _ -> _. injection H1' as _ -> _. split; [lenlia|]. unfold header_byte; auto.
  - left. injection H1 as _ _ -> _. injection H1' as _ _ -> _. split; [lenlia|]. auto.
  - left. injection H1 as _ _ _ -> _. injection H1' as _ _ _ -> _. split; [lenlia|]. auto.
  - right. injection H1 as _ _ _ _ -> _. injection H1' as _ _ _ _ -> _. split; [reflexivity|].
    replace (lo + (len m' - len m)) with (lo' + (hi' - hi) * 256) by lia. rewrite Z_mod_plus_full. reflexivity.
  - exfalso. injection H1 as _ _ _ _ -> -> _. injection H1' as _ _ _ _ -> -> _. lia.
  - exfalso. injection H1 as _ _ _ _ -> -> _. injection H1' as _ _ _ _ -> -> _. lia.
Qed.

(** one byte of the telegram inserted *)
Lemma inserted T T' q x z : fine T -> fine T' -> T = q ++ z -> T' = q ++ x :: z -> 9 <= len T -> False.
Proof.
  intros F F' E E' L.
  destruct z as [|z0 z].
  { rewrite app_nil_r in E. destruct F as [t sv lo hi tl R H1 _ _ _ _ H6 _ _ _], F' as [t' sv' lo' hi' tl' R' H1' _ _ _ _ H6' _ _ _].
    rewrite E', <- E, H1 in H1'. cbn [app] in H1'. injection H1' as <- <- <- <- _. rewrite E', len_app, <- E, len_cons, len_nil in H6'. lia. }
  pose proof (fine_byte _ _ _ _ F E) as Bz. pose proof (fine_byte _ _ _ _ F' E') as Bx.
  assert (len q <= 4) as Lq.
  { destruct (fine_lengths T T' q z0 x z (z0 :: z) F F' E E') as [(H & _)|(H & _)]; rewrite ?len_cons in *; lia. }
  destruct q as [|q0 q].
  { destruct F as [t sv lo hi tl R H1 _ _ _ _ H6 _ _ _], F' as [t' sv' lo' hi' tl' R' H1' _ _ _ _ H6' _ _ _].
    rewrite E in H1. rewrite E' in H1'. cbn [app] in *. injection H1 as -> ->. injection H1' as _ H. discriminate. }
  assert (x = 0) as ->.
  { pose proof (fine_xor_same T T' (q0 :: q) [] [x] (z0 :: z) F F' E E' ltac:(cbn; lia)) as X.
    assert (3 <= length (z0 :: z))%nat as L3. { rewrite E, len_app in L. unfold len in *. lia. }
    specialize (X L3). cbn [xor_all fold_right] in X. rewrite Z.lxor_0_r in X. congruence. }
  destruct (fine_lengths T T' (q0 :: q) z0 0 z (z0 :: z) F F' E E') as [(_ & _ & H)|(H4 & H)]; [rewrite ?len_cons in *; lia..| |].
  { apply header_byte_not in H. lia. }
  rewrite len_cons in H. replace (len z + 1 - len z) with 1 in H by lia.
  assert (z0 = 255) as -> by (unfold is_byte in Bz; change (0 mod 256) with 0 in H; lia).
  destruct q as [|q1 [|q2 [|q3 [|q4 q]]]]; rewrite ?len_cons, ?len_nil in H4; try lia; [|pose proof (len_nonneg q); lia].
  destruct F as [t sv lo hi tl R H1 _ _ Hd1 Hd2 H6 _ ES HR], F' as [t' sv' lo' hi' tl' R' H1' _ _ _ _ H6' _ ES' HR'].
  rewrite E in H1. cbn [app] in H1. injection H1 as -> -> -> -> <- ->.
  rewrite E' in H1'. cbn [app] in H1'. injection H1' as <- <- <- <- <-.
  rewrite ES in E. rewrite ES' in E'. unfold sealed in E, E'. cbn [app] in E, E'. injection E as E. injection E' as E'.
  (* the protected regions *)
  destruct R as [|r0 [|r1 [|r2 [|r3 R]]]]; cbn [app] in E.
  1-4: exfalso; apply (f_equal len) in E; rewrite ES in L; unfold sealed in L; cbn [app] in L;
       repeat rewrite len_cons in L; repeat rewrite len_cons in E; rewrite ?len_nil in *; lia.
  destruct R' as [|r0' [|r1' [|r2' [|r3' R']]]]; cbn [app] in E'.
  1-4: exfalso; rewrite ES' in H6'; unfold sealed in H6'; cbn [app] in H6'; unfold len in H6'; cbn [length] in H6'; lia.
  injection E as -> -> -> -> E. injection E' as -> -> -> -> E'.
  assert (length R' = S (length R)) as LR.
  { apply (f_equal (@length Z)) in E, E'. rewrite ?app_length in E, E'. cbn [length] in E, E'. lia. }
  destruct R' as [|r4' R']; [discriminate|]. cbn [app] in E'. injection E' as -> E'. rewrite <- E in E'.
  injection LR as LR.
  apply app_inj_len in E' as [-> E']; [|exact LR]. pose proof (f_equal (fun l => nth 2 l 0) E') as D.
  cbn [nth drc_spec length] in D.
  apply is_bytes_cons in HR as [B1 HR]. apply is_bytes_cons in HR as [B2 HR]. apply is_bytes_cons in HR as [B3 _].
  set (n := length R) in *. set (dr := drc_spec R) in *.
  rewrite rotl8_zero, Z.lxor_0_l in D.
  rewrite <- !Z.lxor_assoc in D. rewrite !(Z.lxor_comm _ dr) in D. apply lxor_cancel_l in D.
  rewrite !(Z.lxor_comm _ (rotl8 n 255)) in D. apply lxor_cancel_l in D.
  set (v := Z.lxor (Z.lxor (rotl8 2 254) (rotl8 1 t)) sv) in *.
  assert (is_byte v) as Bv by (unfold v; repeat apply lxor_byte; try apply rotl8_byte; assumption).
  assert (forall k, rotl8 k v = Z.lxor (Z.lxor (rotl8 (2 + k) 254) (rotl8 (1 + k) t)) (rotl8 k sv)) as G.
  { intros k. unfold v. rewrite !rotl8_lxor by (repeat apply lxor_byte; try apply rotl8_byte; assumption).
    rewrite !rotl8_add by assumption. reflexivity. }
  assert (rotl8 (S n) (rotl8 1 v) = rotl8 (S n) v) as D'.
  { rewrite rotl8_S by exact Bv. rewrite !G. cbn [Nat.add] in *.
    exact D. }
  assert (rotl8 1 v = v) as Ev.
  { assert (rotl8 (S n) (Z.lxor (rotl8 1 v) v) = 0) as Z0.
    { rewrite rotl8_lxor by (try apply rotl8_byte; assumption). rewrite D'. apply Z.lxor_nilpotent. }
    apply rotl8_inj0 in Z0; [|apply lxor_byte; [apply rotl8_byte|]; assumption].
    apply Z.lxor_eq in Z0. exact Z0. }
  apply rot1_fix in Ev; [|exact Bv]. destruct Ev; contradiction.
Qed.

Lemma runs_hd (u : bytes) c z : Forall (fun b => b = 27) u ->
  exists x m, u ++ c :: z = x :: m /\ (x = 27 \/ x = c).
Proof. intros [|b u' -> _]; cbn [app]; eauto. Qed.
Lemma xor_all_cons a l : xor_all (a :: l) = Z.lxor a (xor_all l).
Proof. reflexivity. Qed.
Lemma sum_all_cons a l : sum_all (a :: l) = a + sum_all l.
Proof. reflexivity. Qed.

(** one byte lost, and the byte after the following run of 0x1B read differently *)
Lemma lost_joined T T' q a u c c' z : fine T -> fine T' -> Forall (fun b => b = 27) u -> joined c c' ->
  T = q ++ a :: u ++ c :: z -> T' = q ++ u ++ c' :: z -> 9 <= len T' -> False.
Proof.
  intros F F' Hu J E E' L.
  pose proof (fine_byte _ _ _ _ F E) as Ba.
  destruct (runs_hd u c' z Hu) as (x & m & Ex & Hx).
  assert (len (u ++ c' :: z) = len (u ++ c :: z)) as Lw by (rewrite !len_app, !len_cons; reflexivity).
  pose proof E' as E2. rewrite Ex in E2, Lw.
  assert (x <> 0 /\ (x = 13 \/ x = 27 \/ x = 141)) as Hx'. { destruct J, Hx; subst; lia. }
  destruct (fine_lengths T T' q a x _ m F F' E E2) as [(_ & _ & H)|(H4 & H)]; [rewrite <- Lw, len_cons; lia..| |].
  { apply header_byte_not in H. lia. }
  rewrite <- Lw, len_cons in H. replace (len m - (1 + len m)) with (-1) in H by lia.
  assert (xor_all [a] = xor_all [] \/ Z.lxor (xor_all [a]) c = Z.lxor (xor_all []) c') as X.
  { eapply (fine_xor_two T T' q [a] [] u c c' z F F'); [exact E|exact E'|unfold len in H4; lia|].
    rewrite E', len_app, Ex, <- Ex in L. unfold len in *. rewrite app_length in *. cbn [length] in *. lia. }
  cbn [xor_all fold_right] in X. rewrite Z.lxor_0_r, Z.lxor_0_l in X.
  assert (a = 0 \/ a = 3 \/ a = 130) as Ha.
  { destruct X as [X|X]; [lia|]. right. destruct J.
    - left. apply (f_equal (fun y => Z.lxor y 14)) in X. rewrite Z.lxor_assoc, Z.lxor_nilpotent, Z.lxor_0_r in X. exact X.
    - right. apply (f_equal (fun y => Z.lxor y 15)) in X. rewrite Z.lxor_assoc, Z.lxor_nilpotent, Z.lxor_0_r in X. exact X. }
  destruct Ha as [->|[->| ->]]; destruct Hx' as [_ [->|[->| ->]]]; vm_compute in H; discriminate H.
Qed.

(** one byte read as two *)
Lemma split_in_two T T' q v x y z : fine T -> fine T' -> joined y v ->
  T = q ++ v :: z -> T' = q ++ x :: y :: z -> 9 <= len T -> False.
Proof.
  intros F F' J E E' L. pose proof (fine_byte _ _ _ _ F' E') as Bx.
  destruct (fine_lengths T T' q v x z (y :: z) F F' E E') as [(_ & H & _)|(H4 & H)]; [rewrite ?len_cons; lia..| |].
  { apply header_byte_not in H. destruct J; lia. }
  rewrite len_cons in H. replace (1 + len z - len z) with 1 in H by lia.
  assert (xor_all [v] = xor_all [x; y]) as X.
  { eapply (fine_xor_same T T' q [v] [x; y] z F F'); [exact E|exact E'|unfold len in H4; lia|].
    rewrite E, len_app, len_cons in L. unfold len in *. lia. }
  cbn [xor_all fold_right] in X. rewrite !Z.lxor_0_r in X.
  assert (x = 3 \/ x = 130) as Hx.
  { destruct J.
    - left. apply (f_equal (fun y => Z.lxor y 14)) in X. rewrite Z.lxor_assoc, Z.lxor_nilpotent, Z.lxor_0_r in X. symmetry; exact X.
    - right. apply (f_equal (fun y => Z.lxor y 15)) in X. rewrite Z.lxor_assoc, Z.lxor_nilpotent, Z.lxor_0_r in X. symmetry; exact X. }
  destruct J, Hx as [->| ->]; vm_compute in H; discriminate H.
Qed.

(** one byte added before a run of 0x1B, and the byte after the run read differently *)
Lemma added_split T T' q x u c c' z : fine T -> fine T' -> Forall (fun b => b = 27) u -> joined c' c ->
  T = q ++ 27 :: u ++ c :: z -> T' = q ++ x :: 27 :: u ++ c' :: z -> 9 <= len T -> False.
Proof.
  intros F F' Hu J E E' L. pose proof (fine_byte _ _ _ _ F' E') as Bx.
  assert (len (u ++ c' :: z) = len (u ++ c :: z)) as Lw by (rewrite !len_app, !len_cons; reflexivity).
  destruct (fine_lengths T T' q 27 x _ _ F F' E E') as [(_ & H & _)|(H4 & H)]; [rewrite len_cons; lia..| |].
  { apply header_byte_not in H. lia. }
  rewrite len_cons, Lw in H. replace (1 + len (u ++ c :: z) - len (u ++ c :: z)) with 1 in H by lia.
  assert (xor_all [] = xor_all [x] \/ Z.lxor (xor_all []) c = Z.lxor (xor_all [x]) c') as X.
  { eapply (fine_xor_two T T' q [] [x] (27 :: u) c c' z F F'); [exact E|exact E'|unfold len in H4; lia|].
    rewrite E, len_app, len_cons in L. unfold len in *. cbn [length app] in *. lia. }
  cbn [xor_all fold_right] in X. rewrite Z.lxor_0_r, Z.lxor_0_l in X.
  assert (x = 0 \/ x = 3 \/ x = 130) as Ha.
  { destruct X as [X|X]; [lia|]. right. destruct J.
    - left. apply (f_equal (fun y => Z.lxor y 14)) in X. rewrite Z.lxor_assoc, Z.lxor_nilpotent, Z.lxor_0_r in X. symmetry; exact X.
    - right. apply (f_equal (fun y => Z.lxor y 15)) in X. rewrite Z.lxor_assoc, Z.lxor_nilpotent, Z.lxor_0_r in X. symmetry; exact X. }
  destruct Ha as [->|[->| ->]]; vm_compute in H; discriminate H.
Qed.

(** a reserved byte read as 0x1B and one or two more *)
Lemma grown T T' q v m m' : fine T -> fine T' -> v = 13 \/ v = 27 \/ v = 141 ->
  T = q ++ v :: m -> T' = q ++ 27 :: m' -> len m' = len m + 1 \/ len m' = len m + 2 -> False.
Proof.
  intros F F' Hv E E' L.
  destruct (fine_lengths T T' q v 27 m m' F F' E E') as [(_ & H & _)|(H4 & H)]; [lia..| |].
  { apply header_byte_not in H. lia. }
  assert (len m' - len m = 1 \/ len m' - len m = 2) as D by lia.
  destruct D as [D|D]; rewrite D in H; destruct Hv as [->|[->| ->]]; vm_compute in H; discriminate H.
Qed.

(** the telegram cut off *)
Lemma cut_off T T' q m e : fine T -> fine T' -> T = q ++ m -> T' = q ++ e ->
  e = [13] \/ e = [27; 13] -> (length e < length m)%nat -> False.
Proof.
  intros F F' E E' He L.
  destruct F as [t sv lo hi tl R H1 _ _ _ _ H6 _ _ _]. destruct F' as [t' sv' lo' hi' tl' R' H1' _ _ _ _ H6' Hb' _ _].
  assert (len e < len m) as L' by (unfold len; lia).
  rewrite E, len_app in H6. rewrite E', len_app in H6'. rewrite E in H1. rewrite E' in H1'.
  destruct q as [|q0 [|q1 [|q2 [|q3 [|q4 [|q5 q]]]]]]; cbn [app] in H1, H1'.
  7: { injection H1 as _ _ _ _ -> -> _. injection H1' as _ _ _ _ -> -> _. lia. }
  all: assert (is_byte lo' /\ is_byte hi') as [B1 B2];
    [rewrite E' in Hb'; cbn [app] in Hb'; rewrite H1' in Hb'; do 4 apply is_bytes_cons in Hb' as [_ Hb'];
     apply is_bytes_cons in Hb' as [? Hb']; apply is_bytes_cons in Hb' as [? _]; auto|].
  all: unfold is_byte in B1, B2; destruct He as [He|He]; rewrite He in H6', H1'; unfold len in H6'; cbn [length] in H6'; try discriminate H1'.
  - injection H1' as _ _ _ _ <- <- _. lia.
  - injection H1' as _ _ _ _ _ <- _. lia.
  - injection H1' as _ _ _ _ _ <- _. lia.
Qed.

(** the telegram continued *)
Lemma continued T T' q m m' : fine T -> fine T' -> T = q ++ m -> T' = q ++ m' -> 6 <= len q -> len m = len m'.
Proof.
  intros F F' E E' L.
  destruct F as [t sv lo hi tl R H1 _ _ _ _ H6 _ _ _]. destruct F' as [t' sv' lo' hi' tl' R' H1' _ _ _ _ H6' _ _ _].
  rewrite E, len_app in H6. rewrite E', len_app in H6'. rewrite E in H1. rewrite E' in H1'.
  destruct q as [|q0 [|q1 [|q2 [|q3 [|q4 [|q5 q]]]]]]; try (exfalso; unfold len in L; cbn [length] in L; lia).
  cbn [app] in H1, H1'. injection H1 as _ _ _ _ -> -> _. injection H1' as _ _ _ _ -> -> _. lia.
Qed.

(** ** two bytes changed *)
Lemma fine_one T T' q a a' z : fine T -> fine T' -> T = q ++ a :: z -> T' = q ++ a' :: z -> a = a'.
Proof.
  intros F F' E E'. destruct (Z.eq_dec a a') as [|N]; [assumption|exfalso].
  destruct F as [t sv lo hi tl R _ _ _ _ _ _ _ ES HR]. destruct F' as [t' sv' lo' hi' tl' R' _ _ _ _ _ _ _ ES' HR'].
  apply (sealed_one_byte R R' HR HR'). rewrite <- ES, <- ES'. exists q, a, a', z. auto.
Qed.
Lemma sealed_tail R X Y : sealed R = X ++ Y -> length Y = 4%nat ->
  X = 2 :: R /\ Y = [xor_all R; sum_all R mod 256; drc_spec R; 13].
Proof.
  intros E L. unfold sealed in E. rewrite app_comm_cons in E.
  apply app_inj_len_r in E as [E1 E2]; [auto|symmetry; exact L].
Qed.
Lemma two_changed T T' q a a' u c c' z : fine T -> fine T' -> (a = 27 /\ joined c c') \/ (a' = 27 /\ joined c' c) -> z <> [] ->
  T = q ++ a :: u ++ c :: z -> T' = q ++ a' :: u ++ c' :: z -> a = a'.
Proof.
  intros F F' H27 Hz E E'.
  pose proof (fine_byte _ _ _ _ F E) as Ba. pose proof (fine_byte _ _ _ _ F' E') as Ba'.
  assert (length q = 0 \/ 1 <= length q)%nat as [Lq|Lq] by lia.
  { destruct q; [|discriminate]. destruct F as [? ? ? ? ? ? H _ _ _ _ _ _ _ _], F' as [? ? ? ? ? ? H' _ _ _ _ _ _ _ _].
    rewrite E in H. rewrite E' in H'. cbn [app] in *. injection H as -> _. injection H' as -> _. reflexivity. }
  assert (length z = 0 \/ length z = 1 \/ length z = 2 \/ length z = 3 \/ 4 <= length z)%nat as Lz by lia.
  pose proof F as [? ? ? ? ? R _ _ _ _ _ _ _ ES HR]. pose proof F' as [? ? ? ? ? R' _ _ _ _ _ _ _ ES' HR'].
  assert (u <> [] \/ length z = 2%nat -> (length z <= 2)%nat -> a = a') as Short.
  { intros Hu L2.
    assert (3 <= length (u ++ c :: z))%nat as L3.
    { rewrite app_length. cbn [length]. destruct z; [contradiction|]. cbn [length] in *. destruct Hu as [Hu|Hu]; [destruct u; [contradiction|]; cbn [length]; lia|lia]. }
    pose proof (fine_xor T T' q [a] [a'] (u ++ c :: z) (u ++ c' :: z) F F' E E' Lq L3 ltac:(rewrite !app_length; reflexivity)) as X.
    rewrite !firstn_app in X. rewrite app_length in X. cbn [length] in X.
    replace (length u + S (length z) - 3 - length u)%nat with 0%nat in X by lia. cbn [firstn] in X.
    rewrite !(Z.lxor_comm (xor_all [_])) in X. apply lxor_cancel_l in X. cbn [xor_all fold_right] in X.
    rewrite !Z.lxor_0_r in X. exact X. }
  destruct Lz as [Lz|[Lz|[Lz|[Lz|Lz]]]].
  - destruct z; [contradiction|discriminate].
  - destruct u as [|u0 u]; [|apply Short; [left; discriminate|lia]]. cbn [app] in E, E'.
    destruct q as [|q0 q1] using rev_ind; [cbn in Lq; lia|]. clear IHq1.
    rewrite <- app_assoc in E, E'. cbn [app] in E, E'. rewrite ES in E. rewrite ES' in E'.
    apply sealed_tail in E as [EX EY]; [|cbn [length]; lia]. apply sealed_tail in E' as [EX' EY']; [|cbn [length]; lia].
    rewrite EX in EX'. injection EX' as ->. rewrite <- EY' in EY. congruence.
  - apply Short; [right; exact Lz|lia].
  - rewrite ES in E. rewrite ES' in E'. rewrite app_comm_cons, app_assoc in E, E'.
    apply sealed_tail in E as [EX EY]; [|cbn [length]; lia]. apply sealed_tail in E' as [EX' EY']; [|cbn [length]; lia].
    destruct q as [|q0 q]; [cbn in Lq; lia|]. cbn [app] in EX, EX'. injection EX as _ EX. injection EX' as _ EX'.
    assert (sum_all R mod 256 = sum_all R' mod 256) as S by congruence.
    rewrite <- EX, <- EX' in S. rewrite !sum_all_app, !sum_all_cons in S.
    unfold is_byte in *. lia.
  - rewrite ES in E. rewrite ES' in E'.
    rewrite <- (firstn_skipn (length z - 4) z) in E, E'.
    set (z1 := firstn (length z - 4) z) in *. assert (length (skipn (length z - 4) z) = 4%nat) as L4 by (rewrite skipn_length; lia).
    set (y := skipn (length z - 4) z) in *.
    assert (forall p b d, p ++ b :: u ++ d :: z1 ++ y = (p ++ b :: u ++ d :: z1) ++ y) as As.
    { intros. rewrite <- app_assoc. cbn [app]. rewrite <- app_assoc. reflexivity. }
    rewrite As in E, E'.
    apply sealed_tail in E as [EX EY]; [|exact L4]. apply sealed_tail in E' as [EX' EY']; [|exact L4].
    destruct q as [|q0 q]; [cbn in Lq; lia|]. cbn [app] in EX, EX'. injection EX as _ EX. injection EX' as _ EX'.
    assert (sum_all R mod 256 = sum_all R' mod 256) as S by congruence.
    assert (xor_all R = xor_all R') as X by congruence.
    rewrite <- EX, <- EX' in S, X. rewrite !sum_all_app, !sum_all_cons, !sum_all_app, !sum_all_cons in S. rewrite !xor_all_app in X. apply lxor_cancel_l in X.
    rewrite !xor_all_cons, !xor_all_app, !xor_all_cons in X.
    set (U := xor_all u) in *. set (V := xor_all z1) in *.
    assert (forall a c, Z.lxor a (Z.lxor U (Z.lxor c V)) = Z.lxor (Z.lxor U V) (Z.lxor a c)) as G.
    { intros x b. rewrite !Z.lxor_assoc. rewrite (Z.lxor_comm x), !Z.lxor_assoc. f_equal.
      rewrite (Z.lxor_comm b), Z.lxor_assoc. reflexivity. }
    rewrite !G in X. apply lxor_cancel_l in X.
    assert ((a + c) mod 256 = (a' + c') mod 256) as S'.
    { clear - S. lia. }
    pose proof (byte_sweep (fun x => forallb (fun cd => let '(c, d) := cd in
       negb ((27 + c) mod 256 =? (x + d) mod 256) || negb (Z.lxor 27 c =? Z.lxor x d)) [(14, 13); (15, 141)]) eq_refl) as Sw.
    exfalso. destruct H27 as [[H27 J]|[H27 J]]; rewrite H27 in S', X.
    + specialize (Sw a' Ba'). cbn [forallb] in Sw. destruct J; lia.
    + specialize (Sw a Ba). cbn [forallb] in Sw. destruct J; lia.
Qed.

(** ** reading a damaged line *)
Notation E := (flat_map esc_byte).
Lemma unesc_det d o o' : unesc d o -> unesc d o' -> o = o'.
Proof. intros H H'. apply return_unesc in H, H'. congruence. Qed.
Lemma unesc_read body : unesc (E body ++ [13]) (body ++ [13]).
Proof. apply unesc_esc. constructor; [lia|constructor]. Qed.
(** the byte after 0x1B in the escape sequence of [b] *)
Inductive escapes : Z -> Z -> Prop := escapes_0d : escapes 14 13 | escapes_1b : escapes 27 27 | escapes_8d : escapes 15 141.
Lemma escapes_cases y b : escapes y b -> (y = 27 /\ b = 27) \/ (y <> 27 /\ y <> 13 /\ joined y b).
Proof. intros []; [right|left|right]; repeat split; try lia; constructor. Qed.
Lemma esc_byte_cases b : (esc_byte b = [b] /\ b <> 13 /\ b <> 27 /\ b <> 141) \/ exists y, esc_byte b = [27; y] /\ escapes y b.
Proof.
  unfold esc_byte. destruct (Z.eqb_spec b 13) as [->|]; [right; eexists; split; [reflexivity|constructor]|].
  destruct (Z.eqb_spec b 27) as [->|]; [right; eexists; split; [reflexivity|constructor]|].
  destruct (Z.eqb_spec b 141) as [->|]; [right; eexists; split; [reflexivity|constructor]|]. left. auto.
Qed.
Lemma esc_position body p a s : E body ++ [13] = p ++ a :: s ->
  (p = E body /\ a = 13 /\ s = []) \/
  exists q b r, body = q ++ b :: r /\ s <> [] /\
    ((p = E q /\ a = b /\ s = E r ++ [13] /\ b <> 13 /\ b <> 27 /\ b <> 141 /\ esc_byte b = [b]) \/
     (exists y, escapes y b /\ esc_byte b = [27; y] /\
       ((p = E q /\ a = 27 /\ s = y :: E r ++ [13]) \/ (p = E q ++ [27] /\ a = y /\ s = E r ++ [13])))).
Proof.
  revert p; induction body as [|b body IH]; intros p H.
  - left. cbn in H. destruct p as [|p0 [|p1 p]]; cbn in H; try discriminate. injection H as <- <-. auto.
  - cbn [flat_map] in H.
    assert (forall p', E body ++ [13] = p' ++ a :: s -> p = esc_byte b ++ p' ->
      (p = E (b :: body) /\ a = 13 /\ s = []) \/
      exists q b0 r, b :: body = q ++ b0 :: r /\ s <> [] /\
      ((p = E q /\ a = b0 /\ s = E r ++ [13] /\ b0 <> 13 /\ b0 <> 27 /\ b0 <> 141 /\ esc_byte b0 = [b0]) \/
       (exists y, escapes y b0 /\ esc_byte b0 = [27; y] /\
         ((p = E q /\ a = 27 /\ s = y :: E r ++ [13]) \/ (p = E q ++ [27] /\ a = y /\ s = E r ++ [13]))))) as Deep.
    { intros p' H' ->. destruct (IH p' H') as [(-> & -> & ->)|(q & b0 & r & -> & Hs & Hc)].
      - left. auto.
      - right. exists (b :: q), b0, r. split; [reflexivity|]. split; [exact Hs|]. cbn [flat_map].
        destruct Hc as [(-> & ? & ? & ?)|(y & Hy & Ey & [(-> & ? & ?)|(-> & ? & ?)])].
        + left. auto.
        + right. exists y. split; [exact Hy|]. split; [exact Ey|]. left. auto.
        + right. exists y. split; [exact Hy|]. split; [exact Ey|]. right. rewrite app_assoc. auto. }
    assert (E body ++ [13] <> []) as Ne by (destruct (E body); discriminate).
    destruct (esc_byte_cases b) as [(Eb & Hb)|(y & Eb & Hy)]; rewrite Eb in H, Deep; cbn [app] in H, Deep.
    + destruct p as [|p0 p]; cbn [app] in H; injection H as <- H.
      * right. exists [], b, body. split; [reflexivity|]. rewrite <- H. split; [exact Ne|]. left. destruct Hb as (? & ? & ?). auto 10.
      * apply (Deep p H eq_refl).
    + destruct p as [|p0 [|p1 p]]; cbn [app] in H.
      * injection H as <- H. right. exists [], b, body. split; [reflexivity|]. rewrite <- H. split; [discriminate|].
        right. exists y. split; [exact Hy|]. split; [exact Eb|]. left. auto.
      * injection H as <- <- H. right. exists [], b, body. split; [reflexivity|]. rewrite <- H. split; [exact Ne|].
        right. exists y. split; [exact Hy|]. split; [exact Eb|]. right. auto.
      * injection H as <- <- H. apply (Deep p H eq_refl).
Qed.

(** a 0x1B before escaped data *)
Inductive pending_read (r : bytes) : bytes -> Prop :=
| pend_kept : pending_read r (27 :: r ++ [13])
| pend_joined u c c' v : r = u ++ c :: v -> Forall (fun b => b = 27) u -> joined c c' -> pending_read r (u ++ c' :: v ++ [13])
| pend_split u c c' v : r = u ++ c :: v -> Forall (fun b => b = 27) u -> joined c' c -> pending_read r (27 :: u ++ c' :: v ++ [13]).
Lemma pending_exists r : exists o, unesc (27 :: E r ++ [13]) o /\ pending_read r o.
Proof.
  induction r as [|c r (o & U & P)].
  - exists [27; 13]. split; [|exact (pend_kept [])]. cbn. apply unesc_other; [lia..|constructor].
  - cbn [flat_map]. destruct (esc_byte_cases c) as [(Ec & H1 & H2 & H3)|(y & Ec & Hy)]; rewrite Ec; cbn [app].
    + destruct (Z.eq_dec c 14) as [->|]; [|destruct (Z.eq_dec c 15) as [->|]].
      * eexists. split; [apply unesc_0d, unesc_read|]. apply (pend_joined (14 :: r) [] 14 13 r); [reflexivity|constructor|constructor].
      * eexists. split; [apply unesc_8d, unesc_read|]. apply (pend_joined (15 :: r) [] 15 141 r); [reflexivity|constructor|constructor].
      * eexists. split; [apply unesc_other; [assumption..|apply unesc_read]|]. apply (pend_kept (c :: r)).
    + apply escapes_cases in Hy as [(-> & ->)|(Hy & Hy' & J)].
      * exists (27 :: o). split; [apply unesc_1b; exact U|].
        destruct P as [|u c c' v Er Hu J|u c c' v Er Hu J].
        -- apply (pend_kept (27 :: r)).
        -- apply (pend_joined (27 :: r) (27 :: u) c c' v); [rewrite Er; reflexivity|constructor; auto|exact J].
        -- apply (pend_split (27 :: r) (27 :: u) c c' v); [rewrite Er; reflexivity|constructor; auto|exact J].
      * eexists. split; [apply unesc_1b; apply unesc_lit; [exact Hy|apply unesc_read]|].
        apply (pend_split (c :: r) [] c y r); [reflexivity|constructor|exact J].
Qed.
Lemma pending_fun r o : unesc (27 :: E r ++ [13]) o -> pending_read r o.
Proof. intros U. destruct (pending_exists r) as (o' & U' & P). rewrite (unesc_det _ _ _ U U'). exact P. Qed.

Lemma unesc_prefix q d o : unesc (E q ++ d) o -> exists o', o = q ++ o' /\ unesc d o'.
Proof.
  revert o; induction q as [|b q IH]; intros o U; cbn [flat_map app] in *; [eauto|].
  rewrite <- app_assoc in U. destruct (esc_byte_cases b) as [(Eb & H1 & H2 & H3)|(y & Eb & Hy)]; rewrite Eb in U; cbn [app] in U.
  - inversion U; subst; try lia.
    match goal with H : unesc (E q ++ d) _ |- _ => destruct (IH _ H) as (o' & -> & U') end; eauto.
  - destruct Hy; inversion U; subst; try lia;
    match goal with H : unesc (E q ++ d) _ |- _ => destruct (IH _ H) as (o' & -> & U') end; eauto.
Qed.
Lemma unesc_lit_inv b d o : b <> 27 -> unesc (b :: d) o -> exists o', o = b :: o' /\ unesc d o'.
Proof. intros Hb U. inversion U; subst; try lia. eauto. Qed.
Lemma unesc_body_inv r o : unesc (E r ++ [13]) o -> o = r ++ [13].
Proof. intros U. exact (unesc_det _ _ _ U (unesc_read r)). Qed.
(** reading the second byte of an escape sequence without its 0x1B *)
Inductive tail_read (b : Z) (r : bytes) : bytes -> Prop :=
| tail_plain y : joined y b -> tail_read b r (y :: r ++ [13])
| tail_pending o : b = 27 -> pending_read r o -> tail_read b r o.
Lemma tail_fun y b r o : escapes y b -> unesc (y :: E r ++ [13]) o -> tail_read b r o.
Proof.
  intros Hy U. apply escapes_cases in Hy as [(-> & ->)|(H1 & H2 & J)].
  - apply tail_pending; [reflexivity|]. apply pending_fun; exact U.
  - apply unesc_lit_inv in U as (o' & -> & U); [|exact H1]. apply unesc_body_inv in U as ->. constructor; exact J.
Qed.
(** reading 0x1B and a byte *)
Lemma pair_inv x d o : unesc (27 :: x :: d) o -> exists o', unesc d o' /\
  ((exists b, escapes x b /\ o = b :: o') \/ (x <> 14 /\ x <> 27 /\ x <> 15 /\ o = 27 :: x :: o')).
Proof.
  intros U. inversion U; subst; try lia.
  - eexists; split; [eassumption|]. left. eexists; split; [constructor|reflexivity].
  - eexists; split; [eassumption|]. left. eexists; split; [constructor|reflexivity].
  - eexists; split; [eassumption|]. left. eexists; split; [constructor|reflexivity].
  - eexists; split; [eassumption|]. right. auto.
Qed.
Lemma escapes_fun x b b' : escapes x b -> escapes x b' -> b = b'.
Proof. intros [] H; inversion H; reflexivity. Qed.
Lemma escapes_inj x x' b : escapes x b -> escapes x' b -> x = x'.
Proof. intros [] H; inversion H; reflexivity. Qed.
Lemma joined_neq y b : joined y b -> y <> b.
Proof. intros []; lia. Qed.
Lemma end_first p s t0 s' : p ++ 13 :: s = t0 ++ 13 :: s' -> ~ In 13 p -> ~ In 13 t0 -> p = t0 /\ s = s'.
Proof.
  revert t0; induction p as [|a p IH]; intros [|b t0] H Hp Ht; cbn [app] in H.
  - injection H as ->. auto.
  - exfalso. injection H as <- _. apply Ht. left; reflexivity.
  - exfalso. injection H as -> _. apply Hp. left; reflexivity.
  - injection H as -> H. destruct (IH t0 H) as [-> ->]; [intros X; apply Hp; right; exact X|intros X; apply Ht; right; exact X|auto].
Qed.

(** the first telegram of a damaged line *)
Lemma telegram_cut p x s rest tel rest' p0 : (p ++ x :: s) ++ rest = tel ++ rest' -> tel = p0 ++ [13] -> ~ In 13 p0 ->
  ~ In 13 p -> (forall s0, s = s0 ++ [13] -> ~ In 13 s0) ->
  (x = 13 -> tel = p ++ [13]) /\ (x <> 13 -> forall s0, s = s0 ++ [13] -> tel = p ++ x :: s).
Proof.
  intros H -> Hp0 Hp Hs. rewrite <- !app_assoc in H. cbn [app] in H. split.
  - intros ->. apply end_first in H as [-> _]; auto.
  - intros Hx s0 ->. specialize (Hs s0 eq_refl).
    rewrite <- app_assoc in H. cbn [app] in H.
    replace (p ++ x :: s0 ++ 13 :: rest) with ((p ++ x :: s0) ++ 13 :: rest) in H by (rewrite <- app_assoc; reflexivity).
    apply end_first in H as [<- _]; [rewrite <- app_assoc; reflexivity| |exact Hp0].
    intros X. apply in_app_or in X as [X|[X|X]]; [exact (Hp X)|congruence|exact (Hs X)].
Qed.
Lemma tail_long a m o : a <> 13 -> unesc (a :: m ++ [13]) o -> (2 <= length o)%nat.
Proof.
  intros Ha U. assert (forall d o, unesc d o -> d <> [] -> (1 <= length o)%nat) as G.
  { intros d o0 U0 N. destruct U0; cbn [length]; try lia. congruence. }
  assert (m ++ [13] <> []) as N by (destruct m; discriminate).
  inversion U; subst; cbn [length].
  - match goal with H : unesc (m ++ [13]) _ |- _ => apply G in H; [lia|exact N] end.
  - destruct m as [|m0 m]; [discriminate|]. match goal with H : unesc ?d _, H' : _ :: ?d = _ |- _ => apply G in H; [lia|] end.
    intros ->. destruct m; discriminate.
  - destruct m as [|m0 m]; [discriminate|]. match goal with H : unesc ?d _, H' : _ :: ?d = _ |- _ => apply G in H; [lia|] end.
    intros ->. destruct m; discriminate.
  - destruct m as [|m0 m]; [discriminate|]. match goal with H : unesc ?d _, H' : _ :: ?d = _ |- _ => apply G in H; [lia|] end.
    intros ->. destruct m; discriminate.
  - lia.
Qed.
Lemma app_cons_comm {A} (q : list A) b r s : (q ++ b :: r) ++ s = q ++ b :: r ++ s.
Proof. rewrite <- app_assoc. reflexivity. Qed.
Lemma no_end_esc r : ~ In 13 (E r).
Proof. apply esc_no_end. Qed.
Lemma last_of r s0 : E r ++ [13] = s0 ++ [13] -> s0 = E r.
Proof. intros H. apply app_inj_tail in H as [-> _]. reflexivity. Qed.
Lemma tail_shape p a s body : E body ++ [13] = p ++ a :: s -> s <> [] ->
  ~ In 13 p /\ (exists s0, s = s0 ++ [13] /\ ~ In 13 s0).
Proof.
  intros H N. destruct s as [|s0 s] using rev_ind; [contradiction|]. clear IHs.
  rewrite app_comm_cons, app_assoc in H. apply app_inj_tail in H as [H <-].
  pose proof (no_end_esc body) as X. rewrite H in X. split; [intros Y; apply X, in_or_app; auto|].
  exists s. split; [reflexivity|]. intros Y; apply X, in_or_app; right; right; exact Y.
Qed.

Section Damage.
  Variables (body : bytes) (o : bytes).
  Hypothesis FT : fine (body ++ [13]).
  Hypothesis Fo : fine o.
  Hypothesis L : 10 <= len (body ++ [13]).

  (** the line ends early *)
  Lemma cut_short q b r e : body = q ++ b :: r -> o = q ++ e -> e = [13] \/ (e = [27; 13]) -> o = body ++ [13].
  Proof.
    intros Eb Eo He. destruct (Nat.lt_ge_cases (length e) (length (b :: r ++ [13]))) as [Hl|Hl].
    - exfalso. eapply (cut_off _ o q (b :: r ++ [13]) e FT Fo); [rewrite Eb; apply app_cons_comm|exact Eo|exact He|exact Hl].
    - cbn [length] in Hl. rewrite app_length in Hl. cbn [length] in Hl. destruct He as [->| ->]; cbn [length] in Hl; [lia|].
      destruct r; [|cbn [length] in Hl; lia]. assert (b = 27) as ->; [|rewrite Eb, <- app_assoc; exact Eo].
      eapply (fine_one _ o q b 27 [13] FT Fo); [rewrite Eb; apply app_cons_comm|exact Eo].
  Qed.
  (** the end character is missing *)
  Lemma no_end o' : o = body ++ o' -> len o' = 1.
  Proof.
    intros Eo. rewrite len_app, len_cons, len_nil in L. rewrite <- (continued _ o body [13] o' FT Fo eq_refl Eo); [reflexivity|lia].
  Qed.
  Lemma len_o : 9 <= len o \/ len o < 9.
  Proof. lia. Qed.

  (** a 0x1B in the place of [b] *)
  Lemma replaced_pending q b r p : body = q ++ b :: r -> o = q ++ p -> pending_read r p -> b = 27 /\ o = body ++ [13].
  Proof.
    intros Eb Eo P. assert (body ++ [13] = q ++ b :: r ++ [13]) as ET by (rewrite Eb; apply app_cons_comm).
    destruct P as [|u c c' v Er Hu J|u c c' v Er Hu J].
    - assert (b = 27) as -> by (eapply (fine_one _ o q b 27 (r ++ [13]) FT Fo); [exact ET|exact Eo]).
      split; [reflexivity|]. rewrite ET. exact Eo.
    - exfalso. rewrite Er, app_cons_comm in ET.
      eapply (lost_joined _ o q b u c c' (v ++ [13]) FT Fo Hu J ET Eo).
      rewrite ET, len_app, len_cons, len_app, len_cons in L. rewrite Eo, !len_app, len_cons. lia.
    - exfalso. rewrite Er, app_cons_comm in ET.
      assert (b = 27) as -> by (eapply (two_changed _ o q b 27 u c c' (v ++ [13]) FT Fo); [right; auto|destruct v; discriminate|exact ET|exact Eo]).
      apply (joined_neq _ _ J). symmetry.
      eapply (fine_one _ o (q ++ 27 :: u) c c' (v ++ [13]) FT Fo); [rewrite ET, app_cons_comm; reflexivity|rewrite Eo, app_cons_comm; reflexivity].
  Qed.
  (** a byte and a 0x1B in the place of 0x1B *)
  Lemma preceded_pending q x r p : body = q ++ 27 :: r -> o = q ++ x :: p -> pending_read r p -> o = body ++ [13].
  Proof.
    intros Eb Eo P. assert (body ++ [13] = q ++ 27 :: r ++ [13]) as ET by (rewrite Eb; apply app_cons_comm).
    destruct P as [|u c c' v Er Hu J|u c c' v Er Hu J].
    - exfalso. eapply (inserted _ o q x (27 :: r ++ [13]) FT Fo); [exact ET|exact Eo|lia].
    - exfalso. rewrite Er, app_cons_comm in ET.
      assert (27 = x) as <- by (eapply (two_changed _ o q 27 x u c c' (v ++ [13]) FT Fo); [left; auto|destruct v; discriminate|exact ET|exact Eo]).
      apply (joined_neq _ _ J).
      eapply (fine_one _ o (q ++ 27 :: u) c c' (v ++ [13]) FT Fo); [rewrite ET, app_cons_comm; reflexivity|rewrite Eo, app_cons_comm; reflexivity].
    - exfalso. rewrite Er, app_cons_comm in ET.
      eapply (added_split _ o q x u c c' (v ++ [13]) FT Fo Hu J ET Eo). lia.
  Qed.
  Lemma preceded_tail q b x r p : body = q ++ b :: r -> o = q ++ x :: p -> tail_read b r p -> o = body ++ [13].
  Proof.
    intros Eb Eo TR. destruct TR as [y J|p' Hb P]; [|subst b].
    - exfalso. eapply (split_in_two _ o q b x y (r ++ [13]) FT Fo J); [rewrite Eb; apply app_cons_comm|exact Eo|lia].
    - eapply preceded_pending; eauto.
  Qed.
  Lemma tail_len b r p : tail_read b r p -> len p = len r + 1 \/ len p = len r + 2.
  Proof.
    intros [y J|p' _ [|u c c' v -> _ _|u c c' v -> _ _]]; rewrite ?len_cons, ?len_app, ?len_cons, ?len_app, ?len_cons, ?len_nil; lia.
  Qed.

  Lemma changed_read p a a' s tel rest rest' : E body ++ [13] = p ++ a :: s -> a <> a' ->
    (p ++ a' :: s) ++ rest = tel ++ rest' -> (exists p0, tel = p0 ++ [13] /\ ~ In 13 p0) -> unesc tel o -> o = body ++ [13].
  Proof.
    intros HW Na HT (p0 & Hp0 & Np0) U.
    destruct (esc_position body p a s HW) as [(-> & -> & ->)|(q & b & r & Eb & Ns & Hc)].
    - (* the end character *)
      exfalso. rewrite <- app_assoc in HT. cbn [app] in HT.
      assert (exists m, tel = E body ++ a' :: m ++ [13]) as (m & ->).
      { rewrite Hp0 in HT |- *. rewrite <- app_assoc in HT. cbn [app] in HT. clear -HT Np0 Na.
        pose proof (no_end_esc body) as N. revert p0 Np0 N HT. induction (E body) as [|x l IH]; intros p0 Np0 N HT; cbn [app] in HT.
        - destruct p0 as [|y p0]; cbn [app] in HT; injection HT as Ea HT; [congruence|]. subst y. exists p0. reflexivity.
        - destruct p0 as [|y p0]; cbn [app] in HT; injection HT as Ea HT; [exfalso; apply N; left; exact Ea|]. subst y.
          destruct (IH p0) as (m & Em); [intros X; apply Np0; right; exact X|intros X; apply N; right; exact X|exact HT|].
          exists m. cbn [app]. rewrite Em. reflexivity. }
      apply unesc_prefix in U as (o' & Eo & U). apply tail_long in U; [|congruence].
      apply no_end in Eo. unfold len in Eo. lia.
    - destruct (tail_shape p a s body HW Ns) as (Np & s0 & Es & Ns0).
      destruct (telegram_cut p a' s rest tel rest' p0 HT Hp0 Np0 Np) as [C1 C2].
      { intros s1 ->. apply app_inj_tail in Es as [-> _]. exact Ns0. }
      destruct (Z.eq_dec a' 13) as [->|N13].
      + rewrite (C1 eq_refl) in U. clear C1 C2 HT.
        assert (p = E q \/ p = E q ++ [27]) as [->| ->] by (destruct Hc as [(? & _)|(y & _ & _ & [(? & _)|(? & _)])]; auto).
        * apply unesc_prefix in U as (o' & Eo & U). assert (o' = [13]) as -> by (apply (unesc_det _ _ _ U); exact (unesc_read [])).
          eapply cut_short; eauto.
        * rewrite <- app_assoc in U. cbn [app] in U. apply unesc_prefix in U as (o' & Eo & U).
          assert (o' = [27; 13]) as ->. { apply (unesc_det _ _ _ U). apply unesc_other; [lia..|constructor]. }
          eapply cut_short; eauto.
      + rewrite (C2 N13 s0 Es) in U. clear C1 C2 HT Es Ns0 Np.
        assert (body ++ [13] = q ++ b :: r ++ [13]) as ET by (rewrite Eb; apply app_cons_comm).
        destruct Hc as [(-> & -> & -> & N1 & N2 & N3 & _)|(y & Hy & _ & [(-> & -> & ->)|(-> & -> & ->)])].
        * apply unesc_prefix in U as (o' & Eo & U). destruct (Z.eq_dec a' 27) as [->|N27].
          -- apply pending_fun in U. destruct (replaced_pending q b r o' Eb Eo U) as [-> _]. congruence.
          -- exfalso. apply unesc_lit_inv in U as (o2 & -> & U); [|exact N27]. apply unesc_body_inv in U as ->.
             apply Na. eapply (fine_one _ o q b a' (r ++ [13]) FT Fo); [exact ET|exact Eo].
        * apply unesc_prefix in U as (o' & Eo & U). apply unesc_lit_inv in U as (o2 & -> & U); [|congruence].
          apply (tail_fun y b r) in U; [|exact Hy]. eapply preceded_tail; eauto.
        * rewrite <- app_assoc in U. cbn [app] in U. apply unesc_prefix in U as (o' & Eo & U).
          apply pair_inv in U as (o2 & U & [(b' & Hb' & ->)|(M1 & M2 & M3 & ->)]); apply unesc_body_inv in U as ->.
          -- exfalso. apply Na. assert (b = b') as <- by (eapply (fine_one _ o q b b' (r ++ [13]) FT Fo); [exact ET|exact Eo]).
             eapply escapes_inj; eauto.
          -- exfalso. eapply (grown _ o q b (r ++ [13]) (a' :: r ++ [13]) FT Fo); [destruct Hy; auto|exact ET|exact Eo|rewrite len_cons; lia].
  Qed.

  Lemma lost_read p a s tel rest rest' : E body ++ [13] = p ++ a :: s ->
    (p ++ s) ++ rest = tel ++ rest' -> (exists p0, tel = p0 ++ [13] /\ ~ In 13 p0) -> unesc tel o -> o = body ++ [13].
  Proof.
    intros HW HT (p0 & Hp0 & Np0) U.
    destruct (esc_position body p a s HW) as [(-> & -> & ->)|(q & b & r & Eb & Ns & Hc)].
    - rewrite app_nil_r in HT.
      assert (exists m, tel = E body ++ m ++ [13]) as (m & ->).
      { rewrite Hp0 in HT |- *. rewrite <- app_assoc in HT. cbn [app] in HT. clear -HT Np0.
        pose proof (no_end_esc body) as N. revert p0 Np0 N HT. induction (E body) as [|x l IH]; intros p0 Np0 N HT; cbn [app] in HT.
        - exists p0. reflexivity.
        - destruct p0 as [|y p0]; cbn [app] in HT; injection HT as Ea HT; [exfalso; apply N; left; exact Ea|]. subst y.
          destruct (IH p0) as (m & Em); [intros X; apply Np0; right; exact X|intros X; apply N; right; exact X|exact HT|].
          exists m. cbn [app]. rewrite Em. reflexivity. }
      apply unesc_prefix in U as (o' & Eo & U). pose proof (no_end o' Eo) as L1.
      assert (~ In 13 m) as Nm.
      { intros X. apply Np0. rewrite app_assoc in Hp0. apply app_inj_tail in Hp0 as [<- _]. apply in_or_app; auto. }
      destruct (unesc_cut m Nm) as (o2 & U2). rewrite (unesc_det _ _ _ U U2) in Eo, L1.
      rewrite len_app, len_cons, len_nil in L1. destruct o2; [exact Eo|]. rewrite len_cons in L1. pose proof (len_nonneg o2). lia.
    - destruct (tail_shape p a s body HW Ns) as (Np & s0 & Es & Ns0).
      assert (tel = p ++ s) as ->.
      { rewrite Es, Hp0 in HT. rewrite <- !app_assoc in HT. cbn [app] in HT. rewrite app_assoc in HT.
        apply end_first in HT as [<- _]; [rewrite Hp0, Es, <- app_assoc; reflexivity| |exact Np0].
        intros X. apply in_app_or in X as [X|X]; auto. }
      assert (body ++ [13] = q ++ b :: r ++ [13]) as ET by (rewrite Eb; apply app_cons_comm).
      destruct Hc as [(-> & -> & -> & N1 & N2 & N3 & _)|(y & Hy & _ & [(-> & -> & ->)|(-> & -> & ->)])].
      + exfalso. apply unesc_prefix in U as (o' & Eo & U). apply unesc_body_inv in U as ->.
        eapply (inserted o _ q b (r ++ [13]) Fo FT); [exact Eo|exact ET|].
        rewrite ET, len_app, len_cons in L. rewrite Eo, len_app. lia.
      + apply unesc_prefix in U as (o' & Eo & U). apply (tail_fun y b r) in U; [|exact Hy]. destruct U as [y' J|o' -> P].
        * exfalso. apply (joined_neq _ _ J). symmetry. eapply (fine_one _ o q b y' (r ++ [13]) FT Fo); [exact ET|exact Eo].
        * eapply replaced_pending; eauto.
      + rewrite <- app_assoc in U. cbn [app] in U. apply unesc_prefix in U as (o' & Eo & U). apply pending_fun in U.
        eapply replaced_pending; eauto.
  Qed.

  Lemma added_read p x s tel rest rest' : E body ++ [13] = p ++ s ->
    (p ++ x :: s) ++ rest = tel ++ rest' -> (exists p0, tel = p0 ++ [13] /\ ~ In 13 p0) -> unesc tel o -> o = body ++ [13].
  Proof.
    intros HW HT (p0 & Hp0 & Np0) U.
    destruct s as [|a s].
    { rewrite app_nil_r in HW. subst p. rewrite Hp0, <- !app_assoc in HT. cbn [app] in HT.
      apply end_first in HT as [E0 _]; [|apply no_end_esc|exact Np0]. rewrite Hp0, <- E0 in U. apply unesc_body_inv. exact U. }
    assert (~ In 13 p /\ exists s0, a :: s = s0 ++ [13] /\ ~ In 13 s0) as (Np & s0 & Es & Ns0).
    { assert (a :: s <> []) as N by discriminate. revert N HW. generalize (a :: s). intros s1 N HW.
      destruct s1 as [|z s1] using rev_ind; [contradiction|]. clear IHs1.
      rewrite app_assoc in HW. apply app_inj_tail in HW as [HW <-]. pose proof (no_end_esc body) as X. rewrite HW in X.
      split; [intros Y; apply X, in_or_app; auto|]. exists s1. split; [reflexivity|]. intros Y; apply X, in_or_app; auto. }
    destruct (telegram_cut p x (a :: s) rest tel rest' p0 HT Hp0 Np0 Np) as [C1 C2].
    { intros s1 Es1. rewrite Es1 in Es. apply app_inj_tail in Es as [-> _]. exact Ns0. }
    destruct (esc_position body p a s HW) as [(-> & -> & ->)|(q & b & r & Eb & Ns & Hc)].
    - destruct (Z.eq_dec x 13) as [->|N13].
      + rewrite (C1 eq_refl) in U. apply unesc_body_inv; exact U.
      + exfalso. rewrite (C2 N13 s0 Es) in U. apply unesc_prefix in U as (o' & Eo & U).
        apply (tail_long x []) in U; [|exact N13]. apply no_end in Eo. unfold len in Eo. lia.
    - destruct (Z.eq_dec x 13) as [->|N13].
      + rewrite (C1 eq_refl) in U.
        assert (p = E q \/ p = E q ++ [27]) as [->| ->] by (destruct Hc as [(? & _)|(y & _ & _ & [(? & _)|(? & _)])]; auto).
        * apply unesc_prefix in U as (o' & Eo & U). assert (o' = [13]) as -> by (apply (unesc_det _ _ _ U); exact (unesc_read [])).
          eapply cut_short; eauto.
        * rewrite <- app_assoc in U. cbn [app] in U. apply unesc_prefix in U as (o' & Eo & U).
          assert (o' = [27; 13]) as ->. { apply (unesc_det _ _ _ U). apply unesc_other; [lia..|constructor]. }
          eapply cut_short; eauto.
      + rewrite (C2 N13 s0 Es) in U. clear C1 C2 HT Es Ns0 Np.
        assert (body ++ [13] = q ++ b :: r ++ [13]) as ET by (rewrite Eb; apply app_cons_comm).
        assert (p = E q -> a :: s = E (b :: r) ++ [13] -> o = body ++ [13]) as Boundary.
        { intros Ep Ea. rewrite Ep, Ea in U. apply unesc_prefix in U as (o' & Eo & U). destruct (Z.eq_dec x 27) as [->|N27].
          - exfalso. apply pending_fun in U. destruct U as [|u c c' v Er Hu J|u c c' v Er Hu J].
            + eapply (inserted _ o q 27 (b :: r ++ [13]) FT Fo); [exact ET|exact Eo|lia].
            + apply (joined_neq _ _ J). eapply (fine_one _ o (q ++ u) c c' (v ++ [13]) FT Fo).
              * rewrite Eb, Er, <- !app_assoc. reflexivity.
              * rewrite Eo, <- !app_assoc. reflexivity.
            + destruct u as [|u0 u]; cbn [app] in Er, Eo.
              * injection Er as -> ->. eapply (split_in_two _ o q c 27 c' (v ++ [13]) FT Fo J); [exact ET|exact Eo|lia].
              * injection Er as -> ->. inversion Hu; subst u0. rewrite app_cons_comm in ET.
                eapply (added_split _ o q 27 u c c' (v ++ [13]) FT Fo); [assumption|exact J|exact ET|exact Eo|lia].
          - exfalso. apply unesc_lit_inv in U as (o2 & -> & U); [|exact N27]. apply unesc_body_inv in U as ->.
            eapply (inserted _ o q x (b :: r ++ [13]) FT Fo); [exact ET|exact Eo|lia]. }
        destruct Hc as [(-> & -> & -> & N1 & N2 & N3 & Eb1)|(y & Hy & Eby & [(-> & -> & ->)|(-> & -> & ->)])].
        * apply Boundary; [reflexivity|]. cbn [flat_map]. rewrite Eb1. reflexivity.
        * apply Boundary; [reflexivity|]. cbn [flat_map]. rewrite Eby. reflexivity.
        * clear Boundary. rewrite <- app_assoc in U. cbn [app] in U. apply unesc_prefix in U as (o' & Eo & U).
          apply pair_inv in U as (o2 & U & [(b' & Hb' & ->)|(M1 & M2 & M3 & ->)]); apply (tail_fun y b r) in U; try exact Hy.
          -- eapply preceded_tail; eauto.
          -- exfalso. eapply (grown _ o q b (r ++ [13]) (x :: o2) FT Fo); [destruct Hy; auto|exact ET|exact Eo|].
             apply tail_len in U. rewrite len_cons, len_app, len_cons, len_nil. lia.
  Qed.
End Damage.

(** ** the theorems *)
Lemma sealed_is_bytes R : is_bytes R -> is_bytes (sealed R).
Proof.
  intros H. unfold sealed. apply is_bytes_cons; split; [unfold is_byte; lia|]. apply is_bytes_app; split; [exact H|].
  assert (is_byte (sum_all R mod 256)) by (unfold is_byte; apply Z.mod_pos_bound; lia).
  pose proof (xor_all_byte R H). pose proof (drc_spec_byte R H). repeat (apply is_bytes_cons; split; [assumption|]).
  apply is_bytes_cons; split; [unfold is_byte; lia|constructor].
Qed.
Lemma made_range TYPE f t : is_byte TYPE -> is_bytes (f_data f) -> response_to_bytes TYPE f = Ok t -> in_range f.
Proof.
  intros HT Hd H. rewrite response_to_bytes_wire in H by assumption.
  destruct (misfit f) eqn:E0; [discriminate|]. apply misfit_none; exact E0.
Qed.
Lemma made_range_request TYPE f t : is_byte TYPE -> is_bytes (f_data f) -> request_to_bytes TYPE f = Ok t -> in_range f.
Proof.
  intros HT Hd H. rewrite request_to_bytes_wire in H by assumption.
  destruct (misfit f) eqn:E0; [discriminate|]. apply misfit_none; exact E0.
Qed.
Lemma type_byte TYPE : telegram_type TYPE -> is_byte TYPE.
Proof. unfold telegram_type, is_byte. lia. Qed.
Lemma wire_len addr TYPE s d1 d2 s1 s2 data : (forall n, length (addr n) = 2%nat) -> 16 <= len (wire addr TYPE s d1 d2 s1 s2 data).
Proof.
  intros Ha. unfold wire. rewrite sealed_len, !len_app. unfold len. cbn [length]. rewrite !Ha. unfold le2. cbn [length]. lia.
Qed.
Lemma made_fine t : made t -> fine t /\ 16 <= len t.
Proof.
  intros (TYPE & f & HT & Hd & [H|H]); pose proof (type_byte TYPE HT) as BT.
  - pose proof (made_range TYPE f t BT Hd H) as Hr. split.
    + destruct (response_to_bytes_sealed TYPE f t BT Hd H) as (R & ER & HR).
      destruct (response_roundtrip TYPE f BT Hd Hr) as (t' & H1 & H2). rewrite H in H1. injection H1 as <-.
      eapply accepted_fine; [exact HT| |exact H2]. rewrite ER. apply sealed_is_bytes; exact HR.
    + rewrite response_to_bytes_wire in H by assumption. rewrite (proj2 (misfit_none f) Hr) in H. injection H as <-.
      apply wire_len. reflexivity.
  - pose proof (made_range_request TYPE f t BT Hd H) as Hr. split.
    + destruct (request_to_bytes_sealed TYPE f t BT Hd H) as (R & ER & HR).
      destruct (request_roundtrip_swapped TYPE f BT Hd Hr) as (t' & H1 & H2). rewrite H in H1. injection H1 as <-.
      eapply accepted_fine; [exact HT| |exact H2]. rewrite ER. apply sealed_is_bytes; exact HR.
    + rewrite request_to_bytes_wire in H by assumption. rewrite (proj2 (misfit_none f) Hr) in H. injection H as <-.
      apply wire_len. reflexivity.
Qed.
(** refused by every parser *)
Lemma not_fine_rejected o : is_bytes o -> ~ fine o -> refused o.
Proof.
  intros Hb N. split.
  - destruct (response_factory o) as [r|x] eqn:F; [exfalso; apply N; eapply factory_fine; eauto|].
    apply response_factory_errs in F as ->. reflexivity.
  - intros TYPE HT. pose proof (request_from_bytes_eq TYPE o) as RE.
    destruct (response_from_bytes TYPE o) as [f|x] eqn:F; [exfalso; apply N; eapply accepted_fine; eauto|].
    apply response_errors in F as ->; [|exact HT]. auto.
Qed.
Lemma bytes_case (P Q : Prop) : (~ P -> Q) -> P \/ ~ P -> P \/ Q.
Proof. tauto. Qed.
Lemma bytes_eq (a b : bytes) : a = b \/ a <> b.
Proof. destruct (list_eq_dec Z.eq_dec a b); auto. Qed.

Lemma damage_gen (damage : bytes -> bytes -> Prop) t w w' rest tel o :
  (forall body o p0 rest', fine (body ++ [13]) -> fine o -> 10 <= len (body ++ [13]) -> damage (E body ++ [13]) w' ->
     w' ++ rest = tel ++ rest' -> tel = p0 ++ [13] -> ~ In 13 p0 -> unesc tel o -> o = body ++ [13]) ->
  made t -> escape_characters t = Ok w -> damage w w' -> is_bytes tel ->
  first_telegram tel (w' ++ rest) -> on_line o tel ->
  o = t \/ refused o.
Proof.
  intros G M Ew D Hb (rest' & F) (p0 & Hp0 & Np0 & U).
  destruct (made_fine t M) as [FT Lt]. apply escape_ok_inv in Ew as (body & -> & ->).
  destruct (bytes_eq o (body ++ [13])) as [->|N]; [left; reflexivity|right].
  apply not_fine_rejected; [eapply unesc_bytes; eauto|]. intros Fo. apply N.
  eapply (G body o p0 rest'); eauto. lia.
Qed.
Lemma line_changed t w w' rest tel o :
  made t -> escape_characters t = Ok w -> one_byte_changed w w' -> is_bytes tel ->
  first_telegram tel (w' ++ rest) -> on_line o tel ->
  o = t \/ refused o.
Proof.
  apply damage_gen. intros body o' p0 rest' FT Fo L (p & a & a' & s & E1 & -> & N) HT Hp Np U.
  eapply (changed_read body o' FT Fo L p a a' s tel rest rest'); eauto.
Qed.
Lemma line_lost t w w' rest tel o :
  made t -> escape_characters t = Ok w -> one_byte_lost w w' -> is_bytes tel ->
  first_telegram tel (w' ++ rest) -> on_line o tel ->
  o = t \/ refused o.
Proof.
  apply damage_gen. intros body o' p0 rest' FT Fo L (p & a & s & E1 & ->) HT Hp Np U.
  eapply (lost_read body o' FT Fo L p a s tel rest rest'); eauto.
Qed.
Lemma line_added t w w' rest tel o :
  made t -> escape_characters t = Ok w -> one_byte_added w w' -> is_bytes tel ->
  first_telegram tel (w' ++ rest) -> on_line o tel ->
  o = t \/ refused o.
Proof.
  apply damage_gen. intros body o' p0 rest' FT Fo L (p & a & s & -> & E1) HT Hp Np U.
  eapply (added_read body o' FT Fo L p a s tel rest rest'); eauto.
Qed.

(** at the connection: a damaged telegram is either not taken, or read as the original *)
Lemma connection_damage c t w w' rest :
  made t -> escape_characters t = Ok w -> one_byte_changed w w' \/ one_byte_lost w w' \/ one_byte_added w w' ->
  is_bytes (buffer c) -> buffer c = w' ++ rest ->
  next_event c = (Ok None, c) \/ exists tel, first_telegram tel (buffer c) /\ on_line t tel.
Proof.
  intros M Ew D Hb Eb.
  destruct (in_dec Z.eq_dec 13 (buffer c)) as [I|N].
  - assert (exists p0 r0, buffer c = p0 ++ 13 :: r0 /\ ~ In 13 p0) as (p0 & r0 & Ep & Np).
    { clear - I. induction (buffer c) as [|a l IH]; [contradiction|]. destruct (Z.eq_dec a 13) as [->|Na].
      - exists [], l. auto.
      - destruct I as [->|I]; [contradiction|]. destruct (IH I) as (p0 & r0 & -> & Np). exists (a :: p0), r0.
        split; [reflexivity|]. intros [X|X]; auto. }
    destruct (unesc_cut p0 Np) as (o & U).
    assert (buffer c = (p0 ++ [13]) ++ r0) as Ef by (rewrite Ep, <- app_assoc; reflexivity).
    assert (first_telegram (p0 ++ [13]) (w' ++ rest)) as F by (exists r0; rewrite <- Eb; exact Ef).
    assert (on_line (o ++ [13]) (p0 ++ [13])) as Ho by (exists p0; auto).
    assert (is_bytes (p0 ++ [13])) as Hb'.
    { rewrite Ef in Hb. apply is_bytes_app in Hb as [Hb _]. exact Hb. }
    assert (o ++ [13] = t \/ refused (o ++ [13])) as G.
    { destruct D as [D|[D|D]]; [eapply line_changed|eapply line_lost|eapply line_added]; eauto. }
    destruct G as [<-|[R _]]; [right; exists (p0 ++ [13]); split; [exists r0; exact Ef|exact Ho]|left].
    rewrite (next_event_read c _ _ r0 Ho Ef), (interpret_reads _ _ _ Ho), R. reflexivity.
  - left. apply next_event_uncut. exact N.
Qed.
