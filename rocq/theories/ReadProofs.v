(** [int(text)] and [float(text)] read exactly the texts of SpecNumeral.v. *)
From Coq Require Import QArith Qpower Qabs Lqa.
From Verif Require Import PyFacts PyFloat ParamLang Schema PyText SpecParameters FloatProofs NumeralProofs SpecNumeral RoundProofs.
Open Scope list_scope.
Open Scope Z_scope.

(** ** blanks *)
Lemma is_space_spec c : is_space c = true <-> c = 32 \/ 9 <= c <= 13.
Proof. unfold is_space. rewrite orb_true_iff, andb_true_iff, Z.eqb_eq, !Z.leb_le. reflexivity. Qed.
Definition solid (t : str) : Prop := Forall (fun c => is_space c = false) t.
Lemma drop_blank before t : blank before -> solid t \/ True -> drop_spaces (before ++ t) = drop_spaces t.
Proof. intros B _. induction B as [|c b C B IH]; [reflexivity|]. cbn [app drop_spaces]. apply is_space_spec in C. rewrite C. exact IH. Qed.
Lemma drop_solid t r : solid t -> t <> [] -> drop_spaces (t ++ r) = t ++ r.
Proof. intros S N. destruct S as [|c t C S]; [congruence|]. cbn [app drop_spaces]. rewrite C. reflexivity. Qed.
Lemma drop_all t : blank t -> drop_spaces t = [].
Proof. intros B. pose proof (drop_blank t [] B (or_intror I)) as H. rewrite app_nil_r in H. exact H. Qed.
Lemma blank_rev t : blank t -> blank (rev t). Proof. apply Forall_rev. Qed.
Lemma strip_solid before core after : blank before -> blank after -> solid core -> strip (before ++ core ++ after) = core.
Proof.
  intros B A S. unfold strip. rewrite drop_blank by auto. destruct core as [|c t] eqn:E.
  - cbn [app]. rewrite (drop_all after A). reflexivity.
  - rewrite <- E in *. assert (core <> []) as N by (rewrite E; discriminate). rewrite drop_solid by assumption. rewrite rev_app_distr, drop_blank by (auto using blank_rev).
    rewrite <- (app_nil_r (rev core)), drop_solid, app_nil_r, rev_involutive; [reflexivity|apply Forall_rev, S|].
    intros Z0. apply (f_equal (@rev Z)) in Z0. rewrite rev_involutive in Z0. contradiction.
Qed.
Lemma drop_split t : exists b, blank b /\ t = b ++ drop_spaces t.
Proof.
  induction t as [|c t (b & B & IH)]; [exists []; split; [constructor|reflexivity]|]. cbn [drop_spaces]. destruct (is_space c) eqn:C.
  - exists (c :: b). split; [constructor; [apply is_space_spec, C|exact B]|]. cbn [app]. rewrite <- IH. reflexivity.
  - exists []. split; [constructor|reflexivity].
Qed.
Lemma strip_split t : exists before after, blank before /\ blank after /\ t = before ++ strip t ++ after.
Proof.
  destruct (drop_split t) as (b & B & E). destruct (drop_split (rev (drop_spaces t))) as (a & A & E'). exists b, (rev a). split; [exact B|]. split; [apply blank_rev, A|].
  unfold strip. rewrite <- rev_app_distr, <- E', rev_involutive. exact E.
Qed.

(** ** digits and underscores *)
Definition shown (ds : list Z) : str := map (fun d => 48 + d) ds.
Definition small (ds : list Z) : Prop := Forall (fun d => 0 <= d <= 9) ds.
Lemma shown_digits ds : small ds -> all_digits (shown ds).
Proof. intros S. unfold all_digits, shown. rewrite Forall_map. revert S. apply Forall_impl. intros d D. apply digit_char_spec. lia. Qed.
Lemma digits_shown t : all_digits t -> exists ds, small ds /\ t = shown ds.
Proof.
  intros A. exists (map (fun c => c - 48) t). split.
  - unfold small. rewrite Forall_map. revert A. apply Forall_impl. intros c C. apply digit_char_spec in C. lia.
  - unfold shown. rewrite map_map. rewrite <- (map_id t) at 1. apply map_ext. intros c. lia.
Qed.
Lemma run_small t ds : digit_run t ds -> small ds /\ ds <> [].
Proof. induction 1 as [d D|d t ds D R [IH _]|d t ds D R [IH _]]; (split; [repeat constructor; try assumption; lia|discriminate]). Qed.
Lemma len_shown ds : len (shown ds) = len ds. Proof. unfold len, shown. rewrite map_length. reflexivity. Qed.
Lemma shown_app a b : shown (a ++ b) = shown a ++ shown b. Proof. apply map_app. Qed.
Lemma shown_nil ds : shown ds = [] -> ds = []. Proof. destruct ds; [reflexivity|discriminate]. Qed.
Lemma shown_inj a b : shown a = shown b -> a = b.
Proof. revert b. induction a as [|x a IH]; intros [|y b] E; try discriminate; [reflexivity|]. cbn in E. injection E as E1 E2. f_equal; [lia|apply IH, E2]. Qed.
Lemma numeral_shown ds : numeral (shown ds) = decimal ds.
Proof.
  induction ds as [|d ds IH]; [reflexivity|]. cbn [decimal]. change (shown (d :: ds)) with ([48 + d] ++ shown ds). rewrite numeral_app, IH, len_shown.
  unfold numeral. cbn [fold_left]. f_equal. f_equal. lia.
Qed.
Lemma decimal_nonneg ds : small ds -> 0 <= decimal ds.
Proof. induction 1 as [|d ds D S IH]; cbn [decimal]; [lia|]. pose proof (Z.pow_nonneg 10 (len ds)). nia. Qed.

Definition no_underscore (t : str) : Prop := match t with c :: _ => c <> 95 | [] => True end.
Definition not_digit (t : str) : Prop := match t with c :: _ => digit_char c = false | [] => True end.
Lemma bar_not_digit c : digit_char c = true -> (c =? 95) = false.
Proof. intros D. apply digit_char_spec in D. destruct (Z.eqb_spec c 95); [lia|reflexivity]. Qed.
Lemma run_head t ds r : digit_run t ds -> match t ++ r with c :: _ => digit_char c | [] => false end = true.
Proof. intros R. destruct R; cbn [app]; apply digit_char_spec; lia. Qed.
Lemma run_read t ds r b : digit_run t ds -> no_underscore r ->
  without_underscores b (t ++ r) = match without_underscores true r with Some s => Some (shown ds ++ s) | None => None end.
Proof.
  intros R N. revert b. assert (forall d s, 0 <= d <= 9 -> forall b, without_underscores b (48 + d :: s) = match without_underscores true s with Some r => Some (48 + d :: r) | None => None end) as ST.
  { intros d s D b. cbn [without_underscores]. assert (digit_char (48 + d) = true) as C by (apply digit_char_spec; lia). rewrite (bar_not_digit _ C), C. reflexivity. }
  induction R as [d D|d t ds D R IH|d t ds D R IH]; intros b; cbn [app].
  - rewrite ST by exact D. destruct (without_underscores true r); reflexivity.
  - rewrite ST by exact D. rewrite IH. destruct (without_underscores true r); reflexivity.
  - rewrite ST by exact D. change (without_underscores true (95 :: t ++ r)) with
      (if true && match t ++ r with c :: _ => digit_char c | [] => false end then without_underscores false (t ++ r) else None).
    rewrite (run_head _ _ _ R). cbn [andb]. rewrite IH. destruct (without_underscores true r); reflexivity.
Qed.
Lemma char_read c s b : c <> 95 -> digit_char c = false -> without_underscores b (c :: s) = match without_underscores false s with Some r => Some (c :: r) | None => None end.
Proof. intros N D. cbn [without_underscores]. destruct (Z.eqb_spec c 95); [contradiction|]. rewrite D. reflexivity. Qed.

(** what can have been read as something that does not start with a digit *)
Lemma unread_char b s c r : without_underscores b s = Some (c :: r) -> digit_char c = false -> c <> 95 /\ exists s', s = c :: s' /\ without_underscores false s' = Some r.
Proof.
  intros H D. destruct s as [|a s']; [discriminate|]. cbn [without_underscores] in H. destruct (Z.eqb_spec a 95) as [->|N].
  - destruct (b && _) eqn:B; [exfalso|discriminate]. apply andb_true_iff in B. destruct B as [_ B]. destruct s' as [|a s2]; [discriminate|].
    cbn [without_underscores] in H. rewrite (bar_not_digit _ B) in H. destruct (without_underscores _ s2); [|discriminate]. injection H as -> _. congruence.
  - destruct (without_underscores (digit_char a) s') as [r'|] eqn:E; [|discriminate]. injection H as -> ->. rewrite D in E. split; [exact N|]. exists s'. auto.
Qed.
Lemma unread_nil b s : without_underscores b s = Some [] -> s = [].
Proof.
  destruct s as [|a s']; [reflexivity|]. cbn [without_underscores]. destruct (Z.eqb_spec a 95) as [->|N].
  - destruct (b && _) eqn:B; [|discriminate]. apply andb_true_iff in B. destruct B as [_ B]. destruct s' as [|a s2]; [discriminate|].
    cbn [without_underscores]. rewrite (bar_not_digit _ B). destruct (without_underscores _ s2); discriminate.
  - destruct (without_underscores _ s'); discriminate.
Qed.
Lemma unread_digits ds : forall s r, small ds -> ds <> [] -> not_digit r -> without_underscores false s = Some (shown ds ++ r) ->
  exists t s', s = t ++ s' /\ digit_run t ds /\ without_underscores false s' = Some r /\ no_underscore s'.
Proof.
  induction ds as [|d ds IH]; [congruence|]. intros s r S _ N H. inversion S as [|? ? D S']; subst.
  assert (forall s, without_underscores false s = Some (48 + d :: shown ds ++ r) ->
          exists s', s = 48 + d :: s' /\ without_underscores true s' = Some (shown ds ++ r)) as ST.
  { intros q Q. destruct q as [|a q']; [discriminate|]. cbn [without_underscores] in Q. destruct (a =? 95); [discriminate|].
    destruct (without_underscores (digit_char a) q') as [x|] eqn:E; [|discriminate]. injection Q as -> ->. exists q'. split; [reflexivity|].
    assert (digit_char (48 + d) = true) as C by (apply digit_char_spec; lia). rewrite C in E. exact E. }
  destruct (ST s H) as (s1 & -> & H1). destruct ds as [|d2 ds2] eqn:E.
  - cbn [shown map app] in H1. exists [48 + d], s1. split; [reflexivity|]. split; [constructor; exact D|].
    destruct r as [|c r].
    + apply unread_nil in H1. subst. split; [reflexivity|exact I].
    + destruct (unread_char true s1 c r H1 N) as (Nc & s2 & -> & H2). split; [|exact Nc]. rewrite char_read by assumption. rewrite H2. reflexivity.
  - destruct s1 as [|a s2]; [discriminate|]. cbn [without_underscores] in H1. destruct (Z.eqb_spec a 95) as [->|Na].
    + destruct (true && _) eqn:B; [|discriminate]. destruct (IH s2 r S' ltac:(discriminate) N H1) as (t & s' & -> & R & W & NU).
      exists (48 + d :: 95 :: t), s'. split; [reflexivity|]. split; [apply run_underscore; assumption|]. auto.
    + assert (without_underscores false (a :: s2) = Some (shown (d2 :: ds2) ++ r)) as H2.
      { cbn [without_underscores]. destruct (Z.eqb_spec a 95); [contradiction|]. exact H1. }
      destruct (IH (a :: s2) r S' ltac:(discriminate) N H2) as (t & s' & Et & R & W & NU).
      exists (48 + d :: t), s'. split; [cbn [app]; rewrite Et; reflexivity|]. split; [apply run_digit; assumption|]. auto.
Qed.
Lemma unread_word b w : forall s, Forall (fun c => digit_char c = false) w -> without_underscores b s = Some w -> s = w.
Proof.
  revert b. induction w as [|c w IH]; intros b s F H; [apply (unread_nil b), H|]. inversion F; subst.
  destruct (unread_char b s c w H ltac:(assumption)) as (_ & s' & -> & H'). f_equal. apply (IH false); assumption.
Qed.
Lemma read_word b w : Forall (fun c => digit_char c = false /\ c <> 95) w -> without_underscores b w = Some w.
Proof. intros F. revert b. induction F as [|c w [D N] F IH]; intros b; [reflexivity|]. rewrite char_read by assumption. rewrite IH. reflexivity. Qed.

(** ** the pieces *)
Lemma take_digits_split s d r : take_digits s = (d, r) -> s = d ++ r /\ all_digits d /\ not_digit r.
Proof.
  revert d r. induction s as [|c s IH]; intros d r H; cbn [take_digits] in H; [injection H as <- <-; split; [reflexivity|split; [constructor|exact I]]|].
  destruct (digit_char c) eqn:C.
  - destruct (take_digits s) as [d' r'] eqn:E. injection H as <- <-. destruct (IH _ _ eq_refl) as (-> & A & N). split; [reflexivity|]. split; [constructor; assumption|exact N].
  - injection H as <- <-. split; [reflexivity|]. split; [constructor|exact C].
Qed.
Lemma take_sign_split s neg r : take_sign s = (neg, r) -> exists g, signed g neg /\ s = g ++ r.
Proof.
  intros H. assert (s = 45 :: r /\ neg = true \/ s = 43 :: r /\ neg = false \/ s = r /\ neg = false) as K.
  { destruct s as [|c s]; [cbn in H; injection H as <- <-; auto|]. unfold take_sign in H.
    destruct c as [|c|c]; try (injection H as <- <-; auto; fail). repeat (destruct c as [c|c|]; try (injection H as <- <-; auto; fail)). }
  destruct K as [[-> ->]|[[-> ->]|[-> ->]]]; [exists [45]|exists [43]|exists []]; (split; [constructor|reflexivity]).
Qed.
Definition no_sign_first (t : str) : Prop := match t with c :: _ => c <> 43 /\ c <> 45 | [] => True end.
Lemma take_sign_none t : no_sign_first t -> take_sign t = (false, t).
Proof.
  destruct t as [|c t]; [reflexivity|]. cbn [no_sign_first]. intros [A B]. unfold take_sign. destruct c as [|c|c]; try reflexivity.
  repeat (destruct c as [c|c|]; try reflexivity; try congruence).
Qed.
Lemma take_sign_signed g neg t : signed g neg -> no_sign_first t -> take_sign (g ++ t) = (neg, t).
Proof. intros G N. destruct G; [apply take_sign_none, N|reflexivity|reflexivity]. Qed.
Lemma signed_read g neg t b : signed g neg -> no_underscore t ->
  without_underscores b (g ++ t) = match without_underscores (match g with [] => b | _ => false end) t with Some r => Some (g ++ r) | None => None end.
Proof. intros G N. destruct G; cbn [app]; [destruct (without_underscores b t); reflexivity|rewrite char_read by (discriminate || reflexivity); reflexivity..]. Qed.
Lemma signed_unread g neg s t : signed g neg -> without_underscores false s = Some (g ++ t) -> exists s', s = g ++ s' /\ without_underscores false s' = Some t.
Proof.
  intros G H. destruct G; cbn [app] in H; [exists s; auto| |].
  - destruct (unread_char _ _ _ _ H eq_refl) as (_ & s' & -> & H'). exists s'. auto.
  - destruct (unread_char _ _ _ _ H eq_refl) as (_ & s' & -> & H'). exists s'. auto.
Qed.
Lemma run_no_sign t ds r : digit_run t ds -> no_sign_first (t ++ r) /\ no_underscore (t ++ r).
Proof. intros R. destruct R; cbn; lia. Qed.

(** ** the double *)
Lemma ten_pow k : 0 <= k -> ((10 # 1) ^ k == (10 ^ k # 1))%Q.
Proof. intros H. change (10 # 1)%Q with (inject_Z 10). rewrite <- Zpower_Qpower by exact H. reflexivity. Qed.
Lemma decimal_float_iff s D k f : 0 <= D -> rounds_to_float s ((D # 1) * (10 # 1) ^ k) f <-> f = decimal_float s D k.
Proof.
  intros HD. unfold decimal_float. destruct (Z.leb_spec 0 k) as [K|K].
  - pose proof (Z.pow_nonneg 10 k) as P. rewrite <- (nearest_double_iff s (D * 10 ^ k) 1 f) by nia.
    assert ((D # 1) * (10 # 1) ^ k == (D * 10 ^ k # 1) / (1 # 1))%Q as E by (rewrite ten_pow by exact K; rewrite times_int; field).
    split; apply rounds_to_float_wd; [exact E|symmetry; exact E].
  - assert (0 < 10 ^ (- k)) as P by (apply Z.pow_pos_nonneg; lia). rewrite <- (nearest_double_iff s D (10 ^ (- k)) f) by lia.
    assert ((D # 1) * (10 # 1) ^ k == (D # 1) / (10 ^ (- k) # 1))%Q as E.
    { rewrite <- ten_pow by lia. unfold Qdiv. rewrite <- Qpower_opp, Z.opp_involutive. reflexivity. }
    split; apply rounds_to_float_wd; [exact E|symmetry; exact E].
Qed.

(** ** int *)
Lemma seen_ascii uni s : map (to_ascii uni) s = seen uni s. Proof. reflexivity. Qed.
Lemma run_solid t ds : digit_run t ds -> solid t.
Proof.
  assert (forall d, 0 <= d <= 9 -> is_space (48 + d) = false) as K.
  { intros d D. destruct (is_space (48 + d)) eqn:E; [apply is_space_spec in E; lia|reflexivity]. }
  induction 1; repeat (constructor; [solve [auto|reflexivity]|]); [constructor|assumption|assumption].
Qed.
Lemma signed_solid g neg : signed g neg -> solid g.
Proof. intros []; repeat constructor. Qed.
Lemma solid_app a b : solid a -> solid b -> solid (a ++ b). Proof. intros A B. apply Forall_app. auto. Qed.
Theorem read_int_iff uni s n : py_read_int uni s = Ok n <-> int_text (seen uni s) n.
Proof.
  unfold py_read_int. rewrite seen_ascii. set (t := seen uni s). clearbody t. split.
  - intros H. destruct (without_underscores false (strip t)) as [r|] eqn:W; [|discriminate].
    destruct (take_sign r) as [neg r'] eqn:G. destruct (take_digits r') as [d rest] eqn:D. destruct d as [|c d']; [discriminate|]. destruct rest as [|? ?]; [|discriminate].
    injection H as H. apply take_digits_split in D. destruct D as (Er & A & _). rewrite app_nil_r in Er.
    destruct (take_sign_split _ _ _ G) as (g & SG & Eg). subst r. destruct (signed_unread _ _ _ _ SG W) as (s' & Es & W').
    destruct (digits_shown _ A) as (ds & Sm & Ed). assert (ds <> []) as Nd by (intros ->; discriminate Ed).
    subst r'. rewrite Ed in *. rewrite <- (app_nil_r (shown ds)) in W'. destruct (unread_digits ds s' [] Sm Nd I W') as (b & rest & Eb & R & Wr & _).
    apply unread_nil in Wr. subst rest. rewrite app_nil_r in Eb. subst s'.
    destruct (strip_split t) as (before & after & B1 & B2 & Et). exists before, g, neg, b, ds, after.
    split; [rewrite Et, Es, <- app_assoc; reflexivity|]. split; [exact B1|]. split; [exact B2|]. split; [exact SG|]. split; [exact R|].
    rewrite numeral_shown in H. symmetry. exact H.
  - intros (before & g & neg & b & ds & after & Et & B1 & B2 & SG & R & En). destruct (run_small _ _ R) as [Sm Nd].
    assert (strip t = g ++ b) as ->.
    { rewrite Et, (app_assoc g). apply strip_solid; [exact B1|exact B2|]. apply solid_app; [eapply signed_solid, SG|eapply run_solid, R]. }
    pose proof (run_no_sign b ds [] R) as [NS NU]. rewrite app_nil_r in NS, NU. rewrite (signed_read _ _ _ _ SG NU).
    rewrite <- (app_nil_r b), (run_read b ds [] _ R I). cbn [without_underscores]. rewrite app_nil_r.
    assert (no_sign_first (shown ds)) as NS'.
    { destruct ds as [|d ds']; [exact I|]. inversion Sm; subst. cbn. lia. }
    rewrite (take_sign_signed _ _ _ SG NS'), (take_digits_all _ (shown_digits _ Sm)).
    destruct (shown ds) as [|c d] eqn:E; [apply shown_nil in E; contradiction|]. rewrite <- E, numeral_shown, En. reflexivity.
Qed.

(** ** float *)
Lemma lower_spells c a : 97 <= a <= 122 -> lower c = a <-> c = a \/ (97 <= a <= 122 /\ c = a - 32).
Proof. unfold lower. destruct (Z.leb_spec 65 c), (Z.leb_spec c 90); cbn; lia. Qed.
Lemma spells_iff w : Forall (fun a => 97 <= a <= 122) w -> forall t, spells t w <-> list_eqb (map lower t) w = true.
Proof.
  intros F t. rewrite list_eqb_eq. revert t. induction F as [|a w A F IH]; intros t; unfold spells in *.
  - destruct t; cbn; split; intros H; [reflexivity|constructor|inversion H|discriminate].
  - destruct t as [|c t]; cbn [map]; split; intros H.
    + inversion H.
    + discriminate.
    + inversion H as [|? ? ? ? C T]; subst. f_equal; [apply lower_spells; assumption|apply IH, T].
    + injection H as H1 H2. constructor; [apply lower_spells; assumption|apply IH, H2].
Qed.
Lemma letters_inf : Forall (fun a => 97 <= a <= 122) inf_text. Proof. repeat constructor; discriminate. Qed.
Lemma letters_infinity : Forall (fun a => 97 <= a <= 122) infinity_text. Proof. repeat constructor; discriminate. Qed.
Lemma letters_nan : Forall (fun a => 97 <= a <= 122) nan_text. Proof. repeat constructor; discriminate. Qed.
Lemma spelled_letters w t : Forall (fun a => 97 <= a <= 122) w -> spells t w -> Forall (fun c => 65 <= c <= 122 /\ c <> 95) t.
Proof. intros F S. induction S as [|c a t w C S IH]; [constructor|]. inversion F; subst. constructor; [lia|auto]. Qed.
Lemma letter_facts c : 65 <= c <= 122 /\ c <> 95 -> digit_char c = false /\ c <> 95 /\ is_space c = false /\ c <> 43 /\ c <> 45.
Proof.
  intros H. split; [destruct (digit_char c) eqn:E; [apply digit_char_spec in E; lia|reflexivity]|]. split; [lia|].
  split; [destruct (is_space c) eqn:E; [apply is_space_spec in E; lia|reflexivity]|lia].
Qed.
(** the end of [py_read_float] *)
Definition after_sign (neg : bool) (s : str) : res pyfloat :=
  if list_eqb (map lower s) inf_text || list_eqb (map lower s) infinity_text then Ok (Inf neg)
  else if list_eqb (map lower s) nan_text then Ok NaN
  else read_decimal neg s.

Lemma exponent_read x k : exponent_part x k -> no_underscore x /\ not_digit x /\ solid x /\ (match x with c :: _ => c <> 46 | [] => True end) /\
  exists x', without_underscores false x = Some x' /\ not_digit x' /\ (match x' with c :: _ => c <> 46 | [] => True end) /\ read_exponent x' = Some k.
Proof.
  intros E. destruct E as [|c g neg t ds C G R].
  - repeat split; try constructor. exists []. repeat split.
  - assert (c <> 95 /\ digit_char c = false /\ is_space c = false /\ c <> 46) as (N & D & Sp & N46) by (destruct C as [-> | ->]; repeat split; discriminate).
    destruct (run_no_sign t ds [] R) as [NS NU]. rewrite app_nil_r in NS, NU. destruct (run_small _ _ R) as [Sm Nd].
    split; [exact N|]. split; [exact D|]. split; [constructor; [exact Sp|apply solid_app; [eapply signed_solid, G|eapply run_solid, R]]|]. split; [exact N46|].
    exists (c :: g ++ shown ds). split; [|split; [exact D|split; [exact N46|]]].
    + rewrite char_read by assumption. rewrite (signed_read _ _ _ _ G NU). rewrite <- (app_nil_r t), (run_read t ds [] _ R I). cbn [without_underscores]. rewrite app_nil_r. reflexivity.
    + unfold read_exponent. assert ((c =? 101) || (c =? 69) = true) as -> by (destruct C as [-> | ->]; reflexivity).
      assert (no_sign_first (shown ds)) as NS' by (destruct ds as [|d ds']; [exact I|]; inversion Sm; subst; cbn; lia).
      rewrite (take_sign_signed _ _ _ G NS'), (take_digits_all _ (shown_digits _ Sm)).
      destruct (shown ds) as [|a d] eqn:E; [apply shown_nil in E; contradiction|]. rewrite <- E, numeral_shown. reflexivity.
Qed.
Lemma exponent_unread s x' k : without_underscores false s = Some x' -> read_exponent x' = Some k -> exponent_part s k.
Proof.
  intros W H. destruct x' as [|c x']; [cbn in H; injection H as <-; apply unread_nil in W; subst; constructor|]. unfold read_exponent in H.
  destruct ((c =? 101) || (c =? 69)) eqn:C; [|discriminate]. apply orb_true_iff in C. rewrite !Z.eqb_eq in C.
  destruct (take_sign x') as [neg y] eqn:G. destruct (take_digits y) as [d rest] eqn:D. destruct d as [|c1 d']; [discriminate|]. destruct rest as [|? ?]; [|discriminate].
  injection H as <-. apply take_digits_split in D. destruct D as (Er & A & _). rewrite app_nil_r in Er.
  destruct (take_sign_split _ _ _ G) as (g & SG & Eg). subst x'.
  destruct (unread_char _ _ _ _ W) as (_ & s' & -> & W'); [destruct C as [-> | ->]; reflexivity|].
  destruct (signed_unread _ _ _ _ SG W') as (s2 & -> & W2).
  destruct (digits_shown _ A) as (ds & Sm & Ed). assert (ds <> []) as Nd by (intros ->; discriminate Ed).
  subst y. rewrite Ed in *. rewrite <- (app_nil_r (shown ds)) in W2. destruct (unread_digits ds s2 [] Sm Nd I W2) as (b & rest & -> & R & Wr & _).
  apply unread_nil in Wr. subst rest. rewrite app_nil_r, numeral_shown. apply exponent; assumption.
Qed.
Lemma digits_read w whole r b : digits_or_none w whole -> no_underscore r -> (exists x, without_underscores false r = Some x) -> not_digit r -> small whole /\
  without_underscores b (w ++ r) = match without_underscores false r with Some s => Some (shown whole ++ s) | None => None end.
Proof.
  intros H N (x & X) D. assert (forall b, without_underscores b r = without_underscores false r) as B.
  { intros c. destruct r as [|a r]; [reflexivity|]. cbn in N, D. rewrite !char_read by assumption. reflexivity. }
  destruct H as [|t ds R]; [split; [constructor|]; cbn [app]; rewrite B; destruct (without_underscores false r); reflexivity|].
  split; [apply (run_small _ _ R)|]. rewrite (run_read _ _ _ _ R N), B. reflexivity.
Qed.
Lemma digits_unread ds s r : small ds -> not_digit r -> without_underscores false s = Some (shown ds ++ r) ->
  exists w s', s = w ++ s' /\ digits_or_none w ds /\ without_underscores false s' = Some r.
Proof.
  intros Sm N W. destruct ds as [|d ds]; [exists [], s; split; [reflexivity|]; split; [constructor|exact W]|].
  destruct (unread_digits (d :: ds) s r Sm ltac:(discriminate) N W) as (t & s' & E & R & W' & _). exists t, s'. split; [exact E|]. split; [constructor; exact R|exact W'].
Qed.
Lemma digits_none_solid w ds : digits_or_none w ds -> solid w. Proof. intros [|t l R]; [constructor|eapply run_solid, R]. Qed.

Lemma number_read neg body r : number_text neg body r -> solid body /\ no_underscore body /\ no_sign_first body /\
  forall b, exists t, without_underscores b body = Some t /\ no_sign_first t /\ after_sign neg t = Ok r.
Proof.
  intros H.
  assert (forall w t, Forall (fun a => 97 <= a <= 122) w -> spells t w -> solid t /\ no_underscore t /\ no_sign_first t /\ forall b, without_underscores b t = Some t) as WORD.
  { intros w t F S. pose proof (spelled_letters w t F S) as L. split; [|split; [|split]].
    - revert L. apply Forall_impl. intros c C. apply letter_facts, C.
    - destruct t as [|c t]; [exact I|]. inversion L; subst. apply (letter_facts c); assumption.
    - destruct t as [|c t]; [exact I|]. inversion L as [|? ? C ?]; subst. cbn. destruct (letter_facts c C) as (_ & _ & _ & X). exact X.
    - intros b. apply read_word. revert L. apply Forall_impl. intros c C. destruct (letter_facts c C) as (X & Y & _). auto. }
  destruct H as [t S|t S|t S|w whole f fraction x k r W F N X R].
  - destruct (WORD _ _ letters_inf S) as (A & B & C & D). split; [exact A|]. split; [exact B|]. split; [exact C|]. intros b. exists t. split; [apply D|]. split; [exact C|].
    unfold after_sign. apply (proj1 (spells_iff _ letters_inf t)) in S. rewrite S. reflexivity.
  - destruct (WORD _ _ letters_infinity S) as (A & B & C & D). split; [exact A|]. split; [exact B|]. split; [exact C|]. intros b. exists t. split; [apply D|]. split; [exact C|].
    unfold after_sign. apply (proj1 (spells_iff _ letters_infinity t)) in S. rewrite S, orb_true_r. reflexivity.
  - destruct (WORD _ _ letters_nan S) as (A & B & C & D). split; [exact A|]. split; [exact B|]. split; [exact C|]. intros b. exists t. split; [apply D|]. split; [exact C|].
    unfold after_sign. apply (proj1 (spells_iff _ letters_nan t)) in S. pose proof S as S'. apply list_eqb_eq in S'. rewrite S'. reflexivity.
  - destruct (exponent_read x k X) as (Xu & Xd & Xs & X46 & x' & Wx & Xd' & X46' & Kx).
    (* the point and the fraction *)
    assert (solid (f ++ x) /\ no_underscore (f ++ x) /\ not_digit (f ++ x) /\ no_sign_first f /\ (f = [] -> whole <> []) /\ small fraction /\
            exists y, without_underscores false (f ++ x) = Some y /\ not_digit y /\
              (f = [] /\ y = x' /\ fraction = [] \/ f <> [] /\ y = 46 :: shown fraction ++ x')) as (Fs & Fu & Fd & Fg & Fn & Sf & y & Wy & Yd & Y).
    { destruct F as [|u ds U].
      - cbn [app] in *. split; [exact Xs|]. split; [exact Xu|]. split; [exact Xd|]. split; [exact I|]. split; [intros _ Z0; apply N; rewrite Z0; reflexivity|]. split; [constructor|].
        exists x'. split; [exact Wx|]. split; [exact Xd'|]. left. auto.
      - cbn [app]. split; [constructor; [reflexivity|apply solid_app; [eapply digits_none_solid, U|exact Xs]]|]. split; [discriminate|]. split; [reflexivity|]. split; [cbn; lia|]. split; [discriminate|].
        destruct (digits_read u ds x false U Xu (ex_intro _ x' Wx) Xd) as [Su Eu]. split; [exact Su|].
        exists (46 :: shown ds ++ x'). split; [rewrite char_read by (discriminate || reflexivity); rewrite Eu, Wx; reflexivity|]. split; [reflexivity|]. right. split; [discriminate|reflexivity]. }
    pose proof (digits_read w whole (f ++ x) false W Fu (ex_intro _ y Wy) Fd) as [Sw _].
    assert (match w ++ f ++ x with c :: _ => digit_char c = true \/ c = 46 | [] => False end) as HD.
    { destruct W as [|t ds RW]; [|pose proof (run_head t ds (f ++ x) RW) as HH; destruct (t ++ f ++ x); [discriminate|left; exact HH]].
      destruct F as [|u ds U]; [exfalso; apply N; reflexivity|]. cbn [app]. right. reflexivity. }
    split; [apply solid_app; [eapply digits_none_solid, W|exact Fs]|].
    split; [destruct (w ++ f ++ x) as [|c ?]; [exact I|]; destruct HD as [HD | ->]; [apply digit_char_spec in HD; cbn; lia|discriminate]|].
    split; [destruct (w ++ f ++ x) as [|c ?]; [exact I|]; destruct HD as [HD | ->]; [apply digit_char_spec in HD; cbn; lia|cbn; lia]|].
    intros b. exists (shown whole ++ y). destruct (digits_read w whole (f ++ x) b W Fu (ex_intro _ y Wy) Fd) as [_ Ew]. split; [rewrite Ew, Wy; reflexivity|].
    assert (match shown whole ++ y with c :: _ => digit_char c = true \/ c = 46 | [] => False end) as HD'.
    { destruct whole as [|d0 whole']; cbn [shown map app].
      - destruct Y as [(Ef & Ey & Efr)|(Ef & Ey)]; [exfalso; apply (Fn Ef); reflexivity|]. rewrite Ey. right. reflexivity.
      - left. inversion Sw; subst. apply digit_char_spec. lia. }
    split; [destruct (shown whole ++ y) as [|c ?]; [exact I|]; destruct HD' as [HD' | ->]; [apply digit_char_spec in HD'; cbn; lia|cbn; lia]|].
    assert (forall a q, 97 <= a <= 122 -> list_eqb (map lower (shown whole ++ y)) (a :: q) = false) as NW.
    { intros a q A. destruct (shown whole ++ y) as [|c z]; [destruct HD'|]. destruct (list_eqb _ _) eqn:E; [|reflexivity]. apply list_eqb_eq in E. cbn [map] in E. injection E as E _.
      unfold lower in E. destruct HD' as [HD' | ->]; [apply digit_char_spec in HD'|]; destruct (Z.leb_spec 65 c) || idtac; cbn in E; try lia. }
    unfold after_sign. unfold inf_text, infinity_text, nan_text. rewrite !NW by lia. cbn [orb].
    unfold read_decimal. rewrite take_digits_app by (apply shown_digits, Sw || exact Yd).
    assert (rounds_to_float neg ((decimal (whole ++ fraction) # 1) * (10 # 1) ^ (k - len fraction)) r) as R' by exact R.
    apply decimal_float_iff in R'; [|apply decimal_nonneg; apply Forall_app; auto].
    destruct Y as [(Ef & -> & Efr)|(Ef & ->)].
    + subst fraction. assert (take_fraction x' = ([], x')) as ->.
      { destruct x' as [|c z]; [reflexivity|]. cbn in X46'. unfold take_fraction. destruct c as [|c|c]; try reflexivity. repeat (destruct c as [c|c|]; try reflexivity). congruence. }
      rewrite !app_nil_r in *. rewrite Kx. destruct (shown whole) as [|c z] eqn:E; [apply shown_nil in E; contradiction|]. rewrite <- E, numeral_shown, R'. reflexivity.
    + cbn [take_fraction]. rewrite take_digits_app by (apply shown_digits, Sf || exact Xd'). rewrite Kx, <- shown_app, len_shown.
      destruct (shown (whole ++ fraction)) as [|c z] eqn:E; [apply shown_nil in E; contradiction|]. rewrite <- E, numeral_shown, R'. reflexivity.
Qed.

Lemma number_unread neg body t r : without_underscores false body = Some t -> after_sign neg t = Ok r -> number_text neg body r.
Proof.
  intros W H. unfold after_sign in H.
  assert (forall w, Forall (fun a => 97 <= a <= 122) w -> list_eqb (map lower t) w = true -> spells body w) as WORD.
  { intros w F E. apply (spells_iff w F) in E. pose proof (spelled_letters w t F E) as L. assert (body = t) as ->; [|exact E].
    apply (unread_word false t body); [|exact W]. revert L. apply Forall_impl. intros c C. apply letter_facts, C. }
  destruct (list_eqb (map lower t) inf_text) eqn:E1; [cbn [orb] in H; injection H as <-; apply the_inf, (WORD _ letters_inf E1)|].
  destruct (list_eqb (map lower t) infinity_text) eqn:E2; [cbn [orb] in H; injection H as <-; apply the_infinity, (WORD _ letters_infinity E2)|]. cbn [orb] in H.
  destruct (list_eqb (map lower t) nan_text) eqn:E3; [injection H as <-; apply the_nan, (WORD _ letters_nan E3)|].
  unfold read_decimal in H. destruct (take_digits t) as [d1 t1] eqn:T1. destruct (take_fraction t1) as [d2 t2] eqn:T2.
  apply take_digits_split in T1. destruct T1 as (-> & A1 & N1). destruct (digits_shown _ A1) as (whole & Sw & ->).
  destruct (digits_unread whole body t1 Sw N1 W) as (w & s1 & -> & Dw & W1).
  assert (exists f x fraction, s1 = f ++ x /\ fraction_text f fraction /\ d2 = shown fraction /\ small fraction /\ without_underscores false x = Some t2) as (f & x & fraction & -> & Ff & -> & Sf & Wx).
  { assert (d2 = [] /\ t2 = t1 \/ exists u, t1 = 46 :: u /\ take_digits u = (d2, t2)) as [[-> ->]|(u & -> & T)].
    { destruct t1 as [|c t1]; [cbn in T2; injection T2 as <- <-; auto|]. unfold take_fraction in T2.
      destruct c as [|c|c]; try (injection T2 as <- <-; auto; fail). repeat (destruct c as [c|c|]; try (injection T2 as <- <-; auto; fail)). right. eauto. }
    - exists [], s1, []. split; [reflexivity|]. split; [constructor|]. split; [reflexivity|]. split; [constructor|exact W1].
    - destruct (unread_char _ _ _ _ W1 eq_refl) as (_ & s2 & -> & W2). apply take_digits_split in T. destruct T as (-> & A2 & N2). destruct (digits_shown _ A2) as (fr & Sf & ->).
      destruct (digits_unread fr s2 t2 Sf N2 W2) as (u & x & -> & Du & Wx). exists (46 :: u), x, fr. split; [reflexivity|]. split; [constructor; exact Du|]. auto. }
  rewrite <- shown_app in H. destruct (shown (whole ++ fraction)) as [|c z] eqn:E; [discriminate|]. rewrite <- E in H.
  destruct (read_exponent t2) as [k|] eqn:K; [|discriminate]. injection H as <-. rewrite numeral_shown, len_shown.
  apply (a_number neg w whole f fraction x k); [exact Dw|exact Ff|intros Z0; rewrite Z0 in E; discriminate E|apply (exponent_unread x t2 k Wx K)|].
  apply decimal_float_iff; [apply decimal_nonneg; apply Forall_app; auto|reflexivity].
Qed.
Theorem read_float_iff uni s r : py_read_float uni s = Ok r <-> float_text (seen uni s) r.
Proof.
  unfold py_read_float. rewrite seen_ascii. set (t := seen uni s). clearbody t. split.
  - intros H. destruct (without_underscores false (strip t)) as [u|] eqn:W; [|discriminate]. destruct (take_sign u) as [neg v] eqn:G.
    destruct (take_sign_split _ _ _ G) as (g & SG & Eg). subst u. destruct (signed_unread _ _ _ _ SG W) as (body & Es & W').
    destruct (strip_split t) as (before & after & B1 & B2 & Et). exists before, g, neg, body, after.
    split; [rewrite Et, Es, <- app_assoc; reflexivity|]. split; [exact B1|]. split; [exact B2|]. split; [exact SG|]. exact (number_unread neg body v r W' H).
  - intros (before & g & neg & body & after & Et & B1 & B2 & SG & N). destruct (number_read neg body r N) as (So & Nu & Ns & R).
    assert (strip t = g ++ body) as ->.
    { rewrite Et, (app_assoc g). apply strip_solid; [exact B1|exact B2|]. apply solid_app; [eapply signed_solid, SG|exact So]. }
    rewrite (signed_read _ _ _ _ SG Nu). destruct (R (match g with [] => false | _ => false end)) as (v & W & Nv & A). rewrite W, (take_sign_signed _ _ _ SG Nv). exact A.
Qed.

(** ** float(n) *)
Lemma nearest_opp x y : nearest x y -> nearest (- x) (- y).
Proof.
  intros [[D C] V].
  assert (forall z, double_value z -> double_value (- z)) as O.
  { intros z (M & E & HM & HE & Hz). exists (- M), E. split; [lia|]. split; [exact HE|]. rewrite Hz. setoid_replace (- M # 1)%Q with (- (M # 1))%Q by reflexivity. ring. }
  assert (forall a b, Qabs (- a - - b) == Qabs (a - b))%Q as AB by (intros a b; rewrite <- Qabs_opp; apply Qabs_wd; ring).
  assert (forall z, z == - - z)%Q as OO by (intros; ring).
  split; [split; [apply O, D|]|].
  - intros z Z. rewrite AB. rewrite (OO z), AB. apply C, O, Z.
  - intros z Z N T. destruct (V (- z)%Q (O z Z)) as [k K].
    + intros E. apply N. rewrite <- E. ring.
    + rewrite AB in T. rewrite (OO z) in T. rewrite AB in T. exact T.
    + exists (- k). rewrite (OO z), AB. rewrite K at 1. replace (2 * - k) with (- (2 * k)) by lia. setoid_replace (- (2 * k) # 1)%Q with (- (2 * k # 1))%Q by reflexivity. ring.
Qed.
Theorem float_of_int_rounds n :
  (Z.abs n < 2 ^ 1024 - 2 ^ 970 -> exists x y, float_of_int n = Ok x /\ nearest (n # 1) y /\ float_value x y) /\
  (2 ^ 1024 - 2 ^ 970 <= Z.abs n -> float_of_int n = Err OverflowError).
Proof.
  pose proof (nearest_double_rounds (n <? 0) (Z.abs n) 1 ltac:(lia) ltac:(lia)) as R.
  assert (((Z.abs n # 1) / (1 # 1)) == (Z.abs n # 1))%Q as D by (unfold Qdiv, Qinv, Qmult, Qeq; cbn; lia).
  apply (rounds_to_float_wd _ _ _ _ D) in R. unfold float_of_int. set (f := nearest_double _ _ _) in *. clearbody f.
  unfold rounds_to_float, too_large in R. generalize dependent (2 ^ 1024 - 2 ^ 970). intros b R. rewrite int_le_Q, int_lt_Q in R.
  destruct R as [[L ->]|(L & S & y & N & F)]; (split; [intros H|intros H]); [lia|reflexivity| |lia].
  destruct f as [|?|s m e]; [destruct F..|]. exists (Fin s m e), (if n <? 0 then - y else y)%Q. split; [reflexivity|]. split; [|exact F].
  destruct (Z.ltb_spec n 0) as [G|G].
  - apply nearest_opp in N. refine (nearest_wd _ _ _ _ N). setoid_replace (- (Z.abs n # 1))%Q with (- Z.abs n # 1)%Q by reflexivity. replace (- Z.abs n) with n by lia. reflexivity.
  - replace (Z.abs n) with n in N by lia. exact N.
Qed.
Theorem read_refused uni s :
  ((forall n, ~ int_text (seen uni s) n) -> py_read_int uni s = Err ValueError) /\
  ((forall x, ~ float_text (seen uni s) x) -> py_read_float uni s = Err ValueError).
Proof.
  destruct (reading_numbers uni s) as [[[x F]|F] [[n N]|N]]; split; intros H; try assumption; exfalso.
  - exact (H n (proj1 (read_int_iff _ _ _) N)).
  - exact (H x (proj1 (read_float_iff _ _ _) F)).
  - exact (H x (proj1 (read_float_iff _ _ _) F)).
  - exact (H n (proj1 (read_int_iff _ _ _) N)).
Qed.
Lemma seen_plain t : seen (fun c => c) t = t.
Proof. unfold seen. rewrite <- (map_id t) at 2. apply map_ext. intros c. destruct (c <? 127); reflexivity. Qed.
Theorem one_number t :
  (forall n n', int_text t n -> int_text t n' -> n = n') /\ (forall x x', float_text t x -> float_text t x' -> x = x').
Proof.
  split; intros a b A B; rewrite <- (seen_plain t) in A, B.
  - apply (proj2 (read_int_iff _ _ _)) in A, B. congruence.
  - apply (proj2 (read_float_iff _ _ _)) in A, B. congruence.
Qed.
