(** The text of a float is read back as the same float. *)
From Coq Require Import QArith Qpower Qabs Lqa.
From Verif Require Import PyFacts BitFacts PyFloat ParamLang Parameters Schema Schemas SpecText SpecParameters SpecSchema FloatProofs TextProofs PyText.
Open Scope list_scope.
Open Scope Z_scope.

(** *** canonical floats *)
Lemma strip_twos_shift j : forall p e, strip_twos (Pos.iter xO p j) e = strip_twos p (e + Zpos j).
Proof.
  induction j as [|j IH] using Pos.peano_ind; intros p e; [reflexivity|].
  rewrite Pos.iter_succ. cbn [strip_twos]. rewrite IH. f_equal. lia.
Qed.
Lemma make_float_shift s m e j : 0 <= j -> make_float s (m * 2 ^ j) e = make_float s m (e + j).
Proof.
  intros Hj. destruct j as [|j|j]; [rewrite Z.mul_1_r, Z.add_0_r; reflexivity| |lia].
  destruct m as [|p|p]; [reflexivity| |].
  - assert (Zpos p * 2 ^ Zpos j = Zpos (Pos.iter xO p j)) as ->.
    { rewrite <- (Pos2Z.id (Pos.iter xO p j)). clear. revert p. induction j as [|j IH] using Pos.peano_ind; intros p; [cbn; lia|].
      rewrite Pos2Z.inj_succ, Z.pow_succ_r by lia. rewrite Pos.iter_succ. rewrite Pos2Z.id. rewrite (Pos2Z.inj_xO (Pos.iter xO p j)). rewrite <- (Pos2Z.id (Pos.iter xO p j)), <- IH. lia. }
    cbn [make_float]. rewrite strip_twos_shift. reflexivity.
  - assert (Zneg p * 2 ^ Zpos j < 0) by (pose proof (Z.pow_pos_nonneg 2 (Zpos j)); nia). unfold make_float. destruct (Zneg p * 2 ^ Zpos j); [reflexivity|lia|reflexivity].
Qed.
Lemma make_float_canonical s m e m' e' : ((m # 1) * (2 # 1) ^ e == (m' # 1) * (2 # 1) ^ e')%Q -> make_float s m e = make_float s m' e'.
Proof.
  assert (forall m e m' e', e <= e' -> ((m # 1) * (2 # 1) ^ e == (m' # 1) * (2 # 1) ^ e')%Q -> make_float s m e = make_float s m' e') as K.
  { clear. intros m e m' e' L E. assert (m = m' * 2 ^ (e' - e)) as ->.
    { replace e' with (e + (e' - e)) in E by lia. rewrite pow_add, (pow_Z (e' - e)) in E by lia.
      assert ((m # 1) == (m' # 1) * (2 ^ (e' - e) # 1))%Q as V.
      { apply Qmult_inj_r with (z := ((2 # 1) ^ e)%Q); [intros Z0; pose proof (FloatProofs.pow_pos e); rewrite Z0 in *; discriminate|]. rewrite E. ring. }
      unfold Qeq in V. cbn in V. lia. }
    rewrite make_float_shift by lia. f_equal. lia. }
  intros E. destruct (Z.le_ge_cases e e') as [L|L]; [apply K; assumption|]. symmetry. apply K; [lia|]. symmetry. exact E.
Qed.

(** *** [nearest_double] depends on the quotient only *)
Lemma nearest_double_unfold s a b : nearest_double s a b =
  if a <=? 0 then Fin s 0 0 else
  let e := Z.max (-1074) (floor_log a b - 52) in
  let m := round_scaled a b (- e) in
  if (2 ^ 53 <=? m * 2 ^ (e - 971)) && (971 <=? e) then Inf s else make_float s m e.
Proof. reflexivity. Qed.
Lemma floor_log_unique a b f : 0 < a -> 0 < b -> ((2 # 1) ^ f <= (a # 1) / (b # 1))%Q -> ((a # 1) / (b # 1) < (2 # 1) ^ (f + 1))%Q -> floor_log a b = f.
Proof.
  intros Ha Hb L U. destruct (floor_log_spec a b Ha Hb) as [L' U'].
  assert (forall f g, ((2 # 1) ^ f <= (a # 1) / (b # 1))%Q -> ((a # 1) / (b # 1) < (2 # 1) ^ (g + 1))%Q -> f <= g) as K.
  { intros x y Lx Uy. destruct (Z.le_gt_cases x y) as [H|H]; [exact H|]. exfalso. pose proof (pow_le (y + 1) x ltac:(lia)). lra. }
  pose proof (K _ _ L' U). pose proof (K _ _ L U'). lia.
Qed.
Lemma quotient_scale a b c : 0 < b -> 0 < c -> ((a * c # 1) / (b * c # 1) == (a # 1) / (b # 1))%Q.
Proof.
  intros Hb Hc. assert (forall x y : Z, ((x * y # 1) == (x # 1) * (y # 1))%Q) as Mu by (intros; unfold Qeq; cbn; lia).
  rewrite !Mu. field. split; unfold Qeq; cbn; lia.
Qed.
Lemma floor_log_scale a b c : 0 < a -> 0 < b -> 0 < c -> floor_log (a * c) (b * c) = floor_log a b.
Proof.
  intros Ha Hb Hc. destruct (floor_log_spec a b Ha Hb) as [L U]. apply floor_log_unique; [nia|nia| |]; rewrite quotient_scale by assumption; assumption.
Qed.
Lemma round_quotient_scale a b c : 0 < b -> 0 < c -> round_quotient (a * c) (b * c) = round_quotient a b.
Proof.
  intros Hb Hc. unfold round_quotient. rewrite Z.div_mul_cancel_r by lia. rewrite Z.mul_mod_distr_r by lia.
  replace (2 * (a mod b * c)) with ((2 * (a mod b)) * c) by ring. rewrite <- (Zmult_compare_compat_r (2 * (a mod b)) b c) by lia. reflexivity.
Qed.
Lemma round_scaled_scale a b c k : 0 < b -> 0 < c -> round_scaled (a * c) (b * c) k = round_scaled a b k.
Proof.
  intros Hb Hc. unfold round_scaled. destruct (Z.leb_spec 0 k) as [K|K].
  - replace (a * c * 2 ^ k) with (a * 2 ^ k * c) by ring. apply round_quotient_scale; assumption.
  - replace (b * c * 2 ^ (- k)) with (b * 2 ^ (- k) * c) by ring. assert (0 < 2 ^ (- k)) by (apply Z.pow_pos_nonneg; lia).
    apply round_quotient_scale; [nia|exact Hc].
Qed.
Lemma nearest_double_scale s a b c : 0 < b -> 0 < c -> nearest_double s (a * c) (b * c) = nearest_double s a b.
Proof.
  intros Hb Hc. rewrite !nearest_double_unfold. destruct (Z.leb_spec a 0) as [A|A].
  - destruct (Z.leb_spec (a * c) 0); [reflexivity|nia].
  - destruct (Z.leb_spec (a * c) 0); [nia|]. rewrite floor_log_scale by assumption. cbv zeta. rewrite round_scaled_scale by assumption. reflexivity.
Qed.

(** *** a double is its own nearest double *)
Lemma nearest_double_exact s a b m e : 0 < b -> 0 < m < 2 ^ 53 -> -1074 <= e <= 971 -> ((a # 1) / (b # 1) == (m # 1) * (2 # 1) ^ e)%Q ->
  nearest_double s a b = make_float s m e.
Proof.
  intros Hb Hm He V. assert (0 < (b # 1))%Q as Pb by (unfold Qlt; cbn; lia).
  assert ((a # 1) == (m # 1) * (2 # 1) ^ e * (b # 1))%Q as Va.
  { rewrite <- V. field. unfold Qeq; cbn; lia. }
  assert (0 < a) as Ha.
  { assert (0 < (m # 1) * (2 # 1) ^ e * (b # 1))%Q as P.
    { apply Qmult_lt_0_compat; [|exact Pb]. apply Qmult_lt_0_compat; [unfold Qlt; cbn; lia|apply FloatProofs.pow_pos]. }
    rewrite <- Va in P. unfold Qlt in P. cbn in P. lia. }
  rewrite nearest_double_unfold. destruct (Z.leb_spec a 0) as [A|_]; [lia|]. cbv zeta. set (x := Z.max (-1074) (floor_log a b - 52)).
  destruct (floor_log_spec a b Ha Hb) as [L U].
  assert (floor_log a b - 52 <= e) as F.
  { destruct (Z.le_gt_cases (floor_log a b) (e + 52)) as [H|H]; [lia|]. exfalso.
    pose proof (pow_le (e + 53) (floor_log a b) ltac:(lia)) as P. rewrite V in L.
    assert ((m # 1) * (2 # 1) ^ e < (2 # 1) ^ (e + 53))%Q as Q1.
    { rewrite pow_add, (Qmult_comm ((2 # 1) ^ e)). apply Qmult_lt_r; [apply FloatProofs.pow_pos|]. rewrite pow_Z by lia. unfold Qlt; cbn. lia. }
    lra. }
  assert (x <= e) as Xe by lia. assert (-1074 <= x) as Xl by lia.
  assert (round_scaled a b (- x) = m * 2 ^ (e - x)) as R.
  { assert (forall n d k, 0 < d -> n = k * d -> round_quotient n d = k) as RQ.
    { intros n d k Hd ->. unfold round_quotient. rewrite Z.div_mul, Z.mod_mul by lia. destruct (Z.compare_spec (2 * 0) d); lia. }
    unfold round_scaled. destruct (Z.leb_spec 0 (- x)) as [K|K].
    - apply RQ; [exact Hb|]. assert ((a * 2 ^ (- x) # 1) == (m * 2 ^ (e - x) * b # 1))%Q as W.
      { assert (forall x y : Z, ((x * y # 1) == (x # 1) * (y # 1))%Q) as Mu by (intros; unfold Qeq; cbn; lia).
        rewrite !Mu, Va, <- (pow_Z (- x)), <- (pow_Z (e - x)) by lia. replace (e - x) with (e + - x) by lia. rewrite pow_add. ring. }
      unfold Qeq in W. cbn in W. lia.
    - assert (0 < 2 ^ (- - x)) as P2 by (apply Z.pow_pos_nonneg; lia). apply RQ; [nia|].
      assert ((a # 1) == (m * 2 ^ (e - x) * (b * 2 ^ (- - x)) # 1))%Q as W.
      { assert (forall x y : Z, ((x * y # 1) == (x # 1) * (y # 1))%Q) as Mu by (intros; unfold Qeq; cbn; lia).
        rewrite !Mu, Va, <- (pow_Z (- - x)), <- (pow_Z (e - x)) by lia. replace (e - x) with (e + - x) by lia. rewrite pow_add.
        assert ((2 # 1) ^ (- x) * (2 # 1) ^ (- - x) == 1)%Q as I1 by apply pow_opp. 
        setoid_replace ((m # 1) * ((2 # 1) ^ e * (2 # 1) ^ (- x)) * ((b # 1) * (2 # 1) ^ (- - x)))%Q
          with ((m # 1) * (2 # 1) ^ e * (b # 1) * ((2 # 1) ^ (- x) * (2 # 1) ^ (- - x)))%Q by ring. rewrite I1. ring. }
      unfold Qeq in W. cbn in W. lia. }
  rewrite R. assert ((2 ^ 53 <=? m * 2 ^ (e - x) * 2 ^ (x - 971)) && (971 <=? x) = false) as ->.
  { destruct (Z.leb_spec 971 x) as [H|H]; [|apply andb_false_r]. assert (x = 971) as E1 by lia. assert (e = 971) as E2 by lia. rewrite E1, E2.
    change (2 ^ (971 - 971)) with 1. destruct (Z.leb_spec (2 ^ 53) (m * 1 * 1)); [lia|reflexivity]. }
  rewrite make_float_shift by lia. f_equal. lia.
Qed.

(** *** decimal numbers *)
Lemma decimal_float_scale s D k j : 0 <= j -> decimal_float s (D * 10 ^ j) (k - j) = decimal_float s D k.
Proof.
  intros Hj. unfold decimal_float. destruct (Z.leb_spec 0 (k - j)) as [A|A].
  - destruct (Z.leb_spec 0 k) as [B|B]; [|lia]. f_equal. rewrite <- Z.mul_assoc, <- Z.pow_add_r by lia. f_equal. f_equal. lia.
  - assert (0 < 10 ^ j) as Pj by (apply Z.pow_pos_nonneg; lia). assert (0 < 10 ^ (- (k - j))) as Pk by (apply Z.pow_pos_nonneg; lia).
    destruct (Z.leb_spec 0 k) as [B|B].
    + rewrite <- (nearest_double_scale s (D * 10 ^ k) 1 (10 ^ (- (k - j)))) by lia. rewrite Z.mul_1_l. f_equal.
      rewrite <- Z.mul_assoc, <- Z.pow_add_r by lia. f_equal. f_equal. lia.
    + assert (0 < 10 ^ (- k)) by (apply Z.pow_pos_nonneg; lia). rewrite <- (nearest_double_scale s D (10 ^ (- k)) (10 ^ j)) by lia. f_equal.
      rewrite <- Z.pow_add_r by lia. f_equal. lia.
Qed.
Lemma strip_tens_ok fuel : forall D k D' k', 0 < D -> strip_tens fuel D k = (D', k') -> 0 < D' /\ forall s, decimal_float s D' k' = decimal_float s D k.
Proof.
  induction fuel as [|fuel IH]; intros D k D' k' P E; cbn [strip_tens] in E; [inversion E; subst; auto|].
  destruct (Z.eqb_spec (D mod 10) 0) as [M|M]; cbn [andb] in E; [|inversion E; subst; auto].
  destruct (Z.ltb_spec 0 D); [|lia]. assert (D = 10 * (D / 10)) as Q by (pose proof (Z.div_mod D 10); lia).
  assert (0 < D / 10) as P10 by lia. destruct (IH _ _ _ _ P10 E) as [P' V]. split; [exact P'|]. intros s. rewrite V.
  rewrite <- (decimal_float_scale s (D / 10) (k + 1) 1) by lia. rewrite Z.pow_1_r. f_equal; lia.
Qed.
Definition with_sign (s : bool) (x : pyfloat) : pyfloat := match x with NaN => NaN | Inf _ => Inf s | Fin _ m e => Fin s m e end.
Lemma make_float_with_sign s m e : make_float s m e = with_sign s (make_float false m e).
Proof. destruct m as [|p|p]; cbn; [reflexivity| |reflexivity]. destruct (strip_twos p e). reflexivity. Qed.
Lemma nearest_double_with_sign s a b : nearest_double s a b = with_sign s (nearest_double false a b).
Proof.
  rewrite !nearest_double_unfold. destruct (a <=? 0); [reflexivity|]. cbv zeta. destruct (_ && _); [reflexivity|]. apply make_float_with_sign.
Qed.
Lemma decimal_float_with_sign s D k : decimal_float s D k = with_sign s (decimal_float false D k).
Proof. unfold decimal_float. destruct (0 <=? k); apply nearest_double_with_sign. Qed.
Lemma float_eqb_eq x y : float_eqb x y = true -> x = y.
Proof.
  destruct x as [|s|s m e], y as [|s'|s' m' e']; cbn; try discriminate; intros H; [reflexivity|apply eqb_prop in H; subst; reflexivity|].
  apply andb_prop in H as [H H3]. apply andb_prop in H as [H1 H2]. apply eqb_prop in H1. apply Z.eqb_eq in H2, H3. subst. reflexivity.
Qed.
Lemma make_float_positive s m e : 0 < m -> exists q e', make_float s m e = Fin s (Zpos q) e'.
Proof. intros H. destruct m as [|p|p]; [lia| |lia]. cbn. destruct (strip_pos p e) as (q & e' & ->). eauto. Qed.
Lemma decimal_float_zero s D k : D <= 0 -> decimal_float s D k = Fin s 0 0.
Proof.
  intros H. unfold decimal_float. destruct (Z.leb_spec 0 k) as [K|K]; rewrite nearest_double_unfold.
  - assert (0 <= 10 ^ k) by (apply Z.pow_nonneg; lia). destruct (Z.leb_spec (D * 10 ^ k) 0); [reflexivity|nia].
  - destruct (Z.leb_spec D 0); [reflexivity|lia].
Qed.
Lemma search_digits_ok x a b p fuel : forall n D k, search_digits x a b p n fuel = Some (D, k) -> decimal_float false D k = x.
Proof.
  induction fuel as [|fuel IH]; intros n D k H; cbn [search_digits] in H; [discriminate|].
  destruct (find _ _) as [D1|] eqn:F; [|eapply IH, H]. injection H as <- <-. apply find_some in F as [_ F]. apply float_eqb_eq, F.
Qed.
Lemma double_mantissa m e : 0 < m -> double_value (dyadic false m e) -> exists M E, 0 < M < 2 ^ 53 /\ -1074 <= E <= 971 /\
  ((m # 1) * (2 # 1) ^ e == (M # 1) * (2 # 1) ^ E)%Q.
Proof.
  intros Hm (M & E & HM & HE & V). exists M, E. unfold dyadic in V. split; [|split; [exact HE|exact V]]. split; [|lia].
  assert (0 < (m # 1) * (2 # 1) ^ e)%Q as P by (apply Qmult_lt_0_compat; [unfold Qlt; cbn; lia|apply FloatProofs.pow_pos]). rewrite V in P.
  destruct (Z.le_gt_cases M 0) as [L|G]; [exfalso|exact G]. pose proof (FloatProofs.pow_pos E) as PE.
  assert ((M # 1) * (2 # 1) ^ E <= 0 * (2 # 1) ^ E)%Q as L2 by (apply Qmult_le_compat_r; [unfold Qle; cbn; lia|apply Qlt_le_weak, PE]). lra.
Qed.
Lemma shortest_ok m e D k : 0 < m -> double_value (dyadic false m e) -> shortest_decimal m e = (D, k) ->
  0 < D /\ forall s, decimal_float s D k = make_float s m e.
Proof.
  intros Hm HD H. destruct (double_mantissa m e Hm HD) as (M & E & HM & HE & V).
  unfold shortest_decimal in H. cbv zeta in H. destruct (search_digits _ _ _ _ _ _) as [[D1 k1]|] eqn:S.
  - apply search_digits_ok in S. assert (0 < D1) as P1.
    { destruct (Z.le_gt_cases D1 0) as [L|G]; [|exact G]. rewrite decimal_float_zero in S by exact L. destruct (make_float_positive false m e Hm) as (q & e' & Q). congruence. }
    destruct (strip_tens_ok _ _ _ _ _ P1 H) as [P W]. split; [exact P|]. intros s. rewrite W, decimal_float_with_sign, S. symmetry. apply make_float_with_sign.
  - destruct (Z.leb_spec 0 e) as [He|He]; injection H as <- <-.
    + assert (0 < 2 ^ e) by (apply Z.pow_pos_nonneg; lia). split; [nia|]. intros s. unfold decimal_float. cbn [Z.leb Z.compare].
      rewrite Z.mul_1_r. rewrite (make_float_canonical s m e M E V). apply nearest_double_exact; try assumption; [lia|].
      rewrite <- V, pow_Z by exact He. assert ((m * 2 ^ e # 1) == (m # 1) * (2 ^ e # 1))%Q as -> by (unfold Qeq; cbn; lia). field.
    + assert (0 < 5 ^ (- e)) as P5 by (apply Z.pow_pos_nonneg; lia). assert (0 < 2 ^ (- e)) as P2 by (apply Z.pow_pos_nonneg; lia).
      split; [nia|]. intros s. unfold decimal_float. destruct (Z.leb_spec 0 e); [lia|].
      rewrite (make_float_canonical s m e M E V). change 10 with (2 * 5). rewrite Z.pow_mul_l. rewrite nearest_double_scale by lia.
      apply nearest_double_exact; try assumption. rewrite <- V. rewrite <- pow_Z by lia.
      apply Qmult_inj_r with (z := ((2 # 1) ^ (- e))%Q); [intros Z0; pose proof (FloatProofs.pow_pos (- e)) as P; rewrite Z0 in P; discriminate P|].
      rewrite <- Qmult_assoc, pow_opp. field. intros Z0; pose proof (FloatProofs.pow_pos (- e)) as P; rewrite Z0 in P; discriminate P.
Qed.

(** *** texts of digits *)
Definition all_digits (s : str) : Prop := Forall (fun c => digit_char c = true) s.
Lemma digit_char_spec c : digit_char c = true <-> 48 <= c <= 57.
Proof. unfold digit_char. rewrite andb_true_iff, !Z.leb_le. reflexivity. Qed.
Lemma numeral_fold s : forall n, fold_left (fun n c => 10 * n + (c - 48)) s n = n * 10 ^ len s + numeral s.
Proof.
  unfold numeral. induction s as [|c s IH]; intros n; [cbn [fold_left]; rewrite len_nil, Z.pow_0_r; lia|]. cbn [fold_left]. rewrite IH, (IH (10 * 0 + (c - 48))).
  rewrite len_cons, Z.pow_add_r by (pose proof (len_nonneg s); lia). ring.
Qed.
Lemma numeral_app a b : numeral (a ++ b) = numeral a * 10 ^ len b + numeral b.
Proof. unfold numeral at 1. rewrite fold_left_app. apply numeral_fold. Qed.
Lemma numeral_zeros n : numeral (zeros n) = 0.
Proof.
  unfold zeros. induction (Z.to_nat n) as [|j IH]; [reflexivity|]. cbn [repeat]. change (48 :: repeat 48 j) with ([48] ++ repeat 48 j).
  rewrite numeral_app, IH. reflexivity.
Qed.
Lemma zeros_digits n : all_digits (zeros n).
Proof. unfold zeros, all_digits. apply Forall_forall. intros c H. apply repeat_spec in H. subst. reflexivity. Qed.
Lemma len_zeros n : 0 <= n -> len (zeros n) = n.
Proof. intros H. unfold zeros, len. rewrite repeat_length. lia. Qed.
Lemma str_int_digits n : 0 <= n -> all_digits (str_int n) /\ numeral (str_int n) = n /\ str_int n <> [].
Proof.
  intros H. destruct (str_int_spec n H) as (ds & (F & V & N & _) & E). rewrite E. split; [|split].
  - unfold all_digits. rewrite Forall_map. revert F. apply Forall_impl. intros d Hd. unfold is_digit in Hd. apply digit_char_spec. lia.
  - unfold numeral. rewrite <- V. unfold dec_value. generalize 0. clear. induction ds as [|d ds IH]; intros z; [reflexivity|]. cbn [map fold_left].
    rewrite IH. f_equal. lia.
  - destruct ds; [congruence|discriminate].
Qed.
Lemma take_digits_app d r : all_digits d -> (match r with c :: _ => digit_char c = false | [] => True end) -> take_digits (d ++ r) = (d, r).
Proof.
  intros D R. induction D as [|c d Hc D IH]; cbn [app take_digits].
  - destruct r as [|c r]; [reflexivity|]. cbn [take_digits]. rewrite R. reflexivity.
  - rewrite Hc, IH. reflexivity.
Qed.
Lemma take_digits_all d : all_digits d -> take_digits d = (d, []).
Proof. intros D. rewrite <- (app_nil_r d) at 1. apply take_digits_app; [exact D|exact I]. Qed.
(** the characters of the text of a number *)
Definition number_char (c : Z) : Prop := digit_char c = true \/ c = 43 \/ c = 45 \/ c = 46 \/ c = 101.
Lemma plain_text uni s : Forall number_char s -> without_underscores false (strip (map (to_ascii uni) s)) = Some s.
Proof.
  intros H. assert (forall c, number_char c -> c < 127 /\ is_space c = false /\ c <> 95) as K.
  { intros c [D|[->|[->|[->| ->]]]]; [|repeat split; discriminate|repeat split; discriminate|repeat split; discriminate|repeat split; discriminate].
    apply digit_char_spec in D. unfold is_space. split; [lia|]. split; [|lia].
    destruct (Z.eqb_spec c 32); [lia|]. destruct (Z.leb_spec 9 c), (Z.leb_spec c 13); cbn; lia || reflexivity. }
  assert (map (to_ascii uni) s = s) as ->.
  { induction H as [|c s Hc H IH]; [reflexivity|]. cbn [map]. rewrite IH. f_equal. unfold to_ascii. destruct (Z.ltb_spec c 127); [reflexivity|]. destruct (K c Hc). lia. }
  assert (forall t, Forall number_char t -> drop_spaces t = t) as DS.
  { intros t [|c t' Hc Ht]; [reflexivity|]. cbn [drop_spaces]. destruct (K c Hc) as (_ & -> & _). reflexivity. }
  assert (strip s = s) as ->.
  { unfold strip. rewrite (DS s H), (DS (rev s)) by (apply Forall_rev, H). apply rev_involutive. }
  generalize false. induction H as [|c s Hc H IH]; intros b; [reflexivity|]. destruct (K c Hc) as (_ & _ & N).
  cbn [without_underscores]. destruct (Z.eqb_spec c 95); [lia|]. rewrite IH. reflexivity.
Qed.

(** *** reading what was written *)
Lemma Forall_firstn {A} (P : A -> Prop) n l : Forall P l -> Forall P (firstn n l).
Proof. intros H. rewrite <- (firstn_skipn n l) in H. apply Forall_app in H. apply H. Qed.
Lemma Forall_skipn {A} (P : A -> Prop) n l : Forall P l -> Forall P (skipn n l).
Proof. intros H. rewrite <- (firstn_skipn n l) in H. apply Forall_app in H. apply H. Qed.
Lemma digits_number d : all_digits d -> Forall number_char d.
Proof. apply Forall_impl. intros c H. left. exact H. Qed.
Lemma take_sign_digit c s : digit_char c = true -> take_sign (c :: s) = (false, c :: s).
Proof. intros H. apply digit_char_spec in H. unfold take_sign. destruct c as [|c|c]; try lia. repeat (destruct c as [c|c|]; try reflexivity; try lia). Qed.
Lemma not_a_word c s w : digit_char c = true -> list_eqb (map lower (c :: s)) (105 :: w) = false /\ list_eqb (map lower (c :: s)) (110 :: w) = false.
Proof.
  intros H. apply digit_char_spec in H. unfold list_eqb, lower. cbn [map].
  destruct (Z.leb_spec 65 c); [lia|]. cbn [andb]. destruct (Z.eqb_spec c 105); [lia|]. destruct (Z.eqb_spec c 110); [lia|]. auto.
Qed.
Lemma read_number uni (neg : bool) c t : digit_char c = true -> Forall number_char t ->
  py_read_float uni ((if neg then [45] else []) ++ c :: t) = read_decimal neg (c :: t).
Proof.
  intros C T. unfold py_read_float. rewrite plain_text.
  - destruct neg.
    + change (take_sign ([45] ++ c :: t)) with (true, c :: t). destruct (not_a_word c t [110; 102] C) as [N1 _]. unfold inf_text. rewrite N1.
      destruct (not_a_word c t [110; 102; 105; 110; 105; 116; 121] C) as [N2 _]. unfold infinity_text. rewrite N2.
      destruct (not_a_word c t [97; 110] C) as [_ N3]. unfold nan_text. rewrite N3. reflexivity.
    + cbn [app]. rewrite take_sign_digit by exact C. destruct (not_a_word c t [110; 102] C) as [N1 _]. unfold inf_text. rewrite N1.
      destruct (not_a_word c t [110; 102; 105; 110; 105; 116; 121] C) as [N2 _]. unfold infinity_text. rewrite N2.
      destruct (not_a_word c t [97; 110] C) as [_ N3]. unfold nan_text. rewrite N3. reflexivity.
  - apply Forall_app. split; [destruct neg; [constructor; [unfold number_char; auto|constructor]|constructor]|]. constructor; [left; exact C|exact T].
Qed.
Lemma read_with_point neg w f r k : all_digits w -> all_digits f -> w <> [] -> (match r with c :: _ => digit_char c = false | [] => True end) ->
  read_exponent r = Some k -> read_decimal neg (w ++ [46] ++ f ++ r) = Ok (decimal_float neg (numeral (w ++ f)) (k - len f)).
Proof.
  intros W F N R K. unfold read_decimal. rewrite take_digits_app; [|exact W|reflexivity]. cbn [app take_fraction]. rewrite take_digits_app by assumption.
  rewrite K. destruct (w ++ f) eqn:E; [destruct w; [congruence|discriminate]|reflexivity].
Qed.
Lemma read_without_point neg w r k : all_digits w -> w <> [] -> (match r with c :: _ => digit_char c = false /\ c <> 46 | [] => True end) ->
  read_exponent r = Some k -> read_decimal neg (w ++ r) = Ok (decimal_float neg (numeral w) k).
Proof.
  intros W N R K. unfold read_decimal. rewrite take_digits_app; [|exact W|destruct r; [exact I|apply R]].
  assert (take_fraction r = ([], r)) as ->.
  { destruct r as [|c r]; [reflexivity|]. destruct R as [_ R]. destruct c as [|c|c]; try reflexivity. repeat (destruct c as [c|c|]; try reflexivity). congruence. }
  rewrite app_nil_r, K, len_nil, Z.sub_0_r. destruct w; [congruence|reflexivity].
Qed.
Lemma read_exponent_text x : read_exponent (101 :: exponent_text x) = Some x.
Proof.
  unfold read_exponent, exponent_text. change ((101 =? 101) || (101 =? 69)) with true. cbv iota. destruct (str_int_digits (Z.abs x) (Z.abs_nonneg x)) as (D & V & N).
  assert (exists c t, (if Z.abs x <? 10 then [48] else []) ++ str_int (Z.abs x) = c :: t /\ all_digits (c :: t) /\ numeral (c :: t) = Z.abs x) as (c & t & E & D' & V').
  { destruct (Z.abs x <? 10).
    - exists 48, (str_int (Z.abs x)). split; [reflexivity|]. split; [constructor; [reflexivity|exact D]|]. change (48 :: str_int (Z.abs x)) with ([48] ++ str_int (Z.abs x)). rewrite numeral_app, V. reflexivity.
    - destruct (str_int (Z.abs x)) as [|c t] eqn:S; [congruence|]. exists c, t. auto. }
  rewrite E. destruct (Z.ltb_spec x 0) as [L|L]; cbn [take_sign].
  - rewrite take_digits_all by exact D'. rewrite V'. f_equal. lia.
  - rewrite take_digits_all by exact D'. rewrite V'. f_equal. lia.
Qed.
Lemma exponent_text_chars x : Forall number_char (101 :: exponent_text x).
Proof.
  unfold exponent_text. destruct (str_int_digits (Z.abs x) (Z.abs_nonneg x)) as (D & _).
  constructor; [unfold number_char; auto|]. constructor; [destruct (x <? 0); unfold number_char; auto|]. apply Forall_app. split; [|apply digits_number, D].
  destruct (_ <? 10); repeat constructor.
Qed.
Lemma float_digits_read uni (neg : bool) D k : 0 < D ->
  py_read_float uni ((if neg then [45] else []) ++ float_digits D k) = Ok (decimal_float neg D k).
Proof.
  intros HD. destruct (str_int_digits D ltac:(lia)) as (F & V & N). unfold float_digits. set (d := str_int D) in *. set (nd := len d) in *. assert (nd = len d) as Hnd by reflexivity. clearbody nd. clearbody d.
  assert (1 <= nd) as ND by (rewrite Hnd; destruct d; [congruence|rewrite len_cons; pose proof (len_nonneg d); lia]).
  cbv zeta. set (point := nd + k). destruct ((-4 <? point) && (point <=? 16)) eqn:R.
  - destruct (Z.leb_spec point 0) as [P|P]; [|destruct (Z.leb_spec nd point) as [Q|Q]].
    + cbn [app]. rewrite read_number; [|reflexivity|constructor; [unfold number_char; auto|apply Forall_app; split; [apply digits_number, zeros_digits|apply digits_number, F]]].
      change (48 :: 46 :: zeros (- point) ++ d) with ([48] ++ [46] ++ (zeros (- point) ++ d)). rewrite <- (app_nil_r (zeros (- point) ++ d)).
      rewrite (read_with_point neg [48] (zeros (- point) ++ d) [] 0); [|repeat constructor|apply Forall_app; split; [apply zeros_digits|exact F]|discriminate|exact I|reflexivity].
      f_equal. f_equal.
      * rewrite !numeral_app, numeral_zeros, V. change (numeral [48]) with 0. lia.
      * rewrite len_app, len_zeros by lia. rewrite <- Hnd. lia.
    + destruct d as [|c d'] eqn:Ed; [congruence|]. rewrite <- Ed in *. assert (digit_char c = true /\ all_digits d') as [C F'] by (rewrite Ed in F; inversion F; auto).
      assert (d ++ zeros (point - nd) ++ [46; 48] = c :: d' ++ zeros (point - nd) ++ [46; 48]) as X by (rewrite Ed; reflexivity).
      rewrite X, read_number; [|exact C|].
      2:{ apply Forall_app; split; [apply digits_number, F'|]. apply Forall_app; split; [apply digits_number, zeros_digits|]. constructor; [unfold number_char; auto|repeat constructor]. }
      rewrite <- X. rewrite app_assoc. change ([46; 48]) with ([46] ++ [48] ++ []).
      rewrite (read_with_point neg (d ++ zeros (point - nd)) [48] [] 0); [|apply Forall_app; split; [exact F|apply zeros_digits]|repeat constructor|destruct d; [congruence|discriminate]|exact I|reflexivity].
      f_equal. rewrite !numeral_app, numeral_zeros, V, len_zeros by lia. change (numeral [48]) with 0. change (len [48]) with 1.
      replace (point - nd) with k by (unfold point; lia). rewrite !Z.add_0_r.
      assert (0 <= k) as K0 by (unfold point in Q; lia). replace (0 - 1) with (0 - (k + 1) + k) by lia.
      rewrite Z.pow_1_r, <- Z.mul_assoc. replace (10 ^ k * 10) with (10 ^ (k + 1)) by (rewrite Z.pow_add_r by lia; reflexivity).
      replace (0 - (k + 1) + k) with (k - (k + 1)) by lia. apply decimal_float_scale. lia.
    + destruct d as [|c d'] eqn:Ed; [congruence|]. rewrite <- Ed in *. assert (digit_char c = true /\ all_digits d') as [C F'] by (rewrite Ed in F; inversion F; auto).
      assert (firstn (Z.to_nat point) d = c :: firstn (Z.to_nat point - 1) d') as X1.
      { rewrite Ed. destruct (Z.to_nat point) eqn:T; [lia|]. cbn. rewrite Nat.sub_0_r. reflexivity. }
      assert (all_digits (firstn (Z.to_nat point) d)) as Ff by (apply Forall_firstn, F). assert (all_digits (skipn (Z.to_nat point) d)) as Fs by (apply Forall_skipn, F).
      pose proof (read_with_point neg (firstn (Z.to_nat point) d) (skipn (Z.to_nat point) d) [] 0 Ff Fs) as RW. rewrite app_nil_r in RW.
      rewrite X1. change ((c :: firstn (Z.to_nat point - 1) d') ++ [46] ++ skipn (Z.to_nat point) d) with (c :: (firstn (Z.to_nat point - 1) d' ++ [46] ++ skipn (Z.to_nat point) d)).
      rewrite read_number; [|exact C|].
      2:{ apply Forall_app; split; [apply digits_number, Forall_firstn, F'|]. constructor; [unfold number_char; auto|apply digits_number, Fs]. }
      change (c :: (firstn (Z.to_nat point - 1) d' ++ [46] ++ skipn (Z.to_nat point) d)) with ((c :: firstn (Z.to_nat point - 1) d') ++ [46] ++ skipn (Z.to_nat point) d).
      rewrite <- X1. rewrite RW; [|rewrite X1; discriminate|exact I|reflexivity]. f_equal. rewrite firstn_skipn, V. f_equal.
      rewrite len_skipn, <- Hnd. unfold point. lia.
  - destruct d as [|c [|c2 rest]] eqn:Ed; [congruence| |].
    + inversion F as [|? ? C F']. subst. rewrite read_number; [|exact C|apply exponent_text_chars].
      change (c :: 101 :: exponent_text (point - 1)) with ([c] ++ 101 :: exponent_text (point - 1)).
      rewrite (read_without_point neg [c] (101 :: exponent_text (point - 1)) (point - 1)); [|exact F|discriminate|split; [reflexivity|discriminate]|apply read_exponent_text].
      unfold point. f_equal. f_equal. change (len [c]) with 1. lia.
    + inversion F as [|? ? C F']. subst. rewrite read_number; [|exact C|].
      2:{ constructor; [unfold number_char; auto|]. apply Forall_app. split; [apply digits_number, F'|apply exponent_text_chars]. }
      change (c :: 46 :: (c2 :: rest) ++ 101 :: exponent_text (point - 1)) with ([c] ++ [46] ++ (c2 :: rest) ++ 101 :: exponent_text (point - 1)).
      rewrite (read_with_point neg [c] (c2 :: rest) (101 :: exponent_text (point - 1)) (point - 1)); [|repeat constructor; exact C|exact F'|discriminate|reflexivity|apply read_exponent_text].
      cbn [app]. f_equal. f_equal. unfold point. rewrite (len_cons c). lia.
Qed.

(** *** every double *)
Lemma float_round_trip uni x : is_double x -> exists y, py_read_float uni (py_float_text x) = Ok y /\ same_float x y.
Proof.
  destruct x as [|s|s m e]; intros D.
  - exists NaN. split; [reflexivity|exact I].
  - exists (Inf s). split; [destruct s; reflexivity|reflexivity].
  - destruct D as [M D]. unfold py_float_text. destruct (Z.eqb_spec m 0) as [->|N].
    + exists (Fin s 0 0). split; [destruct s; reflexivity|]. split; [reflexivity|]. unfold dyadic. destruct s; cbn [Z.opp]; rewrite Qmult_0_l; reflexivity.
    + destruct (shortest_decimal m e) as [D' k'] eqn:S. assert (0 < m) as Pm by lia.
      assert (double_value (dyadic false m e)) as D0.
      { destruct s; [|exact D]. apply double_value_opp in D. destruct D as (A & B & H1 & H2 & H3). exists A, B. split; [exact H1|]. split; [exact H2|]. rewrite <- H3.
        unfold dyadic. setoid_replace (- m # 1)%Q with (- (m # 1))%Q by reflexivity. ring. }
      destruct (shortest_ok m e D' k' Pm D0 S) as [P V]. exists (make_float s m e). split; [rewrite float_digits_read by exact P; rewrite V; reflexivity|].
      destruct (make_float_fin s m e) as (m' & e' & E & _). pose proof (make_float_value s m e M) as W. rewrite E in *. split; [reflexivity|]. exact (proj2 W).
Qed.
Lemma cpython_lawful uni text : lawful (cpython uni text).
Proof. intros x D. exact (float_round_trip uni x D). Qed.
Lemma read_float_errors uni s x : py_read_float uni s = Err x -> x = ValueError.
Proof.
  unfold py_read_float. destruct (without_underscores _ _) as [t|]; [|congruence]. destruct (take_sign t) as [neg t1]. destruct (_ || _); [discriminate|].
  destruct (list_eqb _ _); [discriminate|]. unfold read_decimal. destruct (take_digits t1) as [w t2]. destruct (take_fraction t2) as [f t3].
  destruct (w ++ f); [congruence|]. destruct (read_exponent t3); congruence.
Qed.
Lemma read_int_errors uni s x : py_read_int uni s = Err x -> x = ValueError.
Proof.
  unfold py_read_int. destruct (without_underscores _ _) as [t|]; [|congruence]. destruct (take_sign t) as [neg t1]. destruct (take_digits t1) as [[|c d] [|r rest]]; congruence.
Qed.
Lemma cpython_value_errors uni text : (forall b x, text (VBytes b) = Err x -> x = ValueError) -> value_errors (cpython uni text).
Proof. intros H. split; [exact (read_int_errors uni)|]. split; [exact (read_float_errors uni)|exact H]. Qed.
Lemma reading_numbers uni s :
  ((exists x, py_read_float uni s = Ok x) \/ py_read_float uni s = Err ValueError) /\
  ((exists n, py_read_int uni s = Ok n) \/ py_read_int uni s = Err ValueError).
Proof.
  split.
  - destruct (py_read_float uni s) as [x|x] eqn:E; [left; eauto|right]. rewrite (read_float_errors _ _ _ E). reflexivity.
  - destruct (py_read_int uni s) as [x|x] eqn:E; [left; eauto|right]. rewrite (read_int_errors _ _ _ E). reflexivity.
Qed.
Lemma int_round_trip uni n : py_read_int uni (str_int n) = Ok n.
Proof.
  assert (forall n, 0 <= n -> exists c d, str_int n = c :: d /\ digit_char c = true /\ all_digits (str_int n) /\ numeral (str_int n) = n) as K.
  { intros k H. destruct (str_int_digits k H) as (A & B & C). destruct (str_int k) as [|c d] eqn:E; [contradiction|]. exists c, d. split; [reflexivity|].
    split; [inversion A; assumption|]. split; [exact A|exact B]. }
  destruct (Z.lt_ge_cases n 0) as [L|L].
  - assert (str_int n = 45 :: str_int (- n)) as E.
    { unfold str_int. destruct (n <? 0) eqn:X; [|lia]. destruct (- n <? 0) eqn:Y; [lia|]. reflexivity. }
    destruct (K (- n) ltac:(lia)) as (c & d & E1 & C & A & B). unfold py_read_int. rewrite E, plain_text.
    + cbn [take_sign]. rewrite (take_digits_all _ A), E1. rewrite <- E1, B. f_equal. lia.
    + constructor; [right; right; left; reflexivity|]. apply digits_number. exact A.
  - destruct (K n L) as (c & d & E1 & C & A & B). unfold py_read_int. rewrite plain_text by (apply digits_number; exact A).
    rewrite E1, (take_sign_digit c d C), <- E1, (take_digits_all _ A), E1. rewrite <- E1, B. reflexivity.
Qed.
