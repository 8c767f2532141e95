(** Decoding of IEEE bit patterns and rounding to seven decimals. *)
From Coq Require Import QArith Qpower Qabs Lqa.
From Verif Require Import PyFacts BitFacts PyFloat ParamLang SpecParameters.
Open Scope Z_scope.

Lemma two_nz : ~ (2 # 1 == 0)%Q. Proof. discriminate. Qed.
Lemma pow_add e f : ((2 # 1) ^ (e + f) == (2 # 1) ^ e * (2 # 1) ^ f)%Q.
Proof. apply Qpower_plus, two_nz. Qed.
Lemma pow_pos e : (0 < (2 # 1) ^ e)%Q.
Proof. apply Qpower_0_lt. reflexivity. Qed.
Lemma pow_Z e : 0 <= e -> ((2 # 1) ^ e == (2 ^ e # 1))%Q.
Proof. intros H. change (2 # 1)%Q with (inject_Z 2). rewrite <- Zpower_Qpower by exact H. reflexivity. Qed.
Lemma pow_opp e : ((2 # 1) ^ e * (2 # 1) ^ (- e) == 1)%Q.
Proof. rewrite <- pow_add. replace (e + - e) with 0 by lia. reflexivity. Qed.

(** *** make_float *)
Lemma strip_value p e m' e' : strip_twos p e = (m', e') ->
  ((m' # 1) * (2 # 1) ^ e' == (Zpos p # 1) * (2 # 1) ^ e)%Q.
Proof.
  revert e. induction p as [p IH|p IH|]; intros e H; cbn in H; try (inversion H; reflexivity).
  rewrite (IH _ H), pow_add. change (Zpos (xO p) # 1) with (Zpos (2 * p) # 1).
  rewrite (Qmult_comm _ ((2 # 1) ^ 1)%Q), Qmult_assoc. apply Qmult_comp; [|reflexivity].
  cbv [Qeq Qmult Qnum Qden Qpower Qpower_positive pow_pos]. cbn. lia.
Qed.
Lemma strip_pos p e : exists q e', strip_twos p e = (Zpos q, e').
Proof. revert e; induction p; intros e; cbn; eauto. Qed.
Lemma strip_odd p e m' e' : strip_twos p e = (m', e') -> 0 < m' /\ Z.odd m' = true.
Proof. revert e. induction p as [p IH|p IH|]; intros e H; cbn in H; [inversion H; split; [lia|reflexivity]|eauto|inversion H; split; [lia|reflexivity]]. Qed.
Lemma make_float_value s m e : 0 <= m -> float_value (make_float s m e) (dyadic s m e).
Proof.
  intros Hm. destruct m as [|p|p]; [|cbn [make_float]|lia].
  - split; [left; auto|]. unfold dyadic. destruct s; cbn [Z.opp]; unfold Qmult, Qeq; cbn; reflexivity.
  - destruct (strip_twos p e) as [m' e'] eqn:E. cbn [float_value]. split; [right; eapply strip_odd; exact E|]. unfold dyadic.
    pose proof (strip_value _ _ _ _ E) as V. destruct s; [|symmetry; exact V].
    setoid_replace (- Zpos p # 1)%Q with (- (Zpos p # 1))%Q by reflexivity.
    setoid_replace (- m' # 1)%Q with (- (m' # 1))%Q by reflexivity.
    transitivity (- ((Zpos p # 1) * (2 # 1) ^ e))%Q; [ring|]. rewrite <- V. ring.
Qed.
Lemma make_float_sign s m e : 0 <= m -> negative (make_float s m e) = Some s.
Proof. intros Hm. destruct m as [|p|p]; [reflexivity| |lia]. cbn. destruct (strip_twos p e). reflexivity. Qed.
Lemma make_float_fin s m e : exists m' e', make_float s m e = Fin s m' e' /\ 0 <= m'.
Proof.
  destruct m as [|p|p]; cbn; try (exists 0, 0; split; [reflexivity|lia]).
  destruct (strip_pos p e) as (q & e' & ->). exists (Zpos q), e'. split; [reflexivity|lia].
Qed.

(** *** decoding *)
Lemma mask_mod n w : 0 <= w -> Z.land n (2 ^ w - 1) = n mod 2 ^ w.
Proof. intros H. rewrite <- Z.land_ones by exact H. f_equal. rewrite Z.ones_equiv. lia. Qed.

Lemma decode_denotes w f n : 2 <= w -> 1 <= f -> 0 <= n < 2 ^ (w + f + 1) -> denotes w f n (decode_float w f n).
Proof.
  intros Hw Hf Hn. unfold denotes, decode_float.
  rewrite !mask_mod, !Z.shiftr_div_pow2 by lia.
  assert (0 <= n / 2 ^ (w + f) < 2) as Hs.
  { split; [apply Z.div_pos; lia|]. apply Z.div_lt_upper_bound; [lia|].
    replace (w + f + 1) with (Z.succ (w + f)) in Hn by lia. rewrite Z.pow_succ_r in Hn by lia. lia. }
  assert (Z.odd (n / 2 ^ (w + f)) = (n / 2 ^ (w + f) =? 1)) as ->.
  { destruct (n / 2 ^ (w + f)) as [|p|p]; [reflexivity| |lia]. destruct p; try lia; reflexivity. }
  set (s := n / 2 ^ (w + f) =? 1). set (E := (n / 2 ^ f) mod 2 ^ w). set (F := n mod 2 ^ f).
  assert (0 <= F < 2 ^ f) as HF by (apply Z.mod_pos_bound; lia).
  assert (forall m e, 0 <= m -> forall x, (x == (if s then -1 # 1 else 1 # 1) * ((m # 1) * (2 # 1) ^ e))%Q -> float_value (make_float s m e) x) as VAL.
  { intros m e Hm x Hx. pose proof (make_float_value s m e Hm) as V.
    destruct (make_float_fin s m e) as (m' & e' & Em & _). rewrite Em in *. cbn in *. destruct V as [Lo V]. split; [exact Lo|].
    rewrite Hx, <- V. unfold dyadic. destruct s.
    - setoid_replace (- m # 1)%Q with (- (m # 1))%Q by reflexivity. ring.
    - ring. }
  assert (forall e, ((F # 1) / (2 # 1) ^ f * (2 # 1) ^ e == (F # 1) * (2 # 1) ^ (e - f))%Q) as DIV.
  { intros e. replace (e - f) with (e + - f) by lia. rewrite pow_add, Qpower_opp. unfold Qdiv. ring. }
  destruct (Z.eqb_spec E (2 ^ w - 1)) as [HE|HE].
  - destruct (Z.eqb_spec F 0) as [HF0|HF0]; [right; left|left]; repeat split; auto.
  - right; right. split; [exact HE|].
    destruct (Z.eqb_spec E 0) as [E0|E0].
    + split; [apply make_float_sign; lia|]. apply VAL; [lia|].
      rewrite Qplus_0_l, <- Qmult_assoc. apply Qmult_comp; [reflexivity|]. apply DIV.
    + split; [apply make_float_sign; lia|]. apply VAL; [lia|].
      rewrite <- Qmult_assoc. apply Qmult_comp; [reflexivity|].
      rewrite Qmult_plus_distr_l, DIV.
      assert ((F + 2 ^ f # 1) == (F # 1) + (2 # 1) ^ f)%Q as -> by (rewrite pow_Z by lia; unfold Qeq; cbn; lia).
      rewrite Qmult_plus_distr_l, <- pow_add, Qmult_1_l.
      replace (f + (E - (2 ^ (w - 1) - 1) - f)) with (E - (2 ^ (w - 1) - 1)) by lia. ring.
Qed.

Lemma unpack_single_denotes b x : is_bytes b -> unpack_single b = Ok x -> denotes 8 23 (from_le b) x.
Proof.
  unfold unpack_single. intros Hb. destruct (Z.eqb_spec (len b) 4) as [L|L]; [|discriminate].
  intros H. inversion H. apply decode_denotes; try lia. pose proof (from_le_range b Hb) as B. rewrite L in B. cbn in B |- *. lia.
Qed.
Lemma unpack_double_denotes b x : is_bytes b -> unpack_double b = Ok x -> denotes 11 52 (from_le b) x.
Proof.
  unfold unpack_double. intros Hb. destruct (Z.eqb_spec (len b) 8) as [L|L]; [|discriminate].
  intros H. inversion H. apply decode_denotes; try lia. pose proof (from_le_range b Hb) as B. rewrite L in B. cbn in B |- *. lia.
Qed.

(** *** nearest integers *)
Lemma round_quotient_close a b : 0 < b -> 2 * Z.abs (round_quotient a b * b - a) <= b.
Proof.
  intros Hb. unfold round_quotient. pose proof (Z.div_mod a b ltac:(lia)) as D. pose proof (Z.mod_pos_bound a b Hb) as M.
  set (q := a / b) in *. set (r := a mod b) in *.
  destruct (Z.compare_spec (2 * r) b) as [C|C|C]; [destruct (Z.even q)| |]; nia.
Qed.
Lemma round_quotient_nonneg a b : 0 <= a -> 0 < b -> 0 <= round_quotient a b.
Proof.
  intros Ha Hb. unfold round_quotient. pose proof (Z.div_pos a b Ha Hb).
  destruct (2 * (a mod b) ?= b); [destruct (Z.even (a / b))| |]; lia.
Qed.
Lemma Qabs_Z a : (Qabs (a # 1) == (Z.abs a # 1))%Q.
Proof. reflexivity. Qed.

Lemma closest_of_half x k : (Qabs ((k # 1) - x) <= 1 # 2)%Q -> closest_integer x k.
Proof.
  intros H j. destruct (Z.eq_dec j k) as [->|N]; [apply Qle_refl|].
  assert (1 <= Qabs ((j # 1) - (k # 1)))%Q as D.
  { setoid_replace ((j # 1) - (k # 1))%Q with (j - k # 1)%Q by (unfold Qeq; cbn; lia). rewrite Qabs_Z. unfold Qle; cbn. lia. }
  pose proof (Qabs_triangle ((j # 1) - x) (x - (k # 1))) as T.
  setoid_replace ((j # 1) - x + (x - (k # 1)))%Q with ((j # 1) - (k # 1))%Q in T by ring.
  rewrite (Qabs_Qminus x (k # 1)) in T. lra.
Qed.

(** a 2^k / b is within 1/2 of [round_scaled a b k] *)
Lemma round_quotient_half a b : 0 < b -> (Qabs ((round_quotient a b # 1) - (a # 1) / (b # 1)) <= 1 # 2)%Q.
Proof.
  intros Hb. pose proof (round_quotient_close a b Hb) as C. set (k := round_quotient a b) in *.
  setoid_replace ((k # 1) - (a # 1) / (b # 1))%Q with ((k * b - a # 1) / (b # 1))%Q.
  2:{ assert ((k * b - a # 1) == (k # 1) * (b # 1) - (a # 1))%Q as -> by (unfold Qeq; cbn; lia). field. unfold Qeq; cbn; lia. }
  unfold Qdiv. rewrite Qabs_Qmult.
  assert (0 < / (b # 1))%Q as P by (apply Qinv_lt_0_compat; unfold Qlt; cbn; lia).
  rewrite (Qabs_pos (/ (b # 1))) by (apply Qlt_le_weak, P). rewrite Qabs_Z.
  assert ((Z.abs (k * b - a) # 1) <= (1 # 2) * (b # 1))%Q as L by (unfold Qle; cbn; lia).
  apply (Qmult_le_compat_r _ _ (/ (b # 1))) in L; [|apply Qlt_le_weak, P].
  assert ((1 # 2) * (b # 1) * / (b # 1) == 1 # 2)%Q as E by (field; unfold Qeq; cbn; lia).
  rewrite E in L. exact L.
Qed.
Lemma round_scaled_half a b k : 0 < b ->
  (Qabs ((round_scaled a b k # 1) - (a # 1) / (b # 1) * (2 # 1) ^ k) <= 1 # 2)%Q.
Proof.
  intros Hb. unfold round_scaled. destruct (Z.leb_spec 0 k) as [K|K].
  - pose proof (round_quotient_half (a * 2 ^ k) b Hb) as H.
    setoid_replace ((a # 1) / (b # 1) * (2 # 1) ^ k)%Q with ((a * 2 ^ k # 1) / (b # 1))%Q; [exact H|].
    rewrite pow_Z by exact K. assert ((a * 2 ^ k # 1) == (a # 1) * (2 ^ k # 1))%Q as -> by (unfold Qeq; cbn; lia).
    unfold Qdiv. ring.
  - assert (0 < 2 ^ (- k)) as P by (apply Z.pow_pos_nonneg; lia).
    pose proof (round_quotient_half a (b * 2 ^ (- k)) ltac:(nia)) as H.
    setoid_replace ((a # 1) / (b # 1) * (2 # 1) ^ k)%Q with ((a # 1) / (b * 2 ^ (- k) # 1))%Q; [exact H|].
    assert ((b * 2 ^ (- k) # 1) == (b # 1) * (2 ^ (- k) # 1))%Q as -> by (unfold Qeq; cbn; lia).
    rewrite <- pow_Z by lia. unfold Qdiv. rewrite Qinv_mult_distr, <- Qpower_opp, Z.opp_involutive. ring.
Qed.
Lemma round_quotient_even a b : 0 < b -> 2 * Z.abs (round_quotient a b * b - a) = b -> Z.even (round_quotient a b) = true.
Proof.
  intros Hb. unfold round_quotient. pose proof (Z.div_mod a b ltac:(lia)) as D. pose proof (Z.mod_pos_bound a b Hb) as M.
  set (q := a / b) in *. set (r := a mod b) in *. clearbody q r. subst a.
  destruct (Z.compare_spec (2 * r) b) as [E|E|E].
  - destruct (Z.even q) eqn:V; [intros _; exact V|]. intros _. rewrite Z.add_1_r, Z.even_succ, <- Z.negb_even, V. reflexivity.
  - intros H. replace (q * b - (b * q + r)) with (- r) in H by lia. lia.
  - intros H. replace ((q + 1) * b - (b * q + r)) with (b - r) in H by lia. lia.
Qed.
Lemma round_quotient_rounds a b : 0 < b -> rounds_to ((a # 1) / (b # 1)) (round_quotient a b).
Proof.
  intros Hb. pose proof (round_quotient_half a b Hb) as H. split; [apply closest_of_half, H|].
  intros j N E. apply round_quotient_even; [exact Hb|]. set (k := round_quotient a b) in *. set (x := ((a # 1) / (b # 1))%Q) in *.
  assert (1 <= Qabs ((j # 1) - (k # 1)))%Q as D.
  { setoid_replace ((j # 1) - (k # 1))%Q with (j - k # 1)%Q by (unfold Qeq; cbn; lia). rewrite Qabs_Z. unfold Qle; cbn. lia. }
  pose proof (Qabs_triangle ((j # 1) - x) (x - (k # 1))) as T.
  setoid_replace ((j # 1) - x + (x - (k # 1)))%Q with ((j # 1) - (k # 1))%Q in T by ring.
  rewrite (Qabs_Qminus x (k # 1)) in T.
  assert (Qabs ((k # 1) - x) == 1 # 2)%Q as Hf by (apply Qle_antisym; [exact H|lra]).
  assert (((k # 1) - x) * (b # 1) == (k * b - a # 1))%Q as V.
  { assert ((k * b - a # 1) == (k # 1) * (b # 1) - (a # 1))%Q as -> by (unfold Qeq; cbn; lia). unfold x. field. unfold Qeq; cbn; lia. }
  assert (Qabs ((k # 1) - x) * (b # 1) == (Z.abs (k * b - a) # 1))%Q as W.
  { rewrite <- Qabs_Z, <- V, Qabs_Qmult. rewrite (Qabs_pos (b # 1)) by (unfold Qle; cbn; lia). reflexivity. }
  rewrite Hf in W. unfold Qeq in W. cbn in W. lia.
Qed.
Lemma rounds_to_wd x x' k : (x == x')%Q -> rounds_to x k -> rounds_to x' k.
Proof. intros E [C V]. split; [intros j; rewrite <- E; apply C|]. intros j N H. apply (V j N). rewrite E. exact H. Qed.
Lemma round_scaled_rounds a b k : 0 < b -> rounds_to ((a # 1) / (b # 1) * (2 # 1) ^ k) (round_scaled a b k).
Proof.
  intros Hb. unfold round_scaled. destruct (Z.leb_spec 0 k) as [K|K].
  - refine (rounds_to_wd _ _ _ _ (round_quotient_rounds (a * 2 ^ k) b Hb)).
    rewrite pow_Z by exact K. assert ((a * 2 ^ k # 1) == (a # 1) * (2 ^ k # 1))%Q as -> by (unfold Qeq; cbn; lia).
    unfold Qdiv. ring.
  - assert (0 < 2 ^ (- k)) as P by (apply Z.pow_pos_nonneg; lia).
    refine (rounds_to_wd _ _ _ _ (round_quotient_rounds a (b * 2 ^ (- k)) ltac:(nia))).
    assert ((b * 2 ^ (- k) # 1) == (b # 1) * (2 ^ (- k) # 1))%Q as -> by (unfold Qeq; cbn; lia).
    rewrite <- pow_Z by lia. unfold Qdiv. rewrite Qinv_mult_distr, <- Qpower_opp, Z.opp_involutive. ring.
Qed.
Lemma round_scaled_nonneg a b k : 0 <= a -> 0 < b -> 0 <= round_scaled a b k.
Proof.
  intros Ha Hb. unfold round_scaled. destruct (Z.leb_spec 0 k).
  - apply round_quotient_nonneg; [|exact Hb]. pose proof (Z.pow_nonneg 2 k). nia.
  - assert (0 < 2 ^ (- k)) by (apply Z.pow_pos_nonneg; lia). apply round_quotient_nonneg; [exact Ha|nia].
Qed.

(** *** nearest doubles *)
Lemma closest_grid x e k : closest_integer (x * (2 # 1) ^ (- e))%Q k ->
  forall j : Z, (Qabs ((k # 1) * (2 # 1) ^ e - x) <= Qabs ((j # 1) * (2 # 1) ^ e - x))%Q.
Proof.
  intros H j. specialize (H j).
  assert (forall i : Z, Qabs ((i # 1) * (2 # 1) ^ e - x) == Qabs ((i # 1) - x * (2 # 1) ^ (- e)) * (2 # 1) ^ e)%Q as S.
  { intros i. rewrite <- (Qabs_pos ((2 # 1) ^ e)) at 2 by (apply Qlt_le_weak, pow_pos).
    rewrite <- Qabs_Qmult. apply Qabs_wd. pose proof (pow_opp e) as P.
    setoid_replace (((i # 1) - x * (2 # 1) ^ (- e)) * (2 # 1) ^ e)%Q with ((i # 1) * (2 # 1) ^ e - x * ((2 # 1) ^ e * (2 # 1) ^ (- e)))%Q by ring.
    rewrite P. ring. }
  rewrite !S. apply Qmult_le_compat_r; [exact H|apply Qlt_le_weak, pow_pos].
Qed.

Lemma pow_le e f : e <= f -> ((2 # 1) ^ e <= (2 # 1) ^ f)%Q.
Proof.
  intros H. replace f with (e + (f - e)) by lia. rewrite pow_add. rewrite <- (Qmult_1_r ((2 # 1) ^ e)) at 1.
  rewrite (Qmult_comm _ 1), (Qmult_comm _ ((2 # 1) ^ (f - e))). apply Qmult_le_compat_r; [|apply Qlt_le_weak, pow_pos].
  rewrite pow_Z by lia. unfold Qle; cbn. pose proof (Z.pow_pos_nonneg 2 (f - e)). lia.
Qed.

(** if 2^fl <= x and the grid is fine enough, the nearest grid point is the nearest double *)
Lemma grid_is_double x e k :
  closest_integer (x * (2 # 1) ^ (- e))%Q k ->
  -1074 <= e -> (e = -1074 \/ ((2 # 1) ^ (e + 52) <= x)%Q) ->
  forall z, double_value z -> (Qabs ((k # 1) * (2 # 1) ^ e - x) <= Qabs (z - x))%Q.
Proof.
  intros C He Hfl z (M & E & HM & HE & Hz). pose proof (closest_grid x e k C) as G.
  destruct (Z.le_gt_cases e E) as [L|L].
  - specialize (G (M * 2 ^ (E - e))).
    assert ((M * 2 ^ (E - e) # 1) * (2 # 1) ^ e == z)%Q as Ez.
    { rewrite Hz. assert ((2 # 1) ^ E == (2 ^ (E - e) # 1) * (2 # 1) ^ e)%Q as ->.
      { rewrite <- (pow_Z (E - e)) by lia. rewrite <- pow_add. replace (E - e + e) with E by lia. reflexivity. }
      assert ((M * 2 ^ (E - e) # 1) == (M # 1) * (2 ^ (E - e) # 1))%Q as -> by (unfold Qeq; cbn; lia). ring. }
    rewrite Ez in G. exact G.
  - destruct Hfl as [->|Hfl]; [lia|]. specialize (G (2 ^ 52)).
    assert ((2 ^ 52 # 1) * (2 # 1) ^ e == (2 # 1) ^ (e + 52))%Q as Eg by (rewrite pow_add, (pow_Z 52) by lia; ring).
    rewrite Eg in G. apply (Qle_trans _ _ _ G).
    assert (z <= (2 # 1) ^ (e + 52))%Q as Lz.
    { rewrite Hz. apply Qle_trans with ((2 ^ 53 # 1) * (2 # 1) ^ E)%Q.
      - apply Qmult_le_compat_r; [unfold Qle; cbn; lia|apply Qlt_le_weak, pow_pos].
      - assert ((2 ^ 53 # 1) == (2 # 1) ^ 53)%Q as -> by (rewrite (pow_Z 53) by lia; reflexivity).
        rewrite <- pow_add. apply pow_le. lia. }
    rewrite (Qabs_neg ((2 # 1) ^ (e + 52) - x)) by lra. rewrite (Qabs_neg (z - x)) by lra. lra.
Qed.

Definition floor_log a b : Z :=
  let k := Z.log2 a - Z.log2 b in
  if (if 0 <=? k then a <? b * 2 ^ k else a * 2 ^ (- k) <? b) then k - 1 else k.

Lemma floor_log_spec a b : 0 < a -> 0 < b ->
  ((2 # 1) ^ (floor_log a b) <= (a # 1) / (b # 1) /\ (a # 1) / (b # 1) < (2 # 1) ^ (floor_log a b + 1))%Q.
Proof.
  intros Ha Hb. unfold floor_log. set (k := Z.log2 a - Z.log2 b).
  pose proof (Z.log2_spec a Ha) as [A1 A2]. pose proof (Z.log2_spec b Hb) as [B1 B2].
  pose proof (Z.log2_nonneg a). pose proof (Z.log2_nonneg b).
  assert (0 < (b # 1))%Q as Pb by (unfold Qlt; cbn; lia).
  assert (forall q, (q <= (a # 1) / (b # 1) <-> q * (b # 1) <= (a # 1))%Q) as LE.
  { intros q. split; intros H1; [|apply Qle_shift_div_l; assumption].
    apply (Qmult_le_compat_r _ _ (b # 1)) in H1; [|apply Qlt_le_weak, Pb].
    assert ((a # 1) / (b # 1) * (b # 1) == (a # 1))%Q as E by (field; unfold Qeq; cbn; lia). rewrite E in H1. exact H1. }
  assert (forall q, ((a # 1) < q * (b # 1) -> (a # 1) / (b # 1) < q)%Q) as LT.
  { intros q H1. apply Qlt_shift_div_r; assumption. }
  (* (2^k is compared with a/b) *)
  assert ((if 0 <=? k then a <? b * 2 ^ k else a * 2 ^ (- k) <? b) = true <-> ((a # 1) < (2 # 1) ^ k * (b # 1))%Q) as CMP.
  { destruct (Z.leb_spec 0 k) as [K|K].
    - rewrite Z.ltb_lt, pow_Z by exact K. unfold Qlt; cbn. lia.
    - rewrite Z.ltb_lt. assert (0 < 2 ^ (- k)) as P by (apply Z.pow_pos_nonneg; lia).
      rewrite <- (Qmult_lt_r _ _ (2 ^ (- k) # 1)) by (unfold Qlt; cbn; lia).
      rewrite <- (pow_Z (- k)) by lia.
      setoid_replace ((2 # 1) ^ k * (b # 1) * (2 # 1) ^ (- k))%Q with ((b # 1) * ((2 # 1) ^ k * (2 # 1) ^ (- k)))%Q by ring.
      rewrite pow_opp, Qmult_1_r, pow_Z by lia. unfold Qlt; cbn. lia. }
  (* 2^(log a) <= a < 2^(log a + 1), same for b *)
  assert ((2 # 1) ^ (Z.log2 a) <= (a # 1))%Q as QA1 by (rewrite pow_Z by lia; unfold Qle; cbn; lia).
  assert ((a # 1) < (2 # 1) ^ (Z.log2 a + 1))%Q as QA2 by (rewrite pow_Z by lia; unfold Qlt; cbn; lia).
  assert ((2 # 1) ^ (Z.log2 b) <= (b # 1))%Q as QB1 by (rewrite pow_Z by lia; unfold Qle; cbn; lia).
  assert ((b # 1) < (2 # 1) ^ (Z.log2 b + 1))%Q as QB2 by (rewrite pow_Z by lia; unfold Qlt; cbn; lia).
  destruct (if 0 <=? k then a <? b * 2 ^ k else a * 2 ^ (- k) <? b).
  - split.
    + apply LE. apply Qle_trans with ((2 # 1) ^ (k - 1) * (2 # 1) ^ (Z.log2 b + 1))%Q.
      * rewrite !(Qmult_comm ((2 # 1) ^ (k - 1))). apply Qmult_le_compat_r; [apply Qlt_le_weak, QB2|apply Qlt_le_weak, pow_pos].
      * rewrite <- pow_add. replace (k - 1 + (Z.log2 b + 1)) with (Z.log2 a) by (unfold k; lia). exact QA1.
    + apply LT. replace (k - 1 + 1) with k by lia. apply CMP. reflexivity.
  - split.
    + apply LE. apply Qnot_lt_le. intros C. apply CMP in C. discriminate.
    + apply LT. apply Qlt_le_trans with ((2 # 1) ^ (Z.log2 a + 1))%Q; [exact QA2|].
      replace (Z.log2 a + 1) with (k + 1 + Z.log2 b) by (unfold k; lia). rewrite pow_add.
      rewrite !(Qmult_comm ((2 # 1) ^ (k + 1))). apply Qmult_le_compat_r; [exact QB1|apply Qlt_le_weak, pow_pos].
Qed.

Lemma double_of_le M e : 0 <= M <= 2 ^ 53 -> -1074 <= e <= 970 -> double_value ((M # 1) * (2 # 1) ^ e)%Q.
Proof.
  intros HM He. destruct (Z.eq_dec M (2 ^ 53)) as [->|N].
  - exists (2 ^ 52), (e + 1). repeat split; try lia.
    rewrite pow_add. change ((2 # 1) ^ 1)%Q with (2 # 1)%Q.
    assert ((2 ^ 53 # 1) == (2 ^ 52 # 1) * (2 # 1))%Q as -> by (unfold Qeq; cbn; lia). ring.
  - exists M, e. split; [lia|split; [lia|reflexivity]].
Qed.

Lemma nearest_double_spec s a b : 0 <= a -> 0 < b -> ((a # 1) / (b # 1) < (2 # 1) ^ 1000)%Q ->
  exists q, closest_double ((a # 1) / (b # 1)) q /\ float_value (nearest_double s a b) (if s then - q else q)%Q /\
            negative (nearest_double s a b) = Some s.
Proof.
  intros Ha Hb Hx. unfold nearest_double. destruct (Z.leb_spec a 0) as [A0|A0].
  - replace a with 0 by lia. exists 0%Q. split; [split|].
    + exists 0, 0. repeat split; lia.
    + intros z _. assert ((0 # 1) / (b # 1) == 0)%Q as -> by (unfold Qdiv; ring).
      assert (0 - 0 == 0)%Q as -> by ring. apply Qabs_nonneg.
    + split; [|reflexivity]. split; [left; auto|]. destruct s; reflexivity.
  - fold (floor_log a b). cbv zeta. set (fl := floor_log a b). set (e := Z.max (-1074) (fl - 52)).
    set (M := round_scaled a b (- e)).
    pose proof (floor_log_spec a b A0 Hb) as [F1 F2]. fold fl in F1, F2. set (x := ((a # 1) / (b # 1))%Q) in *.
    assert (closest_integer (x * (2 # 1) ^ (- e)) M) as C.
    { apply closest_of_half. apply round_scaled_half. exact Hb. }
    assert (fl < 1000) as Hfl.
    { destruct (Z.lt_ge_cases fl 1000) as [|G]; [assumption|]. exfalso.
      apply (Qlt_irrefl ((2 # 1) ^ 1000)). apply Qle_lt_trans with x; [|exact Hx].
      apply Qle_trans with ((2 # 1) ^ fl)%Q; [apply pow_le; lia|exact F1]. }
    assert (-1074 <= e <= 970) as He by (unfold e; lia).
    assert (0 <= M) as M0 by (apply round_scaled_nonneg; lia).
    assert (M <= 2 ^ 53) as M1.
    { specialize (C (2 ^ 53)).
      assert (x * (2 # 1) ^ (- e) < (2 ^ 53 # 1))%Q as U.
      { apply Qlt_le_trans with ((2 # 1) ^ (fl + 1) * (2 # 1) ^ (- e))%Q.
        - apply Qmult_lt_r; [apply pow_pos|exact F2].
        - rewrite <- pow_add. rewrite <- (pow_Z 53) by lia. apply pow_le. unfold e. lia. }
      destruct (Z.le_gt_cases M (2 ^ 53)) as [|G]; [assumption|]. exfalso.
      assert ((2 ^ 53 # 1) + 1 <= (M # 1))%Q as G' by (unfold Qle; cbn; lia).
      set (y := (x * (2 # 1) ^ (- e))%Q) in *. set (b53 := (2 ^ 53 # 1)%Q) in *. set (qM := (M # 1)%Q) in *.
      rewrite (Qabs_pos (qM - y)), (Qabs_pos (b53 - y)) in C by lra. lra. }
    assert ((2 ^ 53 <=? M * 2 ^ (e - 971)) && (971 <=? e) = false) as ->.
    { destruct (Z.leb_spec 971 e); [lia|]. apply andb_false_r. }
    exists ((M # 1) * (2 # 1) ^ e)%Q. split; [split|split].
    + apply double_of_le; lia.
    + apply (grid_is_double x e M C); [lia|].
      destruct (Z.max_spec (-1074) (fl - 52)) as [[? Em]|[? Em]]; fold e in Em; [right|left; exact Em].
      replace (e + 52) with fl by lia. exact F1.
    + pose proof (make_float_value s M e M0) as V. destruct (make_float_fin s M e) as (m' & e' & Ef & _). rewrite Ef in *.
      cbn in V |- *. destruct V as [Lo V]. split; [exact Lo|]. rewrite <- V. unfold dyadic. destruct s; [|reflexivity].
      setoid_replace (- M # 1)%Q with (- (M # 1))%Q by reflexivity. ring.
    + apply make_float_sign. exact M0.
Qed.

Lemma closest_integer_opp x k : closest_integer x k -> closest_integer (- x) (- k).
Proof.
  intros H j. specialize (H (- j)).
  assert (forall i : Z, Qabs ((- i # 1) - - x) == Qabs ((i # 1) - x))%Q as S.
  { intros i. rewrite <- Qabs_opp. apply Qabs_wd. setoid_replace (- i # 1)%Q with (- (i # 1))%Q by reflexivity. ring. }
  rewrite S. rewrite <- (Z.opp_involutive j) at 1. rewrite S. exact H.
Qed.
Lemma rounds_to_opp x k : rounds_to x k -> rounds_to (- x) (- k).
Proof.
  intros [C V]. split; [apply closest_integer_opp, C|]. intros j N H. rewrite Z.even_opp. apply (V (- j)); [lia|].
  assert (forall i : Z, Qabs ((- i # 1) - - x) == Qabs ((i # 1) - x))%Q as S.
  { intros i. rewrite <- Qabs_opp. apply Qabs_wd. setoid_replace (- i # 1)%Q with (- (i # 1))%Q by reflexivity. ring. }
  rewrite S in H. rewrite <- (Z.opp_involutive j) in H. rewrite S in H. exact H.
Qed.
Lemma double_value_opp q : double_value q -> double_value (- q).
Proof. intros (M & E & HM & HE & Hq). exists (- M), E. repeat split; try lia. rewrite Hq. setoid_replace (- M # 1)%Q with (- (M # 1))%Q by reflexivity. ring. Qed.
Lemma closest_double_opp x q : closest_double x q -> closest_double (- x) (- q).
Proof.
  intros [D C]. split; [apply double_value_opp, D|]. intros z Hz. specialize (C (- z)%Q (double_value_opp _ Hz)).
  setoid_replace (- q - - x)%Q with (- (q - x))%Q by ring. rewrite Qabs_opp.
  setoid_replace (z - - x)%Q with (- (- z - x))%Q by ring. rewrite Qabs_opp. exact C.
Qed.
Lemma closest_double_wd x x' q : (x == x')%Q -> closest_double x q -> closest_double x' q.
Proof. intros E [D C]. split; [exact D|]. intros z Hz. rewrite <- E. apply C, Hz. Qed.
Lemma closest_integer_wd x x' k : (x == x')%Q -> closest_integer x k -> closest_integer x' k.
Proof. intros E C j. rewrite <- E. apply C. Qed.

Lemma round7_rounded s m e : 0 <= m -> ((m # 1) * (2 # 1) ^ e < (2 # 1) ^ 900)%Q -> rounded_to_7 (Fin s m e) (round7 (Fin s m e)).
Proof.
  intros Hm Hx. cbn [rounded_to_7 round7]. set (n := round_scaled (m * 10 ^ 7) 1 e).
  assert (0 <= n) as Hn by (apply round_scaled_nonneg; lia).
  pose proof (round_scaled_half (m * 10 ^ 7) 1 e ltac:(lia)) as HC. fold n in HC.
  assert (((m * 10 ^ 7 # 1) / (1 # 1) * (2 # 1) ^ e == (m # 1) * (2 # 1) ^ e * (10000000 # 1)))%Q as E1.
  { assert ((m * 10 ^ 7 # 1) == (m # 1) * (10000000 # 1))%Q as -> by (unfold Qeq; cbn; lia). unfold Qdiv. rewrite Qmult_1_r. ring. }
  set (y := ((m # 1) * (2 # 1) ^ e)%Q) in *.
  assert (rounds_to (y * (10000000 # 1)) n) as CI.
  { apply rounds_to_wd with (1 := E1). apply round_scaled_rounds. lia. }
  assert ((n # 1) / (10 ^ 7 # 1) < (2 # 1) ^ 1000)%Q as B.
  { apply Qlt_shift_div_r; [reflexivity|].
    apply Qabs_Qle_condition in HC as [_ HC]. rewrite E1 in HC.
    assert ((2 # 1) ^ 900 * (10000000 # 1) + 1 < (2 # 1) ^ 1000 * (10 ^ 7 # 1))%Q as K.
    { rewrite !pow_Z by lia. vm_compute. reflexivity. }
    assert (y * (10000000 # 1) < (2 # 1) ^ 900 * (10000000 # 1))%Q as K2 by (apply Qmult_lt_r; [reflexivity|exact Hx]).
    set (A := ((2 # 1) ^ 900 * (10000000 # 1))%Q) in *. set (C := ((2 # 1) ^ 1000 * (10 ^ 7 # 1))%Q) in *.
    set (u := (y * (10000000 # 1))%Q) in *. set (v := (n # 1)%Q) in *. clearbody A C u v.
    apply Qlt_trans with (2 := K). apply Qle_lt_trans with (u + (1 # 2))%Q; lra. }
  destruct (nearest_double_spec s n (10 ^ 7) Hn ltac:(lia) B) as (q & CD & FV & SG).
  assert ((n # 1) / (10 ^ 7 # 1) == (n # 10000000))%Q as E2 by (symmetry; apply Qmake_Qdiv).
  destruct s.
  - exists (- n), (- q)%Q. split; [|split; [|split; [exact FV|exact SG]]].
    + apply rounds_to_wd with (- (y * (10000000 # 1)))%Q; [|apply rounds_to_opp, CI].
      unfold dyadic, y. setoid_replace (- m # 1)%Q with (- (m # 1))%Q by reflexivity. ring.
    + apply closest_double_wd with (- ((n # 1) / (10 ^ 7 # 1)))%Q; [|apply closest_double_opp, CD].
      rewrite E2. reflexivity.
  - exists n, q. split; [|split; [|split; [exact FV|exact SG]]].
    + exact CI.
    + apply closest_double_wd with (1 := E2). exact CD.
Qed.

(** every decoded single is within the range of the previous lemma *)
Lemma make_float_bound s m e B : 0 <= m -> ((m # 1) * (2 # 1) ^ e < B)%Q -> forall m' e', make_float s m e = Fin s m' e' ->
  0 <= m' /\ ((m' # 1) * (2 # 1) ^ e' < B)%Q.
Proof.
  intros Hm HB m' e' E. destruct (make_float_fin s m e) as (a & b & E' & P). rewrite E in E'. inversion E'; subst a b. split; [exact P|].
  pose proof (make_float_value s m e Hm) as V. rewrite E in V. cbn in V. destruct V as [_ V]. unfold dyadic in V.
  assert ((m' # 1) * (2 # 1) ^ e' == (m # 1) * (2 # 1) ^ e)%Q as EQ; [|rewrite EQ; exact HB].
  destruct s; [|symmetry; exact V].
  setoid_replace (- m # 1)%Q with (- (m # 1))%Q in V by reflexivity.
  setoid_replace (- m' # 1)%Q with (- (m' # 1))%Q in V by reflexivity. lra.
Qed.
Lemma decode_single_round n : 0 <= n < 2 ^ 32 -> rounded_to_7 (decode_float 8 23 n) (round7 (decode_float 8 23 n)).
Proof.
  intros Hn. assert (forall s m e, 0 <= m < 2 ^ 24 -> e <= 104 -> rounded_to_7 (make_float s m e) (round7 (make_float s m e))) as K.
  { intros s m e Hm He. destruct (make_float_fin s m e) as (m' & e' & E & _).
    destruct (make_float_bound s m e ((2 # 1) ^ 900) ltac:(lia)) with (m' := m') (e' := e') as [P Q']; [|exact E|].
    - apply Qlt_le_trans with ((2 # 1) ^ 24 * (2 # 1) ^ e)%Q.
      + apply Qmult_lt_r; [apply pow_pos|]. rewrite pow_Z by lia. unfold Qlt; cbn; lia.
      + rewrite <- pow_add. apply pow_le. lia.
    - rewrite E. apply round7_rounded; assumption. }
  unfold decode_float. rewrite !mask_mod by lia.
  pose proof (Z.mod_pos_bound n (2 ^ 23) ltac:(lia)) as HF.
  pose proof (Z.mod_pos_bound (Z.shiftr n 23) (2 ^ 8) ltac:(lia)) as HE.
  destruct (_ =? 2 ^ 8 - 1) eqn:E1; [destruct (_ =? 0); reflexivity|]. apply Z.eqb_neq in E1.
  destruct (_ =? 0) eqn:E0; apply K; cbn in *; lia.
Qed.
