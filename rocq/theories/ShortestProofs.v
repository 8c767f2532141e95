(** Proofs that [str] of a float is the shortest decimal that is read back as it. *)
From Coq Require Import Lia QArith Qabs Qpower Lqa.
From Verif Require Import PyFacts PyFloat ParamLang Schema PyText SpecParameters SpecSchema SpecText TextProofs FloatProofs SpecNumeral NumeralProofs RoundProofs ReadProofs Json SpecJson JsonProofs SpecGrammar GrammarProofs SpecShortest.
Open Scope list_scope.
Open Scope Z_scope.

Lemma ten_pos k : (0 < (10 # 1) ^ k)%Q. Proof. apply Qpower_0_lt. reflexivity. Qed.
Lemma ten_add a b : ((10 # 1) ^ (a + b) == (10 # 1) ^ a * (10 # 1) ^ b)%Q. Proof. apply Qpower_plus. discriminate. Qed.
Lemma ten_le a b : a <= b -> ((10 # 1) ^ a <= (10 # 1) ^ b)%Q.
Proof.
  intros H. replace b with (a + (b - a)) by lia. rewrite ten_add, (ten_pow (b - a)) by lia. pose proof (ten_pos a) as P.
  assert (1 <= (10 ^ (b - a) # 1))%Q as L by (unfold Qle; cbn; pose proof (Z.pow_pos_nonneg 10 (b - a)); lia). nra.
Qed.

(** ** reading back is convex *)
Lemma nearest_between y v g : nearest y v -> (y <= g <= v \/ v <= g <= y)%Q -> nearest g v.
Proof.
  intros [[D C] T] B.
  assert (Qabs (v - g) == Qabs (v - y) - Qabs (g - y))%Q as S.
  { destruct B as [[B1 B2]|[B1 B2]].
    - rewrite !Qabs_pos by lra. ring.
    - rewrite !Qabs_neg by lra. ring. }
  assert (forall z, (Qabs (z - y) <= Qabs (z - g) + Qabs (g - y))%Q) as Tri.
  { intros z. setoid_replace (z - y)%Q with ((z - g) + (g - y))%Q by ring. apply Qabs_triangle. }
  split; [split; [exact D|]|].
  - intros z Z. specialize (C z Z). specialize (Tri z). lra.
  - intros z Z N E. apply T; [exact Z|exact N|]. specialize (C z Z). specialize (Tri z). lra.
Qed.
Lemma back_between v y g : (v < too_large)%Q -> read_back v y -> (y <= g <= v \/ v <= g <= y)%Q -> read_back v g.
Proof.
  intros L [Ly N] B. split; [|eapply nearest_between; eassumption]. destruct B as [[_ B]|[_ B]]; lra.
Qed.
Lemma back_wd v v' g g' : (v == v')%Q -> (g == g')%Q -> read_back v g -> read_back v' g'.
Proof.
  intros Ev Eg [L [[(M & E & HM & HE & V) C] T]]. split; [rewrite <- Eg; exact L|]. split; [split|].
  - exists M, E. rewrite <- Ev. auto.
  - intros z Z. rewrite <- Ev, <- Eg. apply C, Z.
  - intros z Z N A. destruct (T z Z) as [k K]; [rewrite Ev; exact N|rewrite Ev, Eg; exact A|]. exists k. rewrite <- Ev at 1. rewrite K. rewrite Ev. reflexivity.
Qed.

(** ** two doubles are not too close *)
Lemma double_gap v z : double_value v -> double_value z -> (0 < v)%Q -> ~ (z == v)%Q -> (v / (2 ^ 53 # 1) <= Qabs (z - v))%Q.
Proof.
  intros (M & E & HM & _ & V) (M' & E' & HM' & _ & V') P N. set (B := 2 ^ 53) in *. assert (0 < B) as PB by reflexivity.
  destruct (Z.le_gt_cases E E') as [L|L].
  - (* on the grid of v *)
    set (j := M' * 2 ^ (E' - E) - M).
    assert (z - v == (j # 1) * (2 # 1) ^ E)%Q as Ez.
    { rewrite V, V'. replace E' with (E + (E' - E)) at 1 by lia. rewrite pow_add, (pow_Z (E' - E)) by lia. unfold j.
      rewrite <- minus_int, <- times_int. ring. }
    assert (j <> 0) as Nj. { intros J. apply N. rewrite J in Ez. assert (z - v == 0)%Q by (rewrite Ez; ring). lra. }
    rewrite Ez, Qabs_Qmult, Qabs_Z, (Qabs_pos ((2 # 1) ^ E)) by (apply Qlt_le_weak, FloatProofs.pow_pos).
    apply Qle_shift_div_r; [unfold Qlt; cbn; lia|]. rewrite V. pose proof (FloatProofs.pow_pos E) as PE.
    assert ((M # 1) <= (B # 1))%Q as A1 by (apply int_le_Q; lia). assert (1 <= (Z.abs j # 1))%Q as A2 by (unfold Qle; cbn; lia).
    assert ((M # 1) * (2 # 1) ^ E <= (B # 1) * (2 # 1) ^ E)%Q as A3 by (apply Qmult_le_compat_r; [exact A1|lra]).
    assert ((1 * (2 # 1) ^ E) * (B # 1) <= ((Z.abs j # 1) * (2 # 1) ^ E) * (B # 1))%Q as A4.
    { apply Qmult_le_compat_r; [|unfold Qle; cbn; lia]. apply Qmult_le_compat_r; [exact A2|lra]. }
    lra.
  - set (W := M * 2 ^ (E - E')). assert (0 < 2 ^ (E - E')) as PW by (apply Z.pow_pos_nonneg; lia).
    assert (v == (W # 1) * (2 # 1) ^ E')%Q as Ev.
    { rewrite V. replace E with (E' + (E - E')) at 1 by lia. rewrite pow_add, (pow_Z (E - E')) by lia. unfold W. rewrite <- times_int. ring. }
    assert (z - v == (M' - W # 1) * (2 # 1) ^ E')%Q as Ez by (rewrite V', Ev, <- minus_int; ring).
    assert (M' <> W) as Nj. { intros J. apply N. rewrite J, Z.sub_diag in Ez. assert (z - v == 0)%Q by (rewrite Ez; ring). lra. }
    rewrite Ez, Qabs_Qmult, Qabs_Z, (Qabs_pos ((2 # 1) ^ E')) by (apply Qlt_le_weak, FloatProofs.pow_pos).
    apply Qle_shift_div_r; [unfold Qlt; cbn; lia|]. rewrite Ev. pose proof (FloatProofs.pow_pos E') as PE.
    assert (W <= Z.abs (M' - W) * B) as K by (clearbody W B; nia).
    apply int_le_Q in K. rewrite <- times_int in K.
    assert ((W # 1) * (2 # 1) ^ E' <= ((Z.abs (M' - W) # 1) * (B # 1)) * (2 # 1) ^ E')%Q as A3 by (apply Qmult_le_compat_r; [exact K|lra]).
    lra.
Qed.
Lemma near_reads v g : double_value v -> (0 < v)%Q -> (2 * Qabs (g - v) < v / (2 ^ 53 # 1))%Q -> read_back v g.
Proof.
  intros D P H. split.
  - destruct D as (M & E & HM & HE & V).
    assert (v <= (2 # 1) ^ 1024 - (2 # 1) ^ 971)%Q as L.
    { rewrite V. assert ((M # 1) <= (2 ^ 53 - 1 # 1))%Q as A by (apply int_le_Q; lia).
      assert ((2 # 1) ^ E <= (2 # 1) ^ 971)%Q as B by (apply pow_le; lia). pose proof (FloatProofs.pow_pos E) as PE.
      assert ((2 # 1) ^ 1024 - (2 # 1) ^ 971 == (2 ^ 53 - 1 # 1) * (2 # 1) ^ 971)%Q as -> by (vm_compute; reflexivity).
      apply Qle_trans with ((2 ^ 53 - 1 # 1) * (2 # 1) ^ E)%Q; [apply Qmult_le_compat_r; [exact A|lra]|].
      rewrite !(Qmult_comm (2 ^ 53 - 1 # 1)). apply Qmult_le_compat_r; [exact B|discriminate]. }
    rewrite is_too_large.
    assert (v / (2 ^ 53 # 1) <= (2 # 1) ^ 971)%Q as K.
    { apply Qle_shift_div_r; [reflexivity|]. eapply Qle_trans; [exact L|]. vm_compute. discriminate. }
    pose proof (Qle_Qabs (g - v)) as A.
    assert ((2 # 1) ^ 971 == 2 * (2 # 1) ^ 970)%Q as E1 by (vm_compute; reflexivity).
    set (x := ((2 # 1) ^ 1024)%Q) in *. set (y := ((2 # 1) ^ 971)%Q) in *. set (w := ((2 # 1) ^ 970)%Q) in *. clearbody x y w.
    set (q := (v / (2 ^ 53 # 1))%Q) in *. clearbody q. lra.
  - assert (forall z, double_value z -> ~ (z == v)%Q -> (Qabs (v - g) < Qabs (z - g))%Q) as K.
    { intros z Z N. pose proof (double_gap v z D Z P N) as G. set (q := (v / (2 ^ 53 # 1))%Q) in *. clearbody q.
      assert (Qabs (z - v) <= Qabs (z - g) + Qabs (g - v))%Q as T by (setoid_replace (z - v)%Q with ((z - g) + (g - v))%Q by ring; apply Qabs_triangle).
      rewrite (Qabs_Qminus v g). lra. }
    split; [split; [exact D|]|].
    + intros z Z. destruct (Qeq_dec z v) as [E|N]; [rewrite E; lra|]. apply Qlt_le_weak, K; assumption.
    + intros z Z N E. specialize (K z Z N). lra.
Qed.

(** ** the model's search *)
Lemma float_eqb_refl x : float_eqb x x = true.
Proof. destruct x as [|s|s m e]; cbn; [reflexivity|apply eqb_reflx|]. rewrite eqb_reflx, !Z.eqb_refl. reflexivity. Qed.
Lemma reads_iff m e D k : 0 < m -> double_value (dyadic false m e) -> 0 <= D ->
  float_eqb (decimal_float false D k) (make_float false m e) = true <-> read_back (dyadic false m e) (decimal_number D k).
Proof.
  intros Hm Dv HD. set (v := dyadic false m e) in *. set (f := make_float false m e).
  assert (float_value f v) as F by (apply make_float_value; lia). assert (negative f = Some false) as Sg by (apply make_float_sign; lia).
  transitivity (rounds_to_float false (decimal_number D k) f).
  - unfold decimal_number. rewrite (decimal_float_iff false D k f HD). split; [intros E; symmetry; apply float_eqb_eq, E|intros ->; apply float_eqb_refl].
  - split.
    + intros [[_ E]|(L & _ & y & N & V)]; [rewrite E in F; destruct F|]. apply (back_wd y v (decimal_number D k) (decimal_number D k)); [|reflexivity|split; assumption].
      destruct f as [|?|s m' e']; [destruct F..|]. destruct F as [_ F], V as [_ V]. rewrite F, V. reflexivity.
    + intros [L N]. right. split; [exact L|]. split; [exact Sg|]. exists v. auto.
Qed.
Lemma ratio_v m e : 0 < m -> 0 < numerator m e /\ 0 < denominator e /\ (dyadic false m e == (numerator m e # 1) / (denominator e # 1))%Q.
Proof.
  intros Hm. unfold numerator, denominator, dyadic. destruct (Z.leb_spec 0 e) as [H|H].
  - assert (0 < 2 ^ e) by (apply Z.pow_pos_nonneg; lia). split; [nia|]. split; [lia|]. rewrite pow_Z by exact H. rewrite times_int. field.
  - assert (0 < 2 ^ (- e)) by (apply Z.pow_pos_nonneg; lia). split; [lia|]. split; [lia|].
    rewrite <- (pow_Z (- e)) by lia. unfold Qdiv. rewrite <- Qpower_opp, Z.opp_involutive. reflexivity.
Qed.
Lemma reaches_iff a b p : 0 < a -> 0 < b -> reaches a b p = true <-> ((10 # 1) ^ p <= (a # 1) / (b # 1))%Q.
Proof.
  intros Ha Hb. assert (0 < (b # 1))%Q as Pb by (unfold Qlt; cbn; lia). unfold reaches. destruct (Z.leb_spec 0 p) as [H|H]; rewrite Z.leb_le, <- int_le_Q.
  - rewrite <- times_int, <- ten_pow by exact H. split; intros K.
    + apply Qle_shift_div_l; [exact Pb|]. rewrite Qmult_comm. exact K.
    + apply (Qmult_le_compat_r _ _ (b # 1)) in K; [|lra]. setoid_replace ((a # 1) / (b # 1) * (b # 1))%Q with (a # 1)%Q in K by (field; lra). rewrite Qmult_comm. exact K.
  - rewrite <- times_int, <- (ten_pow (- p)) by lia. pose proof (ten_pos p) as Pp. pose proof (ten_pos (- p)) as Pn.
    assert ((10 # 1) ^ p * (10 # 1) ^ (- p) == 1)%Q as O by (rewrite <- ten_add; replace (p + - p) with 0 by lia; reflexivity).
    set (x := ((10 # 1) ^ p)%Q) in *. set (y := ((10 # 1) ^ (- p))%Q) in *. clearbody x y. split; intros K.
    + apply Qle_shift_div_l; [exact Pb|]. apply (Qmult_le_compat_r _ _ x) in K; [|lra].
      setoid_replace ((a # 1) * y * x)%Q with ((a # 1) * (x * y))%Q in K by ring. rewrite O in K. lra.
    + apply (Qmult_le_compat_r _ _ (b # 1)) in K; [|lra]. setoid_replace ((a # 1) / (b # 1) * (b # 1))%Q with (a # 1)%Q in K by (field; lra).
      apply (Qmult_le_compat_r _ _ y) in K; [|lra]. setoid_replace (x * (b # 1) * y)%Q with ((b # 1) * (x * y))%Q in K by ring. rewrite O in K. lra.
Qed.
(** the estimate of the logarithm, for all exponents of a double *)
Definition estimate (L : Z) : Z := (L - 1) * 30103 / 100000.
Lemma root_le a b k : 0 < k -> 0 <= b -> a ^ k <= b ^ k -> a <= b.
Proof. intros K B H. destruct (Z.le_gt_cases a b) as [L|L]; [exact L|]. pose proof (Z.pow_lt_mono_l b a k K ltac:(lia)). lia. Qed.
Lemma ten_59 : 10 ^ 59 <= 2 ^ 196. Proof. apply Z.leb_le. vm_compute. reflexivity. Qed.
Lemma ten_146 : 2 ^ 485 <= 10 ^ 146. Proof. apply Z.leb_le. vm_compute. reflexivity. Qed.
Lemma tens_twos_Z p l : 0 <= p -> 0 <= l -> 196 * p <= 59 * l -> 10 ^ p <= 2 ^ l.
Proof.
  intros P L H. apply (root_le _ _ 59); [lia|apply Z.pow_nonneg; lia|].
  rewrite <- !Z.pow_mul_r, (Z.mul_comm p), (Z.mul_comm l), (Z.pow_mul_r 10 59) by lia.
  apply Z.le_trans with ((2 ^ 196) ^ p); [apply Z.pow_le_mono_l; split; [apply Z.pow_nonneg; lia|exact ten_59]|].
  rewrite <- Z.pow_mul_r by lia. apply Z.pow_le_mono_r; lia.
Qed.
Lemma twos_tens_Z p l : 0 <= p -> 0 <= l -> 146 * l <= 485 * p -> 2 ^ l <= 10 ^ p.
Proof.
  intros P L H. apply (root_le _ _ 485); [lia|apply Z.pow_nonneg; lia|].
  rewrite <- !Z.pow_mul_r, (Z.mul_comm p), (Z.mul_comm l), (Z.pow_mul_r 2 485) by lia.
  apply Z.le_trans with ((10 ^ 146) ^ l); [apply Z.pow_le_mono_l; split; [apply Z.pow_nonneg; lia|exact ten_146]|].
  rewrite <- Z.pow_mul_r by lia. apply Z.pow_le_mono_r; lia.
Qed.
Lemma tens_twos p l : 196 * p <= 59 * l -> 485 * p <= 146 * l -> ((10 # 1) ^ p <= (2 # 1) ^ l)%Q.
Proof.
  intros H1 H2. destruct (Z.le_gt_cases 0 p) as [P|P].
  - rewrite ten_pow, pow_Z, int_le_Q by lia. apply tens_twos_Z; lia.
  - destruct (Z.le_gt_cases 0 l) as [L|L].
    + apply Qle_trans with 1%Q; [apply (ten_le p 0); lia|apply (pow_le 0 l); lia].
    + pose proof (twos_tens_Z (- p) (- l) ltac:(lia) ltac:(lia) ltac:(lia)) as K. rewrite <- int_le_Q, <- ten_pow, <- pow_Z in K by lia.
      assert ((10 # 1) ^ p * (10 # 1) ^ (- p) == 1)%Q as O1 by (rewrite <- ten_add; replace (p + - p) with 0 by lia; reflexivity).
      assert ((2 # 1) ^ l * (2 # 1) ^ (- l) == 1)%Q as O2 by (rewrite <- pow_add; replace (l + - l) with 0 by lia; reflexivity).
      pose proof (ten_pos p) as P1. pose proof (FloatProofs.pow_pos l) as P2.
      set (x := ((10 # 1) ^ p)%Q) in *. set (x' := ((10 # 1) ^ (- p))%Q) in *. set (y := ((2 # 1) ^ l)%Q) in *. set (y' := ((2 # 1) ^ (- l))%Q) in *. clearbody x x' y y'.
      apply (Qmult_le_compat_r _ _ (x * y)) in K; [|nra].
      setoid_replace (y' * (x * y))%Q with (x * (y * y'))%Q in K by ring. setoid_replace (x' * (x * y))%Q with (y * (x * x'))%Q in K by ring.
      rewrite O1, O2, !Qmult_1_r in K. exact K.
Qed.
Lemma twos_tens l p : 59 * l <= 196 * p -> 146 * l <= 485 * p -> ((2 # 1) ^ l <= (10 # 1) ^ p)%Q.
Proof.
  intros H1 H2. pose proof (tens_twos (- p) (- l) ltac:(lia) ltac:(lia)) as K.
  assert ((10 # 1) ^ p * (10 # 1) ^ (- p) == 1)%Q as O1 by (rewrite <- ten_add; replace (p + - p) with 0 by lia; reflexivity).
  assert ((2 # 1) ^ l * (2 # 1) ^ (- l) == 1)%Q as O2 by (rewrite <- pow_add; replace (l + - l) with 0 by lia; reflexivity).
  pose proof (ten_pos p) as P1. pose proof (FloatProofs.pow_pos l) as P2.
  set (x := ((10 # 1) ^ p)%Q) in *. set (x' := ((10 # 1) ^ (- p))%Q) in *. set (y := ((2 # 1) ^ l)%Q) in *. set (y' := ((2 # 1) ^ (- l))%Q) in *. clearbody x x' y y'.
  apply (Qmult_le_compat_r _ _ (x * y)) in K; [|nra].
  setoid_replace (y' * (x * y))%Q with (x * (y * y'))%Q in K by ring. setoid_replace (x' * (x * y))%Q with (y * (x * x'))%Q in K by ring.
  rewrite O1, O2, !Qmult_1_r in K. exact K.
Qed.
Lemma estimate_ok L : -1075 <= L < 1125 -> ((10 # 1) ^ (estimate L) <= (2 # 1) ^ L)%Q /\ ((2 # 1) ^ (L + 1) <= (10 # 1) ^ (estimate L + 3))%Q.
Proof.
  intros H. unfold estimate. pose proof (Z.div_mod ((L - 1) * 30103) 100000 ltac:(lia)) as D. pose proof (Z.mod_pos_bound ((L - 1) * 30103) 100000 ltac:(lia)) as M.
  split; [apply tens_twos|apply twos_tens]; lia.
Qed.
Lemma exponent_range m e : 0 < m -> double_value (dyadic false m e) -> -1075 <= Z.log2 m + e < 1125.
Proof.
  intros Hm Dv. destruct (double_mantissa m e Hm Dv) as (M & E & HM & HE & V).
  destruct (Z.log2_spec m Hm) as [L1 L2]. pose proof (Z.log2_nonneg m) as L0. set (l := Z.log2 m) in *.
  assert ((2 # 1) ^ (l + e) <= (m # 1) * (2 # 1) ^ e)%Q as A.
  { rewrite pow_add, (pow_Z l) by lia. apply Qmult_le_compat_r; [apply int_le_Q; lia|apply Qlt_le_weak, FloatProofs.pow_pos]. }
  assert ((m # 1) * (2 # 1) ^ e < (2 # 1) ^ (l + 1 + e))%Q as B.
  { rewrite pow_add, (pow_Z (l + 1)) by lia. apply Qmult_lt_r; [apply FloatProofs.pow_pos|apply int_lt_Q; lia]. }
  assert ((M # 1) * (2 # 1) ^ E < (2 # 1) ^ 1024)%Q as C.
  { apply Qlt_le_trans with ((2 ^ 53 # 1) * (2 # 1) ^ E)%Q; [apply Qmult_lt_r; [apply FloatProofs.pow_pos|apply int_lt_Q; lia]|].
    rewrite <- (pow_Z 53), <- pow_add by lia. apply pow_le. lia. }
  assert ((2 # 1) ^ (-1074) <= (M # 1) * (2 # 1) ^ E)%Q as D.
  { apply Qle_trans with ((1 # 1) * (2 # 1) ^ E)%Q; [|apply Qmult_le_compat_r; [apply int_le_Q; lia|apply Qlt_le_weak, FloatProofs.pow_pos]].
    rewrite Qmult_1_l. apply pow_le. lia. }
  rewrite <- V in C, D. split.
  - destruct (Z.le_gt_cases (l + 1 + e) (-1074)) as [K|K]; [|lia]. apply pow_le in K. exfalso. eapply Qlt_irrefl, Qlt_le_trans; [exact B|]. eapply Qle_trans; [exact K|exact D].
  - destruct (Z.le_gt_cases 1024 (l + e)) as [K|K]; [|lia]. apply pow_le in K. exfalso. eapply Qlt_irrefl, Qlt_le_trans; [exact C|]. eapply Qle_trans; [exact K|exact A].
Qed.
Lemma floor_log10_ok m e (p := floor_log10 (numerator m e) (denominator e)) : 0 < m -> double_value (dyadic false m e) ->
  ((10 # 1) ^ p <= dyadic false m e)%Q /\ (dyadic false m e < (10 # 1) ^ (p + 1))%Q.
Proof.
  intros Hm Dv. destruct (ratio_v m e Hm) as (Pa & Pb & R). pose proof (exponent_range m e Hm Dv) as Rg.
  assert (Z.log2 (numerator m e) - Z.log2 (denominator e) = Z.log2 m + e) as LL.
  { unfold numerator, denominator. destruct (Z.leb_spec 0 e).
    - rewrite Z.log2_mul_pow2 by lia. change (Z.log2 1) with 0. lia.
    - rewrite Z.log2_pow2 by lia. lia. }
  destruct (estimate_ok _ Rg) as [K1 K2].
  assert ((2 # 1) ^ (Z.log2 m + e) <= dyadic false m e)%Q as A1.
  { destruct (Z.log2_spec m Hm) as [L1 L2]. pose proof (Z.log2_nonneg m). unfold dyadic. rewrite pow_add, (pow_Z (Z.log2 m)) by lia. apply Qmult_le_compat_r; [apply int_le_Q; lia|apply Qlt_le_weak, FloatProofs.pow_pos]. }
  assert (dyadic false m e < (2 # 1) ^ (Z.log2 m + e + 1))%Q as A2.
  { destruct (Z.log2_spec m Hm) as [L1 L2]. pose proof (Z.log2_nonneg m). unfold dyadic. replace (Z.log2 m + e + 1) with (Z.succ (Z.log2 m) + e) by lia. rewrite pow_add, (pow_Z (Z.succ (Z.log2 m))) by lia.
    apply Qmult_lt_r; [apply FloatProofs.pow_pos|apply int_lt_Q; lia]. }
  subst p. unfold floor_log10. rewrite LL. fold (estimate (Z.log2 m + e)). set (q := estimate (Z.log2 m + e)) in *. cbv zeta.
  set (v := dyadic false m e) in *. clearbody q. clearbody v.
  destruct (reaches _ _ (q + 1)) eqn:R1; [destruct (reaches _ _ (q + 2)) eqn:R2|].
  - apply (reaches_iff _ _ _ Pa Pb) in R2. rewrite <- R in R2. split; [exact R2|]. replace (q + 2 + 1) with (q + 3) by lia. eapply Qlt_le_trans; eassumption.
  - apply (reaches_iff _ _ _ Pa Pb) in R1. rewrite <- R in R1. split; [exact R1|]. replace (q + 1 + 1) with (q + 2) by lia.
    apply Qnot_le_lt. intros H. rewrite R in H. apply (reaches_iff _ _ _ Pa Pb) in H. congruence.
  - split; [eapply Qle_trans; eassumption|]. apply Qnot_le_lt. intros H. rewrite R in H. apply (reaches_iff _ _ _ Pa Pb) in H. congruence.
Qed.
Lemma neighbours_spec a b k (v := ((a # 1) / (b # 1))%Q) : 0 < a -> 0 < b -> exists lo x y, neighbours a b k = [x; y] /\
  ((x = lo /\ y = lo + 1) \/ (x = lo + 1 /\ y = lo)) /\ 0 <= lo /\ (decimal_number lo k <= v)%Q /\ (v < decimal_number (lo + 1) k)%Q /\
  (Qabs (decimal_number x k - v) <= Qabs (decimal_number y k - v))%Q /\
  ((Qabs (decimal_number x k - v) == Qabs (decimal_number y k - v))%Q -> Z.even x = true).
Proof.
  intros Ha Hb. unfold neighbours. set (num := if 0 <=? k then a else a * 10 ^ (- k)). set (den := if 0 <=? k then b * 10 ^ k else b).
  assert (0 < num /\ 0 < den /\ (v == (num # 1) / (den # 1) * (10 # 1) ^ k)%Q) as (Pn & Pd & V).
  { subst num den v. assert (~ (b # 1) == 0)%Q as Nb by (intros E; unfold Qeq in E; cbn in E; lia). destruct (Z.leb_spec 0 k) as [K|K].
    - assert (0 < 10 ^ k) by (apply Z.pow_pos_nonneg; lia). split; [lia|]. split; [nia|]. rewrite <- times_int, <- ten_pow by exact K. field. split; [pose proof (ten_pos k); lra|exact Nb].
    - assert (0 < 10 ^ (- k)) by (apply Z.pow_pos_nonneg; lia). split; [nia|]. split; [lia|]. rewrite <- times_int, <- (ten_pow (- k)) by lia.
      assert ((10 # 1) ^ (- k) * (10 # 1) ^ k == 1)%Q as O by (rewrite <- ten_add; replace (- k + k) with 0 by lia; reflexivity).
      setoid_replace ((a # 1) * (10 # 1) ^ (- k) / (b # 1) * (10 # 1) ^ k)%Q with ((a # 1) / (b # 1) * ((10 # 1) ^ (- k) * (10 # 1) ^ k))%Q by (field; exact Nb). rewrite O. ring. }
  clearbody num den v. clear a b Ha Hb. pose proof (Z.div_mod num den ltac:(lia)) as DM. pose proof (Z.mod_pos_bound num den Pd) as MB.
  set (lo := num / den) in *. set (r := num mod den) in *.
  assert (0 <= lo) as L0 by (apply Z.div_pos; lia). clearbody lo r. pose proof (ten_pos k) as P10. set (s := ((10 # 1) ^ k)%Q) in *.
  assert (0 < (den # 1))%Q as PQ by (unfold Qlt; cbn; lia).
  assert (v == decimal_number lo k + (r # 1) / (den # 1) * s)%Q as V'.
  { rewrite V. subst num. unfold decimal_number. fold s. assert ((den * lo + r # 1) == (den # 1) * (lo # 1) + (r # 1))%Q as -> by (unfold Qeq; cbn; lia). field. lra. }
  assert (decimal_number (lo + 1) k == decimal_number lo k + s)%Q as S1.
  { unfold decimal_number. fold s. assert ((lo + 1 # 1) == (lo # 1) + 1)%Q as -> by (unfold Qeq; cbn; lia). ring. }
  set (f := ((r # 1) / (den # 1))%Q) in *.
  assert (0 <= f)%Q as F0 by (unfold f; apply Qle_shift_div_l; [exact PQ|]; unfold Qle; cbn; lia).
  assert (f < 1)%Q as F1 by (unfold f; apply Qlt_shift_div_r; [exact PQ|]; unfold Qlt; cbn; lia).
  assert (0 <= f * s)%Q as G0 by (apply Qmult_le_0_compat; lra).
  assert (f * s < 1 * s)%Q as G1 by (apply Qmult_lt_r; assumption).
  assert (Qabs (decimal_number lo k - v) == f * s)%Q as D0 by (rewrite Qabs_neg by lra; lra).
  assert (Qabs (decimal_number (lo + 1) k - v) == s - f * s)%Q as D1 by (rewrite Qabs_pos by lra; lra).
  assert (decimal_number lo k <= v)%Q as B0 by lra. assert (v < decimal_number (lo + 1) k)%Q as B1 by lra.
  destruct (Z.compare_spec (2 * r) den) as [C|C|C].
  - assert (f == 1 # 2)%Q as Fh by (unfold f; subst den; unfold Qdiv; apply Qmult_inj_r with (z := (2 * r # 1)%Q); [lra|]; rewrite <- Qmult_assoc, (Qmult_comm (/ _)), Qmult_inv_r by lra; unfold Qeq; cbn; lia).
    rewrite Fh in D0, D1. destruct (Z.even lo) eqn:Ev.
    + exists lo, lo, (lo + 1). split; [reflexivity|]. split; [auto|]. do 3 (split; [assumption|]). split; [rewrite D0, D1; lra|auto].
    + exists lo, (lo + 1), lo. split; [reflexivity|]. split; [auto|]. do 3 (split; [assumption|]). split; [rewrite D0, D1; lra|]. intros _. rewrite Z.even_add, Ev. reflexivity.
  - assert (f < 1 # 2)%Q as Fh by (unfold f; apply Qlt_shift_div_r; [exact PQ|]; unfold Qlt; cbn; lia).
    assert (f * s < (1 # 2) * s)%Q by (apply Qmult_lt_r; assumption).
    exists lo, lo, (lo + 1). split; [reflexivity|]. split; [auto|]. do 3 (split; [assumption|]). split; [rewrite D0, D1; lra|]. rewrite D0, D1. intros E. exfalso. lra.
  - assert (1 # 2 < f)%Q as Fh by (unfold f; apply Qlt_shift_div_l; [exact PQ|]; unfold Qlt; cbn; lia).
    assert ((1 # 2) * s < f * s)%Q by (apply Qmult_lt_r; assumption).
    exists lo, (lo + 1), lo. split; [reflexivity|]. split; [auto|]. do 3 (split; [assumption|]). split; [rewrite D0, D1; lra|]. rewrite D0, D1. intros E. exfalso. lra.
Qed.
(** a decimal with at most n digits, seen from the grid of the decimals with n digits *)
Lemma grid_below v p n lo D k : (decimal_number 1 p <= v)%Q -> 1 <= n -> 0 < D < 10 ^ n ->
  (decimal_number lo (p + 1 - n) <= v)%Q -> (v < decimal_number (lo + 1) (p + 1 - n))%Q ->
  ((decimal_number D k <= v)%Q -> (decimal_number D k <= decimal_number lo (p + 1 - n))%Q) /\
  ((v < decimal_number D k)%Q -> (decimal_number (lo + 1) (p + 1 - n) <= decimal_number D k)%Q).
Proof.
  intros P N HD L1 L2. set (k0 := p + 1 - n) in *. pose proof (ten_pos k0) as P0.
  assert (forall i j, (decimal_number i k0 < decimal_number j k0)%Q -> i < j) as Inj.
  { unfold decimal_number. intros i j H. apply Qmult_lt_r in H; [|exact P0]. apply int_lt_Q, H. }
  assert (forall i j, i <= j -> (decimal_number i k0 <= decimal_number j k0)%Q) as Mon.
  { unfold decimal_number. intros i j H. apply Qmult_le_compat_r; [apply int_le_Q, H|lra]. }
  destruct (Z.le_gt_cases k0 k) as [K|K].
  - assert (decimal_number D k == decimal_number (D * 10 ^ (k - k0)) k0)%Q as E.
    { unfold decimal_number. replace k with (k0 + (k - k0)) at 1 by lia. rewrite ten_add, (ten_pow (k - k0)), <- times_int by lia. ring. }
    rewrite E. split; intros H.
    + apply Mon. assert (D * 10 ^ (k - k0) < lo + 1) by (apply Inj; eapply Qle_lt_trans; eassumption). lia.
    + apply Mon. assert (lo < D * 10 ^ (k - k0)) by (apply Inj; eapply Qle_lt_trans; eassumption). lia.
  - assert (decimal_number D k < decimal_number 1 p)%Q as B.
    { unfold decimal_number. apply Qlt_le_trans with ((10 ^ n # 1) * (10 # 1) ^ k)%Q; [apply Qmult_lt_r; [apply ten_pos|apply int_lt_Q; lia]|].
      rewrite <- ten_pow, <- ten_add, Qmult_1_l by lia. apply ten_le. lia. }
    assert (decimal_number 1 p == decimal_number (10 ^ (n - 1)) k0)%Q as E.
    { unfold decimal_number. rewrite <- ten_pow, <- ten_add, Qmult_1_l by lia. replace (n - 1 + k0) with p by lia. reflexivity. }
    split; intros H; [|exfalso; lra]. apply Qlt_le_weak in B. eapply Qle_trans; [exact B|]. rewrite E. apply Mon.
    assert (10 ^ (n - 1) < lo + 1) by (apply Inj; rewrite <- E; eapply Qle_lt_trans; eassumption). lia.
Qed.
Lemma search_spec x a b p fuel : forall n,
  match search_digits x a b p n fuel with
  | Some (D, k) => exists n', n <= n' < n + Z.of_nat fuel /\ k = p + 1 - n' /\
      find (fun D => float_eqb (decimal_float false D k) x) (neighbours a b k) = Some D /\
      forall i, n <= i < n' -> find (fun D => float_eqb (decimal_float false D (p + 1 - i)) x) (neighbours a b (p + 1 - i)) = None
  | None => forall i, n <= i < n + Z.of_nat fuel -> find (fun D => float_eqb (decimal_float false D (p + 1 - i)) x) (neighbours a b (p + 1 - i)) = None
  end.
Proof.
  induction fuel as [|fuel IH]; intros n; cbn [search_digits]; [intros i H; lia|].
  destruct (find _ _) as [D1|] eqn:F.
  - exists n. split; [lia|]. split; [reflexivity|]. split; [exact F|]. intros i H. lia.
  - specialize (IH (n + 1)). destruct (search_digits x a b p (n + 1) fuel) as [[D k]|].
    + destruct IH as (n' & H & E & Fi & M). exists n'. split; [lia|]. split; [exact E|]. split; [exact Fi|].
      intros i Hi. destruct (Z.eq_dec i n) as [->|]; [exact F|]. apply M. lia.
    + intros i Hi. destruct (Z.eq_dec i n) as [->|]; [exact F|]. apply IH. lia.
Qed.
Lemma strip_tens_spec fuel : forall D k D' k', 0 < D < 10 ^ Z.of_nat fuel -> strip_tens fuel D k = (D', k') ->
  0 < D' /\ D' mod 10 <> 0 /\ (decimal_number D' k' == decimal_number D k)%Q.
Proof.
  induction fuel as [|fuel IH]; intros D k D' k' P E; [change (10 ^ Z.of_nat 0) with 1 in P; lia|]. cbn [strip_tens] in E.
  destruct (Z.eqb_spec (D mod 10) 0) as [M|M]; cbn [andb] in E.
  2:{ injection E as <- <-. split; [lia|]. split; [exact M|reflexivity]. }
  destruct (Z.ltb_spec 0 D); [|lia]. assert (D = 10 * (D / 10)) as Q by (pose proof (Z.div_mod D 10); lia).
  rewrite Nat2Z.inj_succ, Z.pow_succ_r in P by lia. destruct (IH (D / 10) (k + 1) D' k' ltac:(lia) E) as (P' & M' & V). split; [exact P'|]. split; [exact M'|].
  rewrite V. unfold decimal_number. rewrite ten_add. change ((10 # 1) ^ 1)%Q with (10 # 1)%Q.
  rewrite Q at 2. rewrite <- (times_int 10 (D / 10)). ring.
Qed.
Lemma dec_wd D k D' k' : D = D' -> k = k' -> (decimal_number D k == decimal_number D' k')%Q.
Proof. intros -> ->. reflexivity. Qed.
Lemma double_small v : double_value v -> (0 < v)%Q -> (v < too_large)%Q.
Proof.
  intros D P. apply (near_reads v v D P). setoid_replace (v - v)%Q with 0%Q by ring. change (Qabs 0) with 0%Q.
  rewrite Qmult_0_r. apply Qlt_shift_div_l; [reflexivity|]. lra.
Qed.
Section found.
Variables (m e : Z).
Hypotheses (Hm : 0 < m) (Dv : double_value (dyadic false m e)).
Let v := dyadic false m e.
Let x := make_float false m e.
Let a := numerator m e.
Let b := denominator e.
Let p := floor_log10 a b.
Let found n := find (fun D => float_eqb (decimal_float false D (p + 1 - n)) x) (neighbours a b (p + 1 - n)).
Lemma v_pos : (0 < v)%Q.
Proof. unfold v, dyadic. apply Qmult_lt_0_compat; [unfold Qlt; cbn; lia|apply FloatProofs.pow_pos]. Qed.
Lemma v_range : (decimal_number 1 p <= v)%Q /\ (v < decimal_number 1 (p + 1))%Q.
Proof. unfold decimal_number. rewrite !Qmult_1_l. exact (floor_log10_ok m e Hm Dv). Qed.
(** what is found among the neighbours with n digits *)
Lemma found_spec n : 1 <= n ->
  match found n with
  | Some D => 0 < D <= 10 ^ n /\ read_back v (decimal_number D (p + 1 - n)) /\
      forall D' k', 0 < D' < 10 ^ n -> read_back v (decimal_number D' k') ->
        (Qabs (decimal_number D (p + 1 - n) - v) <= Qabs (decimal_number D' k' - v))%Q /\
        (~ (decimal_number D' k' == decimal_number D (p + 1 - n))%Q -> (Qabs (decimal_number D' k' - v) == Qabs (decimal_number D (p + 1 - n) - v))%Q ->
         exists j : Z, (decimal_number D (p + 1 - n) == (2 * j # 1) * Qabs (decimal_number D' k' - decimal_number D (p + 1 - n)))%Q)
  | None => forall D' k', 0 < D' < 10 ^ n -> ~ read_back v (decimal_number D' k')
  end.
Proof.
  intros Hn. destruct (ratio_v m e Hm) as (Pa & Pb & R). fold v a b in R, Pa, Pb. pose proof v_pos as Vp. destruct v_range as [R1 R2].
  pose proof (double_small v Dv Vp) as VL.
  destruct (neighbours_spec a b (p + 1 - n) Pa Pb) as (lo & y1 & y2 & E & C & L0 & B1 & B2 & Dn & Te). rewrite <- R in B1, B2, Dn, Te. set (k := p + 1 - n) in *.
  unfold found. fold k. rewrite E. clear E. cbn [find].
  pose proof (ten_pos k) as Pk.
  assert (1 <= lo < 10 ^ n) as Lo.
  { assert (decimal_number 1 p == decimal_number (10 ^ (n - 1)) k)%Q as E1.
    { unfold decimal_number. rewrite <- ten_pow, <- ten_add, Qmult_1_l by lia. replace (n - 1 + k) with p by lia. reflexivity. }
    assert (decimal_number 1 (p + 1) == decimal_number (10 ^ n) k)%Q as E2.
    { unfold decimal_number. rewrite <- ten_pow, <- ten_add, Qmult_1_l by lia. replace (n + k) with (p + 1) by lia. reflexivity. }
    rewrite E1 in R1. rewrite E2 in R2. pose proof (Z.pow_pos_nonneg 10 (n - 1) ltac:(lia) ltac:(lia)).
    assert (10 ^ (n - 1) < lo + 1) by (apply int_lt_Q; apply Qmult_lt_r with (z := ((10 # 1) ^ k)%Q); [exact Pk|]; eapply Qle_lt_trans; [exact R1|exact B2]).
    assert (lo < 10 ^ n) by (apply int_lt_Q; apply Qmult_lt_r with (z := ((10 # 1) ^ k)%Q); [exact Pk|]; eapply Qle_lt_trans; [exact B1|exact R2]). lia. }
  assert (forall D, 0 < D -> float_eqb (decimal_float false D k) x = true <-> read_back v (decimal_number D k)) as RI by (intros D PD; apply (reads_iff m e D k Hm Dv); lia).
  (* every decimal that is read back is behind a neighbour that is *)
  assert (forall D' k', 0 < D' < 10 ^ n -> read_back v (decimal_number D' k') -> exists y, (y = y1 \/ y = y2) /\ read_back v (decimal_number y k) /\
     (Qabs (decimal_number y k - v) <= Qabs (decimal_number D' k' - v))%Q /\
     ((Qabs (decimal_number D' k' - v) == Qabs (decimal_number y k - v))%Q -> (decimal_number D' k' == decimal_number y k)%Q)) as Behind.
  { intros D' k' HD RB. destruct (grid_below v p n lo D' k' R1 Hn HD B1 B2) as [G1 G2]. fold k in G1, G2. destruct (Qlt_le_dec v (decimal_number D' k')) as [Ab|Be].
    - specialize (G2 Ab). exists (lo + 1). split; [lia|]. split; [|split].
      + eapply back_between; [exact VL|exact RB|]. right. split; [apply Qlt_le_weak, B2|exact G2].
      + rewrite !Qabs_pos by lra. lra.
      + rewrite !Qabs_pos by lra. lra.
    - specialize (G1 Be). exists lo. split; [lia|]. split; [|split].
      + eapply back_between; [exact VL|exact RB|]. left. split; [exact G1|exact B1].
      + rewrite !Qabs_neg by lra. lra.
      + rewrite !Qabs_neg by lra. lra. }
  assert ((decimal_number (lo + 1) k - decimal_number lo k == (10 # 1) ^ k)%Q) as St.
  { unfold decimal_number. assert ((lo + 1 # 1) == (lo # 1) + 1)%Q as -> by (unfold Qeq; cbn; lia). ring. }
  assert (Qabs (decimal_number y2 k - decimal_number y1 k) == (10 # 1) ^ k)%Q as St'.
  { destruct C as [[-> ->]|[-> ->]]; [rewrite St; apply Qabs_pos; lra|]. rewrite Qabs_Qminus, St. apply Qabs_pos; lra. }
  assert (0 < y1 <= 10 ^ n /\ 0 < y2 <= 10 ^ n) as [Y1 Y2] by lia.
  destruct (float_eqb (decimal_float false y1 k) x) eqn:F1; [|destruct (float_eqb (decimal_float false y2 k) x) eqn:F2].
  - apply RI in F1; [|lia]. split; [exact Y1|]. split; [exact F1|]. intros D' k' HD RB. destruct (Behind D' k' HD RB) as (y & Hy & Ry & Le & Eq).
    assert (Qabs (decimal_number y1 k - v) <= Qabs (decimal_number y k - v))%Q as Ly by (destruct Hy as [->| ->]; [lra|exact Dn]).
    split; [lra|]. intros Ne Tie. assert (decimal_number D' k' == decimal_number y k)%Q as Ey by (apply Eq; lra).
    destruct Hy as [->| ->]; [destruct (Ne Ey)|]. assert (Z.even y1 = true) as Ev by (apply Te; rewrite <- Tie, Ey; reflexivity).
    apply Z.even_spec in Ev as [j Hj]. exists j. rewrite Ey, St', <- Hj. reflexivity.
  - apply RI in F2; [|lia]. split; [exact Y2|]. split; [exact F2|]. intros D' k' HD RB. destruct (Behind D' k' HD RB) as (y & Hy & Ry & Le & Eq).
    destruct Hy as [->| ->]; [apply RI in Ry; [congruence|lia]|]. split; [exact Le|]. intros Ne Tie. destruct (Ne (Eq Tie)).
  - intros D' k' HD RB. destruct (Behind D' k' HD RB) as (y & Hy & Ry & _). apply RI in Ry; [|lia]. destruct Hy as [->| ->]; congruence.
Qed.
Lemma seventeen : found 17 <> None.
Proof.
  intros F. destruct (ratio_v m e Hm) as (Pa & Pb & R). fold v a b in R, Pa, Pb. pose proof v_pos as Vp. destruct v_range as [R1 R2].
  unfold found in F. set (k := p + 1 - 17) in *. destruct (neighbours_spec a b k Pa Pb) as (lo & y1 & y2 & E & C & L0 & B1 & B2 & Dn & Te).
  rewrite E in F. cbn [find] in F. rewrite <- R in *. destruct (float_eqb (decimal_float false y1 k) x) eqn:F1; [discriminate|]. clear F.
  assert (0 <= y1) by lia. enough (read_back v (decimal_number y1 k)) as RB by (apply (reads_iff m e y1 k Hm Dv) in RB; [unfold x in F1; congruence|lia]).
  apply near_reads; [exact Dv|exact Vp|].
  assert ((decimal_number (lo + 1) k - decimal_number lo k == (10 # 1) ^ k)%Q) as St.
  { unfold decimal_number. assert ((lo + 1 # 1) == (lo # 1) + 1)%Q as -> by (unfold Qeq; cbn; lia). ring. }
  assert (2 * Qabs (decimal_number y1 k - v) <= (10 # 1) ^ k)%Q as H1.
  { assert (Qabs (decimal_number lo k - v) == v - decimal_number lo k)%Q as A1 by (rewrite Qabs_neg by lra; ring).
    assert (Qabs (decimal_number (lo + 1) k - v) == decimal_number (lo + 1) k - v)%Q as A2 by (rewrite Qabs_pos by lra; ring).
    destruct C as [[-> ->]|[-> ->]]; rewrite A1, A2 in Dn; rewrite ?A1, ?A2; lra. }
  eapply Qle_lt_trans; [exact H1|]. apply Qlt_shift_div_l; [reflexivity|]. eapply Qlt_le_trans; [|exact R1].
  unfold decimal_number. rewrite Qmult_1_l. replace p with (k + 16) at 1 by lia. rewrite ten_add. pose proof (ten_pos k) as Pk.
  rewrite !(Qmult_comm ((10 # 1) ^ k)%Q). apply Qmult_lt_r; [exact Pk|reflexivity].
Qed.
Lemma shortest_found D k : shortest_decimal m e = (D, k) -> 0 < D /\ D mod 10 <> 0 /\ exists n, 1 <= n <= 17 /\ shortest v n (decimal_number D k).
Proof.
  unfold shortest_decimal. fold a b x p. cbv zeta. pose proof (search_spec x a b p 17 1) as S.
  destruct (search_digits x a b p 1 17) as [[D0 k0]|]; [|destruct (seventeen (S 17 ltac:(lia)))].
  destruct S as (n & Hn & -> & F & M). change (Z.of_nat 17) with 17 in Hn. pose proof (found_spec n ltac:(lia)) as Fs. unfold found in Fs. rewrite F in Fs.
  destruct Fs as (P0 & RB & Best). intros E.
  assert (10 ^ n <= 10 ^ 17) as PL by (apply Z.pow_le_mono_r; lia).
  destruct (strip_tens_spec 20 D0 (p + 1 - n) D k) as (P & Md & V); [change (Z.of_nat 20) with 20; lia|exact E|].
  split; [exact P|]. split; [exact Md|]. exists n. split; [lia|].
  assert (forall D' k', 0 < D' -> read_back v (decimal_number D' k') -> 10 ^ (n - 1) <= D') as Min.
  { intros D' k' PD RD. destruct (Z.le_gt_cases (10 ^ (n - 1)) D') as [|Lt]; [assumption|exfalso].
    destruct (Z.eq_dec n 1) as [->|]; [change (10 ^ (1 - 1)) with 1 in Lt; lia|].
    pose proof (found_spec (n - 1) ltac:(lia)) as Fn. unfold found in Fn. rewrite (M (n - 1)) in Fn by lia. apply (Fn D' k'); [lia|exact RD]. }
  split; [|split; [|split]].
  - destruct (Z.eq_dec D0 (10 ^ n)) as [E0|].
    + exists 1, (n + (p + 1 - n)). split; [pose proof (Z.pow_gt_1 10 n ltac:(lia)); lia|]. rewrite V, E0. unfold decimal_number. rewrite <- ten_pow, <- ten_add, Qmult_1_l by lia. reflexivity.
    + exists D0, (p + 1 - n). split; [lia|exact V].
  - eapply back_wd; [reflexivity|symmetry; exact V|exact RB].
  - exact Min.
  - intros D' k' HD RD. destruct (Best D' k' HD RD) as [B1 B2]. split; [rewrite V; exact B1|]. intros Ne Tie. rewrite V in Ne, Tie. destruct (B2 Ne Tie) as [j J]. exists j. rewrite V. exact J.
Qed.
End found.

(** ** the text *)
Lemma decimal_app a b : decimal (a ++ b) = decimal a * 10 ^ len b + decimal b.
Proof.
  induction a as [|d a IH]; [reflexivity|]. cbn [app decimal]. rewrite IH, len_app, Z.pow_add_r by apply len_nonneg. ring.
Qed.
Lemma decimal_zeros n : decimal (repeat 0 n) = 0.
Proof. induction n as [|n IH]; [reflexivity|]. cbn [repeat decimal]. rewrite IH. lia. Qed.
Lemma decimal_bound ds : Forall (fun d => 0 <= d <= 9) ds -> 0 <= decimal ds < 10 ^ len ds.
Proof.
  induction 1 as [|d ds H _ IH]; [change (10 ^ len []) with 1; cbn [decimal]; lia|]. cbn [decimal]. rewrite len_cons, Z.pow_add_r by (pose proof (len_nonneg ds); lia). change (10 ^ 1) with 10. nia.
Qed.
Lemma decimal_value ds : decimal ds = dec_value ds.
Proof.
  unfold dec_value. assert (forall n, fold_left (fun n d => 10 * n + d) ds n = n * 10 ^ len ds + decimal ds) as K; [|rewrite K; lia].
  induction ds as [|d ds IH]; intros n; [change (10 ^ len []) with 1; cbn [fold_left decimal]; lia|]. cbn [fold_left decimal]. rewrite IH, len_cons, Z.pow_add_r by (pose proof (len_nonneg ds); lia). change (10 ^ 1) with 10. ring.
Qed.
Lemma str_int_ds n : 0 < n -> exists ds, digits (str_int n) ds /\ decimal ds = n /\ hd 0 ds <> 0 /\ 10 ^ (len ds - 1) <= n < 10 ^ len ds.
Proof.
  intros H. destruct (str_int_spec n ltac:(lia)) as (ds & (F & V & N & Z) & E). exists ds.
  assert (Forall (fun d => 0 <= d <= 9) ds) as F' by (revert F; apply Forall_impl; intros d; unfold is_digit; lia).
  assert (hd 0 ds <> 0) as Hd by (intros H0; specialize (Z H0); subst ds; cbn in V; lia).
  split; [split; [exact E|split; assumption]|]. rewrite decimal_value. split; [exact V|]. split; [exact Hd|].
  rewrite <- V, <- decimal_value. destruct ds as [|d ds]; [contradiction|]. cbn [hd] in Hd. split; [|apply decimal_bound, F'].
  inversion F' as [|? ? Hd9 F2]; subst. pose proof (decimal_bound ds F2). cbn [decimal]. rewrite len_cons. replace (1 + len ds - 1) with (len ds) by lia. nia.
Qed.
Lemma last_digit ds : ds <> [] -> decimal ds mod 10 <> 0 -> last ds 0 <> 0.
Proof.
  intros N M L. destruct (exists_last N) as (ds' & d & ->). rewrite last_last in L. subst d. apply M. rewrite decimal_app. cbn [decimal]. change (len [0]) with 1.
  rewrite Z.pow_1_r. change (10 ^ len []) with 1. replace (decimal ds' * 10 + (0 * 1 + 0)) with (decimal ds' * 10) by lia. apply Z_mod_mult.
Qed.
Lemma last_app_r (a b : list Z) : b <> [] -> last (a ++ b) 0 = last b 0.
Proof. intros N. destruct (exists_last N) as (b' & d & ->). rewrite app_assoc, !last_last. reflexivity. Qed.
Lemma dec_same D k D' k' j : 0 <= j -> D' = D * 10 ^ j -> k = k' + j -> (decimal_number D k == decimal_number D' k')%Q.
Proof. intros J -> ->. unfold decimal_number. rewrite ten_add, (ten_pow j), <- times_int by exact J. ring. Qed.
Lemma dec_lt D k j : D < 10 ^ j -> 0 <= j -> (decimal_number D k < decimal_number 1 (j + k))%Q.
Proof. intros H J. unfold decimal_number. rewrite ten_add, (ten_pow j), Qmult_1_l by exact J. apply Qmult_lt_r; [apply ten_pos|apply int_lt_Q, H]. Qed.
Lemma dec_ge D k j : 10 ^ j <= D -> 0 <= j -> (decimal_number 1 (j + k) <= decimal_number D k)%Q.
Proof. intros H J. unfold decimal_number. rewrite ten_add, (ten_pow j), Qmult_1_l by exact J. apply Qmult_le_compat_r; [apply int_le_Q, H|apply Qlt_le_weak, ten_pos]. Qed.
Lemma one_le a b : a <= b -> (decimal_number 1 a <= decimal_number 1 b)%Q.
Proof. intros H. unfold decimal_number. rewrite !Qmult_1_l. apply ten_le, H. Qed.
Lemma zeros_map n : 0 <= n -> zeros n = map (fun d => 48 + d) (repeat 0 (Z.to_nat n)).
Proof. intros H. unfold zeros. induction (Z.to_nat n) as [|j IH]; [reflexivity|]. cbn [repeat map]. rewrite IH. reflexivity. Qed.
Lemma len_repeat (n : Z) : 0 <= n -> len (repeat 0 (Z.to_nat n)) = n.
Proof. intros H. unfold len. rewrite repeat_length. lia. Qed.
Lemma small_repeat n : Forall (fun d => 0 <= d <= 9) (repeat 0 n).
Proof. apply Forall_forall. intros d H. apply repeat_spec in H. lia. Qed.
Lemma exponent_ok x : exponent_digits (exponent_text x) x.
Proof.
  unfold exponent_digits, exponent_text. destruct (Z.ltb_spec (Z.abs x) 10) as [L|L].
  - exists [0; Z.abs x], [48; 48 + Z.abs x]. split; [|split; [split; [reflexivity|split; [constructor; [lia|constructor; [lia|constructor]]|discriminate]]|split; [cbn [decimal]; change (len [Z.abs x]) with 1; change (10 ^ len []) with 1; lia|left; reflexivity]]].
    f_equal. cbn [app]. f_equal. assert (exists k, (k < 10)%nat /\ Z.abs x = Z.of_nat k) as (k & Hk & ->) by (exists (Z.to_nat (Z.abs x)); lia).
    do 10 (destruct k as [|k]; [reflexivity|]). lia.
  - destruct (str_int_ds (Z.abs x) ltac:(lia)) as (ds & Dg & V & Hd & B1 & B2). exists ds, (str_int (Z.abs x)). split; [reflexivity|]. split; [exact Dg|]. split; [exact V|].
    destruct (Z.lt_ge_cases (len ds) 2) as [K|K].
    + assert (10 ^ len ds <= 10 ^ 1) by (apply Z.pow_le_mono_r; lia). change (10 ^ 1) with 10 in *. lia.
    + destruct (Z.eq_dec (len ds) 2); [left; assumption|right; split; [lia|exact Hd]].
Qed.
Lemma float_digits_notation D k : 0 < D -> D mod 10 <> 0 -> notation (decimal_number D k) (float_digits D k).
Proof.
  intros P M. destruct (str_int_ds D P) as (ds & (E & Sm & Nn) & V & Hd & B1 & B2). unfold float_digits. rewrite E.
  assert (len (map (fun d => 48 + d) ds) = len ds) as L by (unfold len; rewrite map_length; reflexivity). rewrite L. cbv zeta. clear L E.
  assert (1 <= len ds) as N1 by (destruct ds; [contradiction|rewrite len_cons; pose proof (len_nonneg ds); lia]).
  pose proof (last_digit ds Nn ltac:(rewrite V; exact M)) as La.
  assert (decimal_number 1 (len ds - 1 + k) <= decimal_number D k)%Q as G1 by (apply dec_ge; lia).
  assert (decimal_number D k < decimal_number 1 (len ds + k))%Q as G2 by (apply dec_lt; lia).
  set (point := len ds + k) in *. destruct ((-4 <? point) && (point <=? 16)) eqn:R.
  - assert (decimal_number 1 (-4) <= decimal_number D k)%Q as H1 by (eapply Qle_trans; [|exact G1]; apply one_le; lia).
    assert (decimal_number D k < decimal_number 1 16)%Q as H2 by (eapply Qlt_le_trans; [exact G2|]; apply one_le; lia).
    destruct (Z.leb_spec point 0) as [Q|Q]; [|destruct (Z.leb_spec (len ds) point) as [Q2|Q2]].
    + cbn [app]. rewrite zeros_map, <- map_app by lia. apply (positional _ [48] [0] _ (repeat 0 (Z.to_nat (- point)) ++ ds)); try assumption.
      * split; [split; [reflexivity|split; [repeat constructor; lia|discriminate]]|left; reflexivity].
      * split; [reflexivity|]. split; [apply Forall_app; split; [apply small_repeat|exact Sm]|]. intros Z0. apply app_eq_nil in Z0 as [_ Z0]. contradiction.
      * right. rewrite last_app_r by exact Nn. exact La.
      * apply dec_wd; [cbn [app decimal]; rewrite decimal_app, decimal_zeros, V; lia|]. rewrite len_app, len_repeat by lia. lia.
    + rewrite zeros_map, app_assoc, <- map_app by lia. change [46; 48] with (46 :: [48]).
      apply (positional _ _ (ds ++ repeat 0 (Z.to_nat (point - len ds))) _ [0]); try assumption.
      * split; [split; [reflexivity|split; [apply Forall_app; split; [exact Sm|apply small_repeat]|]]|right].
        -- intros Z0. apply app_eq_nil in Z0 as [Z0 _]. contradiction.
        -- destruct ds; [contradiction|exact Hd].
      * split; [reflexivity|]. split; [repeat constructor; lia|discriminate].
      * left. reflexivity.
      * apply (dec_same D k _ _ (k + 1)); [lia| |change (len [0]) with 1; lia]. rewrite !decimal_app, decimal_zeros, V, len_repeat by lia. change (len [0]) with 1.
        replace (point - len ds) with k by lia. cbn [decimal]. rewrite Z.pow_add_r by lia. ring.
    + rewrite firstn_map, skipn_map. change (map (fun d => 48 + d) (firstn (Z.to_nat point) ds) ++ [46] ++ map (fun d => 48 + d) (skipn (Z.to_nat point) ds))
        with (map (fun d => 48 + d) (firstn (Z.to_nat point) ds) ++ 46 :: map (fun d => 48 + d) (skipn (Z.to_nat point) ds)).
      assert (len (skipn (Z.to_nat point) ds) = - k) as Lk by (unfold len in *; rewrite skipn_length; lia).
      assert (skipn (Z.to_nat point) ds <> []) as Nk by (intros Z0; rewrite Z0 in Lk; change (len []) with 0 in Lk; lia).
      apply (positional _ _ (firstn (Z.to_nat point) ds) _ (skipn (Z.to_nat point) ds)); try assumption.
      * split; [split; [reflexivity|split; [apply Forall_firstn, Sm|]]|right].
        -- intros Z0. destruct ds; [contradiction|]. destruct (Z.to_nat point) eqn:T; [lia|discriminate].
        -- destruct ds; [contradiction|]. destruct (Z.to_nat point) eqn:T; [lia|exact Hd].
      * split; [reflexivity|]. split; [apply Forall_skipn, Sm|exact Nk].
      * right. rewrite <- (firstn_skipn (Z.to_nat point) ds) in La. rewrite last_app_r in La by exact Nk. exact La.
      * rewrite firstn_skipn, Lk. apply dec_wd; lia.
  - assert ((decimal_number D k < decimal_number 1 (-4))%Q \/ (decimal_number 1 16 <= decimal_number D k)%Q) as Out.
    { apply andb_false_iff in R as [R|R].
      - left. eapply Qlt_le_trans; [exact G2|]. apply one_le. lia.
      - right. eapply Qle_trans; [|exact G1]. apply one_le. lia. }
    destruct ds as [|d [|d2 ds]]; [contradiction| |]; cbn [map].
    + inversion Sm as [|? ? S1 _]; subst. cbn [hd] in Hd. change (len [d]) with 1 in *.
      apply (scientific _ d [] [] (point - 1)); [exact Out|lia|constructor|left; reflexivity|apply exponent_ok|].
      apply dec_wd; [reflexivity|change (len []) with 0; lia].
    + inversion Sm as [|? ? S1 S2]; subst. cbn [hd] in Hd.
      apply (scientific _ d (46 :: map (fun c => 48 + c) (d2 :: ds)) (d2 :: ds) (point - 1)); [exact Out|lia| | |apply exponent_ok|].
      * constructor. split; [reflexivity|]. split; [exact S2|discriminate].
      * right. change (d :: d2 :: ds) with ([d] ++ d2 :: ds) in La. rewrite last_app_r in La by discriminate. exact La.
      * apply dec_wd; [reflexivity|]. unfold point. rewrite (len_cons d). lia.
Qed.
Lemma float_text_shortest neg m e : is_double (Fin neg m e) -> 0 < m -> written_float neg (dyadic false m e) (py_float_text (Fin neg m e)).
Proof.
  intros [_ Dv] Hm. assert (double_value (dyadic false m e)) as Dp.
  { destruct neg; [|exact Dv]. apply double_value_opp in Dv. destruct Dv as (M & E & HM & HE & V). exists M, E. split; [exact HM|]. split; [exact HE|]. rewrite <- V.
    unfold dyadic. setoid_replace (- m # 1)%Q with (- (m # 1))%Q by reflexivity. ring. }
  unfold py_float_text. destruct (Z.eqb_spec m 0); [lia|]. destruct (shortest_decimal m e) as [D k] eqn:S.
  destruct (shortest_found m e Hm Dp D k S) as (P & Md & n0 & Hn & Sh). exists n0, (decimal_number D k), (float_digits D k).
  split; [reflexivity|]. split; [exact Hn|]. split; [exact Sh|]. apply float_digits_notation; assumption.
Qed.

(** ** there is only one such text *)
Lemma decimal_inj a : forall b, len a = len b -> Forall (fun d => 0 <= d <= 9) a -> Forall (fun d => 0 <= d <= 9) b -> decimal a = decimal b -> a = b.
Proof.
  induction a as [|d a IH]; intros b L A B E; destruct b as [|d' b]; [reflexivity|rewrite len_cons in L; pose proof (len_nonneg b); change (len []) with 0 in L; lia|rewrite len_cons in L; pose proof (len_nonneg a); change (len []) with 0 in L; lia|].
  rewrite !len_cons in L. inversion A as [|? ? Hd A']; inversion B as [|? ? Hd' B']; subst. cbn [decimal] in E.
  pose proof (decimal_bound a A') as Ba. pose proof (decimal_bound b B') as Bb. assert (len a = len b) as L' by lia. rewrite L' in *.
  assert (d = d') by nia. subst d'. f_equal. apply IH; auto. lia.
Qed.
Lemma decimal_length a : Forall (fun d => 0 <= d <= 9) a -> a <> [] -> hd 0 a <> 0 -> 10 ^ (len a - 1) <= decimal a < 10 ^ len a.
Proof.
  intros A N H. split; [|apply decimal_bound, A]. destruct a as [|d a]; [contradiction|]. cbn [hd] in H. inversion A as [|? ? Hd A']; subst.
  pose proof (decimal_bound a A'). cbn [decimal]. rewrite len_cons. replace (1 + len a - 1) with (len a) by lia. nia.
Qed.
Lemma power_between n a b : 0 <= a -> 0 <= b -> 10 ^ a <= n < 10 ^ (a + 1) -> 10 ^ b <= n < 10 ^ (b + 1) -> a = b.
Proof.
  intros A B [H1 H2] [H3 H4]. destruct (Z.lt_trichotomy a b) as [L|[L|L]]; [|exact L|].
  - assert (10 ^ (a + 1) <= 10 ^ b) by (apply Z.pow_le_mono_r; lia). lia.
  - assert (10 ^ (b + 1) <= 10 ^ a) by (apply Z.pow_le_mono_r; lia). lia.
Qed.
Lemma same_without_zeros a b : Forall (fun d => 0 <= d <= 9) a -> Forall (fun d => 0 <= d <= 9) b -> a <> [] -> b <> [] -> hd 0 a <> 0 -> hd 0 b <> 0 ->
  decimal a = decimal b -> a = b.
Proof.
  intros A B Na Nb Ha Hb E. apply decimal_inj; try assumption. pose proof (decimal_length a A Na Ha) as La. pose proof (decimal_length b B Nb Hb) as Lb. rewrite <- E in Lb.
  assert (1 <= len a /\ 1 <= len b) by (destruct a, b; try contradiction; rewrite !len_cons; pose proof (len_nonneg a); pose proof (len_nonneg b); lia).
  assert (len a - 1 = len b - 1); [|lia]. apply (power_between (decimal a)); try lia.
  - replace (len a - 1 + 1) with (len a) by lia. exact La.
  - replace (len b - 1 + 1) with (len b) by lia. exact Lb.
Qed.
Lemma whole_once w ws w' ws' : whole_part w ws -> whole_part w' ws' -> decimal ws = decimal ws' -> w = w' /\ ws = ws'.
Proof.
  intros [(E & A & N) H] [(E' & A' & N') H'] Dq. enough (ws = ws') by (subst; auto).
  destruct H as [->|H], H' as [->|H']; [reflexivity| | |].
  - pose proof (decimal_length ws' A' N' H') as K. rewrite <- Dq in K. change (decimal [0]) with 0 in K.
    assert (0 < 10 ^ (len ws' - 1)) by (destruct ws'; [contradiction|]; rewrite len_cons; apply Z.pow_pos_nonneg; pose proof (len_nonneg ws'); lia). lia.
  - pose proof (decimal_length ws A N H) as K. rewrite Dq in K. change (decimal [0]) with 0 in K.
    assert (0 < 10 ^ (len ws - 1)) by (destruct ws; [contradiction|]; rewrite len_cons; apply Z.pow_pos_nonneg; pose proof (len_nonneg ws); lia). lia.
  - apply same_without_zeros; assumption.
Qed.
Lemma dec_eq D k D' k' : 0 <= k - k' -> (decimal_number D k == decimal_number D' k')%Q -> D' = D * 10 ^ (k - k').
Proof.
  intros H E. unfold decimal_number in E. replace k with ((k - k') + k') in E by lia. rewrite ten_add, (ten_pow (k - k')), Qmult_assoc, times_int in E by exact H.
  apply Qmult_inj_r in E; [|pose proof (ten_pos k'); lra]. unfold Qeq in E. cbn in E. lia.
Qed.
Lemma ends_in_zero a D j : Forall (fun d => 0 <= d <= 9) a -> a <> [] -> 0 < j -> decimal a = D * 10 ^ j -> last a 0 = 0.
Proof.
  intros A N J E. destruct (exists_last N) as (b & d & ->). rewrite last_last. rewrite decimal_app in E. cbn [decimal] in E. change (len [d]) with 1 in E. change (10 ^ len []) with 1 in E.
  apply Forall_app in A as [_ A]. inversion A; subst. replace j with (1 + (j - 1)) in E by lia. rewrite Z.pow_add_r in E by lia. change (10 ^ 1) with 10 in E. nia.
Qed.
(** fractions without zeros at the end *)
Lemma fraction_once as_ fs as' fs' x : Forall (fun d => 0 <= d <= 9) (as_ ++ fs) -> Forall (fun d => 0 <= d <= 9) (as' ++ fs') -> as' <> [] ->
  len fs <= len fs' -> (last fs' 0 <> 0 \/ len fs' <= 1 /\ 1 <= len fs \/ fs' = []) ->
  (decimal_number (decimal (as_ ++ fs)) (x - len fs) == decimal_number (decimal (as' ++ fs')) (x - len fs'))%Q -> len fs = len fs' /\ decimal (as_ ++ fs) = decimal (as' ++ fs').
Proof.
  intros A A' N L H E. apply dec_eq in E; [|lia]. replace (x - len fs - (x - len fs')) with (len fs' - len fs) in E by lia.
  assert (len fs = len fs') as Le.
  { destruct (Z.eq_dec (len fs) (len fs')) as [|Ne]; [assumption|]. destruct H as [H|[H|H]]; [|lia|subst; change (len []) with 0 in *; pose proof (len_nonneg fs); lia].
    exfalso. apply H. assert (fs' <> []) as Nf by (intros ->; change (len []) with 0 in *; pose proof (len_nonneg fs); lia).
    rewrite <- (last_app_r as' fs' Nf). apply (ends_in_zero _ (decimal (as_ ++ fs)) (len fs' - len fs)); [exact A'| |lia|exact E].
    intros Z0. apply app_eq_nil in Z0 as [Z0 _]. contradiction. }
  split; [exact Le|]. rewrite Le, Z.sub_diag in E. change (10 ^ 0) with 1 in E. lia.
Qed.
Lemma fraction_once2 as_ fs as' fs' x : Forall (fun d => 0 <= d <= 9) (as_ ++ fs) -> Forall (fun d => 0 <= d <= 9) (as' ++ fs') -> as_ <> [] -> as' <> [] ->
  (last fs 0 <> 0 \/ len fs <= 1 /\ 1 <= len fs' \/ fs = []) -> (last fs' 0 <> 0 \/ len fs' <= 1 /\ 1 <= len fs \/ fs' = []) ->
  (decimal_number (decimal (as_ ++ fs)) (x - len fs) == decimal_number (decimal (as' ++ fs')) (x - len fs'))%Q -> decimal as_ = decimal as' /\ fs = fs'.
Proof.
  intros A A' N N' H H' E. assert (len fs = len fs' /\ decimal (as_ ++ fs) = decimal (as' ++ fs')) as [L Dq].
  { destruct (Z.le_ge_cases (len fs) (len fs')) as [K|K].
    - apply (fraction_once as_ fs as' fs' x); assumption.
    - destruct (fraction_once as' fs' as_ fs x A' A N K H) as [? ?]; [symmetry; exact E|auto]. }
  rewrite !decimal_app in Dq. apply Forall_app in A as [_ A]. apply Forall_app in A' as [_ A']. pose proof (decimal_bound fs A) as B. pose proof (decimal_bound fs' A') as B'. rewrite L in *.
  assert (decimal as_ = decimal as') by nia. split; [assumption|]. apply decimal_inj; try assumption. nia.
Qed.
Lemma exponent_once t t' x : exponent_digits t x -> exponent_digits t' x -> t = t'.
Proof.
  intros (ds & s & -> & (E & A & N) & V & H) (ds' & s' & -> & (E' & A' & N') & V' & H'). f_equal. enough (ds = ds') by (subst; reflexivity).
  assert (decimal ds = decimal ds') as Dq by congruence. destruct H as [H|[H1 H2]], H' as [H'|[H1' H2']].
  - apply decimal_inj; try assumption. lia.
  - pose proof (decimal_length ds' A' N' H2') as K. pose proof (decimal_bound ds A) as B. rewrite H in B. assert (10 ^ 2 <= 10 ^ (len ds' - 1)) by (apply Z.pow_le_mono_r; lia). lia.
  - pose proof (decimal_length ds A N H2) as K. pose proof (decimal_bound ds' A') as B. rewrite H' in B. assert (10 ^ 2 <= 10 ^ (len ds - 1)) by (apply Z.pow_le_mono_r; lia). lia.
  - apply same_without_zeros; assumption.
Qed.
Lemma fraction_small f fs : fraction_part f fs -> Forall (fun d => 0 <= d <= 9) fs.
Proof. intros [|t ds (_ & A & _)]; [constructor|exact A]. Qed.
Lemma fraction_text_once f f' fs : fraction_part f fs -> fraction_part f' fs -> f = f'.
Proof.
  intros [|t ds (E & _ & N)] K; inversion K as [E0|t' ds' (E' & _ & N') E0 E1]; subst; try contradiction; try reflexivity.
Qed.
Lemma notation_once g g' t t' : (g == g')%Q -> notation g t -> notation g' t' -> t = t'.
Proof.
  intros Eg [w ws f fs L1 L2 W (E & A & N) H V|d f fs x t1 O Hd F H X V] [w' ws' f' fs' L1' L2' W' (E' & A' & N') H' V'|d' f' fs' x' t1' O' Hd' F' H' X' V'].
  - assert (1 <= len fs /\ 1 <= len fs') as [K K'] by (destruct fs, fs'; try contradiction; rewrite !len_cons; pose proof (len_nonneg fs); pose proof (len_nonneg fs'); lia).
    rewrite Eg, V' in V. replace (- len fs') with (0 - len fs') in V by lia. replace (- len fs) with (0 - len fs) in V by lia. symmetry in V.
    pose proof W as ((_ & Aw & Nw) & _). pose proof W' as ((_ & Aw' & Nw') & _).
    apply fraction_once2 in V as [D1 D2]; try assumption; try (apply Forall_app; auto).
    + destruct (whole_once w ws w' ws' W W' D1) as [-> _]. congruence.
    + destruct H as [->|H]; [right; left; split; [change (len [0]) with 1; lia|exact K']|left; exact H].
    + destruct H' as [->|H']; [right; left; split; [change (len [0]) with 1; lia|exact K]|left; exact H'].
  - exfalso. rewrite <- Eg in O'. destruct O'; lra.
  - exfalso. rewrite Eg in O. destruct O; lra.
  - pose proof (fraction_small f fs F) as A. pose proof (fraction_small f' fs' F') as A'.
    assert (forall d fs x, 1 <= d <= 9 -> Forall (fun d => 0 <= d <= 9) fs -> (decimal_number 1 x <= decimal_number (decimal (d :: fs)) (x - len fs))%Q /\ (decimal_number (decimal (d :: fs)) (x - len fs) < decimal_number 1 (x + 1))%Q) as Rg.
    { clear. intros d fs x Hd A. pose proof (len_nonneg fs). assert (Forall (fun d => 0 <= d <= 9) (d :: fs)) as A1 by (constructor; [lia|exact A]).
      pose proof (decimal_length (d :: fs) A1 ltac:(discriminate) ltac:(cbn; lia)) as [B1 B2]. rewrite len_cons in B1, B2. split.
      - eapply Qle_trans; [|apply (dec_ge _ _ (len fs))]; [apply one_le; lia|replace (len fs) with (1 + len fs - 1) by lia; exact B1|lia].
      - eapply Qlt_le_trans; [apply (dec_lt _ _ (1 + len fs)); [exact B2|lia]|]. apply one_le. lia. }
    destruct (Rg d fs x Hd A) as [R1 R2]. destruct (Rg d' fs' x' Hd' A') as [R1' R2']. rewrite <- V in R1, R2. rewrite <- V', <- Eg in R1', R2'.
    assert (x = x').
    { destruct (Z.lt_trichotomy x x') as [K|[K|K]]; [exfalso|exact K|exfalso].
      - pose proof (one_le (x + 1) x' ltac:(lia)). lra.
      - pose proof (one_le (x' + 1) x ltac:(lia)). lra. }
    subst x'. rewrite Eg, V' in V. symmetry in V. change (d :: fs) with ([d] ++ fs) in V. change (d' :: fs') with ([d'] ++ fs') in V.
    apply fraction_once2 in V as [D1 D2]; try discriminate; try (apply Forall_app; split; [constructor; [lia|constructor]|assumption]); try tauto.
    cbn [decimal] in D1. change (10 ^ len []) with 1 in D1. assert (d = d') by lia. subst d' fs'. rewrite (fraction_text_once f f' fs F F'), (exponent_once t1 t1' x X X'). reflexivity.
Qed.
Lemma shortest_once v n g n' g' : 1 <= n -> 1 <= n' -> shortest v n g -> shortest v n' g' -> (g == g')%Q.
Proof.
  intros Hn Hn' ((D & k & HD & E) & R & M & B) ((D' & k' & HD' & E') & R' & M' & B').
  assert (read_back v (decimal_number D k)) as RD by (eapply back_wd; [reflexivity|exact E|exact R]).
  assert (read_back v (decimal_number D' k')) as RD' by (eapply back_wd; [reflexivity|exact E'|exact R']).
  assert (n = n').
  { pose proof (M D' k' ltac:(lia) RD') as K1. pose proof (M' D k ltac:(lia) RD) as K2.
    assert (n - 1 < n') by (apply (Z.pow_lt_mono_r_iff 10); lia). assert (n' - 1 < n) by (apply (Z.pow_lt_mono_r_iff 10); lia). lia. }
  subst n'. destruct (B D' k' HD' RD') as [C1 T1]. destruct (B' D k HD RD) as [C2 T2]. rewrite <- E' in C1, T1. rewrite <- E in C2, T2.
  destruct (Qeq_dec g g') as [|Ne]; [assumption|exfalso]. assert (Qabs (g - v) == Qabs (g' - v))%Q as Tie by (apply Qle_antisym; assumption).
  destruct (T1 ltac:(intros Q; apply Ne; symmetry; exact Q) ltac:(symmetry; exact Tie)) as [j J]. destruct (T2 Ne Tie) as [j' J'].
  rewrite <- E' in J. rewrite <- E in J'. rewrite (Qabs_Qminus g' g) in J. set (q := Qabs (g - g')) in *.
  assert (0 < q)%Q as Pq.
  { pose proof (Qabs_nonneg (g - g')) as P. fold q in P. destruct (Qlt_le_dec 0 q) as [L|L]; [exact L|exfalso]. apply Ne. assert (q == 0)%Q as Z0 by lra. rewrite J, J', Z0. ring. }
  assert (q == Qabs ((2 * (j - j') # 1) * q))%Q as S.
  { unfold q at 1. apply Qabs_wd. assert ((2 * (j - j') # 1) == (2 * j # 1) - (2 * j' # 1))%Q as -> by (unfold Qeq; cbn; lia). rewrite J at 1. rewrite J' at 1. ring. }
  rewrite Qabs_Qmult, (Qabs_pos q) in S by lra. rewrite Qabs_Z in S.
  assert ((1 # 1) == (Z.abs (2 * (j - j')) # 1))%Q as W.
  { apply Qmult_inj_r with (z := q); [lra|]. rewrite <- S. ring. }
  unfold Qeq in W. cbn in W. lia.
Qed.
Lemma written_once neg v t t' : written_float neg v t -> written_float neg v t' -> t = t'.
Proof.
  intros (n & g & s & -> & Hn & Sh & Nt) (n' & g' & s' & -> & Hn' & Sh' & Nt'). f_equal.
  eapply notation_once; [|exact Nt|exact Nt']. eapply shortest_once; [| |exact Sh|exact Sh']; lia.
Qed.
Lemma float_text_iff neg m e t : is_double (Fin neg m e) -> 0 < m -> py_float_text (Fin neg m e) = t <-> written_float neg (dyadic false m e) t.
Proof.
  intros D H. pose proof (float_text_shortest neg m e D H) as K. split; [intros <-; exact K|]. intros W. eapply written_once; eassumption.
Qed.
Lemma other_floats neg : py_float_text (Fin neg 0 0) = minus neg ++ [48; 46; 48] /\ py_float_text (Inf neg) = minus neg ++ [105; 110; 102] /\ py_float_text NaN = [110; 97; 110].
Proof. repeat split. Qed.
Lemma json_float_text neg m e : json_dumps (VFloat (Fin neg m e)) = Ok (py_float_text (Fin neg m e)).
Proof. reflexivity. Qed.
