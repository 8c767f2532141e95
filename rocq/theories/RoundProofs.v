(** [nearest_double] is correct rounding, over the whole range and with ties. *)
From Coq Require Import QArith Qpower Qabs Lqa.
From Verif Require Import PyFacts BitFacts PyFloat ParamLang SpecParameters FloatProofs NumeralProofs SpecNumeral.
Open Scope list_scope.
Open Scope Z_scope.

Lemma grid_scale x e (i : Z) : (Qabs ((i # 1) * (2 # 1) ^ e - x) == Qabs ((i # 1) - x * (2 # 1) ^ (- e)) * (2 # 1) ^ e)%Q.
Proof.
  rewrite <- (Qabs_pos ((2 # 1) ^ e)) at 2 by (apply Qlt_le_weak, FloatProofs.pow_pos).
  rewrite <- Qabs_Qmult. apply Qabs_wd. pose proof (pow_opp e) as P.
  setoid_replace (((i # 1) - x * (2 # 1) ^ (- e)) * (2 # 1) ^ e)%Q with ((i # 1) * (2 # 1) ^ e - x * ((2 # 1) ^ e * (2 # 1) ^ (- e)))%Q by ring.
  rewrite P. ring.
Qed.
(** of two doubles equally near the one found has an even mantissa *)
Lemma tie_is_even x e k :
  rounds_to (x * (2 # 1) ^ (- e))%Q k -> (Qabs ((k # 1) - x * (2 # 1) ^ (- e)) <= 1 # 2)%Q ->
  -1074 <= e -> (e = -1074 \/ ((2 # 1) ^ (e + 52) <= x)%Q) ->
  forall z, double_value z -> ~ (z == (k # 1) * (2 # 1) ^ e)%Q -> (Qabs (z - x) == Qabs ((k # 1) * (2 # 1) ^ e - x))%Q ->
  exists j : Z, ((k # 1) * (2 # 1) ^ e == (2 * j # 1) * Qabs (z - (k # 1) * (2 # 1) ^ e))%Q.
Proof.
  intros [C V] Hf He Hfl z (M & E & HM & HE & Hz) Nz T. pose proof (FloatProofs.pow_pos e) as Pe.
  destruct (Z.le_gt_cases e E) as [L|L].
  - set (j := M * 2 ^ (E - e)). assert (z == (j # 1) * (2 # 1) ^ e)%Q as Ez.
    { rewrite Hz. assert ((2 # 1) ^ E == (2 ^ (E - e) # 1) * (2 # 1) ^ e)%Q as ->.
      { rewrite <- (pow_Z (E - e)) by lia. rewrite <- pow_add. replace (E - e + e) with E by lia. reflexivity. }
      assert ((j # 1) == (M # 1) * (2 ^ (E - e) # 1))%Q as -> by (unfold j, Qeq; cbn; lia). ring. }
    assert (j <> k) as Njk by (intros ->; apply Nz; exact Ez).
    rewrite Ez, !grid_scale in T. apply Qmult_inj_r in T; [|intros Z0; rewrite Z0 in Pe; discriminate Pe].
    pose proof (V j Njk T) as Ev.
    assert (Qabs ((j # 1) - (k # 1)) <= 1)%Q as D.
    { pose proof (Qabs_triangle ((j # 1) - x * (2 # 1) ^ (- e)) (x * (2 # 1) ^ (- e) - (k # 1))) as Tr.
      setoid_replace ((j # 1) - x * (2 # 1) ^ (- e) + (x * (2 # 1) ^ (- e) - (k # 1)))%Q with ((j # 1) - (k # 1))%Q in Tr by ring.
      rewrite (Qabs_Qminus (x * (2 # 1) ^ (- e)) (k # 1)) in Tr. rewrite T in Tr. lra. }
    setoid_replace ((j # 1) - (k # 1))%Q with (j - k # 1)%Q in D by (unfold Qeq; cbn; lia). rewrite Qabs_Z in D. unfold Qle in D. cbn in D.
    exists (k / 2). assert (k = 2 * (k / 2)) as K.
    { rewrite Zeven_mod in Ev. pose proof (Z.div_mod k 2 ltac:(lia)) as DM. apply Zeq_bool_eq in Ev. lia. }
    rewrite Ez. setoid_replace ((j # 1) * (2 # 1) ^ e - (k # 1) * (2 # 1) ^ e)%Q with ((j - k # 1) * (2 # 1) ^ e)%Q.
    2:{ assert ((j - k # 1) == (j # 1) - (k # 1))%Q as -> by (unfold Qeq; cbn; lia). ring. }
    rewrite Qabs_Qmult, Qabs_Z, (Qabs_pos ((2 # 1) ^ e)) by (apply Qlt_le_weak, Pe). replace (Z.abs (j - k)) with 1 by lia.
    rewrite <- K. ring.
  - exfalso. destruct Hfl as [->|Hfl]; [lia|]. pose proof (closest_grid x e k C (2 ^ 52)) as G.
    assert ((2 ^ 52 # 1) * (2 # 1) ^ e == (2 # 1) ^ (e + 52))%Q as Eg by (rewrite pow_add, (pow_Z 52) by lia; ring).
    rewrite Eg in G. rewrite <- T in G.
    assert (z < (2 # 1) ^ (e + 52))%Q as Lz.
    { rewrite Hz. apply Qlt_le_trans with ((2 ^ 53 # 1) * (2 # 1) ^ E)%Q.
      - apply Qmult_lt_r; [apply FloatProofs.pow_pos|unfold Qlt; cbn; lia].
      - assert ((2 ^ 53 # 1) == (2 # 1) ^ 53)%Q as -> by (rewrite (pow_Z 53) by lia; reflexivity).
        rewrite <- pow_add. apply pow_le. lia. }
    rewrite (Qabs_neg ((2 # 1) ^ (e + 52) - x)) in G by lra. rewrite (Qabs_neg (z - x)) in G by lra. lra.
Qed.
Lemma nearest_grid x e k :
  rounds_to (x * (2 # 1) ^ (- e))%Q k -> (Qabs ((k # 1) - x * (2 # 1) ^ (- e)) <= 1 # 2)%Q -> double_value ((k # 1) * (2 # 1) ^ e)%Q ->
  -1074 <= e -> (e = -1074 \/ ((2 # 1) ^ (e + 52) <= x)%Q) -> nearest x ((k # 1) * (2 # 1) ^ e)%Q.
Proof.
  intros R H D He Hfl. split; [split; [exact D|apply (grid_is_double x e k (proj1 R) He Hfl)]|]. exact (tie_is_even x e k R H He Hfl).
Qed.

Lemma int_le_Q (a b : Z) : ((a # 1) <= (b # 1))%Q <-> a <= b. Proof. unfold Qle; cbn; lia. Qed.
Lemma int_lt_Q (a b : Z) : ((a # 1) < (b # 1))%Q <-> a < b. Proof. unfold Qlt; cbn; lia. Qed.
Lemma minus_int (a b : Z) : ((a # 1) - (b # 1) == (a - b # 1))%Q. Proof. unfold Qeq; cbn; lia. Qed.
Lemma times_int (a b : Z) : ((a # 1) * (b # 1) == (a * b # 1))%Q. Proof. unfold Qeq; cbn; lia. Qed.

Lemma below_bits x M p : (0 <= p) -> closest_integer x M -> (x < (2 ^ p # 1))%Q -> M <= 2 ^ p.
Proof.
  intros Hp C U. specialize (C (2 ^ p)). destruct (Z.le_gt_cases M (2 ^ p)) as [|G]; [assumption|exfalso].
  assert ((2 ^ p # 1) + 1 <= (M # 1))%Q as G'.
  { setoid_replace ((2 ^ p # 1) + 1)%Q with (2 ^ p + 1 # 1)%Q by (unfold Qeq; cbn; lia). apply int_le_Q. lia. }
  set (b := (2 ^ p # 1)) in *. set (qM := (M # 1)) in *. clearbody b qM.
  rewrite (Qabs_pos (qM - x)), (Qabs_pos (b - x)) in C by lra. lra.
Qed.
Lemma above_bits x M (p : Z) : closest_integer x M -> ((p # 1) <= x)%Q -> p <= M.
Proof.
  intros C U. specialize (C p). destruct (Z.le_gt_cases p M) as [|G]; [assumption|exfalso].
  assert ((M # 1) + 1 <= (p # 1))%Q as G'.
  { setoid_replace ((M # 1) + 1)%Q with (M + 1 # 1)%Q by (unfold Qeq; cbn; lia). apply int_le_Q. lia. }
  set (b := (p # 1)) in *. set (qM := (M # 1)) in *. clearbody b qM.
  rewrite (Qabs_neg (qM - x)), (Qabs_neg (b - x)) in C by lra. lra.
Qed.

Definition is_too_large : (too_large == (2 # 1) ^ 1024 - (2 # 1) ^ 970)%Q.
Proof. unfold too_large. rewrite !pow_Z by lia. rewrite minus_int. reflexivity. Qed.

Theorem nearest_double_rounds s a b : 0 <= a -> 0 < b -> rounds_to_float s ((a # 1) / (b # 1)) (nearest_double s a b).
Proof.
  intros Ha Hb. rewrite nearest_double_unfold. destruct (Z.leb_spec a 0) as [A0|A0].
  - right. replace a with 0 by lia. assert ((0 # 1) / (b # 1) == 0)%Q as Z0 by (unfold Qdiv; ring). split; [rewrite Z0; reflexivity|]. split; [reflexivity|].
    exists 0%Q. split.
    + split; [split|].
      * exists 0, 0. repeat split; lia.
      * intros z _. rewrite Z0. assert (0 - 0 == 0)%Q as -> by ring. apply Qabs_nonneg.
      * intros z _ N T. exfalso. apply N. rewrite Z0 in T. assert (0 - 0 == 0)%Q as Z1 by ring. rewrite Z1 in T.
        setoid_replace (z - 0)%Q with z in T by ring. change (Qabs 0) with 0%Q in T.
        destruct (Qlt_le_dec z 0) as [L|L]; [rewrite Qabs_neg in T by lra; lra|]. rewrite Qabs_pos in T by lra. exact T.
    + split; [left; auto|]. destruct s; reflexivity.
  - cbv zeta. set (fl := floor_log a b). set (e := Z.max (-1074) (fl - 52)). set (M := round_scaled a b (- e)).
    pose proof (floor_log_spec a b A0 Hb) as [F1 F2]. fold fl in F1, F2.
    pose proof (round_scaled_rounds a b (- e) Hb) as R. fold M in R. pose proof (round_scaled_half a b (- e) Hb) as Hf. fold M in Hf.
    assert (0 <= M) as M0 by (apply round_scaled_nonneg; lia). clearbody M.
    set (x := ((a # 1) / (b # 1))%Q) in *. clearbody x.
    assert (x * (2 # 1) ^ (- e) < (2 ^ 53 # 1))%Q as U.
    { apply Qlt_le_trans with ((2 # 1) ^ (fl + 1) * (2 # 1) ^ (- e))%Q.
      - apply Qmult_lt_r; [apply FloatProofs.pow_pos|exact F2].
      - rewrite <- pow_add. rewrite <- (pow_Z 53) by lia. apply pow_le. unfold e. lia. }
    pose proof (below_bits _ M 53 ltac:(lia) (proj1 R) U) as M1.
    assert (-1074 <= e) as He by (unfold e; lia).
    assert (e = -1074 \/ ((2 # 1) ^ (e + 52) <= x)%Q) as Hfl.
    { destruct (Z.max_spec (-1074) (fl - 52)) as [[? Em]|[? Em]]; fold e in Em; [right|left; exact Em]. replace (e + 52) with fl by lia. exact F1. }
    assert (e <= 971 -> double_value ((M # 1) * (2 # 1) ^ e)%Q -> (x < too_large)%Q -> rounds_to_float s x (make_float s M e)) as FIN.
    { intros _ DV L. right. split; [exact L|]. split; [apply make_float_sign; exact M0|]. exists ((M # 1) * (2 # 1) ^ e)%Q.
      split; [apply nearest_grid; assumption|].
      pose proof (make_float_value s M e M0) as V. destruct (make_float_fin s M e) as (m' & e' & Ef & _). rewrite Ef in *.
      destruct V as [Lo V]. split; [exact Lo|]. rewrite <- V. unfold dyadic. destruct s; [|reflexivity].
      setoid_replace (- M # 1)%Q with (- (M # 1))%Q by reflexivity. ring. }
    destruct (Z.leb_spec 971 e) as [L|L].
    + assert (fl = e + 52) as Efl by (unfold e in *; lia).
      assert (2 ^ 52 <= M) as M2.
      { apply (above_bits _ _ _ (proj1 R)). rewrite <- (pow_Z 52) by lia. replace 52 with (fl + - e) at 1 by lia. rewrite pow_add.
        apply Qmult_le_compat_r; [exact F1|apply Qlt_le_weak, FloatProofs.pow_pos]. }
      destruct (Z.eq_dec e 971) as [E|E].
      * assert (x == x * (2 # 1) ^ (- e) * (2 # 1) ^ e)%Q as X.
        { pose proof (pow_opp e) as P. rewrite <- Qmult_assoc, (Qmult_comm ((2 # 1) ^ (- e))). rewrite P. ring. }
        set (y := (x * (2 # 1) ^ (- e))%Q) in *. clearbody y. clearbody e. subst e. change (2 ^ (971 - 971)) with 1. rewrite Z.mul_1_r.
        assert (too_large == ((2 ^ 53 # 1) - (1 # 2)) * (2 # 1) ^ 971)%Q as TL.
        { rewrite is_too_large. rewrite <- (pow_Z 53) by lia. change 1024 with (53 + 971). change 971 with (1 + 970) at 2. rewrite !pow_add. change ((2 # 1) ^ 1)%Q with (2 # 1)%Q.
          change (971) with (1 + 970). rewrite !pow_add. change ((2 # 1) ^ 1)%Q with (2 # 1)%Q. ring. }
        pose proof (FloatProofs.pow_pos 971) as P.
        destruct (Z.leb_spec (2 ^ 53) M) as [G|G]; cbn [andb].
        -- left. split; [|reflexivity]. assert (M = 2 ^ 53) as EM by lia. rewrite EM in Hf.
           rewrite TL, X. apply Qmult_le_compat_r; [|apply Qlt_le_weak, P].
           rewrite (Qabs_pos ((2 ^ 53 # 1) - y)) in Hf by lra. lra.
        -- apply FIN; [lia| |].
           ++ exists M, 971. split; [lia|]. split; [lia|reflexivity].
           ++ rewrite TL, X. apply Qmult_lt_r; [exact P|]. apply Qnot_le_lt. intros C.
              (* M <= 2^53 - 1 and y >= 2^53 - 1/2, so y is exactly between and 2^53 is as near *)
              assert ((M # 1) <= (2 ^ 53 # 1) - 1)%Q as GM.
              { setoid_replace ((2 ^ 53 # 1) - 1)%Q with (2 ^ 53 - 1 # 1)%Q by (unfold Qeq; cbn; lia). apply int_le_Q. lia. }
              assert (M = 2 ^ 53 - 1) as EM.
              { destruct (Z.le_gt_cases M (2 ^ 53 - 2)) as [LM|]; [exfalso|lia].
                assert ((M # 1) <= (2 ^ 53 # 1) - (2 # 1))%Q as GM'.
                { rewrite minus_int. apply int_le_Q. lia. }
                rewrite (Qabs_neg ((M # 1) - y)) in Hf by lra. lra. }
              assert (Z.even M = true) as Ev.
              { apply (proj2 R (2 ^ 53)); [lia|]. rewrite (Qabs_neg ((M # 1) - y)) in * by lra. rewrite (Qabs_pos ((2 ^ 53 # 1) - y)) by lra.
                assert ((M # 1) == (2 ^ 53 # 1) - 1)%Q as EQ by (rewrite EM; unfold Qeq; cbn; lia). lra. }
              rewrite EM in Ev. discriminate Ev.
      * assert (2 ^ 53 <= M * 2 ^ (e - 971)) as G.
        { replace (e - 971) with (1 + (e - 972)) by lia. rewrite Z.pow_add_r by lia. pose proof (Z.pow_pos_nonneg 2 (e - 972)). change (2 ^ 1) with 2. nia. }
        destruct (Z.leb_spec (2 ^ 53) (M * 2 ^ (e - 971))); [|lia]. cbn [andb]. left. split; [|reflexivity].
        apply Qle_trans with ((2 # 1) ^ fl)%Q; [|exact F1]. rewrite is_too_large. pose proof (pow_le 1024 fl ltac:(lia)) as P. pose proof (FloatProofs.pow_pos 970). lra.
    + rewrite andb_false_r. apply FIN; [lia| |].
      * apply double_of_le; lia.
      * apply Qlt_le_trans with ((2 # 1) ^ (fl + 1))%Q; [exact F2|]. rewrite is_too_large.
        pose proof (pow_le (fl + 1) 1023 ltac:(unfold e in L; lia)) as P. change 1024 with (1 + 1023). rewrite (pow_add 1 1023). change ((2 # 1) ^ 1)%Q with (2 # 1)%Q.
        pose proof (pow_le 970 1023 ltac:(lia)). generalize dependent ((2 # 1) ^ 1023)%Q. generalize dependent ((2 # 1) ^ 970)%Q. intros. lra.
Qed.

(** ** one number, one float *)
Lemma nearest_once x y y' : nearest x y -> nearest x y' -> (y == y')%Q.
Proof.
  intros [[D C] V] [[D' C'] V']. destruct (Qeq_dec y y') as [E|N]; [exact E|exfalso].
  assert (Qabs (y - x) == Qabs (y' - x))%Q as T by (apply Qle_antisym; [apply C, D'|apply C', D]).
  destruct (V y' D') as [k K]; [intros E; apply N; symmetry; exact E|symmetry; exact T|].
  destruct (V' y D N T) as [k' K']. rewrite (Qabs_Qminus y y') in K'. set (g := Qabs (y' - y)) in *.
  assert (0 < g)%Q as G.
  { destruct (Qlt_le_dec 0 g) as [L|L]; [exact L|exfalso]. apply N. pose proof (Qabs_nonneg (y' - y)) as P. fold g in P. assert (g == 0)%Q as Z0 by lra. rewrite K, K', Z0. ring. }
  assert (g == Qabs ((2 * (k' - k) # 1) * g))%Q as S.
  { unfold g at 1. apply Qabs_wd. assert ((2 * (k' - k) # 1) == (2 * k' # 1) - (2 * k # 1))%Q as -> by (unfold Qeq; cbn; lia). rewrite K at 1. rewrite K' at 1. ring. }
  rewrite Qabs_Qmult, (Qabs_pos g) in S by lra. rewrite Qabs_Z in S.
  assert ((1 # 1) == (Z.abs (2 * (k' - k)) # 1))%Q as W.
  { apply Qmult_inj_r with (z := g); [intros Z0; rewrite Z0 in G; discriminate G|]. rewrite <- S. ring. }
  unfold Qeq in W. cbn in W. lia.
Qed.
Lemma nearest_wd x x' y : (x == x')%Q -> nearest x y -> nearest x' y.
Proof.
  intros E [[D C] V]. split; [split; [exact D|]|].
  - intros z Z. rewrite <- E. apply C, Z.
  - intros z Z N T. rewrite <- !E in T. apply V; assumption.
Qed.
Lemma rounds_to_float_wd s x x' f : (x == x')%Q -> rounds_to_float s x f -> rounds_to_float s x' f.
Proof.
  intros E [[L F]|(L & S & y & N & F)]; [left; rewrite <- E; auto|right]. rewrite <- E. split; [exact L|]. split; [exact S|].
  exists y. split; [apply (nearest_wd _ _ _ E), N|exact F].
Qed.
Lemma odd_unique m m' j : Z.odd m = true -> Z.odd m' = true -> 0 <= j -> m = m' * 2 ^ j -> j = 0.
Proof.
  intros O O' J E. destruct (Z.eq_dec j 0) as [|N]; [assumption|exfalso]. replace j with (1 + (j - 1)) in E by lia. rewrite Z.pow_add_r in E by lia.
  rewrite E in O. replace (m' * (2 ^ 1 * 2 ^ (j - 1))) with (2 * (m' * 2 ^ (j - 1))) in O by lia. rewrite Z.odd_mul in O. discriminate O.
Qed.
Lemma dyadic_unique m e m' e' : lowest_terms m e -> lowest_terms m' e' -> ((m # 1) * (2 # 1) ^ e == (m' # 1) * (2 # 1) ^ e')%Q -> m = m' /\ e = e'.
Proof.
  assert (forall m e m' e', e <= e' -> lowest_terms m e -> lowest_terms m' e' -> ((m # 1) * (2 # 1) ^ e == (m' # 1) * (2 # 1) ^ e')%Q -> m = m' /\ e = e') as K.
  { clear. intros m e m' e' L T T' E. assert (m = m' * 2 ^ (e' - e)) as V.
    { replace e' with (e + (e' - e)) in E by lia. rewrite pow_add, (pow_Z (e' - e)) in E by lia.
      assert ((m # 1) == (m' # 1) * (2 ^ (e' - e) # 1))%Q as V.
      { apply Qmult_inj_r with (z := ((2 # 1) ^ e)%Q); [intros Z0; pose proof (FloatProofs.pow_pos e) as P; rewrite Z0 in P; discriminate P|]. rewrite E. ring. }
      rewrite times_int in V. unfold Qeq in V. cbn in V. lia. }
    assert (0 < 2 ^ (e' - e)) by (apply Z.pow_pos_nonneg; lia).
    destruct T as [[T1 T2]|[T1 T2]], T' as [[T3 T4]|[T3 T4]].
    - lia.
    - nia.
    - subst m'. lia.
    - pose proof (odd_unique _ _ (e' - e) T2 T4 ltac:(lia) V) as J. rewrite J, Z.pow_0_r in V. lia. }
  intros T T' E. destruct (Z.le_ge_cases e e') as [L|L]; [apply K; assumption|]. destruct (K m' e' m e L T' T) as [? ?]; [symmetry; exact E|]. auto.
Qed.
Lemma float_value_unique s f f' q : negative f = Some s -> negative f' = Some s -> float_value f q -> float_value f' q -> f = f'.
Proof.
  intros A B F F'. destruct f as [|?|s1 m e]; [destruct F..|]. destruct f' as [|?|s2 m' e']; [destruct F'..|].
  injection A as ->. injection B as ->. destruct F as [T V], F' as [T' V'].
  rewrite V in V'. unfold dyadic in V'. destruct (dyadic_unique m e m' e' T T') as [-> ->]; [|reflexivity].
  destruct s; [|exact V']. setoid_replace (- m # 1)%Q with (- (m # 1))%Q in V' by reflexivity. setoid_replace (- m' # 1)%Q with (- (m' # 1))%Q in V' by reflexivity.
  setoid_replace ((m # 1) * (2 # 1) ^ e)%Q with (- (- (m # 1) * (2 # 1) ^ e))%Q by ring. rewrite V'. ring.
Qed.
Lemma float_value_wd f q q' : (q == q')%Q -> float_value f q -> float_value f q'.
Proof. intros E. destruct f; cbn [float_value]; try tauto. rewrite E. tauto. Qed.
Theorem rounds_once s x f f' : rounds_to_float s x f -> rounds_to_float s x f' -> f = f'.
Proof.
  intros [[L F]|(L & S & y & N & F)] [[L' F']|(L' & S' & y' & N' & F')]; [congruence|exfalso; lra|exfalso; lra|].
  eapply float_value_unique; [exact S|exact S'|exact F|]. eapply float_value_wd; [|exact F']. pose proof (nearest_once _ _ _ N N') as E. destruct s; rewrite E; reflexivity.
Qed.
Theorem nearest_double_iff s a b f : 0 <= a -> 0 < b -> rounds_to_float s ((a # 1) / (b # 1)) f <-> f = nearest_double s a b.
Proof.
  intros Ha Hb. pose proof (nearest_double_rounds s a b Ha Hb) as R. split; [intros H; eapply rounds_once; eassumption|intros ->; exact R].
Qed.
