(** Proofs: a documented place shows only one value. *)
From Coq Require Import QArith Qpower Qabs Lqa Lia Znumtheory.
From Verif Require Import Py PyFacts BitFacts Utils PyFloat ParamLang Parameters SpecText TextProofs SpecApplication ApplicationProofs SpecParameters FloatProofs ParamProofs DecodeFacts ParserProofs.
Open Scope string_scope.
Open Scope list_scope.
Open Scope Z_scope.

Lemma float_value_wd x q q' : (q == q')%Q -> float_value x q -> float_value x q'.
Proof. destruct x; cbn; auto. intros E [L H]. split; [exact L|]. rewrite <- E. exact H. Qed.
Lemma same_distance (a b : Q) : (Qabs a == Qabs b)%Q -> (a == b)%Q \/ (a == - b)%Q.
Proof.
  intros H. destruct (Qlt_le_dec a 0) as [A|A], (Qlt_le_dec b 0) as [B|B].
  - rewrite !Qabs_neg in H by (apply Qlt_le_weak; assumption). left. lra.
  - rewrite (Qabs_neg a), (Qabs_pos b) in H by (try assumption; apply Qlt_le_weak; assumption). right. lra.
  - rewrite (Qabs_pos a), (Qabs_neg b) in H by (try assumption; apply Qlt_le_weak; assumption). right. lra.
  - rewrite !Qabs_pos in H by assumption. left. lra.
Qed.
Lemma int_eq a b : ((a # 1) == (b # 1))%Q -> a = b.
Proof. unfold Qeq. cbn. lia. Qed.
Lemma rounds_once x k k' : rounds_to x k -> rounds_to x k' -> k = k'.
Proof.
  intros [C V] [C' V']. assert (Qabs ((k # 1) - x) == Qabs ((k' # 1) - x))%Q as D by (apply Qle_antisym; [apply C|apply C']).
  destruct (Z.eq_dec k k') as [|N]; [assumption|exfalso].
  assert (Z.even k = true) as Ek by (apply (V k'); [lia|symmetry; exact D]).
  assert (Z.even k' = true) as Ek' by (apply (V' k); [lia|exact D]).
  apply Z.even_spec in Ek as (a & ->), Ek' as (b & ->).
  assert (x == (a + b # 1))%Q as X.
  { destruct (same_distance _ _ D) as [E|E].
    - exfalso. apply N. apply int_eq. setoid_replace (2 * a # 1)%Q with (((2 * a # 1) - x) + x)%Q by ring. rewrite E. ring.
    - assert ((a + b # 1) == ((2 * a # 1) + (2 * b # 1)) / (2 # 1))%Q as ->.
      { unfold Qeq, Qdiv, Qmult, Qplus. cbn. lia. }
      apply (Qmult_inj_r _ _ (2 # 1)); [discriminate|].
      setoid_replace (((2 * a # 1) + (2 * b # 1)) / (2 # 1) * (2 # 1))%Q with ((2 * a # 1) + (2 * b # 1))%Q by (field; discriminate).
      assert ((2 * a # 1) == x + - ((2 * b # 1) - x))%Q as -> by (rewrite <- E; ring). ring. }
  specialize (C (a + b)). rewrite X in C.
  assert (Qabs ((a + b # 1) - (a + b # 1)) == 0)%Q as Z0 by (setoid_replace ((a + b # 1) - (a + b # 1))%Q with 0%Q by ring; reflexivity).
  rewrite Z0 in C. apply N. pose proof (Qabs_nonneg ((2 * a # 1) - (a + b # 1))) as P.
  assert (Qabs ((2 * a # 1) - (a + b # 1)) == 0)%Q as A0 by (apply Qle_antisym; assumption).
  assert (2 * a = a + b); [|lia].
  apply int_eq. destruct (Qlt_le_dec ((2 * a # 1) - (a + b # 1)) 0) as [L|L].
  - rewrite Qabs_neg in A0 by (apply Qlt_le_weak; exact L). lra.
  - rewrite Qabs_pos in A0 by exact L. lra.
Qed.
(** the double closest to [p] is unique if [p] is a double *)
Lemma closest_is p q : double_value p -> closest_double p q -> (q == p)%Q.
Proof.
  intros D [_ C]. specialize (C p D). assert (Qabs (p - p) == 0)%Q as Z0 by (setoid_replace (p - p)%Q with 0%Q by ring; reflexivity). rewrite Z0 in C.
  pose proof (Qabs_nonneg (q - p)) as P. destruct (Qlt_le_dec (q - p) 0) as [L|L].
  - rewrite Qabs_neg in C, P by (apply Qlt_le_weak; exact L). lra.
  - rewrite Qabs_pos in C, P by exact L. lra.
Qed.
Lemma scaled M E F : F <= E -> ((M # 1) * (2 # 1) ^ E == (M * 2 ^ (E - F) # 1) * (2 # 1) ^ F)%Q.
Proof.
  intros H. replace E with (E - F + F) at 1 by lia. rewrite pow_add, pow_Z by lia. rewrite Qmult_assoc. apply Qmult_comp; [|reflexivity]. unfold Qeq. cbn. lia.
Qed.
Lemma closest_once k q q' : Z.abs k < 5 ^ 7 * 2 ^ 53 -> closest_double (k # 10000000) q -> closest_double (k # 10000000) q' -> (q == q')%Q.
Proof.
  intros Hk [D C] [D' C']. set (p := (k # 10000000)%Q) in *.
  assert (Qabs (q - p) == Qabs (q' - p))%Q as E by (apply Qle_antisym; [apply C, D'|apply C', D]).
  apply same_distance in E as [E|E]; [lra|].
  assert (double_value p) as Dp.
  { destruct D as (M & X & HM & HX & Hq). destruct D' as (M' & X' & HM' & HX' & Hq').
    set (F := Z.min (Z.min X X') 0).
    assert (p * (2 # 1) == (M * 2 ^ (X - F) + M' * 2 ^ (X' - F) # 1) * (2 # 1) ^ F)%Q as P2.
    { assert (p * (2 # 1) == q + q')%Q as -> by lra. rewrite Hq, Hq', (scaled M X F), (scaled M' X' F) by (unfold F; lia).
      set (A := M * 2 ^ (X - F)). set (B := M' * 2 ^ (X' - F)). assert ((A + B # 1) == (A # 1) + (B # 1))%Q as -> by (unfold Qeq; cbn; lia). ring. }
    set (A := M * 2 ^ (X - F) + M' * 2 ^ (X' - F)) in *. clearbody A.
    assert (k * 2 * 2 ^ (- F) = A * 10000000) as Eq.
    { apply int_eq. assert ((k * 2 * 2 ^ (- F) # 1) == (p * (2 # 1)) * (2 # 1) ^ (- F) * (10000000 # 1))%Q as ->.
      { rewrite pow_Z by (unfold F; lia). unfold p, Qeq, Qmult. cbn. lia. }
      rewrite P2. transitivity ((A # 1) * ((2 # 1) ^ F * (2 # 1) ^ (- F)) * (10000000 # 1))%Q; [ring|]. rewrite pow_opp. unfold Qeq. cbn. lia. }
    assert (5 ^ 7 | k) as (k' & Kk).
    { apply (Gauss (5 ^ 7) (2 * 2 ^ (- F)) k).
      - exists (A * 2 ^ 7). replace (2 * 2 ^ (- F) * k) with (k * 2 * 2 ^ (- F)) by ring. rewrite Eq. ring.
      - rewrite <- Z.pow_succ_r by (unfold F; lia). apply rel_prime_sym. apply Zpow_facts.rel_prime_Zpower; [unfold F; lia|lia|].
        apply prime_rel_prime; [exact prime_2|]. intros (z & Hz). lia. }
    exists k', (-7). split; [|split; [lia|]].
    - rewrite Kk, Z.abs_mul in Hk. change (Z.abs (5 ^ 7)) with (5 ^ 7) in Hk. nia.
    - unfold p. rewrite Kk. change ((2 # 1) ^ (-7))%Q with (1 # 128)%Q. unfold Qeq, Qmult. cbn. lia. }
  rewrite (closest_is p q Dp (conj D C)), (closest_is p q' Dp (conj D' C')). reflexivity.
Qed.
Lemma strip_le p e m' e' : strip_twos p e = (m', e') -> m' <= Zpos p.
Proof. revert e. induction p as [p IH|p IH|]; intros e H; cbn in H; try (inversion H; lia). specialize (IH _ H). lia. Qed.
Lemma make_float_small s m e x : 0 <= m -> make_float s m e = x -> exists m' e', x = Fin s m' e' /\ 0 <= m' <= m.
Proof.
  intros H <-. destruct m as [|p|p]; [exists 0, 0; split; [reflexivity|lia]| |lia]. cbn. destruct (strip_twos p e) as [m' e'] eqn:E.
  exists m', e'. split; [reflexivity|]. split; [destruct (strip_odd _ _ _ _ E); lia|exact (strip_le _ _ _ _ E)].
Qed.
Lemma single_small n x s m e : 0 <= n < 2 ^ 32 -> denotes 8 23 n x -> x = Fin s m e -> 0 <= m < 2 ^ 24 /\ e <= 971.
Proof.
  intros Hn D ->. assert (e <= 971 /\ decode_float 8 23 n = Fin s m e) as [He Ef].
  { assert (decode_float 8 23 n = Fin s m e) as Ef by (apply (denotes_unique 8 23 n); [apply decode_denotes; cbn; lia|exact D]). split; [|exact Ef].
    destruct D as [(_ & _ & D)|[(_ & _ & D)|(_ & _ & L & V)]]; try discriminate. destruct L as [[_ ->]|[Pm _]]; [lia|].
    destruct (Z.le_gt_cases e 971) as [|G]; [assumption|exfalso].
    unfold decode_float in Ef. cbv zeta in Ef.
    assert (forall sg M E, 0 <= M < 2 ^ 24 -> E <= 104 -> make_float sg M E = Fin s m e -> False) as K.
    { clear - Pm G. intros sg M E HM HE H. destruct (make_float_bound sg M E ((2 # 1) ^ 128) ltac:(lia)) with (m' := m) (e' := e) as [_ B].
      - apply Qlt_le_trans with ((2 # 1) ^ 24 * (2 # 1) ^ E)%Q.
        + apply Qmult_lt_r; [apply FloatProofs.pow_pos|]. rewrite pow_Z by lia. unfold Qlt; cbn; lia.
        + rewrite <- pow_add. apply pow_le. lia.
      - destruct (make_float_fin sg M E) as (m'' & e'' & E2 & _). rewrite H in E2. injection E2 as <- _ _. exact H.
      - apply (Qlt_irrefl ((2 # 1) ^ 128)). apply Qle_lt_trans with (2 := B). apply Qle_trans with ((2 # 1) ^ e)%Q; [apply pow_le; lia|].
        rewrite <- (Qmult_1_l ((2 # 1) ^ e)) at 1. apply Qmult_le_r; [apply FloatProofs.pow_pos|]. unfold Qle; cbn. lia. }
    rewrite !mask_mod in Ef by lia. pose proof (Z.mod_pos_bound n (2 ^ 23) ltac:(lia)) as HF. pose proof (Z.mod_pos_bound (Z.shiftr n 23) (2 ^ 8) ltac:(lia)) as HE.
    destruct (_ =? 2 ^ 8 - 1) eqn:E1 in Ef; [destruct (_ =? 0) in Ef; discriminate|]. apply Z.eqb_neq in E1.
    destruct (_ =? 0) eqn:E0 in Ef; eapply K; try exact Ef; cbn in *; lia. }
  split; [|exact He]. unfold decode_float in Ef. cbv zeta in Ef. rewrite !mask_mod in Ef by lia. pose proof (Z.mod_pos_bound n (2 ^ 23) ltac:(lia)) as HF.
  destruct (_ =? 2 ^ 8 - 1) in Ef; [destruct (_ =? 0) in Ef; discriminate|].
  assert (forall sg M E, 0 <= M < 2 ^ 24 -> make_float sg M E = Fin s m e -> 0 <= m < 2 ^ 24) as K2.
  { clear. intros sg M E HM H. apply make_float_small in H as (m' & e' & Ef & B); [|lia]. injection Ef as _ -> _. lia. }
  destruct (_ =? 0) in Ef; eapply K2; try exact Ef; cbn in HF |- *; lia.
Qed.
Lemma rounded_once n x y y' : 0 <= n < 2 ^ 32 -> denotes 8 23 n x -> rounded_to_7 x y -> rounded_to_7 x y' -> y = y'.
Proof.
  intros Hn D H H'. destruct x as [|s|s m e]; [congruence|congruence|]. destruct (single_small n _ s m e Hn D eq_refl) as [Hm He].
  destruct H as (k & q & R & C & V & N), H' as (k' & q' & R' & C' & V' & N'). pose proof (rounds_once _ _ _ R R') as <-.
  assert (q == q')%Q as Eq.
  { destruct (Z.le_gt_cases 0 e) as [He0|He0].
    - assert ((k # 10000000) == dyadic s m e)%Q as P.
      { unfold dyadic in *. set (M := if s then - m else m) in *. assert ((M # 1) * (2 # 1) ^ e * (10000000 # 1) == (M * 2 ^ e * 10000000 # 1))%Q as X.
        { rewrite pow_Z by lia. unfold Qeq, Qmult. cbn. lia. }
        assert (k = M * 2 ^ e * 10000000) as ->.
        { destruct R as [Cl _]. specialize (Cl (M * 2 ^ e * 10000000)). rewrite X in Cl. set (J := M * 2 ^ e * 10000000) in *.
          assert (Qabs ((J # 1) - (J # 1)) == 0)%Q as Z0 by (setoid_replace ((J # 1) - (J # 1))%Q with 0%Q by ring; reflexivity). rewrite Z0 in Cl.
          pose proof (Qabs_nonneg ((k # 1) - (J # 1))) as P0. apply int_eq. destruct (Qlt_le_dec ((k # 1) - (J # 1)) 0) as [L|L].
          - rewrite Qabs_neg in Cl, P0 by (apply Qlt_le_weak; exact L). lra.
          - rewrite Qabs_pos in Cl, P0 by exact L. lra. }
        rewrite pow_Z by lia. unfold Qeq, Qmult. cbn. lia. }
      assert (double_value (k # 10000000)) as Dv.
      { exists (if s then - m else m), e. split; [destruct s; lia|]. split; [lia|exact P]. }
      rewrite (closest_is _ _ Dv C), (closest_is _ _ Dv C'). reflexivity.
    - apply (closest_once k); auto. destruct R as [Cl _]. specialize (Cl 0).
      set (u := (dyadic s m e * (10000000 # 1))%Q) in *.
      assert (Qabs u < (2 ^ 24 * 10000000 # 1))%Q as B.
      { unfold u. rewrite Qabs_Qmult. assert (Qabs (dyadic s m e) < (2 ^ 24 # 1))%Q as B.
        { unfold dyadic. rewrite Qabs_Qmult, (Qabs_pos ((2 # 1) ^ e)) by (apply Qlt_le_weak, FloatProofs.pow_pos).
          assert (Qabs ((if s then - m else m) # 1) == (m # 1))%Q as -> by (unfold Qabs, Qeq; cbn; destruct s; lia).
          apply Qle_lt_trans with (m # 1)%Q; [|unfold Qlt; cbn; lia]. rewrite <- (Qmult_1_l (m # 1)) at 2. rewrite (Qmult_comm (m # 1)).
          apply Qmult_le_compat_r; [change 1%Q with ((2 # 1) ^ 0)%Q; apply pow_le; lia|unfold Qle; cbn; lia]. }
        change (Qabs (10000000 # 1)) with (10000000 # 1)%Q. setoid_replace (2 ^ 24 * 10000000 # 1)%Q with ((2 ^ 24 # 1) * (10000000 # 1))%Q by reflexivity.
        apply Qmult_lt_r; [reflexivity|exact B]. }
      assert (Qabs (k # 1) < (2 ^ 25 * 10000000 # 1))%Q as Bk.
      { setoid_replace (k # 1)%Q with (((k # 1) - u) + u)%Q by ring. eapply Qle_lt_trans; [apply Qabs_triangle|].
        setoid_replace ((0 # 1) - u)%Q with (- u)%Q in Cl by ring. rewrite Qabs_opp in Cl.
        setoid_replace (2 ^ 25 * 10000000 # 1)%Q with ((2 ^ 24 * 10000000 # 1) + (2 ^ 24 * 10000000 # 1))%Q by reflexivity.
        set (a := Qabs ((k # 1) - u)) in *. set (b := Qabs u) in *. set (c := (2 ^ 24 * 10000000 # 1)%Q) in *. clearbody a b c. lra. }
      unfold Qabs, Qlt in Bk. cbn in Bk |- *. lia. }
  apply (value_written_once y y' q); [exact V|eapply float_value_wd; [symmetry; exact Eq|exact V']|congruence].
Qed.
Lemma text_once l s s' : text_of l s -> text_of l s' -> s = s'.
Proof.
  intros [(p & q & E & N & T)|(N & T)] [(p' & q' & E' & N' & T')|(N' & T')].
  - assert (p = p') as ->; [|eapply trimmed_unique; eassumption]. rewrite E in E'. clear - E' N N'. revert p' E'.
    induction p as [|x p IH]; intros [|x' p'] H; cbn in H; [reflexivity|..].
    + exfalso. injection H as _ H. apply N. rewrite H. apply in_or_app. right. left. reflexivity.
    + exfalso. injection H as _ H. apply N'. rewrite <- H. apply in_or_app. right. left. reflexivity.
    + injection H as -> H. f_equal. apply IH. exact H.
  - exfalso. apply N'. rewrite E. apply in_or_app. right. left. reflexivity.
  - exfalso. apply N. rewrite E'. apply in_or_app. right. left. reflexivity.
  - eapply trimmed_unique; eassumption.
Qed.
Lemma dotted_once l s s' : dotted l s -> dotted l s' -> s = s'.
Proof.
  intros (a & b & c & d & sa & sb & sc & sd & -> & A & B & C & D & ->) (a' & b' & c' & d' & sa' & sb' & sc' & sd' & E & A' & B' & C' & D' & ->).
  injection E as <- <- <- <-. rewrite (decimal_text_unique _ _ _ A A'), (decimal_text_unique _ _ _ B B'), (decimal_text_unique _ _ _ C C'), (decimal_text_unique _ _ _ D D'). reflexivity.
Qed.
Lemma field_value_range off l : is_bytes l -> 0 <= le_value (field off 4 l) < 2 ^ 32.
Proof.
  intros B. pose proof (from_le_range (field off 4 l) (field_bytes off 4 l B)) as H. change (from_le (field off 4 l)) with (le_value (field off 4 l)) in H.
  assert (len (field off 4 l) <= 4) as L by (unfold field, len; rewrite firstn_length; cbn; lia).
  pose proof (Z.pow_le_mono_r 256 (len (field off 4 l)) 4 ltac:(lia) L). change (2 ^ 32) with (256 ^ 4). lia.
Qed.
Lemma list_ext {A} (d : A) (l l' : list A) n : len l = n -> len l' = n -> (forall i, 0 <= i < n -> nth (Z.to_nat i) l d = nth (Z.to_nat i) l' d) -> l = l'.
Proof.
  intros L L' H. apply nth_ext with (d := d) (d' := d); [unfold len in *; lia|]. intros i Hi. specialize (H (Z.of_nat i)).
  rewrite Nat2Z.id in H. apply H. unfold len in L. lia.
Qed.
Lemma shows_once l p v v' : is_bytes l -> shows l p v -> shows l p v' -> v = v'.
Proof.
  intros B. destruct p; cbn [shows].
  1-3: congruence.
  - intros (s & -> & T) (s' & -> & T'). f_equal. eapply text_once; eassumption.
  - intros (s & -> & T) (s' & -> & T'). unfold hex_text in *. rewrite T, T'. reflexivity.
  - intros (s & -> & T) (s' & -> & T'). f_equal. eapply dotted_once; eassumption.
  - intros (x & -> & D) (x' & -> & D'). f_equal. eapply denotes_unique; eassumption.
  - intros (x & y & -> & D & R) (x' & y' & -> & D' & R'). rewrite (denotes_unique _ _ _ _ _ D' D) in R'. f_equal.
    eapply rounded_once; [apply field_value_range; exact B|exact D|exact R|exact R'].
  - intros (x & -> & D) (x' & -> & D'). f_equal. eapply denotes_unique; eassumption.
  - intros (ss & -> & L & H) (ss' & -> & L' & H'). do 2 f_equal. apply (list_ext [] _ _ rows); auto. intros i Hi.
    specialize (H i Hi). specialize (H' i Hi). etransitivity; [exact H|symmetry; exact H'].
  - intros (vs & -> & L & H) (vs' & -> & L' & H'). do 2 f_equal. apply (list_ext VNone _ _ 23); auto. intros i Hi.
    destruct (H i Hi) as (x & -> & D), (H' i Hi) as (x' & -> & D'). f_equal. eapply denotes_unique; eassumption.
  - congruence.
Qed.
(** the documented ranges of lengths do not overlap *)
Definition separate (n : Z) (ds : list (range * reading)) : Prop :=
  forall r r' d d', In (r, d) ds -> In (r', d') ds -> within n r -> within n r' -> d = d'.
Lemma separate_cons n r d ds : separate n ds -> (within n r -> forall r' d', In (r', d') ds -> ~ within n r') -> separate n ((r, d) :: ds).
Proof.
  intros H K r1 r2 d1 d2 [E|I1] [E'|I2] W1 W2.
  - congruence.
  - injection E as <- <-. destruct (K W1 _ _ I2 W2).
  - injection E' as <- <-. destruct (K W2 _ _ I1 W1).
  - eapply H; eassumption.
Qed.
Lemma separate_nil n : separate n [].
Proof. intros r r' d d' []. Qed.
Ltac apart := repeat apply separate_cons; try apply separate_nil;
  unfold within; cbn [from upto]; intros W r' d' I; repeat (destruct I as [I|I]; [injection I as <- _; cbn [from upto]; lia|]); destruct I.
Lemma exactly_separate m k d : separate m (exactly k d).
Proof. unfold exactly. apart. Qed.
Lemma at_least_separate m k d : separate m (at_least k d).
Proof. unfold at_least. apart. Qed.
Lemma optional_byte_separate m k d : separate m (optional_byte k d).
Proof. unfold optional_byte. generalize (d Missing) (d (Unsigned k 1)). intros a b. apart. Qed.
Lemma optional_byte_open_separate m k d : separate m (optional_byte_open k d).
Proof. unfold optional_byte_open. generalize (d Missing) (d (Unsigned k 1)). intros a b. apart. Qed.
Lemma five_separate m k a b c d e : separate m [(mk_range 0 (Some (k - 1)), a); (mk_range k (Some k), b); (mk_range (k + 1) (Some (k + 26)), c);
      (mk_range (k + 27) (Some (k + 27)), d); (mk_range (k + 28) None, e)].
Proof. apart. Qed.
Lemma one_separate m r d : separate m [(r, d)].
Proof. apart. Qed.
Lemma documented_separate t rows n : separate n (documented t rows).
Proof.
  destruct t; cbn [documented]; first [apply exactly_separate|apply at_least_separate|apply optional_byte_separate|apply optional_byte_open_separate
    |apply one_separate|apply five_separate].
Qed.
