(** Proofs that json.loads reads the texts of the grammar and no others. *)
From Coq Require Import Lia QArith String Ascii.
From Verif Require Import PyFacts PyFloat ParamLang Schema PyText SpecParameters SpecNumeral NumeralProofs RoundProofs ReadProofs Json SpecJson JsonProofs SpecGrammar.
Open Scope string_scope.
Open Scope list_scope.
Open Scope Z_scope.

(** ** white space *)
Lemma space_spec c : json_space c = true <-> c = 32 \/ c = 9 \/ c = 10 \/ c = 13.
Proof. unfold json_space. rewrite !orb_true_iff, !Z.eqb_eq. tauto. Qed.
Lemma skip_split s : exists w, json_blank w /\ s = w ++ skip_space s.
Proof.
  induction s as [|c s (w & B & E)]; [exists []; split; [constructor|reflexivity]|]. cbn [skip_space]. destruct (json_space c) eqn:C.
  - exists (c :: w). split; [constructor; [apply space_spec, C|exact B]|]. cbn. rewrite <- E. reflexivity.
  - exists []. split; [constructor|reflexivity].
Qed.
Definition firm (s : str) : Prop := match s with c :: _ => json_space c = false | [] => True end.
Lemma skip_blank w s : json_blank w -> firm s -> skip_space (w ++ s) = s.
Proof.
  induction 1 as [|c w C _ IH]; intros F; cbn [app skip_space].
  - destruct s as [|c s]; [reflexivity|]. cbn in *. rewrite F. reflexivity.
  - apply space_spec in C. rewrite C. auto.
Qed.

(** ** strings *)
Lemma hex_value_char c d : hex_value c = Some d <-> hex_char c d.
Proof.
  unfold hex_value. split.
  - destruct ((48 <=? c) && (c <=? 57)) eqn:A.
    { intros E. injection E as <-. replace c with (48 + (c - 48)) at 1 by lia. constructor. lia. }
    destruct ((97 <=? c) && (c <=? 102)) eqn:B.
    { intros E. injection E as <-. replace c with (87 + (c - 87)) at 1 by lia. constructor. lia. }
    destruct ((65 <=? c) && (c <=? 70)) eqn:C; [|discriminate].
    intros E. injection E as <-. replace c with (55 + (c - 55)) at 1 by lia. apply hex_capital. lia.
  - intros [e H|e H|e H].
    + replace ((48 <=? 48 + e) && (48 + e <=? 57)) with true by lia. f_equal. lia.
    + replace ((48 <=? 87 + e) && (87 + e <=? 57)) with false by lia. replace ((97 <=? 87 + e) && (87 + e <=? 102)) with true by lia. f_equal. lia.
    + replace ((48 <=? 55 + e) && (55 + e <=? 57)) with false by lia. replace ((97 <=? 55 + e) && (55 + e <=? 102)) with false by lia.
      replace ((65 <=? 55 + e) && (55 + e <=? 70)) with true by lia. f_equal. lia.
Qed.
Lemma hex4_unit a b c d u : hex4 a b c d = Some u <-> code_unit [92; 117; a; b; c; d] u.
Proof.
  unfold hex4. split.
  - destruct (hex_value a) as [a'|] eqn:A; [|discriminate]. destruct (hex_value b) as [b'|] eqn:B; [|discriminate].
    destruct (hex_value c) as [c'|] eqn:C; [|discriminate]. destruct (hex_value d) as [d'|] eqn:D; [|discriminate].
    intros E. injection E as <-. constructor; apply hex_value_char; assumption.
  - intros U. inversion U as [? ? ? ? a' b' c' d' A B C D]; subst. apply hex_value_char in A, B, C, D. rewrite A, B, C, D. reflexivity.
Qed.
Lemma unit_shape e u : code_unit e u -> exists a b c d, e = [92; 117; a; b; c; d].
Proof. intros [a b c d]. eauto. Qed.
Lemma escape_spec e c : short_escape e = Some c <-> In (e, c) escapes.
Proof.
  unfold short_escape, escapes. cbn [In]. split.
  - repeat match goal with |- context [?x =? ?y] => destruct (Z.eqb_spec x y) end; intros E; try discriminate; injection E as <-; subst; tauto.
  - intros H. repeat match goal with H : _ \/ _ |- _ => destruct H as [H|H] | H : (_, _) = (_, _) |- _ => injection H as <- <- | H : False |- _ => destruct H end; reflexivity.
Qed.
Lemma escape_not_u c : ~ In (117, c) escapes.
Proof. intros H. apply escape_spec in H. discriminate. Qed.
Lemma scan_body s t : string_body s t -> forall rest, scan_string (t ++ 34 :: rest) = Some (s, rest).
Proof.
  induction 1 as [|c s t L N1 N2 B IH|e c s t I B IH|u e s t U N B IH|u e u2 e2 s t U Hu U2 Hl B IH]; intros rest.
  - reflexivity.
  - cbn [app scan_string]. destruct (Z.eqb_spec c 34); [contradiction|]. destruct (Z.eqb_spec c 92); [contradiction|].
    destruct (Z.ltb_spec c 32); [lia|]. rewrite IH. reflexivity.
  - cbn [app scan_string]. change (92 =? 34) with false. change (92 =? 92) with true. cbv iota.
    destruct (Z.eqb_spec e 117) as [->|]; [destruct (escape_not_u c I)|]. apply escape_spec in I. rewrite I, IH. reflexivity.
  - destruct (unit_shape e u U) as (a & b & c & d & ->). apply hex4_unit in U. rewrite <- app_assoc. cbn [app scan_string].
    change (92 =? 34) with false. change (92 =? 92) with true. change (117 =? 117) with true. cbv iota. rewrite U.
    destruct (high_surrogate u) eqn:Hu; [|rewrite IH; reflexivity]. specialize (N (proj1 (high_b u) Hu)). specialize (IH rest).
    assert (add_char u (scan_string (t ++ 34 :: rest)) = Some (u :: s, rest)) as K by (rewrite IH; reflexivity).
    destruct (t ++ 34 :: rest) as [|x [|y [|b1 [|b2 [|b3 [|b4 r]]]]]] eqn:Q; try exact K.
    destruct (Z.eqb_spec x 92) as [->|]; [|exact K]. destruct (Z.eqb_spec y 117) as [->|]; [|exact K]. cbn [andb].
    inversion B as [E1 E2|c0 s0 t0 L M1 M2 B0 E1 E2|e0 c0 s0 t0 I B0 E1 E2|u0 e0 s0 t0 U0 N0 B0 E1 E2|u0 e0 u2 e2 s0 t0 U0 Hu0 U2 Hl B0 E1 E2]; subst.
    + discriminate.
    + injection Q as -> _. contradiction.
    + injection Q as -> _. destruct (escape_not_u c0 I).
    + destruct (unit_shape e0 u0 U0) as (a0 & b0 & c0 & d0 & ->). rewrite <- app_assoc in Q. cbn [app] in Q. injection Q as -> -> -> -> Q.
      pose proof U0 as U0'. apply hex4_unit in U0. rewrite U0. destruct (low_surrogate u0) eqn:Lw; [|exact K].
      apply low_b in Lw. exfalso. exact (N u0 _ t0 U0' Lw eq_refl).
    + destruct (unit_shape e0 u0 U0) as (a0 & b0 & c0 & d0 & ->). rewrite <- app_assoc in Q. cbn [app] in Q. injection Q as -> -> -> -> Q.
      apply hex4_unit in U0. rewrite U0. destruct (low_surrogate u0) eqn:Lw; [|exact K].
      apply low_b in Lw. unfold low, high in *. lia.
  - destruct (unit_shape e u U) as (a & b & c & d & ->). destruct (unit_shape e2 u2 U2) as (a2 & b2 & c2 & d2 & ->).
    apply hex4_unit in U, U2. rewrite <- !app_assoc. cbn [app scan_string].
    change (92 =? 34) with false. change (92 =? 92) with true. change (117 =? 117) with true. cbv iota. rewrite U.
    rewrite (proj2 (high_b u) Hu). cbn [andb]. rewrite U2, (proj2 (low_b u2) Hl), IH. reflexivity.
Qed.
Lemma body_scan n : forall s t rest, (length s <= n)%nat -> scan_string s = Some (t, rest) -> exists b, s = b ++ 34 :: rest /\ string_body t b.
Proof.
  assert (forall c q t rest, add_char c q = Some (t, rest) -> exists t', t = c :: t' /\ q = Some (t', rest)) as AC.
  { intros c [[a b]|] t rest E; [|discriminate]. injection E as <- <-. eauto. }
  induction n as [|n IH]; intros s t rest L E.
  { destruct s; [discriminate|cbn in L; lia]. }
  destruct s as [|c s1]; [discriminate|]. cbn [length] in L. cbn [scan_string] in E.
  destruct (Z.eqb_spec c 34) as [->|N1]; [injection E as <- <-; exists []; split; [reflexivity|constructor]|].
  destruct (Z.eqb_spec c 92) as [->|N2].
  2:{ destruct (Z.ltb_spec c 32); [discriminate|]. apply AC in E as (t' & -> & E). apply IH in E as (b & -> & B); [|lia].
      exists (c :: b). split; [reflexivity|]. constructor; auto. }
  destruct s1 as [|e s2]; [discriminate|]. cbn [length] in L.
  destruct (Z.eqb_spec e 117) as [->|Ne].
  2:{ destruct (short_escape e) as [x|] eqn:S; [|discriminate]. apply AC in E as (t' & -> & E). apply IH in E as (b & -> & B); [|lia].
      exists (92 :: e :: b). split; [reflexivity|]. apply body_escape; [apply escape_spec, S|exact B]. }
  destruct s2 as [|a1 [|a2 [|a3 [|a4 s3]]]]; try discriminate. cbn [length] in L.
  destruct (hex4 a1 a2 a3 a4) as [u|] eqn:U; [|discriminate]. apply hex4_unit in U.
  assert (add_char u (scan_string s3) = Some (t, rest) -> (high u -> forall u2 e2 t2, code_unit e2 u2 -> low u2 -> s3 <> e2 ++ t2) ->
    exists b, 92 :: 117 :: a1 :: a2 :: a3 :: a4 :: s3 = b ++ 34 :: rest /\ string_body t b) as K.
  { intros E' N. apply AC in E' as (t' & -> & E'). apply IH in E' as (b & -> & B); [|lia].
    exists ([92; 117; a1; a2; a3; a4] ++ b). split; [reflexivity|]. apply body_unit; auto.
    intros Hu u2 e2 t2 U2 Lw Eb. apply (N Hu u2 e2 (t2 ++ 34 :: rest) U2 Lw). rewrite Eb, <- app_assoc. reflexivity. }
  destruct (high_surrogate u) eqn:Hu.
  2:{ apply K; [exact E|]. intros Hu'. apply high_b in Hu'. congruence. }
  assert ((forall x y b1 b2 b3 b4 s4, s3 = x :: y :: b1 :: b2 :: b3 :: b4 :: s4 -> x = 92 -> y = 117 -> exists u2, hex4 b1 b2 b3 b4 = Some u2 /\ low_surrogate u2 = false) ->
     add_char u (scan_string s3) = Some (t, rest) -> exists b, 92 :: 117 :: a1 :: a2 :: a3 :: a4 :: s3 = b ++ 34 :: rest /\ string_body t b) as K'.
  { intros N E'. apply K; [exact E'|]. intros _ u2 e2 t2 U2 Lw ->. destruct (unit_shape e2 u2 U2) as (b1 & b2 & b3 & b4 & ->).
    destruct (N 92 117 b1 b2 b3 b4 t2 eq_refl eq_refl eq_refl) as (u3 & U3 & L3). apply hex4_unit in U2. rewrite U2 in U3. injection U3 as <-.
    apply low_b in Lw. congruence. }
  destruct s3 as [|x [|y [|b1 [|b2 [|b3 [|b4 s4]]]]]];
    try (apply K'; [intros; discriminate|exact E]).
  destruct ((x =? 92) && (y =? 117)) eqn:XY.
  2:{ apply K'; [|exact E]. intros x' y' c1 c2 c3 c4 s5 Q -> ->. injection Q as -> -> -> -> -> -> ->. discriminate. }
  apply andb_true_iff in XY as [X Y]. apply Z.eqb_eq in X, Y. subst x y.
  destruct (hex4 b1 b2 b3 b4) as [u2|] eqn:U2; [|discriminate].
  destruct (low_surrogate u2) eqn:Lw.
  2:{ apply K'; [|exact E]. intros x' y' c1 c2 c3 c4 s5 Q _ _. injection Q as _ _ <- <- <- <- _. eauto. }
  apply AC in E as (t' & -> & E). cbn [length] in L. apply IH in E as (b & -> & B); [|lia].
  exists ([92; 117; a1; a2; a3; a4] ++ [92; 117; b1; b2; b3; b4] ++ b). split; [reflexivity|].
  apply body_pair; auto; [apply high_b, Hu|apply hex4_unit, U2|apply low_b, Lw].
Qed.
Lemma key_spec s name : key_of s = Some name <-> s = chars name.
Proof.
  split.
  - unfold key_of. destruct (forallb _ s) eqn:F; [|discriminate]. intros E. injection E as <-. unfold chars.
    rewrite list_ascii_of_string_of_list_ascii, map_map. symmetry. rewrite <- (map_id s) at 2. apply map_ext_in. intros c I.
    apply (proj1 (forallb_forall _ _) F) in I. rewrite Ascii.nat_ascii_embedding; [lia|]. apply Nat2Z.inj_lt. rewrite Z2Nat.id by lia. change (Z.of_nat 256) with 256. lia.
  - intros ->. apply chars_ok.
Qed.

(** ** numbers *)
Lemma digits_run t ds : digits t ds -> digit_run t ds.
Proof.
  intros (-> & F & N). induction F as [|d ds D F IH]; [contradiction|]. destruct ds as [|d' ds]; [constructor; exact D|].
  cbn [map]. apply run_digit; [exact D|]. apply IH. discriminate.
Qed.
Lemma digits_all t ds : digits t ds -> all_digits t /\ t <> [].
Proof.
  intros (-> & F & N). split; [|destruct ds; [contradiction|discriminate]]. apply Forall_forall. intros c I. apply in_map_iff in I as (d & <- & J).
  eapply Forall_forall in F; [|exact J]. apply digit_char_spec. cbn beta in F. lia.
Qed.
Lemma all_digits_of t : all_digits t -> t <> [] -> exists ds, digits t ds.
Proof.
  intros A N. destruct (digits_shown t A) as (ds & S & ->). exists ds. split; [reflexivity|]. split; [exact S|]. intros ->. exact (N eq_refl).
Qed.
Lemma minus_signed neg : signed (minus neg) neg. Proof. destruct neg; constructor. Qed.
Lemma whole_int neg w ds : digits w ds -> int_text (minus neg ++ w) (if neg then - decimal ds else decimal ds).
Proof.
  intros D. exists [], (minus neg), neg, w, ds, []. rewrite app_nil_r. split; [reflexivity|]. split; [constructor|]. split; [constructor|].
  split; [apply minus_signed|]. split; [apply digits_run, D|reflexivity].
Qed.
Lemma real_float neg w ds f fs x k r : digits w ds -> fraction_part f fs -> json_exponent x k ->
  rounds_to_float neg ((decimal (ds ++ fs) # 1) * (10 # 1) ^ (k - len fs))%Q r -> float_text (minus neg ++ w ++ f ++ x) r.
Proof.
  intros D F X R. exists [], (minus neg), neg, (w ++ f ++ x), []. rewrite app_nil_r. split; [reflexivity|]. split; [constructor|]. split; [constructor|].
  split; [apply minus_signed|]. apply (a_number neg w ds f fs x k r).
  - apply some, digits_run, D.
  - destruct F as [|t l L]; [constructor|]. apply point, some, digits_run, L.
  - destruct D as (_ & _ & N). intros E. apply app_eq_nil in E as [E _]. exact (N E).
  - destruct X as [|c sign n t l C S L]; [constructor|]. apply exponent; auto. apply digits_run, L.
  - exact R.
Qed.
(** what may follow a value *)
Definition stops (r : str) : Prop := match r with c :: _ => json_space c = true \/ c = 44 \/ c = 93 \/ c = 125 | [] => True end.
Lemma stops_facts r : stops r -> no_digit r /\ match r with c :: _ => c <> 46 /\ c <> 101 /\ c <> 69 | [] => True end.
Proof.
  destruct r as [|c r]; [cbn; auto|]. cbn. intros H. assert (c = 32 \/ c = 9 \/ c = 10 \/ c = 13 \/ c = 44 \/ c = 93 \/ c = 125) as K.
  { destruct H as [H|H]; [apply space_spec in H; tauto|tauto]. }
  split; [unfold digit_char; lia|lia].
Qed.
Lemma exponent_scanned x k r : json_exponent x k -> stops r -> scan_exponent (x ++ r) = (x, r).
Proof.
  intros [|c sign neg t ds C S D] St; destruct (stops_facts r St) as [N1 N2].
  - cbn [app]. destruct r as [|c r]; [reflexivity|]. unfold scan_exponent. destruct (Z.eqb_spec c 101); [lia|]. destruct (Z.eqb_spec c 69); [lia|]. reflexivity.
  - destruct (digits_all t ds D) as [A N]. cbn [app]. unfold scan_exponent.
    replace ((c =? 101) || (c =? 69)) with true by (symmetry; apply orb_true_iff; rewrite !Z.eqb_eq; exact C).
    rewrite <- app_assoc. destruct t as [|d t]; [contradiction|]. assert (digit_char d = true) as Dd by (inversion A; assumption).
    pose proof Dd as Dd'. apply digit_char_spec in Dd'.
    destruct S; cbn [app].
    + destruct (Z.eqb_spec d 45); [lia|]. destruct (Z.eqb_spec d 43); [lia|]. cbn [orb].
      rewrite app_comm_cons, take_digits_app by assumption. reflexivity.
    + change ((43 =? 45) || (43 =? 43)) with true. cbv iota. rewrite app_comm_cons, take_digits_app by assumption. reflexivity.
    + change ((45 =? 45) || (45 =? 43)) with true. cbv iota. rewrite app_comm_cons, take_digits_app by assumption. reflexivity.
Qed.
Lemma fraction_scanned f fs r : fraction_part f fs -> no_digit r -> (match r with c :: _ => c <> 46 | [] => True end) -> scan_fraction (f ++ r) = (f, r).
Proof.
  intros F. apply scan_fraction_ok. destruct F as [|t ds D]; [auto|]. right. exists t. split; [reflexivity|]. destruct (digits_all t ds D). auto.
Qed.
Lemma number_scanned neg w ds f fs x k r : whole_part w ds -> fraction_part f fs -> json_exponent x k -> stops r ->
  scan_number ((minus neg ++ w ++ f ++ x) ++ r) = Some (minus neg ++ w ++ f ++ x, match f ++ x with [] => false | _ => true end, r).
Proof.
  intros [D W] F X St. destruct (stops_facts r St) as [N1 N2].
  assert (no_digit (x ++ r) /\ match x ++ r with c :: _ => c <> 46 | [] => True end) as [M1 M2].
  { destruct X as [|c sign n t l C S L]; [split; [exact N1|destruct r; [exact I|tauto]]|].
    cbn [app no_digit]. split; [destruct C as [->| ->]; reflexivity|destruct C as [->| ->]; discriminate]. }
  assert (no_digit (f ++ x ++ r)) as M3 by (destruct F as [|t l L]; [exact M1|reflexivity]).
  destruct (digits_all w ds D) as [A N].
  assert (scan_whole (w ++ f ++ x ++ r) = Some (w, f ++ x ++ r)) as SW.
  { destruct D as (-> & Sm & Nn). destruct ds as [|d ds]; [contradiction|]. cbn [map hd] in *. destruct (Z.eq_dec d 0) as [->|Nd].
    - destruct W as [W|W]; [|congruence]. injection W as ->. reflexivity.
    - cbn [app]. unfold scan_whole. destruct (Z.eqb_spec (48 + d) 48); [lia|]. assert (digit_char (48 + d) = true) as Dc by (inversion A; assumption).
      rewrite Dc. rewrite app_comm_cons, take_digits_app by assumption. reflexivity. }
  assert (match w ++ f ++ x ++ r with c :: _ => c <> 45 | [] => True end) as K.
  { destruct w as [|c w]; [contradiction|]. cbn. inversion A as [|? ? Dc _]; subst. apply digit_char_spec in Dc. lia. }
  rewrite <- !app_assoc. unfold scan_number. destruct neg; cbn [minus app].
  - change (45 =? 45) with true. cbv iota. rewrite SW, (fraction_scanned f fs (x ++ r) F M1 M2), (exponent_scanned x k r X St). reflexivity.
  - destruct (w ++ f ++ x ++ r) as [|c s] eqn:Q; [discriminate|]. destruct (Z.eqb_spec c 45); [contradiction|].
    rewrite SW, (fraction_scanned f fs (x ++ r) F M1 M2), (exponent_scanned x k r X St). reflexivity.
Qed.
Lemma number_read_json t v r : json_number t v -> stops r -> read_json_number (t ++ r) = Some (v, r).
Proof.
  intros [neg w ds W|neg w ds f fs x k y W F X N R] St; unfold read_json_number.
  - pose proof (number_scanned neg w ds [] [] [] 0 r W no_fraction no_json_exponent St) as E. cbn [app] in E. rewrite app_nil_r in E. rewrite E.
    pose proof (whole_int neg w ds (proj1 W)) as T. rewrite <- (seen_plain (minus neg ++ w)) in T. apply (proj2 (read_int_iff (fun c => c) _ _)) in T. rewrite T. reflexivity.
  - rewrite (number_scanned neg w ds f fs x k r W F X St). destruct (f ++ x) eqn:FX; [contradiction|]. rewrite <- FX.
    pose proof (real_float neg w ds f fs x k y (proj1 W) F X R) as T. rewrite <- (seen_plain (minus neg ++ w ++ f ++ x)) in T.
    apply (proj2 (read_float_iff (fun c => c) _ _)) in T. rewrite T. reflexivity.
Qed.
Lemma scan_whole_split s w r : scan_whole s = Some (w, r) -> s = w ++ r /\ exists ds, whole_part w ds.
Proof.
  destruct s as [|c s]; [discriminate|]. cbn [scan_whole]. destruct (Z.eqb_spec c 48) as [->|N].
  - intros E. injection E as <- <-. split; [reflexivity|]. exists [0]. split; [|auto]. split; [reflexivity|]. split; [repeat constructor; lia|discriminate].
  - destruct (digit_char c) eqn:D; [|discriminate]. intros E. injection E as E.
    destruct (take_digits_split (c :: s) w r E) as (Q & A & _). split; [exact Q|].
    assert (w <> []) as Nw. { intros ->. cbn [take_digits] in E. rewrite D in E. destruct (take_digits s). discriminate. }
    destruct (all_digits_of w A Nw) as (ds & Dw). exists ds. split; [exact Dw|]. right.
    destruct Dw as (-> & _ & Nd). destruct ds as [|d ds]; [contradiction|]. cbn in Q. injection Q as Q _. cbn. lia.
Qed.
Lemma scan_fraction_split s f r : scan_fraction s = (f, r) -> s = f ++ r /\ exists fs, fraction_part f fs.
Proof.
  assert (forall s f r, ([], s) = (f, r) -> s = f ++ r /\ exists fs, fraction_part f fs) as Z0.
  { intros s' f' r' E. injection E as <- <-. split; [reflexivity|]. exists []. constructor. }
  destruct s as [|c s]; [apply (Z0 [])|]. cbn [scan_fraction]. destruct (Z.eqb_spec c 46) as [->|]; [|apply Z0].
  destruct (take_digits s) as [d q] eqn:T. destruct (take_digits_split s d q T) as (Q & A & _).
  destruct d as [|c d]; [apply Z0|]. intros E. injection E as <- <-. split; [cbn; rewrite Q; reflexivity|].
  destruct (all_digits_of (c :: d) A ltac:(discriminate)) as (ds & D). exists ds. constructor. exact D.
Qed.
Lemma scan_exponent_split s x r : scan_exponent s = (x, r) -> s = x ++ r /\ exists k, json_exponent x k.
Proof.
  assert (forall s x r, ([], s) = (x, r) -> s = x ++ r /\ exists k, json_exponent x k) as Z0.
  { intros s' f' r' E. injection E as <- <-. split; [reflexivity|]. exists 0. constructor. }
  destruct s as [|e s]; [apply (Z0 [])|]. cbn [scan_exponent]. destruct ((e =? 101) || (e =? 69)) eqn:Ee; [|apply Z0].
  assert (e = 101 \/ e = 69) as He by (apply orb_true_iff in Ee; rewrite !Z.eqb_eq in Ee; exact Ee).
  destruct s as [|c s]; [apply Z0|]. destruct ((c =? 45) || (c =? 43)) eqn:C.
  - destruct (take_digits s) as [d q] eqn:T. destruct (take_digits_split s d q T) as (Q & A & _).
    destruct d as [|c' d]; [apply Z0|]. intros E. injection E as <- <-. split; [cbn; rewrite Q; reflexivity|].
    destruct (all_digits_of (c' :: d) A ltac:(discriminate)) as (ds & D).
    apply orb_true_iff in C. rewrite !Z.eqb_eq in C. destruct C as [->| ->].
    + eexists. apply (a_json_exponent e [45] true (c' :: d) ds He); [constructor|exact D].
    + eexists. apply (a_json_exponent e [43] false (c' :: d) ds He); [constructor|exact D].
  - destruct (take_digits (c :: s)) as [d q] eqn:T. destruct (take_digits_split (c :: s) d q T) as (Q & A & _).
    destruct d as [|c' d]; [apply Z0|]. intros E. injection E as <- <-. split; [rewrite Q; reflexivity|].
    destruct (all_digits_of (c' :: d) A ltac:(discriminate)) as (ds & D).
    eexists. apply (a_json_exponent e [] false (c' :: d) ds He); [constructor|exact D].
Qed.
Lemma read_json_number_split s v r : read_json_number s = Some (v, r) -> exists t, s = t ++ r /\ json_number t v.
Proof.
  unfold read_json_number, scan_number.
  set (p := match s with c :: s1 => if c =? 45 then ([45], s1) else ([], s) | [] => ([], []) end).
  assert (exists neg s1, p = (minus neg, s1) /\ s = minus neg ++ s1) as (neg & s1 & -> & ->).
  { subst p. destruct s as [|c s]; [exists false, []; auto|]. destruct (Z.eqb_spec c 45) as [->|]; [exists true, s|exists false, (c :: s)]; auto. }
  destruct (scan_whole s1) as [[w s2]|] eqn:W; [|discriminate]. apply scan_whole_split in W as (-> & ds & W).
  destruct (scan_fraction s2) as [f s3] eqn:F. apply scan_fraction_split in F as (-> & fs & F).
  destruct (scan_exponent s3) as [x s4] eqn:X. apply scan_exponent_split in X as (-> & k & X).
  destruct (f ++ x) as [|c q] eqn:FX.
  - apply app_eq_nil in FX as [-> ->]. cbn [app]. rewrite app_nil_r.
    destruct (py_read_int _ _) as [n|] eqn:R; [|discriminate]. intros E. injection E as <- <-.
    exists (minus neg ++ w). split; [rewrite <- app_assoc; reflexivity|]. apply (proj1 (read_int_iff (fun c => c) _ _)) in R. rewrite seen_plain in R.
    rewrite (proj1 (one_number _) _ _ R (whole_int neg w ds (proj1 W))). constructor. exact W.
  - destruct (py_read_float _ _) as [y|] eqn:R; [|discriminate]. intros E. injection E as <- <-.
    exists (minus neg ++ w ++ f ++ x). split; [rewrite <- !app_assoc; reflexivity|]. apply (proj1 (read_float_iff (fun c => c) _ _)) in R. rewrite seen_plain in R.
    rewrite <- FX in R. pose proof W as ((_ & Sm & _) & _).
    assert (0 <= decimal (ds ++ fs)) as P.
    { apply decimal_nonneg. apply Forall_app. split; [exact Sm|]. destruct F as [|t l (_ & L & _)]; [constructor|exact L]. }
    set (z := decimal_float neg (decimal (ds ++ fs)) (k - len fs)).
    assert (rounds_to_float neg ((decimal (ds ++ fs) # 1) * (10 # 1) ^ (k - len fs))%Q z) as Rz by (apply decimal_float_iff; [exact P|reflexivity]).
    rewrite (proj2 (one_number _) _ _ R (real_float neg w ds f fs x k z (proj1 W) F X Rz)).
    apply (json_real neg w ds f fs x k z W F X); [rewrite FX; discriminate|exact Rz].
Qed.

(** ** dicts *)
Lemma first_keys_in k l : In k (first_keys l) <-> In k (map fst l).
Proof.
  induction l as [|[k' v] l IH]; [tauto|]. cbn [first_keys map fst In]. rewrite filter_In, IH. destruct (String.eqb_spec k' k) as [->|N]; cbn [negb].
  - tauto.
  - split; [tauto|]. intros [H|H]; [contradiction|tauto].
Qed.
Lemma first_keys_snoc l k v : first_keys (l ++ [(k, v)]) = if existsb (String.eqb k) (first_keys l) then first_keys l else first_keys l ++ [k].
Proof.
  induction l as [|[k' v'] l IH]; [reflexivity|]. cbn [app first_keys existsb]. rewrite IH.
  destruct (String.eqb_spec k k') as [->|N].
  - cbn [orb]. f_equal. destruct (existsb (String.eqb k') (first_keys l)); [reflexivity|]. rewrite filter_app. cbn. rewrite String.eqb_refl. cbn. apply app_nil_r.
  - cbn [orb]. replace (existsb (String.eqb k) (filter (fun k'0 => negb (String.eqb k' k'0)) (first_keys l))) with (existsb (String.eqb k) (first_keys l)).
    + destruct (existsb (String.eqb k) (first_keys l)); [reflexivity|]. rewrite filter_app. cbn. destruct (String.eqb_spec k' k); [congruence|]. reflexivity.
    + clear IH. induction (first_keys l) as [|y q IHq]; [reflexivity|]. cbn. destruct (String.eqb_spec k' y) as [->|Ny]; cbn; rewrite IHq.
      * destruct (String.eqb_spec k y); [congruence|reflexivity].
      * reflexivity.
Qed.
Lemma last_value_snoc k l k' v : last_value k (l ++ [(k', v)]) = if String.eqb k' k then Some v else last_value k l.
Proof.
  induction l as [|[k2 v2] l IH]; cbn [app last_value]; [destruct (String.eqb k' k); reflexivity|]. rewrite IH. destruct (String.eqb k' k); reflexivity.
Qed.
Lemma dict_set_keys k v d : map fst (dict_set k v d) = if existsb (String.eqb k) (map fst d) then map fst d else map fst d ++ [k].
Proof.
  induction d as [|[k' w] d IH]; [reflexivity|]. cbn [dict_set map fst existsb]. rewrite (String.eqb_sym k k'). destruct (String.eqb k' k); [reflexivity|].
  cbn [map fst orb]. rewrite IH. destruct (existsb _ _); reflexivity.
Qed.
Lemma dict_set_in k v d k' w : NoDup (map fst d) -> In (k', w) (dict_set k v d) -> (k' = k /\ w = v) \/ (k' <> k /\ In (k', w) d).
Proof.
  induction d as [|[k2 w2] d IH]; intros N; cbn [dict_set].
  - intros [E|[]]. injection E as <- <-. auto.
  - inversion N as [|? ? N1 N2]; subst. destruct (String.eqb_spec k2 k) as [->|Nk].
    + intros [E|E]; [injection E as <- <-; auto|]. right. split; [|right; exact E]. intros ->. apply N1. change k with (fst (k, w)). apply in_map, E.
    + intros [E|E]; [injection E as <- <-; right; split; [exact Nk|left; reflexivity]|]. destruct (IH N2 E) as [H|[H1 H2]]; [auto|]. right. split; [exact H1|right; exact H2].
Qed.
Lemma first_keys_nodup l : NoDup (first_keys l).
Proof.
  induction l as [|[k v] l IH]; [constructor|]. cbn [first_keys]. constructor; [|apply NoDup_filter, IH].
  rewrite filter_In, String.eqb_refl. intros [_ H]. discriminate.
Qed.
Lemma make_dict_of l : dict_of l (make_dict l).
Proof.
  induction l as [|[k v] l [IH1 IH2]] using rev_ind; [split; [reflexivity|intros k v []]|].
  unfold make_dict. rewrite fold_left_app. cbn [fold_left fst snd]. fold (make_dict l). split.
  - rewrite dict_set_keys, IH1, first_keys_snoc. reflexivity.
  - intros k' w H. rewrite last_value_snoc. apply dict_set_in in H as [[-> ->]|[N H]]; [rewrite String.eqb_refl; reflexivity| |rewrite IH1; apply first_keys_nodup].
    destruct (String.eqb_spec k k'); [congruence|]. apply IH2, H.
Qed.
Lemma dict_of_once l d d' : dict_of l d -> dict_of l d' -> d = d'.
Proof.
  intros [K V] [K' V']. rewrite <- K' in K. clear K'. revert d' K V'. induction d as [|[k v] d IH]; intros d' K V'; destruct d' as [|[k' v'] d']; try discriminate; [reflexivity|].
  cbn in K. injection K as -> K. f_equal.
  - f_equal. specialize (V k' v (or_introl eq_refl)). specialize (V' k' v' (or_introl eq_refl)). congruence.
  - apply IH; [intros a b H; apply V; right; exact H|exact K|intros a b H; apply V'; right; exact H].
Qed.

(** ** values *)
Lemma after_app w r : after_text w (w ++ r) = Some r.
Proof. induction w as [|c w IH]; [reflexivity|]. cbn. rewrite Z.eqb_refl. exact IH. Qed.
Lemma after_split w s r : after_text w s = Some r -> s = w ++ r.
Proof.
  revert s. induction w as [|c w IH]; intros s E; [injection E as <-; reflexivity|]. destruct s as [|c' s]; [discriminate|].
  cbn in E. destruct (Z.eqb_spec c c') as [->|]; [|discriminate]. cbn. f_equal. apply IH, E.
Qed.
Scheme value_ind2 := Minimality for json_value Sort Prop
  with items_ind2 := Minimality for json_items Sort Prop
  with members_ind2 := Minimality for json_members Sort Prop.
Combined Scheme json_ind from value_ind2, items_ind2, members_ind2.
Lemma number_head t v : json_number t v -> exists c r, t = c :: r /\ (c = 45 \/ digit_char c = true).
Proof.
  assert (forall w ds r, whole_part w ds -> exists c q, w ++ r = c :: q /\ digit_char c = true) as W.
  { intros w ds r [D _]. destruct (digits_all w ds D) as [A N]. destruct w as [|c w]; [contradiction|]. inversion A; subst. cbn. eauto. }
  intros [neg w ds H|neg w ds f fs x k r H F X N R]; destruct neg; cbn [minus app]; eauto.
  - destruct (W w ds [] H) as (c & q & E & D). rewrite app_nil_r in E. eauto.
  - destruct (W w ds (f ++ x) H) as (c & q & E & D). eauto.
Qed.
Lemma value_head v t : json_value v t -> exists c r, t = c :: r /\ json_space c = false /\ c <> 93 /\ c <> 125.
Proof.
  intros H. destruct H; try (eexists _, _; split; [reflexivity|]; repeat split; (reflexivity || discriminate)).
  apply number_head in H as (c & r & -> & H). exists c, r. split; [reflexivity|].
  assert (c = 45 \/ 48 <= c <= 57) as K by (destruct H as [H|H]; [auto|apply digit_char_spec in H; auto]).
  split; [|lia]. unfold json_space. lia.
Qed.
Lemma items_head l t : json_items l t -> exists c r, t = c :: r /\ json_space c = false /\ c <> 93.
Proof. intros [v u w H B|v u w w' l' u' H B B' I]; apply value_head in H as (c & r & -> & S & N & _); cbn; eauto. Qed.
Lemma members_head l t : json_members l t -> exists r, t = 34 :: r.
Proof. intros []; eauto. Qed.
Lemma scalar_number t v r : json_number t v -> stops r -> read_scalar (t ++ r) = Some (v, r) .
Proof.
  intros N St. pose proof (number_read_json t v r N St) as E. destruct (number_head t v N) as (c & q & -> & H). unfold read_scalar.
  cbn [app] in *. assert (c = 45 \/ 48 <= c <= 57) as K by (destruct H as [H|H]; [auto|apply digit_char_spec in H; auto]).
  assert (forall d w, d <> c -> after_text (d :: w) (c :: q ++ r) = None) as A by (intros d w D; cbn; destruct (Z.eqb_spec d c); [contradiction|reflexivity]).
  unfold null_text, true_text, false_text. cbn [chars list_ascii_of_string map].
  rewrite !A by (vm_compute Z.of_nat; lia).
  rewrite E. reflexivity.
Qed.
Lemma blank_stops w c r : json_blank w -> stops (c :: r) -> stops (w ++ c :: r).
Proof. intros [|d w' D _] St; [exact St|]. cbn. left. apply space_spec, D. Qed.
Lemma blank_firm c r : json_space c = false -> firm (c :: r).
Proof. exact (fun H => H). Qed.
Lemma key_read name k rest : string_body (chars name) k -> exists s, scan_string (k ++ 34 :: rest) = Some (s, rest) /\ key_of s = Some name.
Proof. intros B. exists (chars name). split; [apply scan_body, B|]. apply key_spec. reflexivity. Qed.
Lemma grammar_read :
  (forall v t, json_value v t -> forall rest fuel, stops rest -> (length t <= fuel)%nat -> scan_value fuel (t ++ rest) = Some (v, rest)) /\
  (forall l t, json_items l t -> forall rest fuel, (length t + 1 <= fuel)%nat -> scan_items fuel (t ++ 93 :: rest) = Some (l, rest)) /\
  (forall l t, json_members l t -> forall rest fuel, (length t + 1 <= fuel)%nat -> scan_members fuel (t ++ 125 :: rest) = Some (l, rest)).
Proof.
  apply json_ind.
  1-6: intros rest [|fuel] _ L; [cbn in L; lia|]; reflexivity.
  - intros t v N rest fuel St L. destruct (number_head t v N) as (c & r & E & H). destruct fuel as [|fuel]; [rewrite E in L; cbn in L; lia|].
    pose proof (scalar_number t v rest N St) as R. subst t. cbn [app] in R |- *. cbn [scan_value].
    assert (c = 45 \/ 48 <= c <= 57) as K by (destruct H as [H|H]; [auto|apply digit_char_spec in H; auto]).
    destruct (Z.eqb_spec c 34); [lia|]. destruct (Z.eqb_spec c 91); [lia|]. destruct (Z.eqb_spec c 123); [lia|]. exact R.
  - intros s t B rest [|fuel] _ L; [cbn in L; lia|]. cbn [app scan_value]. change (34 =? 34) with true. cbv iota.
    rewrite <- app_assoc. cbn [app]. rewrite (scan_body s t B rest). reflexivity.
  - intros w B rest [|fuel] _ L; [cbn in L; lia|]. cbn [app scan_value]. change (91 =? 34) with false. change (91 =? 91) with true. cbv iota.
    rewrite <- app_assoc. cbn [app]. rewrite skip_blank by (assumption || reflexivity). reflexivity.
  - intros l w t B I IH rest [|fuel] _ L; [cbn in L; lia|]. cbn [app scan_value]. change (91 =? 34) with false. change (91 =? 91) with true. cbv iota.
    cbn [length] in L. rewrite !app_length in L. cbn [length] in L.
    rewrite <- !app_assoc. cbn [app]. destruct (items_head l t I) as (c & r & E & Sp & N).
    specialize (IH rest fuel ltac:(lia)). rewrite E in IH |- *. cbn [app] in IH |- *. rewrite skip_blank by assumption.
    destruct (Z.eqb_spec c 93); [contradiction|]. rewrite IH. reflexivity.
  - intros w B rest [|fuel] _ L; [cbn in L; lia|]. cbn [app scan_value]. change (123 =? 34) with false. change (123 =? 91) with false. change (123 =? 123) with true. cbv iota.
    rewrite <- app_assoc. cbn [app]. rewrite skip_blank by (assumption || reflexivity). reflexivity.
  - intros l d w t B I IH D rest [|fuel] _ L; [cbn in L; lia|]. cbn [app scan_value]. change (123 =? 34) with false. change (123 =? 91) with false. change (123 =? 123) with true. cbv iota.
    cbn [length] in L. rewrite !app_length in L. cbn [length] in L.
    rewrite <- !app_assoc. cbn [app]. destruct (members_head l t I) as (r & E).
    specialize (IH rest fuel ltac:(lia)). rewrite E in IH |- *. cbn [app] in IH |- *. rewrite skip_blank by (assumption || reflexivity).
    change (34 =? 125) with false. cbv iota. rewrite IH. rewrite (dict_of_once l d (make_dict l) D (make_dict_of l)). reflexivity.
  - intros v t w V IH B rest [|fuel] L; [lia|]. rewrite app_length in L. cbn [scan_items]. rewrite <- app_assoc.
    rewrite (IH (w ++ 93 :: rest) fuel); [|apply blank_stops; [exact B|cbn; auto]|lia].
    rewrite skip_blank by (assumption || reflexivity). reflexivity.
  - intros v t w w' l t' V IH B B' I IHl rest [|fuel] L; [lia|]. rewrite !app_length in L. cbn [length] in L. rewrite app_length in L. cbn [scan_items].
    rewrite <- !app_assoc. cbn [app]. rewrite <- !app_assoc.
    destruct (value_head v t V) as (c & r & E & _). assert (1 <= length t)%nat by (rewrite E; cbn; lia).
    rewrite (IH _ fuel); [|apply blank_stops; [exact B|cbn; auto]|lia].
    rewrite skip_blank by (assumption || reflexivity). change (44 =? 93) with false. change (44 =? 44) with true. cbv iota.
    destruct (items_head l t' I) as (c' & r' & E' & Sp' & N'). rewrite skip_blank; [|exact B'|rewrite E'; exact Sp'].
    rewrite IHl by lia. reflexivity.
  - intros name v k t w1 w2 w K B1 B2 V IH B rest [|fuel] L; [lia|]. cbn [length] in L. rewrite !app_length in L. cbn [length] in L. rewrite !app_length in L. cbn [length] in L. rewrite !app_length in L. cbn [app scan_members].
    change (34 =? 34) with true. cbv iota. rewrite <- app_assoc. cbn [app].
    destruct (key_read name k ((w1 ++ 58 :: w2 ++ t ++ w) ++ 125 :: rest) K) as (s & E1 & E2). rewrite E1, E2. clear E1 E2.
    repeat (rewrite <- app_assoc; cbn [app]). rewrite skip_blank by (assumption || reflexivity). change (58 =? 58) with true. cbv iota.
    destruct (value_head v t V) as (c & r & E & Sp & _). rewrite skip_blank; [|exact B2|rewrite E; exact Sp].
    rewrite (IH _ fuel); [|apply blank_stops; [exact B|cbn; auto]|lia]. rewrite skip_blank by (assumption || reflexivity). reflexivity.
  - intros name v k t w1 w2 w w' l t' K B1 B2 V IH B B' I IHl rest [|fuel] L; [lia|].
    repeat (cbn [length] in L; rewrite !app_length in L). cbn [length] in L. cbn [app scan_members].
    change (34 =? 34) with true. cbv iota. rewrite <- app_assoc. cbn [app].
    destruct (key_read name k ((w1 ++ 58 :: w2 ++ t ++ w ++ 44 :: w' ++ t') ++ 125 :: rest) K) as (s & E1 & E2). rewrite E1, E2. clear E1 E2.
    repeat (rewrite <- app_assoc; cbn [app]). rewrite skip_blank by (assumption || reflexivity). change (58 =? 58) with true. cbv iota.
    destruct (value_head v t V) as (c & r & E & Sp & _). rewrite skip_blank; [|exact B2|rewrite E; exact Sp].
    rewrite (IH _ fuel); [|apply blank_stops; [exact B|cbn; auto]|lia]. rewrite skip_blank by (assumption || reflexivity).
    change (44 =? 125) with false. change (44 =? 44) with true. cbv iota.
    destruct (members_head l t' I) as (r' & E'). rewrite skip_blank; [|exact B'|rewrite E'; reflexivity].
    rewrite IHl by lia. reflexivity.
Qed.
Lemma scalar_split s v r : read_scalar s = Some (v, r) -> exists t, s = t ++ r /\ json_value v t.
Proof.
  unfold read_scalar.
  assert (forall w x, json_value x w -> forall k, (after_text w s = None -> k = Some (v, r) -> exists t, s = t ++ r /\ json_value v t) ->
    match after_text w s with Some r' => Some (x, r') | None => k end = Some (v, r) -> exists t, s = t ++ r /\ json_value v t) as A.
  { intros w x J k K E. destruct (after_text w s) as [r'|] eqn:W; [|apply K; auto]. injection E as <- <-. exists w. split; [apply after_split, W|exact J]. }
  apply A; [constructor|intros _]. apply A; [constructor|intros _]. apply A; [constructor|intros _].
  destruct (read_json_number s) as [[x q]|] eqn:N.
  { intros E. injection E as <- <-. apply read_json_number_split in N as (t & -> & J). exists t. split; [reflexivity|]. apply jv_number, J. }
  apply A; [constructor|intros _]. apply A; [constructor|intros _]. apply A; [constructor|intros _]. discriminate.
Qed.
Lemma read_grammar fuel :
  (forall s v r, scan_value fuel s = Some (v, r) -> exists t, s = t ++ r /\ json_value v t) /\
  (forall s l r, scan_items fuel s = Some (l, r) -> exists t, s = t ++ 93 :: r /\ json_items l t) /\
  (forall s l r, scan_members fuel s = Some (l, r) -> exists t, s = t ++ 125 :: r /\ json_members l t).
Proof.
  induction fuel as [|fuel (IHv & IHi & IHm)]; [repeat split; discriminate|]. split; [|split].
  - intros s v r E. destruct s as [|c s1]; [discriminate|]. cbn [scan_value] in E.
    destruct (Z.eqb_spec c 34) as [->|].
    { destruct (scan_string s1) as [[t q]|] eqn:T; [|discriminate]. injection E as <- <-.
      apply (body_scan (length s1)) in T as (b & -> & B); [|lia]. exists (34 :: b ++ [34]). split; [cbn; rewrite <- app_assoc; reflexivity|constructor; exact B]. }
    destruct (Z.eqb_spec c 91) as [->|].
    { destruct (skip_split s1) as (w & B & Ew). destruct (skip_space s1) as [|d q] eqn:Sk; [discriminate|].
      destruct (Z.eqb_spec d 93) as [->|].
      - injection E as <- <-. exists (91 :: w ++ [93]). split; [cbn; rewrite Ew, <- app_assoc; reflexivity|apply jv_no_items, B].
      - destruct (scan_items fuel (d :: q)) as [[l q']|] eqn:It; [|discriminate]. injection E as <- <-. apply IHi in It as (t & Et & It).
        exists (91 :: w ++ t ++ [93]). split; [cbn; rewrite Ew, Et, <- !app_assoc; reflexivity|apply jv_items; assumption]. }
    destruct (Z.eqb_spec c 123) as [->|].
    { destruct (skip_split s1) as (w & B & Ew). destruct (skip_space s1) as [|d q] eqn:Sk; [discriminate|].
      destruct (Z.eqb_spec d 125) as [->|].
      - injection E as <- <-. exists (123 :: w ++ [125]). split; [cbn; rewrite Ew, <- app_assoc; reflexivity|apply jv_no_members, B].
      - destruct (scan_members fuel (d :: q)) as [[l q']|] eqn:It; [|discriminate]. injection E as <- <-. apply IHm in It as (t & Et & It).
        exists (123 :: w ++ t ++ [125]). split; [cbn; rewrite Ew, Et, <- !app_assoc; reflexivity|apply (jv_members l); [assumption|assumption|apply make_dict_of]]. }
    apply scalar_split, E.
  - intros s l r E. cbn [scan_items] in E. destruct (scan_value fuel s) as [[v q]|] eqn:V; [|discriminate]. apply IHv in V as (t & -> & V).
    destruct (skip_split q) as (w & B & Ew). destruct (skip_space q) as [|c q'] eqn:Sk; [discriminate|].
    destruct (Z.eqb_spec c 93) as [->|].
    { injection E as <- <-. exists (t ++ w). split; [rewrite Ew, <- app_assoc; reflexivity|apply items_last; assumption]. }
    destruct (Z.eqb_spec c 44) as [->|]; [|discriminate]. destruct (skip_split q') as (w' & B' & Ew').
    destruct (scan_items fuel (skip_space q')) as [[l' r']|] eqn:It; [|discriminate]. injection E as <- <-. apply IHi in It as (t' & Et & It).
    exists (t ++ w ++ 44 :: w' ++ t'). split; [|apply items_more; assumption].
    rewrite Ew, Ew', Et. repeat (rewrite <- app_assoc; cbn [app]). reflexivity.
  - intros s l r E. destruct s as [|c s1]; [discriminate|]. cbn [scan_members] in E. destruct (Z.eqb_spec c 34) as [->|]; [|discriminate].
    destruct (scan_string s1) as [[key q]|] eqn:T; [|discriminate]. apply (body_scan (length s1)) in T as (b & -> & Bd); [|lia].
    destruct (key_of key) as [name|] eqn:Kn; [|discriminate]. apply key_spec in Kn. subst key.
    destruct (skip_split q) as (w1 & B1 & E1). destruct (skip_space q) as [|c q1] eqn:Sk1; [discriminate|].
    destruct (Z.eqb_spec c 58) as [->|]; [|discriminate]. destruct (skip_split q1) as (w2 & B2 & E2).
    destruct (scan_value fuel (skip_space q1)) as [[v q2]|] eqn:V; [|discriminate]. apply IHv in V as (t & Ev & V).
    destruct (skip_split q2) as (w & B & E3). destruct (skip_space q2) as [|c q3] eqn:Sk3; [discriminate|].
    destruct (Z.eqb_spec c 125) as [->|].
    { injection E as <- <-. exists (34 :: b ++ 34 :: w1 ++ 58 :: w2 ++ t ++ w). split; [|apply members_last; assumption].
      rewrite E1, E2, Ev, E3. repeat (cbn [app]; rewrite <- app_assoc). cbn [app]. repeat (rewrite <- app_assoc; cbn [app]). reflexivity. }
    destruct (Z.eqb_spec c 44) as [->|]; [|discriminate]. destruct (skip_split q3) as (w' & B' & E4).
    destruct (scan_members fuel (skip_space q3)) as [[l' r']|] eqn:It; [|discriminate]. injection E as <- <-. apply IHm in It as (t' & Et & It).
    exists (34 :: b ++ 34 :: w1 ++ 58 :: w2 ++ t ++ w ++ 44 :: w' ++ t'). split; [|apply members_more; assumption].
    rewrite E1, E2, Ev, E3, E4, Et. cbn [app]. repeat (rewrite <- app_assoc; cbn [app]). reflexivity.
Qed.
Lemma blank_end w : json_blank w -> skip_space w = [].
Proof. intros B. rewrite <- (app_nil_r w). apply skip_blank; [exact B|exact I]. Qed.
Lemma end_blank s : skip_space s = [] -> json_blank s.
Proof. intros E. destruct (skip_split s) as (w & B & Ew). rewrite E, app_nil_r in Ew. subst. exact B. Qed.
Lemma loads_iff t v : json_loads t = Ok v <-> json_text v t.
Proof.
  unfold json_loads. split.
  - destruct (scan_value _ _) as [[x r]|] eqn:V; [|discriminate]. destruct (skip_space r) eqn:R; [|discriminate]. intros E. injection E as <-.
    apply (proj1 (read_grammar _)) in V as (b & Eb & J). destruct (skip_split t) as (w & B & Ew).
    exists w, b, r. rewrite <- Eb. split; [exact Ew|]. split; [exact B|]. split; [apply end_blank, R|exact J].
  - intros (w & b & a & -> & B & A & J). destruct (value_head v b J) as (c & q & E & Sp & _).
    rewrite (skip_blank w) by (assumption || (rewrite E; exact Sp)). rewrite !app_length.
    rewrite (proj1 grammar_read v b J a); [rewrite (blank_end a A); reflexivity| |lia].
    destruct A as [|d a' D _]; [exact I|]. cbn. left. apply space_spec, D.
Qed.
Lemma one_value t v v' : json_text v t -> json_text v' t -> v = v'.
Proof. intros A B. apply loads_iff in A, B. congruence. Qed.
Lemma loads_refuses t : (forall v, ~ json_text v t) -> json_loads t = Err ValueError.
Proof.
  intros N. destruct (json_loads t) as [v|e] eqn:E; [destruct (N v); apply loads_iff, E|]. unfold json_loads in E.
  destruct (scan_value _ _) as [[x r]|]; [destruct (skip_space r)|]; congruence.
Qed.
Lemma written_json v : json_data v -> exists t v', json_dumps v = Ok t /\ json_text v' t /\ alike v v'.
Proof. intros D. destruct (json_text_round_trip v D) as (t & v' & E & _ & L & A). exists t, v'. split; [exact E|]. split; [apply loads_iff, L|exact A]. Qed.
Lemma schema_loads py s t v : json_text v t -> loads py s t = load py s v.
Proof. intros H. unfold loads. rewrite (proj2 (loads_iff t v) H). reflexivity. Qed.
