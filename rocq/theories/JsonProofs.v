(** JSON text is read back as the data it was written from. *)
From Coq Require Import QArith.
From Verif Require Import PyFacts PyFloat ParamLang Parameters Schema Schemas SpecText TextProofs SpecSchema SpecParameters PyText FloatProofs NumeralProofs Json SpecJson.
Open Scope string_scope.
Open Scope list_scope.
Open Scope Z_scope.

(** ** texts *)
Lemma hex_digit_value d : 0 <= d < 16 -> hex_value (hex_digit d) = Some d.
Proof.
  intros H. assert (d = 0 \/ d = 1 \/ d = 2 \/ d = 3 \/ d = 4 \/ d = 5 \/ d = 6 \/ d = 7 \/ d = 8 \/ d = 9 \/ d = 10 \/ d = 11 \/ d = 12 \/ d = 13 \/ d = 14 \/ d = 15) as K by lia.
  repeat (destruct K as [-> |K]; [reflexivity|]). subst d. reflexivity.
Qed.
Lemma hex_digit_range d : 0 <= d < 16 -> 48 <= hex_digit d <= 102.
Proof. unfold hex_digit. intros H. destruct (d <? 10) eqn:E; lia. Qed.
Lemma escape_read n : 0 <= n < 65536 -> exists a b c d, unicode_escape n = [92; 117; a; b; c; d] /\ hex4 a b c d = Some n /\ Forall (fun c => 32 <= c <= 126) [a; b; c; d].
Proof.
  intros H. unfold unicode_escape. do 4 eexists. split; [reflexivity|].
  pose proof (Z.mod_pos_bound (n / 4096) 16 ltac:(lia)). pose proof (Z.mod_pos_bound (n / 256) 16 ltac:(lia)).
  pose proof (Z.mod_pos_bound (n / 16) 16 ltac:(lia)). pose proof (Z.mod_pos_bound n 16 ltac:(lia)).
  split.
  - unfold hex4. rewrite !hex_digit_value by assumption. f_equal.
    assert (n / 4096 < 16) by (apply Z.div_lt_upper_bound; lia). assert (0 <= n / 4096) by (apply Z.div_pos; lia).
    rewrite (Z.mod_small (n / 4096)) by lia.
    replace (n / 256) with (n / 16 / 16) by (rewrite Z.div_div by lia; reflexivity).
    replace (n / 4096) with (n / 16 / 16 / 16) by (rewrite !Z.div_div by lia; reflexivity).
    pose proof (Z.div_mod n 16 ltac:(lia)). pose proof (Z.div_mod (n / 16) 16 ltac:(lia)). pose proof (Z.div_mod (n / 16 / 16) 16 ltac:(lia)). lia.
  - repeat constructor; apply hex_digit_range in H0, H1, H2, H3; lia.
Qed.
(** how a character is written *)
Inductive written : Z -> str -> Prop :=
| w_short c e : short_escape e = Some c -> e <> 117 -> 32 <= e <= 126 -> written c [92; e]
| w_plain c : c <> 34 -> c <> 92 -> 32 <= c <= 126 -> written c [c]
| w_escape c : 0 <= c < 65536 -> written c (unicode_escape c)
| w_pair c u v : high u -> low v -> c = 65536 + (u - 0xD800) * 1024 + (v - 0xDC00) -> written c (unicode_escape u ++ unicode_escape v).
Lemma json_char_written c : 0 <= c <= 0x10FFFF -> written c (json_char c).
Proof.
  intros H. unfold json_char.
  destruct (Z.eqb_spec c 34); [subst; apply w_short; [reflexivity|lia|lia]|].
  destruct (Z.eqb_spec c 92); [subst; apply w_short; [reflexivity|lia|lia]|].
  destruct (Z.eqb_spec c 10); [subst; apply w_short; [reflexivity|lia|lia]|].
  destruct (Z.eqb_spec c 13); [subst; apply w_short; [reflexivity|lia|lia]|].
  destruct (Z.eqb_spec c 9); [subst; apply w_short; [reflexivity|lia|lia]|].
  destruct (Z.eqb_spec c 12); [subst; apply w_short; [reflexivity|lia|lia]|].
  destruct (Z.eqb_spec c 8); [subst; apply w_short; [reflexivity|lia|lia]|].
  destruct ((32 <=? c) && (c <=? 126)) eqn:P; [apply andb_prop in P as [A B]; apply w_plain; lia|].
  destruct (Z.ltb_spec c 0x10000); [apply w_escape; lia|].
  pose proof (Z.mod_pos_bound (c - 0x10000) 1024 ltac:(lia)). pose proof (Z.div_mod (c - 0x10000) 1024 ltac:(lia)).
  assert (0 <= (c - 0x10000) / 1024) by (apply Z.div_pos; lia). assert ((c - 0x10000) / 1024 < 1024) by (apply Z.div_lt_upper_bound; lia).
  apply w_pair; unfold high, low; lia.
Qed.
Lemma high_b c : high_surrogate c = true <-> high c.
Proof. unfold high_surrogate, high. rewrite andb_true_iff. lia. Qed.
Lemma low_b c : low_surrogate c = true <-> low c.
Proof. unfold low_surrogate, low. rewrite andb_true_iff. lia. Qed.
Lemma text_ok_cons c s : text_ok (c :: s) -> (0 <= c <= 0x10FFFF) /\ text_ok s.
Proof.
  intros [F N]. inversion F; subst. split; [assumption|]. split; [assumption|]. intros p a b q E. apply (N (c :: p) a b q). rewrite E. reflexivity.
Qed.
(** what may follow an escaped high surrogate: nothing that is read as a low one *)
Definition no_low (r : str) : Prop :=
  match r with
  | x :: y :: b1 :: b2 :: b3 :: b4 :: _ => x = 92 -> y = 117 -> exists u, hex4 b1 b2 b3 b4 = Some u /\ low_surrogate u = false
  | _ => True
  end.
Lemma scan_string_escape u r : 0 <= u < 65536 -> (high u -> no_low r) -> scan_string (unicode_escape u ++ r) = add_char u (scan_string r).
Proof.
  intros U N. destruct (escape_read u U) as (a & b & c & d & E & V & _). rewrite E. cbn [app scan_string].
  change (92 =? 34) with false. change (92 =? 92) with true. change (117 =? 117) with true. cbv iota. rewrite V.
  destruct (high_surrogate u) eqn:Hu; [|reflexivity]. specialize (N (proj1 (high_b u) Hu)).
  destruct r as [|x [|y [|b1 [|b2 [|b3 [|b4 r]]]]]]; try reflexivity.
  destruct (Z.eqb_spec x 92); [|reflexivity]. destruct (Z.eqb_spec y 117); [|reflexivity]. cbn [andb].
  destruct (N e e0) as (w & W & L). rewrite W, L. reflexivity.
Qed.
Lemma scan_string_written s : text_ok s -> forall rest, scan_string (flat_map json_char s ++ 34 :: rest) = Some (s, rest).
Proof.
  intros T rest. induction s as [|c s IH]; [reflexivity|].
  destruct (text_ok_cons c s T) as [C T']. specialize (IH T'). cbn [flat_map]. rewrite <- app_assoc. set (r := flat_map json_char s ++ 34 :: rest) in *.
  assert (scan_string (json_char c ++ r) = add_char c (scan_string r)) as K; [|rewrite K, IH; reflexivity].
  destruct (json_char_written c C) as [c e S Ne Re|c N1 N2 Rc|c Rc|c u v Hu Hv E].
  - cbn [app scan_string]. change (92 =? 34) with false. change (92 =? 92) with true. cbv iota.
    destruct (Z.eqb_spec e 117); [contradiction|]. rewrite S. reflexivity.
  - cbn [app scan_string]. destruct (Z.eqb_spec c 34); [contradiction|]. destruct (Z.eqb_spec c 92); [contradiction|]. destruct (Z.ltb_spec c 32); [lia|reflexivity].
  - apply scan_string_escape; [exact Rc|]. intros Hc. unfold r. destruct s as [|c2 s]; [cbn [flat_map app]; destruct rest as [|a1 [|a2 [|a3 [|a4 [|a5 q]]]]]; cbn; try exact I; discriminate|].
    destruct (text_ok_cons c2 s T') as [C2 _]. assert (~ low c2) as L2 by (intros L; apply (proj2 T [] c c2 s); [reflexivity|exact Hc|exact L]).
    cbn [flat_map]. rewrite <- app_assoc. generalize (flat_map json_char s ++ 34 :: rest). intros q.
    destruct (json_char_written c2 C2) as [c2 e S Ne Re|c2 N1 N2 Rc2|c2 Rc2|c2 u v Hu Hv E].
    + cbn [app]. destruct q as [|a1 [|a2 [|a3 [|a4 q]]]]; cbn; try exact I. intros _ X. contradiction.
    + cbn [app]. destruct q as [|a1 [|a2 [|a3 [|a4 [|a5 q]]]]]; cbn; try exact I. intros X. contradiction.
    + destruct (escape_read c2 Rc2) as (x1 & x2 & x3 & x4 & -> & V & _). cbn. intros _ _. exists c2. split; [exact V|]. destruct (low_surrogate c2) eqn:X; [|reflexivity]. apply low_b in X. contradiction.
    + destruct (escape_read u ltac:(unfold high in Hu; lia)) as (x1 & x2 & x3 & x4 & -> & V & _). cbn. intros _ _. exists u. split; [exact V|].
      destruct (low_surrogate u) eqn:X; [|reflexivity]. apply low_b in X. unfold low, high in *. lia.
  - rewrite <- app_assoc. destruct (escape_read u ltac:(unfold high in Hu; lia)) as (a1 & a2 & a3 & a4 & E1 & V1 & _).
    destruct (escape_read v ltac:(unfold low in Hv; lia)) as (b1 & b2 & b3 & b4 & E2 & V2 & _). rewrite E1, E2. cbn [app scan_string].
    change (92 =? 34) with false. change (92 =? 92) with true. change (117 =? 117) with true. cbv iota. rewrite V1.
    rewrite (proj2 (high_b u) Hu). cbn [andb]. rewrite V2, (proj2 (low_b v) Hv). subst c. reflexivity.
Qed.
Lemma chars_ok name : text_ok (chars name) /\ key_of (chars name) = Some name.
Proof.
  assert (forall c, 0 <= Z.of_nat (Ascii.nat_of_ascii c) < 256) as K by (intros c; pose proof (Ascii.nat_ascii_bounded c); lia).
  split; [split|].
  - unfold chars. apply Forall_forall. intros c I. apply in_map_iff in I as (a & <- & _). specialize (K a). lia.
  - intros p a b q E Ha. assert (In a (chars name)) as I by (rewrite E; apply in_or_app; right; left; reflexivity).
    apply in_map_iff in I as (x & <- & _). specialize (K x). unfold high in Ha. lia.
  - unfold key_of. replace (forallb _ (chars name)) with true.
    + f_equal. unfold chars. rewrite map_map. transitivity (string_of_list_ascii (list_ascii_of_string name)); [|apply string_of_list_ascii_of_string].
      f_equal. transitivity (map (fun x : Ascii.ascii => x) (list_ascii_of_string name)); [|apply map_id]. apply map_ext. intros a. rewrite Nat2Z.id, Ascii.ascii_nat_embedding. reflexivity.
    + symmetry. apply forallb_forall. intros c I. apply in_map_iff in I as (a & <- & _). specialize (K a). apply andb_true_iff. lia.
Qed.

(** ** numbers *)
(** what may follow a value: the end, a comma or a closing bracket *)
Definition closes (r : str) : Prop := match r with c :: _ => c = 44 \/ c = 93 \/ c = 125 | [] => True end.
Inductive json_numeral : str -> bool -> Prop :=
| numeral_parts (neg : bool) w f x :
    (w = [48] \/ exists c w', w = c :: w' /\ c <> 48 /\ all_digits w) ->
    (f = [] \/ exists d, f = 46 :: d /\ d <> [] /\ all_digits d) ->
    (x = [] \/ exists s d, x = 101 :: s :: d /\ (s = 43 \/ s = 45) /\ d <> [] /\ all_digits d) ->
    json_numeral ((if neg then [45] else []) ++ w ++ f ++ x) (match f ++ x with [] => false | _ => true end).
Definition no_digit (r : str) : Prop := match r with c :: _ => digit_char c = false | [] => True end.
Lemma closes_no_digit r : closes r -> no_digit r.
Proof. destruct r as [|c r]; [auto|]. cbn. intros [->|[->| ->]]; reflexivity. Qed.
Lemma scan_exponent_ok x r : (x = [] \/ exists s d, x = 101 :: s :: d /\ (s = 43 \/ s = 45) /\ d <> [] /\ all_digits d) -> closes r -> scan_exponent (x ++ r) = (x, r).
Proof.
  intros [->|(s & d & -> & S & N & D)] C.
  - cbn [app]. destruct r as [|c r]; [reflexivity|]. cbn in C. cbn. destruct C as [->|[->| ->]]; reflexivity.
  - cbn [app]. unfold scan_exponent. change ((101 =? 101) || (101 =? 69)) with true. cbv iota.
    replace ((s =? 45) || (s =? 43)) with true by (destruct S as [->| ->]; reflexivity).
    rewrite take_digits_app; [|exact D|apply closes_no_digit, C]. destruct d; [contradiction|reflexivity].
Qed.
Lemma scan_fraction_ok f r : (f = [] \/ exists d, f = 46 :: d /\ d <> [] /\ all_digits d) -> no_digit r -> (match r with c :: _ => c <> 46 | [] => True end) -> scan_fraction (f ++ r) = (f, r).
Proof.
  intros [->|(d & -> & N & D)] C P.
  - cbn [app]. destruct r as [|c r]; [reflexivity|]. cbn. destruct (Z.eqb_spec c 46); [contradiction|reflexivity].
  - cbn [app]. unfold scan_fraction. change (46 =? 46) with true. cbv iota. rewrite take_digits_app by assumption. destruct d; [contradiction|reflexivity].
Qed.
Lemma scan_number_ok t b r : json_numeral t b -> closes r -> scan_number (t ++ r) = Some (t, b, r).
Proof.
  intros [neg w f x W F X] C.
  assert (no_digit (x ++ r) /\ match x ++ r with c :: _ => c <> 46 | [] => True end) as [N1 N2].
  { destruct X as [->|(s & d & -> & _)]; [|split; [reflexivity|discriminate]]. cbn [app]. split; [apply closes_no_digit, C|]. destruct r; [exact I|]. cbn in C. lia. }
  assert (no_digit (f ++ x ++ r)) as N3 by (destruct F as [->|(d & -> & _)]; [exact N1|reflexivity]).
  assert (scan_whole (w ++ f ++ x ++ r) = Some (w, f ++ x ++ r)) as SW.
  { destruct W as [->|(c & w' & -> & Nc & D)]; [reflexivity|]. cbn [app]. unfold scan_whole. destruct (Z.eqb_spec c 48); [contradiction|].
    assert (digit_char c = true) as Dc by (inversion D; assumption). rewrite Dc. rewrite app_comm_cons, take_digits_app by assumption. reflexivity. }
  assert (forall s, scan_whole s = Some (w, f ++ x ++ r) -> match s with c :: _ => c <> 45 | [] => True end) as K.
  { intros [|c s] E; [exact I|]. intros ->. discriminate. }
  rewrite <- !app_assoc. destruct neg.
  - cbn [app]. unfold scan_number. change (45 =? 45) with true. cbv iota beta zeta. rewrite SW, (scan_fraction_ok f (x ++ r) F N1 N2), (scan_exponent_ok x r X C). reflexivity.
  - cbn [app]. specialize (K _ SW). unfold scan_number. destruct (w ++ f ++ x ++ r) as [|c s] eqn:Q; [discriminate|]. destruct (Z.eqb_spec c 45); [contradiction|].
    rewrite SW, (scan_fraction_ok f (x ++ r) F N1 N2), (scan_exponent_ok x r X C). reflexivity.
Qed.
Lemma str_int_head n : 0 <= n -> str_int n = [48] \/ exists c w, str_int n = c :: w /\ c <> 48 /\ all_digits (str_int n).
Proof.
  intros H. destruct (str_int_digits n H) as (D & _). destruct (str_int_spec n H) as (ds & (_ & _ & N & Z) & E). destruct ds as [|d ds]; [contradiction|]. cbn in Z.
  destruct (Z.eq_dec d 0) as [->|Nd]; [left; rewrite E, (Z eq_refl); reflexivity|]. right. exists (48 + d), (map (fun d => 48 + d) ds). split; [exact E|]. split; [lia|exact D].
Qed.
Lemma int_numeral n : json_numeral (str_int n) false.
Proof.
  assert (exists (neg : bool) k, 0 <= k /\ str_int n = (if neg then [45] else []) ++ str_int k) as (neg & k & Hk & E).
  { destruct (Z.lt_ge_cases n 0) as [L|L]; [|exists false, n; split; [exact L|reflexivity]]. exists true, (- n). split; [lia|].
    unfold str_int. destruct (n <? 0) eqn:A; [|lia]. destruct (- n <? 0) eqn:B; [lia|]. reflexivity. }
  rewrite E. replace ((if neg then [45] else []) ++ str_int k) with ((if neg then [45] else []) ++ str_int k ++ [] ++ []) by (rewrite !app_nil_r; reflexivity).
  apply (numeral_parts neg (str_int k) [] []); [apply str_int_head, Hk|left; reflexivity|left; reflexivity].
Qed.
Lemma exponent_parts x : exists s d, 101 :: exponent_text x = 101 :: s :: d /\ (s = 43 \/ s = 45) /\ d <> [] /\ all_digits d.
Proof.
  unfold exponent_text. eexists _, _. split; [reflexivity|]. destruct (str_int_digits (Z.abs x) (Z.abs_nonneg x)) as (D & _ & N).
  split; [destruct (x <? 0); auto|]. split; [destruct (Z.abs x <? 10); [discriminate|exact N]|]. destruct (Z.abs x <? 10); [constructor; [reflexivity|exact D]|exact D].
Qed.
Lemma float_digits_numeral (neg : bool) D k : 0 < D -> json_numeral ((if neg then [45] else []) ++ float_digits D k) true.
Proof.
  intros HD. destruct (str_int_digits D ltac:(lia)) as (A & V & N). pose proof (str_int_head D ltac:(lia)) as W. unfold float_digits.
  set (d := str_int D) in *. clearbody d.
  assert (d <> [48]) as Nz by (intros ->; cbn in V; lia). destruct W as [W|(c & w & Ed & Nc & Dd)]; [contradiction|].
  destruct ((-4 <? len d + k) && (len d + k <=? 16)) eqn:R.
  - destruct (Z.leb_spec (len d + k) 0).
    + replace ((if neg then [45] else []) ++ [48; 46] ++ zeros (- (len d + k)) ++ d) with ((if neg then [45] else []) ++ [48] ++ (46 :: zeros (- (len d + k)) ++ d) ++ []) by (rewrite app_nil_r; reflexivity).
      apply (numeral_parts neg [48] (46 :: zeros (- (len d + k)) ++ d) []); [left; reflexivity| |left; reflexivity]. right. eexists. split; [reflexivity|].
      split; [destruct (zeros _); [exact N|discriminate]|]. apply Forall_app. split; [apply zeros_digits|exact A].
    + destruct (Z.leb_spec (len d) (len d + k)).
      * replace ((if neg then [45] else []) ++ d ++ zeros (len d + k - len d) ++ [46; 48]) with ((if neg then [45] else []) ++ (d ++ zeros (len d + k - len d)) ++ [46; 48] ++ []) by (rewrite app_nil_r, !app_assoc; reflexivity).
        apply (numeral_parts neg (d ++ zeros (len d + k - len d)) [46; 48] []); [| |left; reflexivity].
        -- right. exists c, (w ++ zeros (len d + k - len d)). split; [rewrite Ed; reflexivity|]. split; [exact Nc|]. apply Forall_app. split; [exact A|apply zeros_digits].
        -- right. exists [48]. split; [reflexivity|]. split; [discriminate|constructor; [reflexivity|constructor]].
      * replace ((if neg then [45] else []) ++ firstn (Z.to_nat (len d + k)) d ++ [46] ++ skipn (Z.to_nat (len d + k)) d) with ((if neg then [45] else []) ++ firstn (Z.to_nat (len d + k)) d ++ (46 :: skipn (Z.to_nat (len d + k)) d) ++ []) by (rewrite app_nil_r; reflexivity).
        apply (numeral_parts neg (firstn (Z.to_nat (len d + k)) d) (46 :: skipn (Z.to_nat (len d + k)) d) []); [| |left; reflexivity].
        -- right. destruct (Z.to_nat (len d + k)) as [|m] eqn:M; [lia|]. exists c, (firstn m w). rewrite Ed. split; [reflexivity|]. split; [exact Nc|]. rewrite <- Ed. apply Forall_firstn, A.
        -- right. eexists. split; [reflexivity|]. split; [|apply Forall_skipn, A]. intros E. apply (f_equal (@length Z)) in E. rewrite skipn_length in E. cbn in E. unfold len in *. lia.
  - destruct d as [|c1 [|c2 d]]; [contradiction| |]; injection Ed as <- <-.
    + destruct (exponent_parts (len [c1] + k - 1)) as (s & t & E & X). rewrite E.
      apply (numeral_parts neg [c1] [] (101 :: s :: t)); [right; exists c1, []; auto|left; reflexivity|right; exists s, t; auto].
    + destruct (exponent_parts (len (c1 :: c2 :: d) + k - 1)) as (s & t & E & X). rewrite E.
      change (c1 :: 46 :: (c2 :: d) ++ 101 :: s :: t) with ([c1] ++ (46 :: c2 :: d) ++ 101 :: s :: t).
      apply (numeral_parts neg [c1] (46 :: c2 :: d) (101 :: s :: t)); [right; exists c1, []; split; [reflexivity|split; [exact Nc|constructor; [inversion A; assumption|constructor]]]| |right; exists s, t; auto].
      right. exists (c2 :: d). split; [reflexivity|]. split; [discriminate|]. inversion A; assumption.
Qed.
Lemma float_numeral neg m e : is_double (Fin neg m e) -> json_numeral (py_float_text (Fin neg m e)) true.
Proof.
  intros [M D]. cbn [py_float_text]. destruct (Z.eqb_spec m 0).
  - apply (numeral_parts neg [48] [46; 48] []); [left; reflexivity| |left; reflexivity]. right. exists [48]. split; [reflexivity|]. split; [discriminate|constructor; [reflexivity|constructor]].
  - destruct (shortest_decimal m e) as [D' k'] eqn:S. apply float_digits_numeral.
    assert (0 < m) as Pm by lia. assert (double_value (dyadic false m e)) as D0.
    { destruct neg; [|exact D]. apply double_value_opp in D. destruct D as (A & B & H1 & H2 & H3). exists A, B. split; [exact H1|]. split; [exact H2|]. rewrite <- H3.
      unfold dyadic. setoid_replace (- m # 1)%Q with (- (m # 1))%Q by reflexivity. ring. }
    apply (shortest_ok m e D' k' Pm D0 S).
Qed.

(** ** values *)
Lemma value_nested_ind (P : value -> Prop) :
  P VNone -> (forall b, P (VBool b)) -> (forall n, P (VInt n)) -> (forall x, P (VFloat x)) -> (forall s, P (VStr s)) -> (forall b, P (VBytes b)) ->
  (forall l, Forall P l -> P (VList l)) -> (forall c l, Forall (fun a => P (snd a)) l -> P (VObj c l)) -> (forall l, Forall (fun a => P (snd a)) l -> P (VDict l)) ->
  forall v, P v.
Proof.
  intros A B C D E F G H J. fix IH 1. intros [|n|b|x|s|b|l|c l|l]; [exact A|apply C|apply B|apply D|apply E|apply F| | |].
  - apply G. induction l as [|v l K]; constructor; [apply IH|exact K].
  - apply H. induction l as [|[n v] l K]; constructor; [cbn; apply IH|exact K].
  - apply J. induction l as [|[n v] l K]; constructor; [cbn; apply IH|exact K].
Qed.
Fixpoint rest_items (l : list value) : res str :=
  match l with [] => Ok [93] | v :: l' => t <- json_dumps v ;; ts <- rest_items l' ;; Ok ([44; 32] ++ t ++ ts) end.
Fixpoint rest_members (l : list (string * value)) : res str :=
  match l with
  | [] => Ok [125]
  | (name, v) :: l' => t <- json_dumps v ;; ts <- rest_members l' ;; Ok ([44; 32] ++ json_string (chars name) ++ [58; 32] ++ t ++ ts)
  end.
Lemma dumps_list v l : json_dumps (VList (v :: l)) = (t <- json_dumps v ;; ts <- rest_items l ;; Ok (91 :: t ++ ts)).
Proof. reflexivity. Qed.
Lemma dumps_dict name v l : json_dumps (VDict ((name, v) :: l)) = (t <- json_dumps v ;; ts <- rest_members l ;; Ok (123 :: json_string (chars name) ++ [58; 32] ++ t ++ ts)).
Proof. reflexivity. Qed.
(** how the text of a value begins *)
Definition starts (t : str) : Prop := match t with c :: _ => json_space c = false /\ c <> 93 /\ c <> 125 | [] => False end.
Definition text_of_value (v : value) (t : str) : Prop :=
  printable t /\ starts t /\ forall fuel rest, (length t <= fuel)%nat -> closes rest -> exists v', scan_value fuel (t ++ rest) = Some (v', rest) /\ alike v v'.
Lemma skip_starts t r : starts t -> skip_space (t ++ r) = t ++ r.
Proof. destruct t as [|c t]; [intros []|]. intros [S _]. cbn. rewrite S. reflexivity. Qed.

Lemma printable_app a b : printable a -> printable b -> printable (a ++ b).
Proof. intros. apply Forall_app. split; assumption. Qed.
Lemma digits_printable d : all_digits d -> printable d.
Proof. intros D. eapply Forall_impl; [|exact D]. intros c H. apply digit_char_spec in H. lia. Qed.
Lemma numeral_printable t b : json_numeral t b -> printable t.
Proof.
  intros [neg w f x W F X]. apply printable_app; [destruct neg; repeat constructor; lia|]. apply printable_app; [|apply printable_app].
  - destruct W as [->|(c & w' & _ & _ & D)]; [repeat constructor; lia|apply digits_printable, D].
  - destruct F as [->|(d & -> & _ & D)]; [constructor|constructor; [lia|apply digits_printable, D]].
  - destruct X as [->|(s & d & -> & S & _ & D)]; [constructor|constructor; [lia|constructor; [lia|apply digits_printable, D]]].
Qed.
Lemma numeral_head t b : json_numeral t b -> exists c t', t = c :: t' /\ (c = 45 \/ digit_char c = true).
Proof.
  intros [neg w f x W F X]. destruct neg; [exists 45; eexists; split; [reflexivity|auto]|]. cbn [app].
  destruct W as [->|(c & w' & -> & _ & D)]; [exists 48; eexists; split; [reflexivity|auto]|]. exists c. eexists. split; [reflexivity|]. right. inversion D; assumption.
Qed.
Lemma json_string_printable s : text_ok s -> printable (json_string s).
Proof.
  intros [F _]. unfold json_string. constructor; [lia|]. apply printable_app; [|repeat constructor; lia].
  induction F as [|c s C F IH]; [constructor|]. cbn [flat_map]. apply printable_app; [|exact IH].
  destruct (json_char_written c C) as [c e S Ne Re|c N1 N2 Rc|c Rc|c u v Hu Hv E].
  - repeat constructor; lia.
  - repeat constructor; lia.
  - destruct (escape_read c Rc) as (a1 & a2 & a3 & a4 & -> & _ & P). constructor; [lia|]. constructor; [lia|exact P].
  - destruct (escape_read u ltac:(unfold high in Hu; lia)) as (a1 & a2 & a3 & a4 & -> & _ & P).
    destruct (escape_read v ltac:(unfold low in Hv; lia)) as (b1 & b2 & b3 & b4 & -> & _ & P'). apply printable_app; (constructor; [lia|constructor; [lia|assumption]]).
Qed.
Lemma scan_json_string s fuel rest : text_ok s -> scan_value (S fuel) (json_string s ++ rest) = Some (VStr s, rest).
Proof. intros T. unfold json_string. cbn [app scan_value]. change (34 =? 34) with true. cbv iota. rewrite <- app_assoc. cbn [app]. rewrite scan_string_written by exact T. reflexivity. Qed.
Lemma scan_scalar c t fuel rest : c <> 34 -> c <> 91 -> c <> 123 -> scan_value (S fuel) ((c :: t) ++ rest) = read_scalar ((c :: t) ++ rest).
Proof.
  intros A B C. cbn [app scan_value]. destruct (Z.eqb_spec c 34); [contradiction|]. destruct (Z.eqb_spec c 91); [contradiction|]. destruct (Z.eqb_spec c 123); [contradiction|reflexivity].
Qed.
Lemma read_numeral t b v rest : json_numeral t b -> closes rest ->
  (if b then exists x, v = VFloat x /\ py_read_float (fun c => c) t = Ok x else exists n, v = VInt n /\ py_read_int (fun c => c) t = Ok n) ->
  forall fuel, (length t <= fuel)%nat -> scan_value fuel (t ++ rest) = Some (v, rest).
Proof.
  intros N C V fuel L. destruct (numeral_head t b N) as (c & t' & E & H). destruct fuel as [|fuel]; [subst t; cbn in L; lia|].
  assert (48 <= c <= 57 \/ c = 45) as R by (destruct H as [->|H]; [auto|apply digit_char_spec in H; auto]).
  rewrite E, scan_scalar, <- E by lia. unfold read_scalar.
  assert (forall w h, h <> c -> after_text (h :: w) (t ++ rest) = None) as K.
  { intros w h Nh. rewrite E. cbn. destruct (Z.eqb_spec h c); [contradiction|reflexivity]. }
  change null_text with (110 :: [117; 108; 108]). change true_text with (116 :: [114; 117; 101]). change false_text with (102 :: [97; 108; 115; 101]).
  rewrite !K by lia. unfold read_json_number. rewrite (scan_number_ok t b rest N C). destruct b.
  - destruct V as (x & -> & ->). reflexivity.
  - destruct V as (x & -> & ->). reflexivity.
Qed.
Lemma word_text w h v rest : h <> 34 -> h <> 91 -> h <> 123 -> (forall r, read_scalar ((h :: w) ++ r) = Some (v, r)) ->
  forall fuel, (length (h :: w) <= fuel)%nat -> scan_value fuel ((h :: w) ++ rest) = Some (v, rest).
Proof. intros A B C R [|fuel] L; [cbn in L; lia|]. rewrite scan_scalar by assumption. apply R. Qed.
Lemma closes_items r : closes (93 :: r) /\ closes (44 :: r) /\ closes (125 :: r).
Proof. repeat split; cbn; auto. Qed.
Lemma items_text l : Forall (fun v => exists t, json_dumps v = Ok t /\ text_of_value v t) l ->
  exists ts, rest_items l = Ok ts /\ printable ts /\ (forall r, closes (ts ++ r)) /\ (0 < length ts)%nat /\
    forall v t fuel rest, text_of_value v t -> (length t + length ts <= fuel)%nat ->
      exists v' l', scan_items fuel (t ++ ts ++ rest) = Some (v' :: l', rest) /\ alike v v' /\ Forall2 alike l l'.
Proof.
  induction 1 as [|w l (tw & Ew & Tw) F (ts & E & P & C & L & IH)].
  - exists [93]. split; [reflexivity|]. split; [repeat constructor; lia|]. split; [intros r; cbn; auto|]. split; [cbn; lia|].
    intros v t [|fuel] rest (_ & _ & T) Lf; [cbn in Lf; lia|]. cbn [length] in Lf.
    destruct (T fuel ([93] ++ rest)) as (v' & S & A); [lia|cbn; auto|]. exists v', []. split; [|split; [exact A|constructor]].
    cbn [scan_items]. rewrite S. cbn. reflexivity.
  - exists ([44; 32] ++ tw ++ ts). cbn [rest_items]. rewrite Ew, E. cbn [bind]. split; [reflexivity|].
    split; [apply printable_app; [repeat constructor; lia|apply printable_app; [apply Tw|exact P]]|]. split; [intros r; cbn; auto|]. split; [cbn; lia|].
    intros v t [|fuel] rest (_ & _ & T) Lf; [cbn in Lf; lia|]. rewrite !app_length in Lf. cbn [length] in Lf.
    destruct (T fuel (([44; 32] ++ tw ++ ts) ++ rest)) as (v' & S & A); [lia|cbn; auto|].
    destruct (IH w tw fuel rest Tw ltac:(lia)) as (w' & l' & S' & A' & F'). exists v', (w' :: l'). split; [|split; [exact A|constructor; assumption]].
    cbn [scan_items]. rewrite S. cbn [app skip_space]. change (json_space 44) with false. cbv iota. change (44 =? 93) with false. change (44 =? 44) with true. cbv iota.
    cbn [skip_space]. change (json_space 32) with true. cbv iota. rewrite <- app_assoc, skip_starts by apply Tw. rewrite S'. reflexivity.
Qed.
Lemma members_text l : Forall (fun a => exists t, json_dumps (snd a) = Ok t /\ text_of_value (snd a) t) l ->
  exists ts, rest_members l = Ok ts /\ printable ts /\ (forall r, closes (ts ++ r)) /\ (0 < length ts)%nat /\
    forall name v t fuel rest, text_of_value v t -> (2 + length t + length ts <= fuel)%nat ->
      exists v' l', scan_members fuel (json_string (chars name) ++ [58; 32] ++ t ++ ts ++ rest) = Some ((name, v') :: l', rest) /\ alike v v' /\
        Forall2 (fun a a' => fst a = fst a' /\ alike (snd a) (snd a')) l l'.
Proof.
  assert (forall name r, scan_string (flat_map json_char (chars name) ++ 34 :: r) = Some (chars name, r)) as K by (intros; apply scan_string_written, chars_ok).
  assert (forall name v t ts rest fuel, text_of_value v t -> (forall r, closes (ts ++ r)) -> (length t <= fuel)%nat -> exists v', alike v v' /\
    scan_members (S fuel) (json_string (chars name) ++ [58; 32] ++ t ++ ts ++ rest) =
      match skip_space (ts ++ rest) with
      | c :: r => if c =? 125 then Some ([(name, v')], r)
                  else if c =? 44 then match scan_members fuel (skip_space r) with Some (l, r) => Some ((name, v') :: l, r) | None => None end else None
      | [] => None
      end) as M.
  { intros name v t ts rest fuel (_ & St & T) C L. destruct (T fuel (ts ++ rest) L (C rest)) as (v' & S & A). exists v'. split; [exact A|].
    unfold json_string. cbn [app scan_members]. change (34 =? 34) with true. cbv iota. rewrite <- app_assoc. cbn [app]. rewrite K.
    rewrite (proj2 (chars_ok name)). cbn [skip_space]. change (json_space 58) with false. cbv iota. change (58 =? 58) with true. cbv iota.
    cbn [skip_space]. change (json_space 32) with true. cbv iota. rewrite skip_starts by exact St. rewrite S. reflexivity. }
  induction 1 as [|[n w] l (tw & Ew & Tw) F (ts & E & P & C & L & IH)].
  - exists [125]. split; [reflexivity|]. split; [repeat constructor; lia|]. split; [intros r; cbn; auto|]. split; [cbn; lia|].
    intros name v t [|fuel] rest T Lf; [lia|]. destruct (M name v t [125] rest fuel T) as (v' & A & S); [intros r; cbn; auto|cbn in Lf; lia|].
    exists v', []. rewrite S. split; [reflexivity|]. split; [exact A|constructor].
  - cbn [snd] in Ew, Tw. exists ([44; 32] ++ json_string (chars n) ++ [58; 32] ++ tw ++ ts). cbn [rest_members]. rewrite Ew, E. cbn [bind]. split; [reflexivity|].
    split; [apply printable_app; [repeat constructor; lia|apply printable_app; [apply json_string_printable, chars_ok|apply printable_app; [repeat constructor; lia|apply printable_app; [apply Tw|exact P]]]]|].
    split; [intros r; cbn; auto|]. split; [cbn; lia|].
    intros name v t [|fuel] rest T Lf; [lia|]. rewrite !app_length in Lf. cbn [length] in Lf.
    destruct (M name v t ([44; 32] ++ json_string (chars n) ++ [58; 32] ++ tw ++ ts) rest fuel T) as (v' & A & S); [intros r; cbn; auto|lia|].
    destruct (IH n w tw fuel rest Tw ltac:(lia)) as (w' & l' & S' & A' & F'). exists v', ((n, w') :: l'). split; [|split; [exact A|constructor; [split; [reflexivity|exact A']|exact F']]].
    rewrite S. cbn [app skip_space]. change (json_space 44) with false. cbv iota. change (44 =? 125) with false. change (44 =? 44) with true. cbv iota.
    cbn [skip_space]. change (json_space 32) with true. cbv iota.
    replace ((json_string (chars n) ++ 58 :: 32 :: tw ++ ts) ++ rest) with (json_string (chars n) ++ [58; 32] ++ tw ++ ts ++ rest) by (rewrite <- !app_assoc; cbn [app]; rewrite <- !app_assoc; reflexivity).
    rewrite skip_starts by (cbn; split; [reflexivity|split; discriminate]). rewrite S'. reflexivity.
Qed.
Lemma dict_set_new k v l : ~ In k (map fst l) -> dict_set k v l = l ++ [(k, v)].
Proof.
  induction l as [|[k' w] l IH]; intros N; [reflexivity|]. cbn in *. destruct (String.eqb_spec k' k); [exfalso; apply N; auto|]. rewrite IH by tauto. reflexivity.
Qed.
Lemma make_dict_nodup l : NoDup (map fst l) -> make_dict l = l.
Proof.
  intros N. unfold make_dict. change l with ([] ++ l) at 2.
  assert (forall a, NoDup (map fst a ++ map fst l) -> fold_left (fun d kv => dict_set (fst kv) (snd kv) d) l a = a ++ l) as K; [|apply K; exact N].
  clear N. induction l as [|[k v] l IH]; intros a N; [rewrite app_nil_r; reflexivity|]. cbn [fold_left fst snd]. cbn [map fst] in N.
  rewrite dict_set_new; [|apply NoDup_remove_2 in N; rewrite in_app_iff in N; tauto].
  rewrite IH, <- app_assoc; [reflexivity|]. rewrite map_app, <- app_assoc. exact N.
Qed.
Lemma alike_names (l l' : list (string * value)) : Forall2 (fun a a' => fst a = fst a' /\ alike (snd a) (snd a')) l l' -> map fst l = map fst l'.
Proof. induction 1 as [|a a' l l' [E _] F IH]; [reflexivity|]. cbn. congruence. Qed.
Theorem value_text v : json_data v -> exists t, json_dumps v = Ok t /\ text_of_value v t.
Proof.
  induction v as [| | | | | |l IH|c l IH|l IH] using value_nested_ind; intros J.
  - exists null_text. split; [reflexivity|]. split; [repeat constructor; cbn; lia|]. split; [cbn; repeat split; discriminate|].
    intros fuel rest L C. exists VNone. split; [|constructor]. apply word_text; [discriminate|discriminate|discriminate|reflexivity|exact L].
  - exists (if b then true_text else false_text). split; [destruct b; reflexivity|]. split; [destruct b; repeat constructor; cbn; lia|]. split; [destruct b; cbn; repeat split; discriminate|].
    intros fuel rest L C. exists (VBool b). split; [|constructor]. destruct b; apply word_text; try discriminate; try reflexivity; exact L.
  - exists (str_int n). split; [reflexivity|]. pose proof (int_numeral n) as N. split; [eapply numeral_printable; exact N|].
    split.
    { destruct (numeral_head _ _ N) as (c & t & -> & H). cbn. assert (48 <= c <= 57 \/ c = 45) as [R| ->] by (destruct H as [->|H]; [auto|apply digit_char_spec in H; auto]); [|repeat split; discriminate].
      split; [|lia]. unfold json_space. apply not_true_is_false. rewrite !orb_true_iff, !Z.eqb_eq. lia. }
    intros fuel rest L C. exists (VInt n). split; [|constructor]. eapply read_numeral; [exact N|exact C| |exact L]. exists n. split; [reflexivity|]. apply int_round_trip.
  - inversion J as [| | |x' D| | |]; subst. destruct x as [|s|s m e].
    + exists nan_json. split; [reflexivity|]. split; [repeat constructor; cbn; lia|]. split; [cbn; repeat split; discriminate|].
      intros fuel rest L C. exists (VFloat NaN). split; [|constructor; exact I]. apply word_text; [discriminate|discriminate|discriminate|reflexivity|exact L].
    + exists (if s then minus_infinity_json else infinity_json). split; [destruct s; reflexivity|]. split; [destruct s; repeat constructor; cbn; lia|]. split; [destruct s; cbn; repeat split; discriminate|].
      intros fuel rest L C. exists (VFloat (Inf s)). split; [|constructor; reflexivity]. destruct s; apply word_text; try discriminate; try reflexivity; exact L.
    + exists (py_float_text (Fin s m e)). split; [reflexivity|]. pose proof (float_numeral s m e D) as N. split; [eapply numeral_printable; exact N|]. split.
      { destruct (numeral_head _ _ N) as (c & t & -> & H). cbn. assert (48 <= c <= 57 \/ c = 45) as [R| ->] by (destruct H as [->|H]; [auto|apply digit_char_spec in H; auto]); [|repeat split; discriminate].
        split; [|lia]. unfold json_space. apply not_true_is_false. rewrite !orb_true_iff, !Z.eqb_eq. lia. }
      destruct (float_round_trip (fun c => c) (Fin s m e) D) as (y & R & Q).
      intros fuel rest L C. exists (VFloat y). split; [|constructor; exact Q]. eapply read_numeral; [exact N|exact C| |exact L]. exists y. split; [reflexivity|exact R].
  - inversion J as [| | | |s' T| |]; subst. exists (json_string s). split; [reflexivity|]. split; [apply json_string_printable, T|]. split; [cbn; repeat split; discriminate|].
    intros [|fuel] rest L C; [cbn in L; lia|]. exists (VStr s). split; [|constructor]. apply scan_json_string, T.
  - inversion J.
  - inversion J as [| | | | |l' F|]; subst. assert (Forall (fun v => exists t, json_dumps v = Ok t /\ text_of_value v t) l) as F'.
    { clear J. induction l as [|w l IHl]; constructor; inversion IH; inversion F; subst; auto. }
    destruct F' as [|w l (tw & Ew & Tw) F'].
    + exists [91; 93]. split; [reflexivity|]. split; [repeat constructor; lia|]. split; [cbn; repeat split; discriminate|].
      intros [|fuel] rest L C; [cbn in L; lia|]. exists (VList []). split; [reflexivity|repeat constructor].
    + destruct (items_text l F') as (ts & E & P & C & L & S). exists (91 :: tw ++ ts). rewrite dumps_list, Ew, E. cbn [bind]. split; [reflexivity|].
      split; [constructor; [lia|apply printable_app; [apply Tw|exact P]]|]. split; [cbn; repeat split; discriminate|].
      intros [|fuel] rest Lf C'; [cbn in Lf; lia|]. cbn [length] in Lf. rewrite app_length in Lf.
      destruct (S w tw fuel rest Tw ltac:(lia)) as (w' & l' & S' & A & FA). exists (VList (w' :: l')). split; [|constructor; constructor; assumption].
      cbn [app scan_value]. change (91 =? 34) with false. change (91 =? 91) with true. cbv iota. rewrite <- app_assoc, skip_starts by apply Tw.
      destruct Tw as (_ & St & _). destruct tw as [|c tw]; [destruct St|]. destruct St as (_ & N93 & _). cbn [app]. destruct (Z.eqb_spec c 93); [contradiction|].
      cbn [app] in S'. rewrite S'. reflexivity.
  - inversion J.
  - inversion J as [| | | | | |l' N F]; subst. assert (Forall (fun a => exists t, json_dumps (snd a) = Ok t /\ text_of_value (snd a) t) l) as F'.
    { clear J N. induction l as [|w l IHl]; constructor; inversion IH; inversion F; subst; auto. }
    destruct F' as [|[n w] l (tw & Ew & Tw) F'].
    + exists [123; 125]. split; [reflexivity|]. split; [repeat constructor; lia|]. split; [cbn; repeat split; discriminate|].
      intros [|fuel] rest L C; [cbn in L; lia|]. exists (VDict []). split; [reflexivity|repeat constructor].
    + cbn [snd] in Ew, Tw. destruct (members_text l F') as (ts & E & P & C & L & S). exists (123 :: json_string (chars n) ++ [58; 32] ++ tw ++ ts). rewrite dumps_dict, Ew, E. cbn [bind]. split; [reflexivity|].
      split; [constructor; [lia|apply printable_app; [apply json_string_printable, chars_ok|apply printable_app; [repeat constructor; lia|apply printable_app; [apply Tw|exact P]]]]|].
      split; [cbn; repeat split; discriminate|].
      intros [|fuel] rest Lf C'; [cbn in Lf; lia|]. cbn [length] in Lf. rewrite !app_length in Lf. cbn [length] in Lf.
      assert (0 < length (json_string (chars n)))%nat by (cbn; lia).
      destruct (S n w tw fuel rest Tw ltac:(lia)) as (w' & l' & S' & A & FA). exists (VDict ((n, w') :: l')). split; [|constructor; constructor; [split; [reflexivity|exact A]|exact FA]].
      cbn [app scan_value]. change (123 =? 34) with false. change (123 =? 91) with false. change (123 =? 123) with true. cbv iota.
      replace ((json_string (chars n) ++ 58 :: 32 :: tw ++ ts) ++ rest) with (json_string (chars n) ++ [58; 32] ++ tw ++ ts ++ rest) by (rewrite <- !app_assoc; cbn [app]; rewrite <- !app_assoc; reflexivity).
      rewrite skip_starts by (cbn; split; [reflexivity|split; discriminate]).
      unfold json_string at 1. cbn [app]. change (34 =? 125) with false. cbv iota.
      change (34 :: (flat_map json_char (chars n) ++ [34]) ++ 58 :: 32 :: tw ++ ts ++ rest) with (json_string (chars n) ++ [58; 32] ++ tw ++ ts ++ rest).
      rewrite S'. rewrite make_dict_nodup; [reflexivity|]. cbn [map fst] in N |- *. rewrite <- (alike_names l l' FA). exact N.
Qed.
Theorem json_text_round_trip v : json_data v -> exists t v', json_dumps v = Ok t /\ printable t /\ json_loads t = Ok v' /\ alike v v'.
Proof.
  intros J. destruct (value_text v J) as (t & E & P & St & R). destruct (R (S (length t)) [] ltac:(lia) I) as (v' & Sc & A). rewrite app_nil_r in Sc.
  exists t, v'. split; [exact E|]. split; [exact P|]. split; [|exact A]. unfold json_loads.
  pose proof (skip_starts t [] St) as K. rewrite app_nil_r in K. rewrite K, Sc. reflexivity.
Qed.
Lemma json_loads_errors s x : json_loads s = Err x -> x = ValueError.
Proof. unfold json_loads. destruct (scan_value _ _) as [[v r]|]; [|congruence]. destruct (skip_space r); congruence. Qed.
