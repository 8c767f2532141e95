(** Proofs: which data a schema accepts and what it makes of it. *)
From Coq Require Import QArith Lia.
From Verif Require Import Py PyFacts PyFloat ParamLang Parameters Schema Schemas SpecParameters SpecSchema SpecJson FloatProofs OnceProofs SchemaProofs SchemaProofs2 SchemaProofs3 SpecLoad.
Open Scope string_scope.
Open Scope list_scope.
Open Scope Z_scope.

(** ** Numbers *)
Definition floor_of (m e : Z) : Z := if 0 <=? e then m * 2 ^ e else m / 2 ^ (- e).
Lemma le_int a b : ((a # 1) <= (b # 1))%Q <-> a <= b.
Proof. unfold Qle. cbn. lia. Qed.
Lemma lt_int a b : ((a # 1) < (b # 1))%Q <-> a < b.
Proof. unfold Qlt. cbn. lia. Qed.
Lemma times_int (a b : Z) : ((a # 1) * (b # 1) == (a * b # 1))%Q.
Proof. unfold Qeq. cbn. lia. Qed.
Lemma scaled_up (a m e : Z) : e < 0 -> ((m # 1) * (2 # 1) ^ e * (2 ^ (- e) # 1) == (m # 1))%Q.
Proof. intros E. rewrite <- (pow_Z (- e)) by lia. rewrite <- Qmult_assoc, pow_opp. ring. Qed.
Lemma floor_bounds m e : ((floor_of m e # 1) <= (m # 1) * (2 # 1) ^ e)%Q /\ ((m # 1) * (2 # 1) ^ e < (floor_of m e + 1 # 1))%Q.
Proof.
  unfold floor_of. destruct (Z.leb_spec 0 e) as [E|E].
  - rewrite (pow_Z e E), times_int. rewrite le_int, lt_int. lia.
  - assert (0 < 2 ^ (- e)) as P by (apply Z.pow_pos_nonneg; lia).
    assert (0 < (2 ^ (- e) # 1))%Q as PQ by (unfold Qlt; cbn; lia).
    rewrite <- (Qmult_le_r _ _ _ PQ), <- (Qmult_lt_r _ _ _ PQ), (scaled_up 0 m e E), !times_int, le_int, lt_int.
    pose proof (Z.div_mod m (2 ^ (- e)) ltac:(lia)). pose proof (Z.mod_pos_bound m (2 ^ (- e)) P). split; nia.
Qed.
Lemma floor_nonneg m e : 0 <= m -> 0 <= floor_of m e.
Proof. intros H. unfold floor_of. destruct (Z.leb_spec 0 e); [apply Z.mul_nonneg_nonneg; [lia|apply Z.pow_nonneg; lia]|apply Z.div_pos; [lia|apply Z.pow_pos_nonneg; lia]]. Qed.
Lemma dyadic_neg m e : (dyadic true m e == - ((m # 1) * (2 # 1) ^ e))%Q.
Proof. unfold dyadic. assert ((- m # 1) == - (m # 1))%Q as E by (unfold Qeq; cbn; lia). rewrite E. ring. Qed.
Lemma opp_int a : (- (a # 1) == (- a # 1))%Q. Proof. unfold Qeq. cbn. lia. Qed.
Lemma fraction_once x n n' : without_fraction x n -> without_fraction x n' -> n = n'.
Proof.
  intros (s & m & e & -> & A & B) (s' & m' & e' & E & A' & B'). injection E as <- <- <-.
  destruct (Qlt_le_dec (dyadic s m e) 0) as [L|L].
  - apply Qlt_le_weak in L. destruct (B L) as [B1 B2]. destruct (B' L) as [C1 C2].
    pose proof (proj1 (lt_int _ _) (Qlt_le_trans _ _ _ B1 C2)). pose proof (proj1 (lt_int _ _) (Qlt_le_trans _ _ _ C1 B2)). lia.
  - destruct (A L) as [B1 B2]. destruct (A' L) as [C1 C2].
    pose proof (proj1 (lt_int _ _) (Qle_lt_trans _ _ _ B1 C2)). pose proof (proj1 (lt_int _ _) (Qle_lt_trans _ _ _ C1 B2)). lia.
Qed.
Lemma fraction_cut s m e : 0 <= m -> without_fraction (Fin s m e) (if s then - floor_of m e else floor_of m e).
Proof.
  intros H. exists s, m, e. split; [reflexivity|]. pose proof (floor_nonneg m e H) as N. destruct (floor_bounds m e) as [L U].
  assert (0 <= (m # 1) * (2 # 1) ^ e)%Q as P by (eapply Qle_trans; [|exact L]; apply le_int; exact N).
  destruct s.
  - rewrite dyadic_neg. split; intros Z0.
    + assert ((m # 1) * (2 # 1) ^ e == 0)%Q as E by (apply Qle_antisym; [rewrite <- (Qopp_involutive (_ * _)); change 0%Q with (- 0)%Q; apply Qopp_le_compat; exact Z0|exact P]).
      rewrite E in L, U. apply (proj1 (le_int _ 0)) in L. apply (proj1 (lt_int 0 _)) in U. replace (floor_of m e) with 0 by lia. rewrite E. split; [vm_compute; discriminate|vm_compute; reflexivity].
    + split; [|rewrite <- opp_int; apply Qopp_le_compat; exact L].
      replace (- floor_of m e - 1) with (- (floor_of m e + 1)) by lia. rewrite <- opp_int. apply Qopp_lt_compat. exact U.
  - change (dyadic false m e) with ((m # 1) * (2 # 1) ^ e)%Q. split; intros Z0; [split; assumption|].
    assert ((m # 1) * (2 # 1) ^ e == 0)%Q as E by (apply Qle_antisym; assumption).
    rewrite E in L, U. apply (proj1 (le_int _ 0)) in L. apply (proj1 (lt_int 0 _)) in U. rewrite E. replace (floor_of m e) with 0 by lia. split; [vm_compute; reflexivity|vm_compute; discriminate].
Qed.
Lemma int_of_float_iff x n : (forall s m e, x = Fin s m e -> 0 <= m) -> (int_of_float x = Ok n <-> without_fraction x n).
Proof.
  intros H. destruct x as [| |s m e]; [split; [discriminate|intros (? & ? & ? & E & _); discriminate]..|].
  pose proof (fraction_cut s m e (H _ _ _ eq_refl)) as C. change (int_of_float (Fin s m e)) with (Ok (if s then - floor_of m e else floor_of m e)).
  split; [intros E; injection E as <-; exact C|intros W; f_equal; eapply fraction_once; eassumption].
Qed.
Lemma dyadic_pow_eq m e n : e < 0 -> ((m # 1) * (2 # 1) ^ e == (n # 1))%Q <-> m = n * 2 ^ (- e).
Proof.
  intros E. assert (0 < 2 ^ (- e)) as P by (apply Z.pow_pos_nonneg; lia).
  rewrite <- (Qmult_inj_r _ _ (2 ^ (- e) # 1)) by (unfold Qeq; cbn; lia). rewrite (scaled_up 0 m e E), times_int. unfold Qeq. cbn. lia.
Qed.
Lemma is_one_iff x : (forall s m e, x = Fin s m e -> 0 <= m) -> (is_one x = true <-> is_number x 1).
Proof.
  intros H. destruct x as [| |s m e]; [split; [discriminate|intros (? & ? & ? & E & _); discriminate]..|]. specialize (H _ _ _ eq_refl). destruct s; cbn [is_one].
  - split; [discriminate|]. intros (s & m' & e' & E & Q). injection E as <- <- <-. exfalso. rewrite dyadic_neg in Q.
    destruct (floor_bounds m e) as [L _]. pose proof (floor_nonneg m e H).
    assert (0 <= (m # 1) * (2 # 1) ^ e)%Q as P by (eapply Qle_trans; [|exact L]; apply le_int; lia).
    apply Qopp_le_compat in P. rewrite Q in P. apply P. reflexivity.
  - destruct (Z.leb_spec 0 e) as [E|E].
    + split; [intros M; exists false, m, e|intros (s & m' & e' & X & Q); injection X as <- <- <-].
      * split; [reflexivity|]. change (dyadic false m e) with ((m # 1) * (2 # 1) ^ e)%Q. rewrite (pow_Z e E), times_int. apply Z.eqb_eq in M. rewrite M. reflexivity.
      * change (dyadic false m e) with ((m # 1) * (2 # 1) ^ e)%Q in Q. rewrite (pow_Z e E), times_int in Q. apply int_eq in Q. lia.
    + split; [intros M; exists false, m, e|intros (s & m' & e' & X & Q); injection X as <- <- <-].
      * split; [reflexivity|]. apply (dyadic_pow_eq m e 1 E). lia.
      * apply (dyadic_pow_eq m e 1 E) in Q. lia.
Qed.
Lemma is_zero_iff x : is_zero x = true <-> is_number x 0.
Proof.
  destruct x as [| |s m e]; [split; [discriminate|intros (? & ? & ? & E & _); discriminate]..|]. cbn [is_zero].
  split; [intros M; exists s, m, e; split; [reflexivity|]|intros (s' & m' & e' & X & Q); injection X as <- <- <-].
  - apply Z.eqb_eq in M as ->. unfold dyadic. destruct s; apply Qmult_0_l.
  - unfold dyadic in Q. apply Qmult_integral in Q as [Q|Q]; [destruct s; apply (int_eq _ 0) in Q; lia|].
    pose proof (pow_pos e) as P. rewrite Q in P. discriminate P.
Qed.

(** ** Words *)
Lemma list_eqb_refl (s : str) : list_eqb s s = true.
Proof. induction s as [|c s IH]; [reflexivity|]. cbn. rewrite Z.eqb_refl. exact IH. Qed.
Lemma among_in s l : among s l = true <-> In s l.
Proof.
  unfold among. rewrite existsb_exists. split; [intros (t & I & E); apply list_eqb_eq in E as ->; exact I|intros I; exists s; split; [exact I|apply list_eqb_refl]].
Qed.
(** all spellings of the words *)
Definition spellings (w : string) : list str :=
  letters w :: map capital (letters w) :: match letters w with c :: rest => [capital c :: rest] | [] => [] end.
Lemma spelled_in w s : spelled w s <-> In s (spellings w).
Proof.
  split.
  - intros H. destruct H as [w|w|w c rest E]; unfold spellings; [left; reflexivity|right; left; reflexivity|]. rewrite E. right. right. left. reflexivity.
  - unfold spellings. intros [<- | [<- |I]]; [constructor..|]. destruct (letters w) as [|c rest] eqn:E; [destruct I|]. destruct I as [<- |[]]. econstructor. exact E.
Qed.
Lemma says_in words s : says words s <-> In s (flat_map spellings words).
Proof. unfold says. rewrite in_flat_map. setoid_rewrite spelled_in. reflexivity. Qed.
Lemma subset_b (a b : list str) : forallb (fun s => among s b) a = true -> forall s, In s a -> In s b.
Proof. intros H s I. apply among_in. rewrite forallb_forall in H. apply H, I. Qed.
Lemma yes_iff s : among s truthy = true <-> says yes_words s.
Proof. rewrite among_in, says_in. split; revert s; apply subset_b; vm_compute; reflexivity. Qed.
Lemma no_iff s : among s falsy = true <-> says no_words s.
Proof. rewrite among_in, says_in. split; revert s; apply subset_b; vm_compute; reflexivity. Qed.
Lemma yes_no s : says yes_words s -> says no_words s -> False.
Proof.
  rewrite !says_in. intros Y N. assert (forallb (fun s => negb (among s (flat_map spellings no_words))) (flat_map spellings yes_words) = true) as D by (vm_compute; reflexivity).
  rewrite forallb_forall in D. specialize (D s Y). apply among_in in N. rewrite N in D. discriminate.
Qed.

(** ** Numbers, answers *)
Definition proper (v : value) : Prop := forall s m e, v = VFloat (Fin s m e) -> 0 <= m.
Lemma whole_iff py v n : proper v -> (validated (format_int py) v = Ok n <-> whole py v n).
Proof.
  intros P. unfold validated. split.
  - destruct v as [|k|b|y|s|bs|l|c at0|d]; cbn [format_int]; try discriminate.
    + intros E; injection E as <-; constructor.
    + destruct (int_of_float y) eqn:E; [|destruct e; discriminate]. intros X; injection X as <-. constructor. apply int_of_float_iff; [intros s m e ->; eapply P; reflexivity|exact E].
    + destruct (read_int py s) eqn:E; [|destruct e; discriminate]. intros X; injection X as <-. constructor. exact E.
  - intros H. destruct H as [n|x n W|s n R]; cbn [format_int]; [reflexivity| |rewrite R; reflexivity].
    apply int_of_float_iff in W; [rewrite W; reflexivity|intros s m e ->; eapply P; reflexivity].
Qed.
Lemma number_iff py v x : validated (format_float py) v = Ok x <-> number py v x.
Proof.
  unfold validated. split.
  - destruct v as [|k|b|y|s|bs|l|c at0|d]; cbn [format_float]; try discriminate.
    + destruct (float_of_int k) eqn:E; [|destruct e; discriminate]. intros X; injection X as <-. constructor. exact E.
    + intros X; injection X as <-. constructor.
    + destruct (read_float py s) eqn:E; [|destruct e; discriminate]. intros X; injection X as <-. constructor. exact E.
  - intros H. destruct H as [n x R|x|s x R]; cbn [format_float]; [rewrite R; reflexivity|reflexivity|rewrite R; reflexivity].
Qed.
Lemma finite_iff x : finite x = true <-> exists s m e, x = Fin s m e.
Proof. destruct x; cbn; split; try discriminate; try (intros (? & ? & ? & E); discriminate); eauto. Qed.
Lemma answer_iff py v w : proper v -> (deserialize py Boolean v = Ok w <-> exists b, w = VBool b /\ answer v b).
Proof.
  intros P. assert (forall x, v = VFloat x -> forall s m e, x = Fin s m e -> 0 <= m) as PF by (intros x -> s m e ->; eapply P; reflexivity). split.
  - destruct v as [|k|b|y|s|bs|l|c at0|d]; cbn [deserialize]; try discriminate.
    + destruct k as [|[p|p|]|p]; try discriminate; intros X; injection X as <-; eexists; (split; [reflexivity|constructor]).
    + intros X; injection X as <-; eexists; (split; [reflexivity|constructor]).
    + destruct (is_one y) eqn:E; [intros X; injection X as <-; eexists; split; [reflexivity|]; constructor; apply is_one_iff; eauto|].
      destruct (is_zero y) eqn:E2; [|discriminate]. intros X; injection X as <-; eexists; split; [reflexivity|]; constructor; apply is_zero_iff; eauto.
    + destruct (among s truthy) eqn:E; [intros X; injection X as <-; eexists; split; [reflexivity|]; constructor; apply yes_iff; eauto|].
      destruct (among s falsy) eqn:E2; [|discriminate]. intros X; injection X as <-; eexists; split; [reflexivity|]; constructor; apply no_iff; eauto.
  - intros (b & -> & H). destruct H as [b| | |x H|x H|s H|s H]; cbn [deserialize]; try reflexivity.
    + apply is_one_iff in H; [rewrite H; reflexivity|eauto].
    + assert (is_one x = false) as ->; [|apply is_zero_iff in H; rewrite H; reflexivity]. destruct (is_one x) eqn:E; [exfalso|reflexivity].
      apply is_one_iff in E; [|eauto]. destruct H as (s & m & e & -> & Q). destruct E as (s' & m' & e' & X & Q'). injection X as <- <- <-. rewrite Q in Q'. discriminate Q'.
    + apply yes_iff in H. rewrite H. reflexivity.
    + assert (among s truthy = false) as ->; [|apply no_iff in H; rewrite H; reflexivity]. destruct (among s truthy) eqn:E; [exfalso|reflexivity]. apply yes_iff in E. eapply yes_no; eassumption.
Qed.

(** ** Objects *)
Lemma arrange_iff (names : list string) (kw l : list (string * value)) :
  arrange names kw = Some l <-> Forall2 (fun name a => fst a = name /\ lookup name kw = Some (snd a)) names l.
Proof.
  revert l. induction names as [|a names IH]; intros l; cbn [arrange].
  - split; [intros E; injection E as <-; constructor|intros H; inversion H; reflexivity].
  - split.
    + destruct (lookup a kw) eqn:L; [|discriminate]. destruct (arrange names kw); [|discriminate]. intros E; injection E as <-.
      constructor; [split; [reflexivity|exact L]|]. apply IH. reflexivity.
    + intros H. inversion H as [|? [n v] ? l' [E L] F]; subst. cbn [fst snd] in *. rewrite L. apply IH in F. rewrite F. reflexivity.
Qed.
Lemma known_iff (names : list string) (l : list (string * value)) :
  forallb (fun kv => existsb (String.eqb (fst kv)) names) l = true <-> forall name, In name (map fst l) -> In name names.
Proof.
  rewrite forallb_forall. split; intros H.
  - intros name I. apply in_map_iff in I as (kv & <- & I). apply existsb_name, H, I.
  - intros kv I. apply existsb_name, H, in_map, I.
Qed.
Lemma built_iff c kw v : (match c with Some c => construct c kw | None => Ok (VDict kw) end) = Ok v <-> built c kw v.
Proof.
  destruct c as [c|].
  - split.
    + intros H. apply construct_inv in H as (l & -> & A & K). constructor; [apply arrange_iff; exact A|apply known_iff; exact K].
    + intros H. inversion H as [|? ? attrs F K]; subst. unfold construct. rewrite (proj2 (known_iff (class_attrs c) kw) K : all_known _ _ = true).
      rewrite (proj2 (arrange_iff _ _ _) F). reflexivity.
  - split; [intros E; injection E as <-; constructor|intros H; inversion H; reflexivity].
Qed.
Lemma doubles_item l v : doubles (VList l) -> In v l -> doubles v.
Proof. intros D I x O. apply D. econstructor; eassumption. Qed.
Lemma doubles_entry l n v : doubles (VDict l) -> lookup n l = Some v -> doubles v.
Proof. intros D I x O. apply D. apply lookup_In in I. econstructor; eassumption. Qed.
Lemma doubles_proper v : doubles v -> proper v.
Proof. intros D s m e ->. specialize (D _ (occurs_here _)). apply D. Qed.

(** ** Accepted data *)
Definition items (py : python) (k : kind) := (fix go (l : list value) : res (option (list value)) :=
                  match l with
                  | [] => Ok (Some [])
                  | v :: l' => collect_item (match v with VNone => Err ValidationError | _ => deserialize py k v end) (go l')
                  end).
Lemma deserialize_list py k l : deserialize py (List_ k) (VList l) = (r <- items py k l ;; match r with Some l => Ok (VList l) | None => Err ValidationError end).
Proof. reflexivity. Qed.
Lemma null_or v (r : res value) : v <> VNone -> (match v with VNone => Err ValidationError | _ => r end) = r.
Proof. destruct v; [contradiction|reflexivity..]. Qed.
Lemma deserialized_accepted py : forall k d v, doubles d -> deserialize py k d = Ok v -> accepted py k d v.
Proof.
  fix IH 1. intros k d v D E. pose proof (doubles_proper d D) as P. destruct k as [|b| | | | |k|fs p].
  - cbn [deserialize] in E. destruct (validated (format_int py) d) eqn:V; [|discriminate]. injection E as <-. constructor. apply whole_iff; assumption.
  - cbn [deserialize] in E. destruct (validated (format_float py) d) as [p|] eqn:V; [|discriminate]. cbn [bind] in E. destruct (finite p) eqn:F; [|discriminate]. injection E as <-.
    constructor; [apply number_iff; assumption|apply finite_iff; assumption].
  - cbn [deserialize] in E. destruct (validated (format_float py) d) eqn:V; [|discriminate]. injection E as <-. constructor. apply number_iff; assumption.
  - destruct d as [|n|b|x|s|bs|l|c at0|d]; cbn [deserialize] in E; try discriminate; [injection E as <-; constructor|].
    destruct (as_text py (VBytes bs)) as [s|x] eqn:T; [injection E as <-; constructor; exact T|destruct x; discriminate].
  - apply answer_iff in E as (b & -> & A); [constructor; exact A|exact P].
  - destruct d as [|n|b|x|s|bs|l|c at0|d]; cbn [deserialize] in E; try discriminate; injection E as <-; constructor.
  - destruct d as [|n|b|x|s|bs|l|c at0|d]; try discriminate E. rewrite deserialize_list in E.
    destruct (items py k l) as [[vs|]|] eqn:R; try discriminate E. injection E as <-. constructor. clear P.
    revert vs R. induction l as [|d l IHl]; intros vs R; cbn [items] in R; [injection R as <-; constructor|].
    fold (items py k) in R. destruct (match d with VNone => Err ValidationError | _ => deserialize py k d end) as [w|x] eqn:W; cbn [collect_item] in R.
    + destruct (items py k l) as [[ws|]|] eqn:Rl; try discriminate R. injection R as <-.
      assert (d <> VNone) as N by (intros ->; discriminate W). rewrite null_or in W by exact N.
      constructor; [exact N|apply IH; [apply (doubles_item _ _ D); left; reflexivity|exact W]|].
      apply IHl; [intros x O; apply D; inversion O; subst; econstructor; [right|]; eassumption|reflexivity].
    + destruct x; try discriminate R. destruct (items py k l); discriminate R.
  - destruct d as [|n|b|x|s|bs|l|c at0|l]; try discriminate E. rewrite deserialize_nested in E. unfold finish_load in E.
    destruct (load_fields py l fs) as [[kw|]|] eqn:L; try discriminate E. destruct (forallb _ l) eqn:K; [|discriminate E].
    apply (accepted_nested py fs p l kw); [apply known_iff; exact K| |apply built_iff; exact E]. clear E K P p v.
    revert kw L. induction fs as [|[n r a k] fs IHf]; intros kw L; cbn [load_fields] in L; [injection L as <-; constructor|].
    unfold field_load in L. cbn [f_name f_required f_allow_none f_kind] in L. destruct (lookup n l) as [w|] eqn:W; cbn [deserialize_field] in L.
    + assert (w = VNone \/ w <> VNone) as [-> |N] by (destruct w; [left; reflexivity|right; discriminate..]).
      * destruct a; cbn [collect] in L; [|destruct (load_fields py l fs); discriminate L].
        destruct (load_fields py l fs) as [[kw'|]|] eqn:Lf; try discriminate L. injection L as <-. apply (field_null py l (mk_spec n r true k)); [exact W|reflexivity|]. apply IHf. reflexivity.
      * assert ((match w with VNone => if a then Ok (Some VNone) else Err ValidationError | _ => x <- deserialize py k w ;; Ok (Some x) end) = (x <- deserialize py k w ;; Ok (Some x))) as Q by (destruct w; [contradiction|reflexivity..]).
        rewrite Q in L. destruct (deserialize py k w) as [x|x] eqn:Dw; cbn [bind collect] in L.
        -- destruct (load_fields py l fs) as [[kw'|]|] eqn:Lf; try discriminate L. injection L as <-.
           apply (field_given py l (mk_spec n r a k) _ _ w); [exact W|exact N|cbn [f_kind]; apply IH; [eapply doubles_entry; eassumption|exact Dw]|]. apply IHf. reflexivity.
        -- destruct x; try discriminate L. destruct (load_fields py l fs); discriminate L.
    + destruct r; cbn [collect] in L; [destruct (load_fields py l fs); discriminate L|]. apply field_left_out; [exact W|reflexivity|]. apply IHf. exact L.
Qed.
Scheme accepted_mut := Minimality for accepted Sort Prop
with accepted_items_mut := Minimality for accepted_items Sort Prop
with accepted_fields_mut := Minimality for accepted_fields Sort Prop.
Lemma accepted_deserialized py k d v : accepted py k d v -> doubles d -> deserialize py k d = Ok v.
Proof.
  intros H. apply (accepted_mut py
    (fun k d v => doubles d -> deserialize py k d = Ok v)
    (fun k l vs => doubles (VList l) -> items py k l = Ok (Some vs))
    (fun l fs kw => doubles (VDict l) -> load_fields py l fs = Ok (Some kw))); [..|exact H]; clear k d v H.
  - intros d n W D. cbn [deserialize]. apply whole_iff in W; [rewrite W; reflexivity|apply doubles_proper, D].
  - intros b d x N F D. cbn [deserialize]. apply number_iff in N. apply finite_iff in F. rewrite N. cbn [bind]. rewrite F. reflexivity.
  - intros d x N D. cbn [deserialize]. apply number_iff in N. rewrite N. reflexivity.
  - reflexivity.
  - intros b s T D. cbn [deserialize]. rewrite T. reflexivity.
  - intros d b A D. apply answer_iff; [apply doubles_proper, D|]. eauto.
  - reflexivity.
  - intros k l vs _ I D. rewrite deserialize_list, (I D). reflexivity.
  - intros fs c l kw v K _ F B D. rewrite deserialize_nested. unfold finish_load. rewrite (F D), (proj2 (known_iff _ _) K). apply built_iff. exact B.
  - reflexivity.
  - intros k d v l vs N _ A _ I D. cbn [items]. fold (items py k). rewrite null_or by exact N. rewrite A by (eapply doubles_item; [exact D|left; reflexivity]).
    rewrite I; [reflexivity|]. intros x O. apply D. inversion O; subst. econstructor; [right|]; eassumption.
  - reflexivity.
  - intros l f fs kw L R _ F D. cbn [load_fields]. unfold field_load. rewrite L, R. cbn [deserialize_field collect]. apply F, D.
  - intros l f fs kw L R _ F D. cbn [load_fields]. unfold field_load. rewrite L, R. cbn [deserialize_field collect]. rewrite (F D). reflexivity.
  - intros l f fs kw d v L N _ A _ F D. cbn [load_fields]. unfold field_load. rewrite L. 
    assert (deserialize_field (f_required f) (f_allow_none f) (deserialize py (f_kind f)) (Some d) = Ok (Some v)) as ->; [|rewrite (F D); reflexivity].
    specialize (A ltac:(eapply doubles_entry; eassumption)). destruct d; [contradiction|cbn [deserialize_field]; rewrite A; reflexivity..].
Qed.
Theorem load_iff py s d v : doubles d -> (load py s d = Ok v <-> accepts py s d v).
Proof. intros D. split; [apply deserialized_accepted, D|intros H; apply accepted_deserialized; assumption]. Qed.
Theorem load_refuses py t s d : value_errors py -> registered_schema t = Some s -> t <> DIFFERENCE_BASE_COUNTER -> doubles d ->
  (load py s d = Err ValidationError <-> forall v, ~ accepts py s d v).
Proof.
  intros E R N D. split.
  - intros L v A. apply load_iff in A; [congruence|exact D].
  - intros H. destruct (load_or_validation_error py t s d E R N) as [[v L]|L]; [|exact L]. exfalso. apply (H v), load_iff; assumption.
Qed.
Theorem accepted_once py s d v v' : doubles d -> accepts py s d v -> accepts py s d v' -> v = v'.
Proof. intros D A B. apply load_iff in A, B; [congruence|exact D..]. Qed.

(** ** float(n) *)
Theorem float_of_int_closest n : Z.abs n < 2 ^ 1000 -> exists x q, float_of_int n = Ok x /\ closest_double (n # 1) q /\ float_value x q.
Proof.
  intros B. assert (((Z.abs n # 1) / (1 # 1)) == (Z.abs n # 1))%Q as D by (unfold Qdiv, Qinv, Qmult, Qeq; cbn; lia).
  assert (((Z.abs n # 1) / (1 # 1)) < (2 # 1) ^ 1000)%Q as L by (rewrite D, (pow_Z 1000) by lia; apply lt_int; exact B).
  destruct (nearest_double_spec (n <? 0) (Z.abs n) 1 ltac:(lia) ltac:(lia) L) as (q & C & F & _).
  assert (float_of_int n = Ok (nearest_double (n <? 0) (Z.abs n) 1)) as E by (unfold float_of_int; destruct (nearest_double _ _ _); [destruct F..|reflexivity]).
  exists (nearest_double (n <? 0) (Z.abs n) 1), (if n <? 0 then - q else q)%Q. split; [exact E|]. split; [|exact F].
  apply (closest_double_wd _ _ _ D) in C. destruct (Z.ltb_spec n 0) as [N|N].
  - apply closest_double_opp in C. eapply closest_double_wd; [|exact C]. rewrite opp_int. replace (- Z.abs n) with n by lia. reflexivity.
  - replace (Z.abs n) with n in C by lia. exact C.
Qed.
Theorem float_of_int_exact n : Z.abs n < 2 ^ 53 -> exists x, float_of_int n = Ok x /\ float_value x (n # 1).
Proof.
  intros B. destruct (float_of_int_closest n) as (x & q & E & C & F); [eapply Z.lt_trans; [exact B|reflexivity]|].
  exists x. split; [exact E|]. eapply float_value_wd; [|exact F]. apply closest_is in C; [exact C|].
  exists n, 0. split; [lia|]. split; [lia|]. rewrite Qmult_comm. cbn. unfold Qeq; cbn; lia.
Qed.

(** ** What is written *)
Definition out_items (py : python) (k : kind) := (fix go (l : list value) : res (list value) :=
                       match l with
                       | [] => Ok []
                       | v :: l' => x <- serialize py k v ;; xs <- go l' ;; Ok (x :: xs)
                       end).
Scheme written_mut := Minimality for written Sort Prop
with written_items_mut := Minimality for written_items Sort Prop
with written_fields_mut := Minimality for written_fields Sort Prop.
Lemma written_serialized py k v d : written py k v d -> serialize py k v = Ok d.
Proof.
  intros H. apply (written_mut py
    (fun k v d => serialize py k v = Ok d)
    (fun k l ds => out_items py k l = Ok ds)
    (fun attrs fs ds => forall c, dump_fields py fs (VObj c attrs) = Ok ds)); [..|exact H]; clear k v d H.
  - intros k. destruct k; reflexivity.
  - reflexivity.
  - intros []; reflexivity.
  - reflexivity.
  - reflexivity.
  - reflexivity.
  - reflexivity.
  - reflexivity.
  - intros k l ds _ I. cbn [serialize]. fold (out_items py k). rewrite I. reflexivity.
  - intros fs p c attrs ds _ I. rewrite serialize_nested by discriminate. rewrite I. reflexivity.
  - reflexivity.
  - intros k v d l ds _ S _ I. cbn [out_items]. fold (out_items py k). rewrite S. cbn [bind]. rewrite I. reflexivity.
  - reflexivity.
  - intros attrs f fs v d ds L _ S _ I c. cbn [dump_fields get_value]. rewrite L, S. cbn [bind]. rewrite I. reflexivity.
Qed.
Lemma fields_written py attrs fs : (forall f, In f fs -> exists v d, lookup (f_name f) attrs = Some v /\ written py (f_kind f) v d) -> exists ds, written_fields py attrs fs ds.
Proof.
  induction fs as [|f fs IH]; intros H; [exists []; constructor|]. destruct (H f (or_introl eq_refl)) as (v & d & L & W).
  destruct IH as [ds I]; [intros g J; apply H; right; exact J|]. exists ((f_name f, d) :: ds). econstructor; eassumption.
Qed.
Lemma attribute_written py k none a v : compatible k none a = true -> annotated a v -> exists d, written py k v d.
Proof.
  intros C A. destruct A.
  - destruct k as [|[]| | | | |[]|]; try discriminate. eexists; constructor.
  - destruct k as [|[]| | | | |[]|]; try discriminate. eexists; constructor.
  - destruct k as [|[]| | | | |[]|]; try discriminate. eexists; constructor.
  - destruct k as [|[]| | | | |[]|]; try discriminate; eexists; constructor.
  - destruct k as [|[]| | | | |[]|]; try discriminate. eexists; constructor.
  - eexists; constructor.
  - destruct k as [|[]| | | | |[]|]; try discriminate; destruct a; try discriminate; inversion A; subst; eexists; constructor.
  - destruct k as [|[]| | | | |[]|]; try discriminate. exists (VList (map VStr l)). constructor. clear C. induction l as [|s l IH]; constructor; [constructor|exact IH].
  - destruct k as [|[]| | | | |[]|fs p]; try discriminate. cbn [compatible] in C. unfold gas_ok in C. apply andb_prop in C as [C _]. apply andb_prop in C as [N K]. apply names_eqb_eq in N.
    destruct (fields_written py (combine gas_components (map VFloat xs)) fs) as [ds W].
    + intros g I. destruct (lookup_some (f_name g) (combine gas_components (map VFloat xs))) as [w L].
      { rewrite combine_fst by (rewrite map_length; assumption). rewrite <- N. apply in_map, I. }
      pose proof (lookup_In _ _ _ L) as J. apply in_combine_r in J. apply in_map_iff in J as (y & <- & J).
      rewrite forallb_forall in K. specialize (K g I). destruct (f_kind g) as [|[]| | | | |[]|] eqn:Kg; try discriminate.
      exists (VFloat y), (VStr (float_text py y)). split; [exact L|constructor].
    + exists (VDict ds). constructor. exact W.
Qed.
Theorem dump_writes py t s v : registered_schema t = Some s -> instance t v -> ~ lossy t v ->
  exists d, writes py s v d /\ (forall d', dump py s v = Ok d' <-> d' = d) /\ forall d', writes py s v d' -> d' = d.
Proof.
  intros R I L. destruct (instance_inv t v I (not_difference t v L) L) as (s' & c & an & attrs & R' & _ & -> & F & S & _ & _).
  rewrite R in R'. injection R' as <-. apply SchemaProofs2.schema_ok_inv in S as (_ & _ & _ & K).
  destruct (fields_written py attrs (schema_fields s)) as [ds W].
  { intros f J. destruct (K f J) as (a & La & C). destruct (SchemaProofs2.fits_lookup _ _ _ _ F La) as (v & Lv & A).
    destruct (attribute_written py _ _ _ _ C A) as [d D]. exists v, d. split; assumption. }
  assert (writes py s (VObj (class_name c) attrs) (VDict ds)) as H by (constructor; exact W).
  assert (forall d', writes py s (VObj (class_name c) attrs) d' -> dump py s (VObj (class_name c) attrs) = Ok d') as G by (intros d'; apply written_serialized).
  exists (VDict ds). split; [exact H|]. pose proof (G _ H) as E. split.
  - intros d'. rewrite E. split; [intros X; injection X as <-; reflexivity|intros ->; reflexivity].
  - intros d' X. apply G in X. congruence.
Qed.
Lemma writes_dumped py s v d : writes py s v d -> (v = VNone -> d = VDict []) -> dump py s v = Ok d.
Proof.
  intros W N. destruct v; try (apply written_serialized; exact W). rewrite (N eq_refl). reflexivity.
Qed.
