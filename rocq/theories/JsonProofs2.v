(** Loading does not tell alike data apart, and what is dumped can be written as JSON. *)
From Coq Require Import QArith Qpower Qround Lqa.
From Verif Require Import PyFacts PyFloat ParamLang Parameters Schema Schemas SpecText TextProofs SpecApplication SpecParameters SpecSchema SchemaProofs SchemaProofs2 SchemaProofs3 PyText FloatProofs NumeralProofs Json SpecJson JsonProofs.
Open Scope string_scope.
Open Scope list_scope.
Open Scope Z_scope.

(** ** the same float *)
Lemma pow2_neg e : e < 0 -> ((2 # 1) ^ e == / (2 ^ (- e) # 1))%Q.
Proof. intros H. rewrite <- (pow_Z (- e)) by lia. rewrite Qpower_opp, Qinv_involutive. reflexivity. Qed.
Definition magnitude (m e : Z) : Q := ((m # 1) * (2 # 1) ^ e)%Q.
Lemma same_magnitude s m e m' e' : (dyadic s m e == dyadic s m' e')%Q -> (magnitude m e == magnitude m' e')%Q.
Proof.
  unfold dyadic, magnitude. destruct s; [|auto]. intros H. setoid_replace (- m # 1)%Q with (- (m # 1))%Q in H by reflexivity. setoid_replace (- m' # 1)%Q with (- (m' # 1))%Q in H by reflexivity. lra.
Qed.
Lemma whole_part m e : (if 0 <=? e then m * 2 ^ e else m / 2 ^ (- e)) = Qfloor (magnitude m e).
Proof.
  unfold magnitude. destruct (Z.leb_spec 0 e).
  - rewrite pow_Z by assumption. setoid_replace ((m # 1) * (2 ^ e # 1))%Q with (inject_Z (m * 2 ^ e)) by reflexivity. rewrite Qfloor_Z. reflexivity.
  - rewrite pow2_neg by assumption. rewrite Zdiv_Qdiv. apply Qfloor_comp. reflexivity.
Qed.
Lemma one_magnitude m e : (if 0 <=? e then m * 2 ^ e =? 1 else m =? 2 ^ (- e)) = Qeq_bool (magnitude m e) 1.
Proof.
  apply eq_true_iff_eq. rewrite Qeq_bool_iff. unfold magnitude. destruct (Z.leb_spec 0 e).
  - rewrite Z.eqb_eq, pow_Z by assumption. setoid_replace ((m # 1) * (2 ^ e # 1))%Q with (inject_Z (m * 2 ^ e)) by reflexivity. unfold Qeq, inject_Z. cbn [Qnum Qden]. lia.
  - rewrite Z.eqb_eq, pow2_neg by assumption. assert (0 < 2 ^ (- e)) as P by (apply Z.pow_pos_nonneg; lia).
    assert (~ (2 ^ (- e) # 1) == 0)%Q as N by (unfold Qeq; cbn [Qnum Qden]; lia). split; intros H1.
    + rewrite H1. apply Qmult_inv_r, N.
    + assert ((m # 1) == (2 ^ (- e) # 1))%Q as K; [|unfold Qeq in K; cbn [Qnum Qden] in K; lia].
      rewrite <- (Qmult_1_r (m # 1)), <- (Qmult_inv_r _ N), (Qmult_comm (2 ^ (- e) # 1)), Qmult_assoc, H1. ring.
Qed.
Lemma zero_magnitude m e : (m =? 0) = Qeq_bool (magnitude m e) 0.
Proof.
  apply eq_true_iff_eq. rewrite Qeq_bool_iff, Z.eqb_eq. unfold magnitude. split; [intros ->; apply Qmult_0_l|].
  intros H. apply Qmult_integral in H as [H|H]; [unfold Qeq in H; cbn [Qnum Qden] in H; lia|]. pose proof (FloatProofs.pow_pos e) as P. rewrite H in P. discriminate.
Qed.
Lemma same_int x y : same_float x y -> int_of_float x = int_of_float y.
Proof.
  destruct x as [|s|s m e], y as [|s'|s' m' e']; cbn [same_float int_of_float]; try contradiction; auto. intros [-> H]. apply same_magnitude in H.
  cbv zeta. rewrite !whole_part, (Qfloor_comp _ _ H). reflexivity.
Qed.
Lemma same_one x y : same_float x y -> is_one x = is_one y.
Proof.
  destruct x as [|s|s m e], y as [|s'|s' m' e']; cbn [same_float is_one]; try contradiction; auto. intros [-> H]. apply same_magnitude in H.
  destruct s'; [reflexivity|]. rewrite !one_magnitude, H. reflexivity.
Qed.
Lemma same_zero x y : same_float x y -> is_zero x = is_zero y.
Proof.
  destruct x as [|s|s m e], y as [|s'|s' m' e']; cbn [same_float is_zero]; try contradiction; auto. intros [-> H]. apply same_magnitude in H.
  rewrite (zero_magnitude m e), (zero_magnitude m' e'), H. reflexivity.
Qed.
Lemma same_float_trans x y z : same_float x y -> same_float y z -> same_float x z.
Proof.
  destruct x as [|s|s m e], y as [|s'|s' m' e'], z as [|s''|s'' m'' e'']; cbn; try contradiction; auto; [congruence|]. intros [-> A] [-> B]. split; [reflexivity|]. rewrite A. exact B.
Qed.

(** ** loading alike data *)
Definition alike_res {A} (R : A -> A -> Prop) (r r' : res A) : Prop :=
  match r, r' with Ok x, Ok y => R x y | Err e, Err e' => e = e' | _, _ => False end.
Definition alike_option {A} (R : A -> A -> Prop) (o o' : option A) : Prop :=
  match o, o' with Some x, Some y => R x y | None, None => True | _, _ => False end.
Definition alike_items (l l' : list (string * value)) : Prop := Forall2 (fun a a' => fst a = fst a' /\ alike (snd a) (snd a')) l l'.
Lemma alike_lookup name l l' : alike_items l l' -> alike_option alike (lookup name l) (lookup name l').
Proof.
  induction 1 as [|[n v] [n' v'] l l' [E A] F IH]; [exact I|]. cbn [fst snd] in E, A. subst n'. cbn. destruct (String.eqb name n); [exact A|exact IH].
Qed.
Lemma alike_arrange names l l' : alike_items l l' -> alike_option alike_items (arrange names l) (arrange names l').
Proof.
  intros A. induction names as [|n names IH]; [constructor|]. cbn. pose proof (alike_lookup n l l' A) as K.
  destruct (lookup n l), (lookup n l'); cbn in K; try contradiction; [|exact I].
  destruct (arrange names l), (arrange names l'); cbn in IH |- *; try contradiction; [|exact I]. constructor; [split; [reflexivity|exact K]|exact IH].
Qed.
Lemma alike_known (P : string -> bool) l l' : alike_items l l' -> forallb (fun kv => P (fst kv)) l = forallb (fun kv => P (fst kv)) l'.
Proof. induction 1 as [|[n v] [n' v'] l l' [E A] F IH]; [reflexivity|]. cbn [fst snd] in E, A. subst n'. cbn. rewrite IH. reflexivity. Qed.
Lemma alike_construct c l l' : alike_items l l' -> alike_res alike (construct c l) (construct c l').
Proof.
  intros A. unfold construct, all_known. rewrite (alike_known (fun n => existsb (String.eqb n) (class_attrs c)) l l' A). destruct (forallb _ l'); [|reflexivity].
  pose proof (alike_arrange (class_attrs c) l l' A) as K. destruct (arrange _ l), (arrange _ l'); cbn in K |- *; try contradiction; [|reflexivity]. constructor. exact K.
Qed.
Lemma alike_finish names p l l' r r' : alike_items l l' -> alike_res (alike_option alike_items) r r' -> alike_res alike (finish_load names p l r) (finish_load names p l' r').
Proof.
  intros A K. unfold finish_load. destruct r as [[kw|]|e], r' as [[kw'|]|e']; cbn in K |- *; try contradiction; try assumption; [|reflexivity].
  rewrite (alike_known (fun n => existsb (String.eqb n) names) l l' A). destruct (forallb _ l'); [|reflexivity]. destruct p as [c|]; [apply alike_construct, K|constructor; exact K].
Qed.
Lemma alike_collect name r r' q q' : alike_res (alike_option alike) r r' -> alike_res (alike_option alike_items) q q' ->
  alike_res (alike_option alike_items) (collect name r q) (collect name r' q').
Proof.
  intros A B. destruct r as [[v|]|e], r' as [[v'|]|e']; cbn in A; try contradiction; unfold collect.
  - destruct q as [[l|]|e], q' as [[l'|]|e']; cbn in B |- *; try contradiction; try assumption. constructor; [split; [reflexivity|exact A]|exact B].
  - exact B.
  - subst e'. destruct e; cbn; try reflexivity; destruct q, q'; cbn in B |- *; try contradiction; auto.
Qed.
Lemma some_alike (r r' : res value) : alike_res alike r r' -> alike_res (alike_option alike) (x <- r ;; Ok (Some x)) (x <- r' ;; Ok (Some x)).
Proof. destruct r, r'; cbn; auto. Qed.
Lemma alike_field required none des l l' name : (forall v v', alike v v' -> alike_res alike (des v) (des v')) -> alike_items l l' ->
  alike_res (alike_option alike) (deserialize_field required none des (lookup name l)) (deserialize_field required none des (lookup name l')).
Proof.
  intros D A. pose proof (alike_lookup name l l' A) as K. destruct (lookup name l) as [v|], (lookup name l') as [v'|]; cbn in K; try contradiction; [|cbn; destruct required; cbn; auto].
  specialize (D v v' K). unfold deserialize_field. inversion K; subst; try (apply some_alike; exact D). destruct none; cbn; [constructor|reflexivity].
Qed.
Lemma deserialize_alike py : forall k v v', alike v v' -> alike_res alike (deserialize py k v) (deserialize py k v').
Proof.
  assert (forall v v', alike v v' -> validated (format_int py) v = validated (format_int py) v') as VI.
  { intros v v' []; try reflexivity. unfold validated. cbn [format_int]. rewrite (same_int x y H). reflexivity. }
  assert (forall v v', alike v v' -> alike_res same_float (validated (format_float py) v) (validated (format_float py) v')) as VF.
  { assert (forall r : res pyfloat, alike_res same_float r r) as K by (intros [x|e]; [apply same_float_refl|reflexivity]).
    intros v v' []; try apply K. exact H. }
  fix IH 1. intros k v v' A. destruct k as [|b| | | | |k|fs p].
  - cbn [deserialize]. rewrite (VI v v' A). destruct (validated _ v'); cbn; [constructor|reflexivity].
  - cbn [deserialize]. specialize (VF v v' A). destruct (validated _ v) as [x|e], (validated _ v') as [y|e']; cbn in VF |- *; try contradiction; [|exact VF].
    rewrite (same_finite x y VF). destruct (finite x); cbn; [constructor; exact VF|reflexivity].
  - cbn [deserialize]. specialize (VF v v' A). destruct (validated _ v) as [x|e], (validated _ v') as [y|e']; cbn in VF |- *; try contradiction; [|exact VF]. constructor. exact VF.
  - destruct A; cbn; try reflexivity; [constructor|]. destruct (as_text py (VBytes b)) as [s|e]; [constructor|destruct e; reflexivity].
  - destruct A; cbn [deserialize]; try reflexivity; [constructor| | |].
    + destruct n as [|[]|]; cbn; try reflexivity; constructor.
    + rewrite (same_one x y H), (same_zero x y H). destruct (is_one y); [constructor|]. destruct (is_zero y); [constructor|reflexivity].
    + destruct (among s truthy); [constructor|]. destruct (among s falsy); [constructor|reflexivity].
  - destruct A; try reflexivity. cbn. constructor. exact H.
  - destruct A as [| | | | | |l l' F| |]; try reflexivity. cbn [deserialize].
    match goal with |- alike_res _ (bind (?g l) _) _ => assert (alike_res (alike_option (Forall2 alike)) (g l) (g l')) as K end.
    { induction F as [|v v' l l' A F IHl]; [constructor|].
      assert (alike_res alike (match v with VNone => Err ValidationError | _ => deserialize py k v end) (match v' with VNone => Err ValidationError | _ => deserialize py k v' end)) as D.
      { pose proof (IH k v v' A) as D. destruct A; try exact D. reflexivity. }
      match goal with |- alike_res _ (collect_item ?a ?b) (collect_item ?c ?d) => destruct a as [x|e], c as [x'|e'] end; cbn in D; try contradiction.
      - match goal with |- alike_res _ (collect_item _ ?b) (collect_item _ ?d) => destruct b as [[?|]|?], d as [[?|]|?]; cbn in IHl |- *; try contradiction; auto end.
      - subst e'. match goal with |- alike_res _ (collect_item _ ?b) (collect_item _ ?d) => destruct b as [?|?], d as [?|?]; cbn in IHl |- *; try contradiction; destruct e; cbn; auto end. }
    match goal with |- alike_res _ (bind ?a _) (bind ?b _) => destruct a as [[x|]|e], b as [[x'|]|e'] end; cbn in K |- *; try contradiction; auto. constructor. exact K.
  - destruct A as [| | | | | | | |l l' A]; try reflexivity. rewrite !deserialize_nested. apply alike_finish; [exact A|].
    induction fs as [|[n r a k] fs IHf]; [constructor|]. cbn [load_fields]. apply alike_collect; [|exact IHf].
    unfold field_load. cbn [f_name f_required f_allow_none f_kind]. apply alike_field; [exact (IH k)|exact A].
Qed.
Lemma same_alike v w w' : same v w -> alike w w' -> same v w'.
Proof.
  revert w w'. induction v as [| | | | | |l IH|c l IH|l IH] using value_nested_ind; intros w w' S A.
  - inversion S; subst. inversion A; subst. constructor.
  - inversion S; subst; inversion A; subst; constructor; reflexivity.
  - inversion S; subst; inversion A; subst; constructor; reflexivity.
  - inversion S; subst; inversion A; subst. constructor. eapply same_float_trans; eauto.
  - inversion S; subst; inversion A; subst; constructor; reflexivity.
  - inversion S; subst; inversion A; subst; constructor; reflexivity.
  - inversion S as [| | | | | | | |l0 l1 F| |]; subst. inversion A as [| | | | | |l2 l3 F2| |]; subst. constructor. clear S A. revert l1 l3 F F2.
    induction IH as [|v l Hv IH IHl]; intros l1 l3 F F2; inversion F; subst; inversion F2; subst; constructor; eauto.
  - inversion S as [| | | | | | | | |c0 l0 l1 F|]; subst. inversion A as [| | | | | | |c2 l2 l3 F2|]; subst. constructor. clear S A. revert l1 l3 F F2.
    induction IH as [|[n v] l Hv IH IHl]; intros l1 l3 F F2; inversion F as [|? [n1 v1] ? ? [E1 S1]]; subst; inversion F2 as [|? [n2 v2] ? ? [E2 S2]]; subst; constructor; eauto.
    cbn [fst snd] in *. split; [congruence|eauto].
  - inversion S as [| | | | | | | | | |l0 l1 N F]; subst. inversion A as [| | | | | | | |l2 l3 F2]; subst. constructor.
    + intros name. rewrite N. pose proof (alike_lookup name l1 l3 F2) as K. destruct (lookup name l1), (lookup name l3); cbn in K; try contradiction; split; congruence.
    + intros name v v' L L'. pose proof (alike_lookup name l1 l3 F2) as K. rewrite L' in K. destruct (lookup name l1) as [w|] eqn:L1; cbn in K; [|contradiction].
      rewrite Forall_forall in IH. apply (IH (name, v) (lookup_In _ _ _ L) w v' (F name v w L L1) K).
Qed.

(** ** what is dumped is data for JSON *)
Lemma narrow_ok s : Forall (fun c => 0 <= c < 256) s -> text_ok s.
Proof.
  intros F. split; [eapply Forall_impl; [|exact F]; cbn; lia|]. intros p a b q E Ha _. rewrite Forall_forall in F. specialize (F a). unfold high in Ha.
  assert (0 <= a < 256); [apply F; rewrite E; apply in_or_app; right; left; reflexivity|lia].
Qed.
Lemma printable_ok s : printable s -> text_ok s.
Proof. intros P. apply narrow_ok. eapply Forall_impl; [|exact P]. cbn. lia. Qed.
Lemma float_text_printable x : is_double x -> printable (py_float_text x).
Proof.
  destruct x as [|s|s m e]; intros D; [repeat constructor; lia|destruct s; repeat constructor; lia|]. eapply numeral_printable. apply float_numeral, D.
Qed.
Lemma dumped_fields py fs v ds : NoDup (map f_name fs) ->
  (forall f w d, In f fs -> get_value (f_name f) v = Some w -> serialize py (f_kind f) w = Ok d -> json_data d) ->
  dump_fields py fs v = Ok ds -> json_data (VDict ds).
Proof.
  intros N K E. assert (incl (map fst ds) (map f_name fs) /\ NoDup (map fst ds) /\ Forall (fun a => json_data (snd a)) ds) as (_ & A & B); [|constructor; assumption].
  revert ds E. induction fs as [|f fs IH]; intros ds E; cbn [dump_fields] in E; [injection E as <-; split; [intros x []|split; constructor]|].
  cbn in N. inversion N as [|? ? N1 N2]; subst.
  assert (forall f w d, In f fs -> get_value (f_name f) v = Some w -> serialize py (f_kind f) w = Ok d -> json_data d) as K' by (intros; eapply K; [right|..]; eassumption).
  specialize (IH N2 K'). destruct (get_value (f_name f) v) as [w|] eqn:G; [|destruct (IH ds E) as (I & R); split; [intros x Hx; right; apply I, Hx|exact R]].
  destruct (serialize py (f_kind f) w) as [d|] eqn:S; [|discriminate]. cbn [bind] in E. destruct (dump_fields py fs v) as [xs|]; [|discriminate]. cbn [bind] in E. injection E as <-.
  destruct (IH xs eq_refl) as (I & R1 & R2). split; [|split].
  - intros x [<-|Hx]; [left; reflexivity|right; apply I, Hx].
  - constructor; [intros X; apply N1, I, X|exact R1].
  - constructor; [eapply K; [left; reflexivity|exact G|exact S]|exact R2].
Qed.
Lemma texts_attr c attrs name v : texts_ok (VObj c attrs) -> lookup name attrs = Some v -> texts_ok v.
Proof. intros T L s I. apply T. eapply text_obj; [apply lookup_In, L|exact I]. Qed.
Lemma field_data uni text k none a v d : compatible k none a = true -> annotated a v -> texts_ok v -> serialize (cpython uni text) k v = Ok d -> json_data d.
Proof.
  intros C A T E. destruct A as [n|b|b|x D|s|a|a v A|l|xs D L].
  - destruct k as [| | | | | |[]|]; try discriminate. injection E as <-. constructor.
  - destruct k as [| | | | | |[]|]; try discriminate. injection E as <-. constructor.
  - destruct k as [| | | | | |[]|]; try discriminate. injection E as <-. constructor.
  - destruct k as [|b| | | | |[]|]; try discriminate; [destruct b|]; injection E as <-; constructor; try exact D. apply printable_ok, float_text_printable, D.
  - destruct k as [| | | | | |[]|]; try discriminate. injection E as <-. constructor. apply T. constructor.
  - destruct k; injection E as <-; constructor.
  - destruct k as [| | | | | |[]|]; try discriminate; destruct a; try discriminate; inversion A; subst; injection E as <-; constructor. apply T. constructor.
  - destruct k as [| | | | | |[]|]; try discriminate. assert (serialize (cpython uni text) (List_ String_) (VList (map VStr l)) = Ok (VList (map VStr l))) as Q by (cbn [serialize]; rewrite (strs_list (cpython uni text)); reflexivity). rewrite Q in E. injection E as <-. constructor. apply Forall_forall. intros v I.
    pose proof I as J. apply in_map_iff in J as (s & <- & _). constructor. apply T. econstructor; [exact I|constructor].
  - destruct k as [| | | | | |[]|fs p]; try discriminate. cbn [compatible] in C. unfold gas_ok in C. apply andb_prop in C as [C _]. apply andb_prop in C as [N K]. apply names_eqb_eq in N.
    rewrite serialize_nested in E by discriminate. match type of E with (_ <- ?g ;; _) = _ => destruct g as [ds|] eqn:G; [|discriminate] end. cbn [bind] in E. injection E as <-.
    eapply dumped_fields; [rewrite N; apply gas_nodup| |exact G]. intros f w d I Gv S. cbn [get_value] in Gv.
    apply lookup_In, in_combine_r, in_map_iff in Gv as (x & <- & J). rewrite forallb_forall in K. specialize (K f I). destruct (f_kind f) as [|[]| | | | | |]; try discriminate.
    injection S as <-. constructor. apply printable_ok, float_text_printable. rewrite Forall_forall in D. apply D, J.
Qed.
Lemma dumped_object uni text s an c attrs d : schema_ok s an = true -> fits attrs an -> texts_ok (VObj c attrs) ->
  dump (cpython uni text) s (VObj c attrs) = Ok d -> json_data d.
Proof.
  intros S F T E. unfold dump in E. rewrite serialize_nested in E by discriminate.
  match type of E with (_ <- ?g ;; _) = _ => destruct g as [ds|] eqn:G; [|discriminate] end. cbn [bind] in E. injection E as <-.
  apply schema_ok_inv in S as (N & _ & _ & K). eapply dumped_fields; [exact N| |exact G]. intros f w d I Gv Sd. cbn [get_value] in Gv.
  destruct (K f I) as (a & La & C). destruct (fits_lookup _ _ _ _ F La) as (w' & Lw & A). rewrite Gv in Lw. injection Lw as <-.
  eapply field_data; [exact C|exact A|eapply texts_attr; eassumption|exact Sd].
Qed.
Lemma dumped_instance uni text t s v d : registered_schema t = Some s -> instance t v -> ~ lossy t v -> texts_ok v ->
  dump (cpython uni text) s v = Ok d -> json_data d.
Proof.
  intros R I L T E. destruct (instance_inv t v I (not_difference t v L) L) as (s' & c & an & attrs & R' & _ & -> & F & S & _).
  rewrite R in R'. injection R' as <-. eapply dumped_object; eassumption.
Qed.

(** ** one object *)
Theorem object_text_round_trip uni text t s v : registered_schema t = Some s -> instance t v -> finite_floats v -> ~ lossy t v -> ~ makes_no_object t -> texts_ok v ->
  exists txt v', dumps (cpython uni text) s v = Ok txt /\ printable txt /\ loads (cpython uni text) s txt = Ok v' /\ same v v'.
Proof.
  intros R I F L M T. destruct (round_trip (cpython uni text) t s v (cpython_lawful uni text) R I F L M) as (d & v' & Ed & El & Q).
  destruct (json_text_round_trip d (dumped_instance uni text t s v d R I L T Ed)) as (txt & d' & Ew & P & Er & A).
  pose proof (deserialize_alike (cpython uni text) (Nested (schema_fields s) (schema_post_load s)) d d' A) as K. fold (load (cpython uni text) s d) in K. fold (load (cpython uni text) s d') in K.
  rewrite El in K. destruct (load (cpython uni text) s d') as [v''|] eqn:El'; [|contradiction]. cbn in K.
  exists txt, v''. unfold dumps, loads. rewrite Ed. cbn [bind]. split; [exact Ew|]. split; [exact P|]. rewrite Er. cbn [bind]. split; [exact El'|]. eapply same_alike; eassumption.
Qed.

(** ** a configuration *)
Definition config_item (o : Z * value * value) : value := VDict [("parameter_type", VInt (fst (fst o))); ("data", snd (fst o)); ("series_name", snd o)].
Definition series_value (s : option str) : value := match s with Some x => VStr x | None => VNone end.
Lemma save_shape py objs data : Forall kept objs -> save py objs = Ok data ->
  exists raws, data = VDict [("objects", VList (map config_item raws))] /\
    Forall2 (fun (o : parameter_type * value * option str) (r : Z * value * value) => fst (fst r) = type_code (fst (fst o)) /\ snd r = series_value (snd o) /\
      exists s, registered_schema (fst (fst o)) = Some s /\ dump py s (snd (fst o)) = Ok (snd (fst r))) objs raws.
Proof.
  intros K E. unfold save in E. destruct (each (save_object py) objs) as [items|] eqn:Ei; [|discriminate]. cbn [bind] in E.
  assert (exists raws, items = map config_item raws /\ Forall (fun o : Z * value * value => (exists l, snd (fst o) = VDict l) /\ (snd o = VNone \/ exists s, snd o = VStr s)) raws /\
    Forall2 (fun (o : parameter_type * value * option str) (r : Z * value * value) => fst (fst r) = type_code (fst (fst o)) /\ snd r = series_value (snd o) /\
      exists s, registered_schema (fst (fst o)) = Some s /\ dump py s (snd (fst o)) = Ok (snd (fst r))) objs raws) as (raws & -> & B & F).
  { clear E. revert items Ei. induction K as [|[[t v] sn] objs (I & Fin & L & M) K IH]; intros items Ei; cbn [each] in Ei; [injection Ei as <-; exists []; repeat split; constructor|].
    destruct (save_object py (t, v, sn)) as [d|] eqn:S; [|discriminate]. cbn [bind] in Ei. destruct (each (save_object py) objs) as [ds|]; [|discriminate]. cbn [bind] in Ei. injection Ei as <-.
    destruct (IH ds eq_refl) as (raws & -> & B & F). cbn [fst snd] in *.
    destruct (instance_inv t v I (not_difference t v L) L) as (s & c & an & attrs & R & _ & Ev & _).
    unfold save_object, by_parameter_id in S. rewrite R in S. cbn [bind] in S. destruct (dump py s v) as [out|] eqn:Ed; [|discriminate]. cbn [bind] in S.
    assert (exists l, out = VDict l) as [l Dl] by (subst v; eapply dump_is_dict; exact Ed).
    exists ((type_code t, out, series_value sn) :: raws). split; [|split].
    - cbn [map]. f_equal. assert (Ok d = Ok (config_item (type_code t, out, series_value sn))) as Q; [|injection Q; auto]. rewrite <- S. subst out. destruct sn; reflexivity.
    - constructor; [|exact B]. cbn [fst snd]. split; [exists l; exact Dl|]. destruct sn; [right; eexists; reflexivity|left; reflexivity].
    - constructor; [|exact F]. cbn [fst snd]. split; [reflexivity|]. split; [reflexivity|]. exists s. split; [exact R|exact Ed]. }
  exists raws. split; [|exact F]. destruct (config_dump py raws B) as [E1 _]. change (map (fun o => VDict [("parameter_type", VInt (fst (fst o))); ("data", snd (fst o)); ("series_name", snd o)]) raws) with (map config_item raws) in E1.
  rewrite E1 in E. injection E as <-. reflexivity.
Qed.
Lemma saved_data uni text objs data : Forall kept objs -> Forall (fun o => texts_ok (snd (fst o))) objs -> Forall series_ok objs ->
  save (cpython uni text) objs = Ok data -> json_data data.
Proof.
  intros K T S E. destruct (save_shape _ objs data K E) as (raws & -> & F). constructor; [constructor; [intros []|constructor]|].
  constructor; [|constructor]. cbn [snd]. constructor. apply Forall_forall. intros x I. apply in_map_iff in I as (r & <- & I).
  destruct (Forall2_pair_r _ _ _ _ F I) as (o & Io & E1 & E2 & s & R & D). rewrite Forall_forall in K, T, S. destruct (K o Io) as (Ins & Fin & L & M).
  unfold config_item. constructor; [apply nodup_b_ok; reflexivity|]. constructor; [constructor|]. constructor; [|constructor; [|constructor]].
  - cbn [snd]. eapply dumped_instance; [exact R|exact Ins|exact L|apply T, Io|exact D].
  - cbn [snd]. rewrite E2. specialize (S o Io). unfold series_ok in S. destruct (snd o) as [x|]; cbn; constructor. exact S.
Qed.
Definition alike_object (o o' : parameter_type * value * option str) : Prop := fst (fst o) = fst (fst o') /\ alike (snd (fst o)) (snd (fst o')) /\ snd o = snd o'.
Lemma item_alike key d d' : alike d d' -> alike_res alike (item_of key d) (item_of key d').
Proof. intros []; try reflexivity. cbn. pose proof (alike_lookup key l l' H) as K. destruct (lookup key l), (lookup key l'); cbn in K |- *; try contradiction; auto. Qed.
Lemma find_alike c c' : alike c c' -> find_type c = find_type c'.
Proof. intros []; reflexivity. Qed.
Lemma load_alike py s d d' : alike d d' -> alike_res alike (load py s d) (load py s d').
Proof. apply deserialize_alike. Qed.
Lemma restore_object_alike py d d' : alike d d' -> alike_res alike_object (restore_object py d) (restore_object py d').
Proof.
  intros A. unfold restore_object. pose proof (item_alike "parameter_type" d d' A) as K1. pose proof (item_alike "data" d d' A) as K2. pose proof (item_alike "series_name" d d' A) as K3.
  destruct (item_of "parameter_type" d) as [c|], (item_of "parameter_type" d') as [c'|]; cbn in K1; try contradiction; [|exact K1]. cbn [bind].
  rewrite (find_alike c c' K1). destruct (find_type c') as [t|]; [|reflexivity]. cbn [bind]. destruct (by_parameter_id t) as [s|]; [|reflexivity]. cbn [bind].
  destruct (item_of "data" d) as [o|], (item_of "data" d') as [o'|]; cbn in K2; try contradiction; [|exact K2]. cbn [bind].
  pose proof (load_alike py s o o' K2) as K4. destruct (load py s o) as [v|], (load py s o') as [v'|]; cbn in K4; try contradiction; [|exact K4]. cbn [bind].
  destruct (item_of "series_name" d) as [x|], (item_of "series_name" d') as [x'|]; cbn in K3; try contradiction; [|exact K3]. cbn [bind alike_res].
  split; [reflexivity|]. split; [exact K4|]. cbn [snd]. destruct K3; reflexivity.
Qed.
Lemma each_alike {A B} (R : A -> A -> Prop) (Q : B -> B -> Prop) (f : A -> res B) l l' : (forall x y, R x y -> alike_res Q (f x) (f y)) -> Forall2 R l l' -> alike_res (Forall2 Q) (each f l) (each f l').
Proof.
  intros H. induction 1 as [|x y l l' Rx F IH]; [constructor|]. cbn [each]. specialize (H x y Rx). destruct (f x), (f y); cbn in H |- *; try contradiction; [|exact H].
  destruct (each f l), (each f l'); cbn in IH |- *; try contradiction; [|exact IH]. constructor; assumption.
Qed.
Lemma restore_alike py d d' : alike d d' -> alike_res (Forall2 alike_object) (restore py d) (restore py d').
Proof.
  intros A. unfold restore. pose proof (load_alike py UtilitarianConfigurationSchema d d' A) as K. destruct (load py _ d) as [c|], (load py _ d') as [c'|]; cbn in K; try contradiction; [|exact K]. cbn [bind].
  pose proof (item_alike "objects" c c' K) as K2. destruct (item_of "objects" c) as [o|], (item_of "objects" c') as [o'|]; cbn in K2; try contradiction; [|exact K2]. cbn [bind].
  destruct K2; try reflexivity. eapply each_alike; [|exact H]. apply restore_object_alike.
Qed.
Theorem configuration_text uni text objs : Forall kept objs -> Forall (fun o => texts_ok (snd (fst o))) objs -> Forall series_ok objs ->
  exists txt objs', save_text (cpython uni text) objs = Ok txt /\ printable txt /\ restore_text (cpython uni text) txt = Ok objs' /\
    Forall2 (fun o o' => fst (fst o) = fst (fst o') /\ same (snd (fst o)) (snd (fst o')) /\ snd o = snd o') objs objs'.
Proof.
  intros K T S. destruct (configuration_kept (cpython uni text) objs (cpython_lawful uni text) K) as (data & objs' & E & R & F).
  destruct (json_text_round_trip data (saved_data uni text objs data K T S E)) as (txt & data' & Ew & P & Er & A).
  pose proof (restore_alike (cpython uni text) data data' A) as Q. rewrite R in Q. destruct (restore (cpython uni text) data') as [objs''|] eqn:R'; [|contradiction]. cbn in Q.
  exists txt, objs''. unfold save_text, restore_text. rewrite E, Er. cbn [bind]. split; [exact Ew|]. split; [exact P|]. split; [exact R'|].
  clear - F Q. revert objs'' Q. induction F as [|o o' objs objs' (E1 & E2 & E3) F IH]; intros objs'' Q; inversion Q as [|? o'' ? ? (Q1 & Q2 & Q3) Q']; subst; constructor; [|apply IH; assumption].
  split; [congruence|]. split; [eapply same_alike; eassumption|congruence].
Qed.

(** ** any text *)
Theorem any_text uni text t s txt : (forall b x, text (VBytes b) = Err x -> x = ValueError) -> registered_schema t = Some s -> t <> DIFFERENCE_BASE_COUNTER ->
  (exists v, loads (cpython uni text) s txt = Ok v) \/ loads (cpython uni text) s txt = Err ValidationError \/ loads (cpython uni text) s txt = Err ValueError.
Proof.
  intros H R N. unfold loads. destruct (json_loads txt) as [d|e] eqn:E; [|right; right; rewrite (json_loads_errors _ _ E); reflexivity]. cbn [bind].
  destruct (load_or_validation_error (cpython uni text) t s d (cpython_value_errors uni text H) R N) as [K|K]; auto.
Qed.

(** ** the texts of parsed objects *)
Lemma field_in off w l x : In x (field off w l) -> In x l.
Proof.
  unfold field. intros I. rewrite <- (firstn_skipn (Z.to_nat off) l). apply in_or_app. right. rewrite <- (firstn_skipn (Z.to_nat w) (skipn (Z.to_nat off) l)). apply in_or_app. left. exact I.
Qed.
Lemma trimmed_in l s x : trimmed l s -> In x s -> In x l.
Proof. intros (a & b & -> & _) I. apply in_or_app. right. apply in_or_app. left. exact I. Qed.
Lemma text_narrow l off w s : is_bytes l -> text_of (field off w l) s -> Forall (fun c => 0 <= c < 256) s.
Proof.
  intros B T. assert (forall x, In x (field off w l) -> 0 <= x < 256) as K.
  { intros x I. apply field_in in I. unfold is_bytes in B. rewrite Forall_forall in B. apply B in I. unfold is_byte in I. lia. }
  apply Forall_forall. intros c I. destruct T as [(p & q & E & _ & T)|[_ T]].
  - apply (trimmed_in _ _ _ T), in_map_iff in I as (b & <- & I). destruct (b =? 0); [lia|]. apply K. rewrite E. apply in_or_app. left. exact I.
  - apply K. apply (trimmed_in _ _ _ T I).
Qed.
Lemma hex_narrow l s : is_bytes l -> hex_text l s -> Forall (fun c => 0 <= c < 256) s.
Proof.
  intros B ->. apply Forall_forall. intros c I. apply in_map_iff in I as (d & <- & I). unfold nibbles in I. apply in_flat_map in I as (b & Ib & I).
  unfold is_bytes in B. rewrite Forall_forall in B. apply B in Ib. unfold is_byte in Ib. assert (0 <= d < 16).
  { destruct I as [<-|[<-|[]]]; [split; [apply Z.div_pos; lia|apply Z.div_lt_upper_bound; lia]|apply Z.mod_pos_bound; lia]. }
  destruct (d <=? 9) eqn:E; lia.
Qed.
Lemma decimal_narrow n s : decimal_text n s -> Forall (fun c => 0 <= c < 256) s.
Proof. intros (ds & (F & _) & ->). apply Forall_forall. intros c I. apply in_map_iff in I as (d & <- & I). rewrite Forall_forall in F. apply F in I. unfold is_digit in I. lia. Qed.
Lemma field_is_bytes off w l : is_bytes l -> is_bytes (field off w l).
Proof. intros B. unfold is_bytes in *. apply Forall_forall. intros x I. rewrite Forall_forall in B. apply B. eapply field_in. exact I. Qed.
Lemma shown_texts l p v : is_bytes l -> shows l p v -> texts_ok v.
Proof.
  intros B. destruct p; cbn [shows]; intros S s I.
  - subst v. inversion I.
  - subst v. inversion I.
  - subst v. inversion I.
  - destruct S as (t & -> & T). inversion I; subst. apply narrow_ok. eapply text_narrow; eassumption.
  - destruct S as (t & -> & T). inversion I; subst. apply narrow_ok. eapply hex_narrow; [apply field_is_bytes, B|exact T].
  - destruct S as (t & -> & a & b & c & d & sa & sb & sc & sd & _ & A & B' & C & D & ->). inversion I; subst. apply narrow_ok.
    apply Forall_app; split; [eapply decimal_narrow; eassumption|]. constructor; [lia|]. apply Forall_app; split; [eapply decimal_narrow; eassumption|]. constructor; [lia|].
    apply Forall_app; split; [eapply decimal_narrow; eassumption|]. constructor; [lia|]. eapply decimal_narrow; eassumption.
  - destruct S as (x & -> & _). inversion I.
  - destruct S as (x & y & -> & _). inversion I.
  - destruct S as (x & -> & _). inversion I.
  - destruct S as (ss & -> & L & H). inversion I as [|v l' J T| |]; subst. apply in_map_iff in J as (t & <- & J). inversion T; subst.
    apply (In_nth _ _ []) in J as (i & Hi & <-). apply narrow_ok. assert (0 <= Z.of_nat i < len ss) as Hi' by (split; [lia|apply inj_lt; exact Hi]). specialize (H (Z.of_nat i) Hi'). rewrite Nat2Z.id in H. eapply hex_narrow; [apply field_is_bytes, B|exact H].
  - destruct S as (vs & -> & L & H). remember (combine gas_components vs) as attrs eqn:Ea. inversion I as [| |c n v attrs' J T|]; subst attrs' c. rewrite Ea in J. apply in_combine_r in J. apply (In_nth _ _ VNone) in J as (i & Hi & E).
    assert (0 <= Z.of_nat i < 23) as Hi' by (unfold len in L; lia). destruct (H (Z.of_nat i) Hi') as (x & Ex & _). rewrite Nat2Z.id in Ex. rewrite Ex in E. subst v. inversion T.
  - subst v. inversion I.
Qed.
Theorem parsed_texts t l v : is_bytes l -> parameter_from_bytes t l = Ok v -> texts_ok v.
Proof.
  intros B E. destruct (proj1 (ParserProofs.accepted_lengths t l B) (ex_intro _ v E)) as (r & cls & fields & I & W).
  destruct (ParamProofs.parameter_conforms t l r _ B I W) as (attrs & E2 & F). rewrite E in E2. inversion E2; subst v.
  intros s T. inversion T as [| |c n v attrs' J T'|]; subst. destruct (Forall2_pair _ _ _ _ F J) as (f & _ & _ & S). cbn [snd] in S. eapply shown_texts; eassumption.
Qed.
