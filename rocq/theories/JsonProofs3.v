(** What is loaded can be dumped and loaded again. *)
From Coq Require Import QArith Qabs Lqa.
From Verif Require Import PyFacts PyFloat ParamLang Parameters Schema Schemas SpecText TextProofs SpecParameters SpecSchema SchemaProofs SchemaProofs2 SchemaProofs3 PyText FloatProofs NumeralProofs Json SpecJson JsonProofs JsonProofs2.
Open Scope string_scope.
Open Scope list_scope.
Open Scope Z_scope.

(** ** numbers that are read are doubles *)
Lemma double_dyadic s M e : 0 <= M -> double_value ((M # 1) * (2 # 1) ^ e)%Q -> double_value (dyadic s M e).
Proof.
  intros H D. unfold dyadic. destruct s; [|exact D]. destruct D as (A & B & H1 & H2 & H3). exists (- A), B. split; [lia|]. split; [exact H2|].
  setoid_replace (- M # 1)%Q with (- (M # 1))%Q by reflexivity. setoid_replace (- A # 1)%Q with (- (A # 1))%Q by reflexivity. transitivity (- ((M # 1) * (2 # 1) ^ e))%Q; [ring|]. rewrite H3. ring.
Qed.
Lemma make_float_double s M e : 0 <= M -> double_value ((M # 1) * (2 # 1) ^ e)%Q -> is_double (make_float s M e).
Proof.
  intros H D. pose proof (make_float_value s M e H) as V. destruct (make_float_fin s M e) as (m' & e' & E & P). rewrite E in *. split; [exact P|].
  cbn in V. destruct V as [_ V]. eapply double_wd; [exact V|]. apply double_dyadic; assumption.
Qed.
Lemma nearest_is_double s a b : 0 < b -> is_double (nearest_double s a b).
Proof.
  intros Hb. unfold nearest_double. destruct (Z.leb_spec a 0) as [A0|A0].
  - split; [lia|]. apply double_dyadic; [lia|]. eapply double_wd; [|exact double_zero]. reflexivity.
  - fold (floor_log a b). cbv zeta. set (fl := floor_log a b). set (e := Z.max (-1074) (fl - 52)).
    set (M := round_scaled a b (- e)).
    pose proof (floor_log_spec a b A0 Hb) as [F1 F2]. fold fl in F1, F2. set (x := ((a # 1) / (b # 1))%Q) in *.
    assert (closest_integer (x * (2 # 1) ^ (- e)) M) as C.
    { apply closest_of_half. apply round_scaled_half. exact Hb. }
    assert (0 <= M) as M0 by (apply round_scaled_nonneg; lia).
    assert (M <= 2 ^ 53) as M1.
    { specialize (C (2 ^ 53)).
      assert (x * (2 # 1) ^ (- e) < (2 ^ 53 # 1))%Q as U.
      { apply Qlt_le_trans with ((2 # 1) ^ (fl + 1) * (2 # 1) ^ (- e))%Q.
        - apply Qmult_lt_r; [apply FloatProofs.pow_pos|exact F2].
        - rewrite <- pow_add. rewrite <- (pow_Z 53) by lia. apply pow_le. unfold e. lia. }
      destruct (Z.le_gt_cases M (2 ^ 53)) as [|G]; [assumption|]. exfalso.
      assert ((2 ^ 53 # 1) + 1 <= (M # 1))%Q as G' by (unfold Qle; cbn; lia).
      set (y := (x * (2 # 1) ^ (- e))%Q) in *. set (b53 := (2 ^ 53 # 1)%Q) in *. set (qM := (M # 1)%Q) in *.
      rewrite (Qabs_pos (qM - y)), (Qabs_pos (b53 - y)) in C by lra. lra. }
    assert (-1074 <= e) as He by (unfold e; lia).
    destruct ((2 ^ 53 <=? M * 2 ^ (e - 971)) && (971 <=? e)) eqn:O; [exact I|]. apply make_float_double; [exact M0|].
    destruct (Z.le_gt_cases 971 e) as [L|L]; [|apply double_of_le; lia].
    assert (M * 2 ^ (e - 971) < 2 ^ 53) as U by (apply andb_false_iff in O as [O|O]; lia).
    assert (0 < 2 ^ (e - 971)) by (apply Z.pow_pos_nonneg; lia).
    exists (M * 2 ^ (e - 971)), 971. split; [nia|]. split; [lia|]. rewrite <- (Z.sub_add 971 e) at 1. rewrite pow_add, (pow_Z (e - 971)) by lia.
    setoid_replace (M * 2 ^ (e - 971) # 1)%Q with ((M # 1) * (2 ^ (e - 971) # 1))%Q by reflexivity. ring.
Qed.
Lemma decimal_is_double neg D k : is_double (decimal_float neg D k).
Proof. unfold decimal_float. destruct (Z.leb_spec 0 k); apply nearest_is_double; [lia|apply Z.pow_pos_nonneg; lia]. Qed.
Lemma read_double uni s x : py_read_float uni s = Ok x -> is_double x.
Proof.
  unfold py_read_float. destruct (without_underscores _ _) as [t|]; [|discriminate]. destruct (take_sign t) as [neg t1]. destruct (_ || _); [intros E; injection E as <-; exact I|].
  destruct (list_eqb _ _); [intros E; injection E as <-; exact I|]. unfold read_decimal. destruct (take_digits t1) as [w t2]. destruct (take_fraction t2) as [f t3].
  destruct (w ++ f) as [|c d]; [discriminate|]. destruct (read_exponent t3); [|discriminate]. intros E; injection E as <-. apply decimal_is_double.
Qed.
Lemma int_is_double n x : float_of_int n = Ok x -> is_double x.
Proof.
  unfold float_of_int. pose proof (nearest_is_double (n <? 0) (Z.abs n) 1 ltac:(lia)) as D. destruct (nearest_double _ _ _); try discriminate; intros E; injection E as <-; exact D.
Qed.

(** ** fields that load what they dump *)
Fixpoint stable_kind (k : kind) : bool :=
  match k with
  | List_ k => stable_kind k
  | Nested fs p =>
      nodup_b (map f_name fs) && match p with None => true | Some c => same_names (map f_name fs) (class_attrs c) end &&
      (fix go (l : list (spec kind)) : bool := match l with [] => true | mk_spec _ _ _ k :: l' => stable_kind k && go l' end) fs
  | _ => true
  end.
Fixpoint gather (fs : list (spec kind)) (o : spec kind -> option value) : list (string * value) :=
  match fs with
  | [] => []
  | f :: fs' => match o f with Some v => (f_name f, v) :: gather fs' o | None => gather fs' o end
  end.
Lemma gather_incl fs o : incl (map fst (gather fs o)) (map f_name fs).
Proof. induction fs as [|f fs IH]; intros x I; [exact I|]. cbn in *. destruct (o f); [destruct I as [<-|I]; [left; reflexivity|]|]; right; apply IH, I. Qed.
Lemma gather_nodup fs o : NoDup (map f_name fs) -> NoDup (map fst (gather fs o)).
Proof.
  induction fs as [|f fs IH]; intros N; [constructor|]. cbn in *. inversion N as [|? ? N1 N2]; subst. destruct (o f); [|apply IH, N2]. cbn. constructor; [|apply IH, N2]. intros I. apply N1, (gather_incl fs o), I.
Qed.
Lemma gather_lookup fs o f : NoDup (map f_name fs) -> In f fs -> lookup (f_name f) (gather fs o) = o f.
Proof.
  induction fs as [|g fs IH]; intros N I; [destruct I|]. cbn in N. inversion N as [|? ? N1 N2]; subst. cbn [gather]. destruct I as [->|I].
  - destruct (o f) as [v|] eqn:E; [cbn; rewrite String.eqb_refl; reflexivity|]. apply lookup_none. intros X. apply N1, (gather_incl fs o), X.
  - specialize (IH N2 I). destruct (o g) as [v|]; [|exact IH]. cbn. destruct (String.eqb_spec (f_name f) (f_name g)) as [E|]; [|exact IH].
    exfalso. apply N1. rewrite <- E. apply in_map, I.
Qed.
Lemma gather_ext fs o o' : (forall f, In f fs -> o f = o' f) -> gather fs o = gather fs o'.
Proof.
  induction fs as [|f fs IH]; intros H; [reflexivity|]. cbn. rewrite (H f (or_introl eq_refl)), IH; [reflexivity|]. intros g I. apply H. right. exact I.
Qed.
Lemma load_gather py l fs o : (forall f, In f fs -> field_load py l f = Ok (o f)) -> load_fields py l fs = Ok (Some (gather fs o)).
Proof.
  induction fs as [|f fs IH]; intros H; [reflexivity|]. cbn [load_fields gather]. rewrite (H f (or_introl eq_refl)), IH by (intros g I; apply H; right; exact I). destruct (o f); reflexivity.
Qed.
Lemma loaded_gather py l fs kw : load_fields py l fs = Ok (Some kw) ->
  exists o, (forall f, In f fs -> field_load py l f = Ok (o f)) /\ kw = gather fs o.
Proof.
  intros H. pose proof (load_ok_inv py l fs kw H) as F. exists (fun f => match field_load py l f with Ok o => o | Err _ => None end).
  assert (forall f, In f fs -> field_load py l f = Ok (match field_load py l f with Ok o => o | Err _ => None end)) as K.
  { intros f I. rewrite Forall_forall in F. destruct (F f I) as [o ->]. reflexivity. }
  split; [exact K|]. rewrite (load_gather py l fs _ K) in H. injection H as <-. reflexivity.
Qed.
Lemma dump_gather py v fs o d : (forall f, In f fs -> get_value (f_name f) v = o f) -> (forall f w, In f fs -> o f = Some w -> exists x, serialize py (f_kind f) w = Ok x /\ d f = Some x) ->
  (forall f, In f fs -> o f = None -> d f = None) -> dump_fields py fs v = Ok (gather fs d).
Proof.
  induction fs as [|f fs IH]; intros G S N; [reflexivity|]. cbn [dump_fields gather]. rewrite (G f (or_introl eq_refl)).
  specialize (IH (fun g I => G g (or_intror I)) (fun g w I => S g w (or_intror I)) (fun g I => N g (or_intror I))).
  destruct (o f) as [w|] eqn:E.
  - destruct (S f w (or_introl eq_refl) E) as (x & -> & ->). cbn [bind]. rewrite IH. reflexivity.
  - rewrite (N f (or_introl eq_refl) E). exact IH.
Qed.
Lemma gather_alike fs o o' : (forall f, In f fs -> alike_option alike (o f) (o' f)) -> alike_items (gather fs o) (gather fs o').
Proof.
  induction fs as [|f fs IH]; intros H; [constructor|]. cbn. pose proof (H f (or_introl eq_refl)) as K. specialize (IH (fun g I => H g (or_intror I))).
  destruct (o f), (o' f); cbn in K; try contradiction; [|exact IH]. constructor; [split; [reflexivity|exact K]|exact IH].
Qed.
Lemma alike_refl v : alike v v.
Proof.
  induction v as [| | | | | |l IH|c l IH|l IH] using value_nested_ind; constructor; try apply same_float_refl.
  - induction IH; constructor; assumption.
  - induction IH; constructor; [split; [reflexivity|assumption]|assumption].
  - induction IH; constructor; [split; [reflexivity|assumption]|assumption].
Qed.
Lemma doubles_item key l v : doubles (VDict l) -> lookup key l = Some v -> doubles v.
Proof. intros D L x O. apply D. eapply occurs_dict; [apply lookup_In, L|exact O]. Qed.
Lemma json_item key l v : json_data (VDict l) -> lookup key l = Some v -> json_data v.
Proof. intros J L. inversion J as [| | | | | |l' N F]; subst. rewrite Forall_forall in F. apply (F (key, v)), lookup_In, L. Qed.
Lemma construct_lookup c kw attrs n : construct c kw = Ok (VObj (class_name c) attrs) -> In n (class_attrs c) -> lookup n attrs = lookup n kw.
Proof.
  unfold construct. destruct (all_known _ _); [|discriminate]. destruct (arrange (class_attrs c) kw) as [l|] eqn:E; [|discriminate]. intros H; injection H as <-.
  revert l E. induction (class_attrs c) as [|a names IH]; intros l E I; [destruct I|]. cbn in E. destruct (lookup a kw) as [v|] eqn:L; [|discriminate].
  destruct (arrange names kw) as [l'|]; [|discriminate]. injection E as <-. cbn. destruct (String.eqb_spec n a) as [->|N]; [congruence|]. apply IH; [reflexivity|]. destruct I as [->|I]; [contradiction|exact I].
Qed.

Section Stable.
Variables (uni : Z -> Z) (text : value -> res str).
Let py := cpython uni text.
(** what [k] makes of [w] is dumped and loaded again *)
Definition settles (k : kind) (w : value) : Prop := forall v, w <> VNone -> doubles w -> deserialize py k w = Ok v ->
  v <> VNone /\ exists d v', serialize py k v = Ok d /\ d <> VNone /\ deserialize py k d = Ok v' /\ alike v v' /\ (json_data w -> json_data d).
Lemma format_float_double w x : doubles w -> validated (format_float py) w = Ok x -> is_double x.
Proof.
  intros D E. destruct w as [|n|b|y|s|bs|l|c at0|d]; cbn in E; try discriminate.
  - destruct (float_of_int n) as [z|[]] eqn:F; try discriminate. injection E as <-. eapply int_is_double, F.
  - injection E as <-. apply D. constructor.
  - destruct (py_read_float uni s) as [z|[]] eqn:F; try discriminate. injection E as <-. eapply read_double, F.
Qed.
Lemma settled : forall k w, stable_kind k = true -> settles k w.
Proof.
  fix IH 1. intros k w T v Nw D E. destruct k as [|b| | | | |k|fs p].
  - cbn [deserialize] in E. destruct (validated _ w) as [n|]; [|discriminate]. injection E as <-. split; [discriminate|].
    exists (VInt n), (VInt n). split; [reflexivity|]. split; [discriminate|]. split; [reflexivity|]. split; [constructor|intros _; constructor].
  - cbn [deserialize] in E. destruct (validated _ w) as [x|] eqn:Ex; [|discriminate]. cbn [bind] in E. destruct (finite x) eqn:F; [|discriminate]. injection E as <-. split; [discriminate|].
    pose proof (format_float_double w x D Ex) as Dx. destruct b.
    + destruct (cpython_lawful uni text x Dx) as (y & R & S). exists (VStr (float_text py x)), (VFloat y). split; [reflexivity|]. split; [discriminate|]. split.
      * cbn [deserialize validated format_float]. fold py in R. rewrite R. cbn [bind]. rewrite (same_finite _ _ S), F. reflexivity.
      * split; [constructor; exact S|]. intros _. constructor. apply printable_ok, float_text_printable, Dx.
    + exists (VFloat x), (VFloat x). split; [reflexivity|]. split; [discriminate|]. split; [cbn; rewrite F; reflexivity|]. split; [apply alike_refl|intros _; constructor; exact Dx].
  - cbn [deserialize] in E. destruct (validated _ w) as [x|] eqn:Ex; [|discriminate]. injection E as <-. split; [discriminate|].
    exists (VFloat x), (VFloat x). split; [reflexivity|]. split; [discriminate|]. split; [reflexivity|]. split; [apply alike_refl|intros _; constructor; exact (format_float_double w x D Ex)].
  - assert (exists s, v = VStr s /\ (json_data w -> text_ok s)) as (s & -> & Ts).
    { destruct w; try discriminate E; cbn [deserialize] in E.
      - injection E as <-. eexists. split; [reflexivity|]. intros J. inversion J. assumption.
      - destruct (as_text py (VBytes b)) as [s|[]]; try discriminate. injection E as <-. eexists. split; [reflexivity|]. intros J. inversion J. }
    split; [discriminate|]. exists (VStr s), (VStr s). split; [reflexivity|]. split; [discriminate|]. split; [reflexivity|]. split; [constructor|]. intros J. constructor. apply Ts, J.
  - assert (exists b, v = VBool b) as (b & ->).
    { destruct w as [|n| |x|s| | | |]; try discriminate E; cbn [deserialize] in E; try (injection E as <-; eauto; fail).
      - destruct n as [|[]|]; try discriminate; injection E as <-; eauto.
      - destruct (is_one x); [injection E as <-; eauto|]. destruct (is_zero x); [injection E as <-; eauto|discriminate].
      - destruct (among s truthy); [injection E as <-; eauto|]. destruct (among s falsy); [injection E as <-; eauto|discriminate]. }
    split; [discriminate|]. exists (VBool b), (VBool b). split; [reflexivity|]. split; [discriminate|]. split; [reflexivity|]. split; [constructor|intros _; constructor].
  - destruct w; try discriminate E. injection E as <-. split; [discriminate|]. exists (VDict l), (VDict l). split; [reflexivity|]. split; [discriminate|]. split; [reflexivity|]. split; [apply alike_refl|auto].
  - destruct w as [| | | | | |l| |]; try discriminate E. cbn [stable_kind] in T. cbn [deserialize] in E.
    match type of E with bind (?g l) _ = _ => set (loop := g) in * end. destruct (loop l) as [[vs|]|] eqn:L; try discriminate. injection E as <-. split; [discriminate|].
    assert (exists ds vs', (fix go (l : list value) : res (list value) := match l with [] => Ok [] | v :: l' => x <- serialize py k v ;; xs <- go l' ;; Ok (x :: xs) end) vs = Ok ds /\
      loop ds = Ok (Some vs') /\ Forall2 alike vs vs' /\ (Forall json_data l -> Forall json_data ds)) as (ds & vs' & S & S' & A & J).
    { assert (forall w, In w l -> doubles w) as Dl by (intros w I x O; apply D; econstructor; eassumption). clear D Nw.
      revert vs L. induction l as [|w l IHl]; intros vs L.
      - injection L as <-. exists [], []. split; [reflexivity|]. split; [reflexivity|]. split; [constructor|auto].
      - cbn in L. fold loop in L. destruct (match w with VNone => Err ValidationError | _ => deserialize py k w end) as [v|e] eqn:Ev.
        2: { destruct e; cbn in L; try discriminate; destruct (loop l); discriminate. }
        destruct (loop l) as [[vs0|]|] eqn:L0; cbn in L; try discriminate. injection L as <-.
        destruct (IHl (fun w I => Dl w (or_intror I)) vs0 eq_refl) as (ds & vs' & S & S' & A & J).
        assert (w <> VNone) as Nw by (intros ->; discriminate). assert (deserialize py k w = Ok v) as Ev' by (destruct w; [contradiction|..]; exact Ev).
        destruct (IH k w T v Nw (Dl w (or_introl eq_refl)) Ev') as (Nv & d & v' & Sd & Nd & Ld & Av & Jd).
        exists (d :: ds), (v' :: vs'). rewrite Sd. cbn [bind]. rewrite S. cbn [bind]. split; [reflexivity|]. split; [|split; [constructor; assumption|]].
        + cbn. fold loop. replace (match d with VNone => Err ValidationError | _ => deserialize py k d end) with (Ok v') by (destruct d; [contradiction|..]; symmetry; exact Ld). rewrite S'. reflexivity.
        + intros F. inversion F; subst. constructor; auto. }
    exists (VList ds), (VList vs'). split; [cbn [serialize]; rewrite S; reflexivity|]. split; [discriminate|]. split; [|split; [constructor; exact A|]].
    + cbn [deserialize]. fold loop. rewrite S'. reflexivity.
    + intros Jl. inversion Jl; subst. constructor. apply J. assumption.
  - destruct w as [| | | | | | | |l]; try discriminate E. rewrite deserialize_nested in E. cbn [stable_kind] in T. apply andb_prop in T as [C T]. apply andb_prop in C as [N C]. apply nodup_b_ok in N.
    assert (forall f, In f fs -> forall w, settles (f_kind f) w) as Sf.
    { clear - IH T. induction fs as [|[n r a k] fs IHf]; intros f I; [destruct I|]. apply andb_prop in T as [T1 T2]. destruct I as [<-|I]; [intros w; exact (IH k w T1)|]. apply IHf; assumption. }
    destruct (load_fields py l fs) as [[kw|]|] eqn:L; try discriminate. cbn [finish_load] in E. destruct (forallb _ l); [|discriminate].
    destruct (loaded_gather py l fs kw L) as (o & Ho & ->).
    (* each field *)
    assert (forall f w, In f fs -> o f = Some w -> exists d, serialize py (f_kind f) w = Ok d /\
      (forall l', lookup (f_name f) l' = Some d -> exists w', field_load py l' f = Ok (Some w') /\ alike w w') /\ (json_data (VDict l) -> json_data d)) as Each.
    { intros f w I Ow. specialize (Ho f I). rewrite Ow in Ho. unfold field_load in Ho. destruct (lookup (f_name f) l) as [raw|] eqn:Lr; cbn [deserialize_field] in Ho; [|destruct (f_required f); discriminate].
      destruct raw as [|n|b|x|s|bs|li|c at0|di] eqn:R.
      1: { destruct (f_allow_none f) eqn:An; [|discriminate]. injection Ho as <-. exists VNone. split; [destruct (f_kind f); reflexivity|]. split; [|intros _; constructor].
        intros l' L'. exists VNone. split; [|constructor]. unfold field_load. rewrite L'. cbn. rewrite An. reflexivity. }
      all: assert (raw <> VNone) as Nr by (rewrite R; discriminate); rewrite <- R in *;
        assert (exists z, deserialize py (f_kind f) raw = Ok z /\ z = w) as (z & Hz & ->) by (destruct (deserialize py (f_kind f) raw) as [z|]; [|discriminate]; cbn in Ho; injection Ho as ->; eauto);
        destruct (Sf f I raw w Nr (doubles_item _ _ _ D Lr) Hz) as (Nv & d & v' & Sd & Nd & Ld & Av & Jd);
        exists d; (split; [exact Sd|split; [|intros J; apply Jd; eapply json_item; eassumption]]); intros l' L'; exists v'; (split; [|exact Av]);
        unfold field_load; rewrite L'; unfold deserialize_field; destruct d; [contradiction|..]; rewrite Ld; reflexivity. }
    set (df := fun f => match o f with Some w => match serialize py (f_kind f) w with Ok d => Some d | Err _ => None end | None => None end).
    assert (dump_fields py fs v = Ok (gather fs df) /\ v <> VNone) as [S Nv].
    { assert ((forall f, In f fs -> get_value (f_name f) v = o f) /\ v <> VNone) as [G Nv].
      { destruct p as [c|].
        - destruct (construct_inv c _ _ E) as (attrs & -> & _). split; [|discriminate]. intros f I. cbn [get_value]. rewrite (construct_lookup c (gather fs o) attrs (f_name f) E); [apply gather_lookup; assumption|].
          apply same_names_ok in C as (_ & _ & C). apply C, in_map, I.
        - injection E as <-. split; [|discriminate]. intros f I. cbn [get_value]. apply gather_lookup; assumption. }
      split; [|exact Nv]. apply dump_gather with (o := o); [exact G| |].
      - intros f w I Ow. destruct (Each f w I Ow) as (d & Sd & _). exists d. split; [exact Sd|]. unfold df. rewrite Ow, Sd. reflexivity.
      - intros f I On. unfold df. rewrite On. reflexivity. }
    set (ds := gather fs df) in *.
    set (o2 := fun f => match field_load py ds f with Ok x => x | Err _ => None end).
    assert (forall f, In f fs -> field_load py ds f = Ok (o2 f) /\ alike_option alike (o f) (o2 f)) as F2.
    { intros f I. pose proof (gather_lookup fs df f N I) as Ld. fold ds in Ld. destruct (o f) as [w|] eqn:Ow.
      - destruct (Each f w I Ow) as (d & Sd & K & _). assert (lookup (f_name f) ds = Some d) as L' by (rewrite Ld; unfold df; rewrite Ow, Sd; reflexivity).
        destruct (K ds L') as (w' & Fw & A). unfold o2. rewrite Fw. split; [reflexivity|exact A].
      - assert (field_load py ds f = Ok None) as Fn.
        { unfold field_load. replace (lookup (f_name f) ds) with (@None value) by (rewrite Ld; unfold df; rewrite Ow; reflexivity). specialize (Ho f I). rewrite Ow in Ho.
          apply field_load_none in Ho. cbn. rewrite Ho. reflexivity. }
        unfold o2. rewrite Fn. split; [reflexivity|exact Logic.I]. }
    assert (alike_items (gather fs o) (gather fs o2)) as A by (apply gather_alike; intros f I; apply F2, I).
    assert (forallb (fun kv => existsb (String.eqb (fst kv)) (map f_name fs)) ds = true) as Kn.
    { apply forallb_forall. intros [n x] I. apply existsb_name. apply (gather_incl fs df). apply (in_map fst) in I. exact I. }
    split; [exact Nv|]. exists (VDict ds).
    assert (exists v', (match p with Some c => construct c (gather fs o2) | None => Ok (VDict (gather fs o2)) end) = Ok v' /\ alike v v') as (v' & E' & Av).
    { destruct p as [c|].
      - pose proof (alike_construct c _ _ A) as K. rewrite E in K. destruct (construct c (gather fs o2)) as [v'|]; [|contradiction]. exists v'. split; [reflexivity|exact K].
      - injection E as <-. eexists. split; [reflexivity|]. constructor. exact A. }
    exists v'. split; [rewrite serialize_nested by exact Nv; rewrite S; reflexivity|]. split; [discriminate|]. split; [|split; [exact Av|]].
    + rewrite deserialize_nested, (load_gather py ds fs o2) by (intros f I; apply F2, I). cbn [finish_load]. rewrite Kn. exact E'.
    + intros J. constructor; [apply gather_nodup, N|]. apply Forall_forall. intros [n x] I. cbn [snd].
      assert (exists f, In f fs /\ df f = Some x) as (f & If & Hf).
      { clear - I. unfold ds in I. induction fs as [|f fs IHf]; [destruct I|]. cbn in I. destruct (df f) eqn:Q; [destruct I as [Ix|I]; [injection Ix as <- <-; exists f; split; [left; reflexivity|exact Q]|]|];
          (destruct (IHf I) as (g & Ig & Hg); exists g; split; [right; exact Ig|exact Hg]). }
      unfold df in Hf. destruct (o f) as [w|] eqn:Ow; [|discriminate]. destruct (Each f w If Ow) as (d & Sd & _ & Jd). rewrite Sd in Hf. injection Hf as <-. apply Jd, J.
Qed.
End Stable.

(** ** every registered schema but one is of this form *)
Lemma registered_stable t s : registered_schema t = Some s -> t <> DIFFERENCE_BASE_COUNTER -> stable_kind (Nested (schema_fields s) (schema_post_load s)) = true.
Proof. destruct t; intros E N; try discriminate E; try (exfalso; apply N; reflexivity); cbn [registered_schema] in E; assert (s = s) by reflexivity; (match type of E with Some ?x = Some _ => assert (s = x) as -> by congruence end); vm_compute; reflexivity. Qed.
Lemma not_loaded py s data v : registered_schema DIFFERENCE_BASE_COUNTER = Some s -> load py s data <> Ok v.
Proof.
  intros R H. pose proof (lossy_never_equal py _ s v data v R (lossy_difference v) H) as X. apply X.
  apply load_inv in H as (l & kw & -> & E & K & P). injection R as <-. apply construct_inv in P as (a' & -> & Ar & Kn). cbn in Ar. inversion Ar. constructor. constructor.
Qed.
Theorem loads_settle uni text t s data v : registered_schema t = Some s -> doubles data -> load (cpython uni text) s data = Ok v ->
  exists d v', dump (cpython uni text) s v = Ok d /\ load (cpython uni text) s d = Ok v' /\ alike v v' /\ (json_data data -> json_data d).
Proof.
  intros R D L. assert (t <> DIFFERENCE_BASE_COUNTER) as N by (intros ->; exact (not_loaded _ _ _ _ R L)). unfold load in L. assert (data <> VNone) as Nd by (intros ->; discriminate).
  destruct (settled uni text _ data (registered_stable t s R N) v Nd D L) as (Nv & d & v' & S & _ & L' & A & J).
  exists d, v'. split; [destruct v; [contradiction|..]; exact S|]. split; [exact L'|]. split; [exact A|exact J].
Qed.

(** ** what is read from a text *)
Definition hex_at (c : Z) (s : str) : Prop := exists b1 b2 b3 b4 r, s = 92 :: 117 :: b1 :: b2 :: b3 :: b4 :: r /\ hex4 b1 b2 b3 b4 = Some c.
Lemma hex_value_range c x : hex_value c = Some x -> 0 <= x < 16.
Proof. unfold hex_value. intros E. repeat match type of E with (if ?b then _ else _) = _ => let Q := fresh in destruct b eqn:Q; [injection E as <-; lia|] end. discriminate. Qed.
Lemma hex4_range a b c d u : hex4 a b c d = Some u -> 0 <= u < 65536.
Proof.
  unfold hex4. destruct (hex_value a) eqn:A; [|discriminate]. destruct (hex_value b) eqn:B; [|discriminate]. destruct (hex_value c) eqn:C; [|discriminate]. destruct (hex_value d) eqn:D; [|discriminate].
  intros E; injection E as <-. apply hex_value_range in A, B, C, D. lia.
Qed.
Lemma text_ok_add c s : 0 <= c <= 0x10FFFF -> text_ok s -> (high c -> match s with b :: _ => ~ low b | [] => True end) -> text_ok (c :: s).
Proof.
  intros Hc [H1 H2] H. split; [constructor; assumption|]. intros p a b q E Ha Hb. destruct p as [|x p]; cbn in E.
  - injection E as <- ->. exact (H Ha Hb).
  - injection E as <- ->. exact (H2 p a b q eq_refl Ha Hb).
Qed.
(** the text, its first character if it is a low surrogate, and what follows *)
Definition scanned (s : str) : Prop := forall t r, scan_string s = Some (t, r) ->
  text_ok t /\ (match t with c :: _ => low c -> hex_at c s | [] => True end) /\ unicode_text r.
Lemma scanned_add c s s' : 0 <= c <= 0x10FFFF -> scanned s -> (forall t r, high c -> scan_string s = Some (t, r) -> match t with b :: _ => ~ low b | [] => True end) -> (low c -> hex_at c s') ->
  forall t r, add_char c (scan_string s) = Some (t, r) -> text_ok t /\ (match t with c :: _ => low c -> hex_at c s' | [] => True end) /\ unicode_text r.
Proof.
  intros Hc S H L t r E. unfold add_char in E. destruct (scan_string s) as [[t' r']|] eqn:Q; [|discriminate]. injection E as <- <-. destruct (S t' r' Q) as (T & _ & U).
  split; [apply text_ok_add; [exact Hc|exact T|intros Hh; exact (H t' r' Hh eq_refl)]|]. split; [exact L|exact U].
Qed.
Lemma scan_scanned n : forall s, (length s <= n)%nat -> unicode_text s -> scanned s.
Proof.
  induction n as [|n IH]; intros s Hn U; [destruct s; [intros t r E; discriminate|cbn in Hn; lia]|].
  destruct s as [|c s1]; [intros t r E; discriminate|]. inversion U as [|? ? Uc U1]; subst. cbn [length] in Hn. intros t r E. cbn [scan_string] in E.
  destruct (Z.eqb_spec c 34) as [->|N34].
  { injection E as <- <-. split; [split; [constructor|intros p a b q Q; destruct p; discriminate]|]. split; [exact I|exact U1]. }
  destruct (Z.eqb_spec c 92) as [->|N92].
  2: { destruct (c <? 32); [discriminate|]. revert E. apply scanned_add; [apply Uc|apply IH; [lia|exact U1]| |]; unfold unicode, high, low in *; [intros t0 r0 Hh; lia|intros Hl; lia]. }
  destruct s1 as [|e s2]; [discriminate|]. inversion U1 as [|? ? Ue U2]; subst. cbn [length] in Hn. destruct (Z.eqb_spec e 117) as [->|N117].
  2: { destruct (short_escape e) as [x|] eqn:X; [|discriminate]. assert (0 <= x < 128) as Hx.
       { unfold short_escape in X. repeat match type of X with (if ?b then _ else _) = _ => destruct b; [injection X as <-; lia|] end. discriminate. }
       revert E. apply scanned_add; [lia|apply IH; [lia|exact U2]| |]; unfold high, low; [intros t0 r0 Hh; lia|intros Hl; lia]. }
  destruct s2 as [|a1 [|a2 [|a3 [|a4 s3]]]]; try discriminate. destruct (hex4 a1 a2 a3 a4) as [u|] eqn:Hu; [|discriminate]. pose proof (hex4_range _ _ _ _ _ Hu) as Ru.
  assert (unicode_text s3) as U3 by (do 4 (apply Forall_inv_tail in U2); exact U2). cbn [length] in Hn.
  assert (hex_at u (92 :: 117 :: a1 :: a2 :: a3 :: a4 :: s3)) as Hat by (exists a1, a2, a3, a4, s3; split; [reflexivity|exact Hu]).
  assert (scanned s3) as S3 by (apply IH; [lia|exact U3]).
  destruct (high_surrogate u) eqn:Hh.
  2: { revert E. apply scanned_add; [lia|exact S3| |intros _; exact Hat]. intros t0 r0 Hi. apply high_b in Hi. congruence. }
  destruct s3 as [|x [|y [|b1 [|b2 [|b3 [|b4 s4]]]]]];
    try (revert E; apply scanned_add; [lia|exact S3| |intros _; exact Hat]; intros t0 r0 _ Q; destruct (S3 t0 r0 Q) as (_ & F & _); destruct t0 as [|z t0]; [exact I|]; intros Lz; destruct (F Lz) as (? & ? & ? & ? & ? & W & _); discriminate W).
  destruct ((x =? 92) && (y =? 117)) eqn:XY.
  - apply andb_prop in XY as [X Y]. apply Z.eqb_eq in X, Y. subst x y. destruct (hex4 b1 b2 b3 b4) as [u2|] eqn:Hu2; [|discriminate]. destruct (low_surrogate u2) eqn:Lu.
    + apply high_b in Hh. apply low_b in Lu. unfold high, low in *. revert E. apply scanned_add; [lia| | |].
      * apply IH; [cbn [length] in Hn; lia|]. do 6 (apply Forall_inv_tail in U3). exact U3.
      * unfold high. intros t0 r0 Hi. lia.
      * unfold low. intros Hl. lia.
    + revert E. apply scanned_add; [lia|exact S3| |intros _; exact Hat]. intros t0 r0 _ Q. destruct (S3 t0 r0 Q) as (_ & F & _). destruct t0 as [|z t0]; [exact I|]. intros Lz.
      destruct (F Lz) as (c1 & c2 & c3 & c4 & r1 & W & Hz). injection W as <- <- <- <- <-. assert (z = u2) by congruence. subst z. apply low_b in Lz. congruence.
  - revert E. apply scanned_add; [lia|exact S3| |intros _; exact Hat]. intros t0 r0 _ Q. destruct (S3 t0 r0 Q) as (_ & F & _). destruct t0 as [|z t0]; [exact I|]. intros Lz.
    destruct (F Lz) as (c1 & c2 & c3 & c4 & r1 & W & Hz). injection W as -> -> _ _ _ _ _. discriminate XY.
Qed.
Lemma skip_unicode s : unicode_text s -> unicode_text (skip_space s).
Proof. induction 1; cbn; [constructor|]. destruct (json_space x); [assumption|constructor; assumption]. Qed.
Lemma after_unicode w : forall s r, after_text w s = Some r -> unicode_text s -> unicode_text r.
Proof.
  induction w as [|c w IH]; intros s r E U; [injection E as <-; exact U|]. destruct s as [|c' s]; [discriminate|]. cbn in E. destruct (c =? c'); [|discriminate]. eapply IH; [exact E|]. exact (Forall_inv_tail U).
Qed.
Lemma digits_unicode s : forall d r, take_digits s = (d, r) -> unicode_text s -> unicode_text r.
Proof.
  induction s as [|c s IH]; intros d r E U; cbn in E; [injection E as <- <-; constructor|]. destruct (digit_char c); [|injection E as <- <-; exact U].
  destruct (take_digits s) as [d' r'] eqn:Q. injection E as <- <-. eapply IH; [reflexivity|exact (Forall_inv_tail U)].
Qed.
Lemma fraction_unicode s f r : scan_fraction s = (f, r) -> unicode_text s -> unicode_text r.
Proof.
  unfold scan_fraction. destruct s as [|c s1]; [intros E U; injection E as <- <-; exact U|]. destruct (c =? 46); [|intros E U; injection E as <- <-; exact U].
  destruct (take_digits s1) as [[|x d] r'] eqn:Q; intros E U; injection E as <- <-; [exact U|]. eapply digits_unicode; [exact Q|exact (Forall_inv_tail U)].
Qed.
Lemma exponent_unicode s x r : scan_exponent s = (x, r) -> unicode_text s -> unicode_text r.
Proof.
  unfold scan_exponent. destruct s as [|e s1]; [intros E U; injection E as <- <-; exact U|]. destruct (_ || _); [|intros E U; injection E as <- <-; exact U].
  destruct s1 as [|c s2]; [intros E U; injection E as <- <-; exact U|]. destruct (_ || _).
  - destruct (take_digits s2) as [[|z d] r'] eqn:Q; intros E U; injection E as <- <-; [exact U|]. eapply digits_unicode; [exact Q|]. exact (Forall_inv_tail (Forall_inv_tail U)).
  - destruct (take_digits (c :: s2)) as [[|z d] r'] eqn:Q; intros E U; injection E as <- <-; [exact U|]. eapply digits_unicode; [exact Q|]. exact (Forall_inv_tail U).
Qed.
Lemma whole_unicode s w r : scan_whole s = Some (w, r) -> unicode_text s -> unicode_text r.
Proof.
  unfold scan_whole. destruct s as [|c s1]; [discriminate|]. intros E U. destruct (c =? 48); [injection E as <- <-; exact (Forall_inv_tail U)|]. destruct (digit_char c); [|discriminate].
  assert (take_digits (c :: s1) = (w, r)) as Q by congruence. eapply digits_unicode; eassumption.
Qed.
Lemma number_unicode s t b r : scan_number s = Some (t, b, r) -> unicode_text s -> unicode_text r.
Proof.
  unfold scan_number. intros E U.
  assert (unicode_text (snd (match s with c :: s1 => if c =? 45 then ([45], s1) else ([], s) | [] => ([], []) end))) as U1.
  { destruct s as [|c s1]; [constructor|]. destruct (c =? 45); [exact (Forall_inv_tail U)|exact U]. }
  destruct (match s with c :: s1 => if c =? 45 then ([45], s1) else ([], s) | [] => ([], []) end) as [sign s']. cbn [snd] in U1.
  destruct (scan_whole s') as [[w s2]|] eqn:W; [|discriminate]. destruct (scan_fraction s2) as [f s3] eqn:F. destruct (scan_exponent s3) as [x s4] eqn:X. injection E as _ _ <-.
  eapply exponent_unicode; [exact X|]. eapply fraction_unicode; [exact F|]. eapply whole_unicode; eassumption.
Qed.
Lemma scalar_data s v r : read_scalar s = Some (v, r) -> unicode_text s -> json_data v /\ unicode_text r.
Proof.
  unfold read_scalar. intros E U.
  destruct (after_text null_text s) eqn:A1; [injection E as <- <-; split; [constructor|eapply after_unicode; eassumption]|].
  destruct (after_text true_text s) eqn:A2; [injection E as <- <-; split; [constructor|eapply after_unicode; eassumption]|].
  destruct (after_text false_text s) eqn:A3; [injection E as <- <-; split; [constructor|eapply after_unicode; eassumption]|].
  destruct (read_json_number s) as [[v' r']|] eqn:A4.
  { injection E as <- <-. unfold read_json_number in A4. destruct (scan_number s) as [[[t b] r2]|] eqn:Q; [|discriminate]. pose proof (number_unicode _ _ _ _ Q U) as U'. destruct b.
    - destruct (py_read_float _ t) as [x|] eqn:F; [|discriminate]. injection A4 as <- <-. split; [|exact U']. constructor. eapply read_double, F.
    - destruct (py_read_int _ t) as [x|]; [|discriminate]. injection A4 as <- <-. split; [constructor|exact U']. }
  destruct (after_text nan_json s) eqn:A5; [injection E as <- <-; split; [constructor; exact I|eapply after_unicode; eassumption]|].
  destruct (after_text infinity_json s) eqn:A6; [injection E as <- <-; split; [constructor; exact I|eapply after_unicode; eassumption]|].
  destruct (after_text minus_infinity_json s) eqn:A7; [injection E as <- <-; split; [constructor; exact I|eapply after_unicode; eassumption]|discriminate].
Qed.
Lemma dict_set_names k v l : NoDup (map fst l) -> NoDup (map fst (dict_set k v l)) /\ incl (map fst (dict_set k v l)) (k :: map fst l).
Proof.
  induction l as [|[k' w] l IH]; intros N; cbn.
  - split; [repeat constructor; intros []|]. intros x I. exact I.
  - inversion N as [|? ? N1 N2]; subst. destruct (String.eqb_spec k' k) as [->|D]; cbn.
    + split; [constructor; assumption|]. intros x I. right. exact I.
    + destruct (IH N2) as [H1 H2]. split.
      * constructor; [|exact H1]. intros I. apply H2 in I. destruct I as [<-|I]; [apply D; reflexivity|apply N1, I].
      * intros x [<-|I]; [right; left; reflexivity|]. apply H2 in I. destruct I as [<-|I]; [left; reflexivity|right; right; exact I].
Qed.
Lemma dict_set_all (P : value -> Prop) k v l : P v -> Forall (fun a => P (snd a)) l -> Forall (fun a => P (snd a)) (dict_set k v l).
Proof. intros Pv. induction 1 as [|[k' w] l Hw Hl IH]; cbn; [repeat constructor; exact Pv|]. destruct (String.eqb k' k); constructor; assumption. Qed.
Lemma make_dict_data l : Forall (fun a => json_data (snd a)) l -> json_data (VDict (make_dict l)).
Proof.
  intros F. unfold make_dict.
  assert (forall acc, NoDup (map fst acc) -> Forall (fun a : string * value => json_data (snd a)) acc -> json_data (VDict (fold_left (fun d kv => dict_set (fst kv) (snd kv) d) l acc))) as G; [|apply G; constructor].
  induction F as [|[k v] l Hv Hl IH]; intros acc N A; cbn [fold_left]; [constructor; assumption|]. apply IH; [apply dict_set_names, N|apply dict_set_all; assumption].
Qed.
Lemma scan_data fuel : (forall s v r, scan_value fuel s = Some (v, r) -> unicode_text s -> json_data v /\ unicode_text r) /\
  (forall s l r, scan_items fuel s = Some (l, r) -> unicode_text s -> Forall json_data l /\ unicode_text r) /\
  (forall s l r, scan_members fuel s = Some (l, r) -> unicode_text s -> Forall (fun a => json_data (snd a)) l /\ unicode_text r).
Proof.
  induction fuel as [|fuel (IV & II & IM)]; [repeat split; discriminate|]. split; [|split].
  - intros s v r E U. cbn [scan_value] in E. destruct s as [|c s1]; [discriminate|]. pose proof (Forall_inv_tail U) as U1. destruct (c =? 34).
    { destruct (scan_string s1) as [[t r']|] eqn:Q; [|discriminate]. injection E as <- <-. destruct (scan_scanned (length s1) s1 (le_n _) U1 t r' Q) as (T & _ & U'). split; [constructor; exact T|exact U']. }
    destruct (c =? 91).
    { pose proof (skip_unicode s1 U1) as U2. destruct (skip_space s1) as [|d r0]; [discriminate|]. destruct (d =? 93); [injection E as <- <-; split; [repeat constructor|exact (Forall_inv_tail U2)]|].
      destruct (scan_items fuel (d :: r0)) as [[l r']|] eqn:Q; [|discriminate]. injection E as <- <-. destruct (II _ _ _ Q U2) as [F U']. split; [constructor; exact F|exact U']. }
    destruct (c =? 123).
    { pose proof (skip_unicode s1 U1) as U2. destruct (skip_space s1) as [|d r0]; [discriminate|]. destruct (d =? 125); [injection E as <- <-; split; [repeat constructor|exact (Forall_inv_tail U2)]|].
      destruct (scan_members fuel (d :: r0)) as [[l r']|] eqn:Q; [|discriminate]. injection E as <- <-. destruct (IM _ _ _ Q U2) as [F U']. split; [apply make_dict_data, F|exact U']. }
    eapply scalar_data; eassumption.
  - intros s l r E U. cbn [scan_items] in E. destruct (scan_value fuel s) as [[v r1]|] eqn:Q; [|discriminate]. destruct (IV _ _ _ Q U) as [J U1]. pose proof (skip_unicode r1 U1) as U2.
    destruct (skip_space r1) as [|c r2]; [discriminate|]. pose proof (Forall_inv_tail U2) as U3. destruct (c =? 93); [injection E as <- <-; split; [repeat constructor; exact J|exact U3]|]. destruct (c =? 44); [|discriminate].
    destruct (scan_items fuel (skip_space r2)) as [[l' r']|] eqn:Q2; [|discriminate]. injection E as <- <-. destruct (II _ _ _ Q2 (skip_unicode _ U3)) as [F U']. split; [constructor; assumption|exact U'].
  - intros s l r E U. cbn [scan_members] in E. destruct s as [|c s1]; [discriminate|]. pose proof (Forall_inv_tail U) as U1. destruct (c =? 34); [|discriminate].
    destruct (scan_string s1) as [[t r0]|] eqn:Q; [|discriminate]. destruct (scan_scanned (length s1) s1 (le_n _) U1 t r0 Q) as (_ & _ & U0). pose proof (skip_unicode r0 U0) as U2.
    destruct (key_of t) as [name|]; [|discriminate]. destruct (skip_space r0) as [|c0 r1]; [discriminate|]. pose proof (Forall_inv_tail U2) as U3. destruct (c0 =? 58); [|discriminate].
    destruct (scan_value fuel (skip_space r1)) as [[v r2]|] eqn:Qv; [|discriminate]. destruct (IV _ _ _ Qv (skip_unicode _ U3)) as [J U4]. pose proof (skip_unicode r2 U4) as U5.
    destruct (skip_space r2) as [|c1 r3]; [discriminate|]. pose proof (Forall_inv_tail U5) as U6. destruct (c1 =? 125); [injection E as <- <-; split; [repeat constructor; exact J|exact U6]|]. destruct (c1 =? 44); [|discriminate].
    destruct (scan_members fuel (skip_space r3)) as [[l' r']|] eqn:Q2; [|discriminate]. injection E as <- <-. destruct (IM _ _ _ Q2 (skip_unicode _ U6)) as [F U']. split; [constructor; assumption|exact U'].
Qed.
Theorem read_data txt d : unicode_text txt -> json_loads txt = Ok d -> json_data d.
Proof.
  intros U E. unfold json_loads in E. destruct (scan_value _ _) as [[v r]|] eqn:Q; [|discriminate]. destruct (skip_space r); [|discriminate]. injection E as <-.
  exact (proj1 (proj1 (scan_data _) _ _ _ Q (skip_unicode _ U))).
Qed.
Lemma json_doubles d : json_data d -> doubles d.
Proof.
  intros J x O. revert J. induction O as [|v l I O IH|c n v l I O IH|n v l I O IH]; intros J; inversion J as [| | |? H| |? H|? N H]; subst; try assumption; rewrite Forall_forall in H.
  - apply IH, H, I.
  - apply IH. exact (H _ I).
Qed.
Lemma alike_trans a b c : alike a b -> alike b c -> alike a c.
Proof.
  revert b c. induction a as [| | | | | |l IH|k l IH|l IH] using value_nested_ind; intros w2 w3 H; inversion H as [| | |? ? F| | |? ? F|? ? ? F|? ? F]; subst; intros H'; inversion H' as [| | |? ? F'| | |? ? F'|? ? ? F'|? ? F']; subst; constructor.
  - eapply same_float_trans; eassumption.
  - clear H H'. revert l' l'0 F F'. induction IH as [|x l P _ IHl]; intros l' l'0 F F'; inversion F; subst; inversion F'; subst; constructor; [eapply P; eassumption|eapply IHl; eassumption].
  - clear H H'. revert l' l'0 F F'. induction IH as [|x l P _ IHl]; intros l' l'0 F F'; inversion F as [|? ? ? ? [A1 A2] ?]; subst; inversion F' as [|? ? ? ? [B1 B2] ?]; subst; constructor; [split; [congruence|eapply P; eassumption]|eapply IHl; eassumption].
  - clear H H'. revert l' l'0 F F'. induction IH as [|x l P _ IHl]; intros l' l'0 F F'; inversion F as [|? ? ? ? [A1 A2] ?]; subst; inversion F' as [|? ? ? ? [B1 B2] ?]; subst; constructor; [split; [congruence|eapply P; eassumption]|eapply IHl; eassumption].
Qed.
Theorem text_settles uni text t s txt v : registered_schema t = Some s -> unicode_text txt -> loads (cpython uni text) s txt = Ok v ->
  exists txt' v', dumps (cpython uni text) s v = Ok txt' /\ printable txt' /\ loads (cpython uni text) s txt' = Ok v' /\ alike v v'.
Proof.
  intros R U L. unfold loads in L. destruct (json_loads txt) as [data|] eqn:Q; [|discriminate]. cbn [bind] in L. pose proof (read_data _ _ U Q) as J.
  destruct (loads_settle uni text t s data v R (json_doubles _ J) L) as (d & v1 & D & L1 & A1 & Jd). destruct (json_text_round_trip d (Jd J)) as (txt' & d' & T & P & T' & A).
  pose proof (load_alike (cpython uni text) s d d' A) as K. rewrite L1 in K. destruct (load (cpython uni text) s d') as [v'|] eqn:L2; [|contradiction].
  exists txt', v'. split; [unfold dumps; rewrite D; exact T|]. split; [exact P|]. split; [unfold loads; rewrite T'; exact L2|]. eapply alike_trans; eassumption.
Qed.

(** ** a configuration *)
Lemma loads_dict uni text t s data v d : registered_schema t = Some s -> load (cpython uni text) s data = Ok v -> dump (cpython uni text) s v = Ok d -> exists l, d = VDict l.
Proof.
  intros R L D. unfold dump in D. destruct v; [injection D as <-; eexists; reflexivity|..]; (rewrite serialize_nested in D by discriminate; destruct (dump_fields _ _ _); [|discriminate]; injection D as <-; eexists; reflexivity).
Qed.
Definition config_kind : kind := Nested (schema_fields UtilitarianConfigurationObjectSchema) (schema_post_load UtilitarianConfigurationObjectSchema).
Definition config_loaded (v : value) : Prop := exists n l sn, v = VDict [("parameter_type", VInt n); ("data", VDict l); ("series_name", series_value sn)] /\ json_data (VDict l) /\
  match sn with Some s => text_ok s | None => True end.
Lemma object_loaded py w v : json_data w -> deserialize py config_kind w = Ok v ->
  config_loaded v.
Proof.
  unfold config_loaded.
  intros J E. destruct w as [| | | | | | | |l]; try discriminate E. unfold config_kind in E. rewrite deserialize_nested in E.
  destruct (load_fields py l (schema_fields UtilitarianConfigurationObjectSchema)) as [[kw|]|] eqn:L; try discriminate. cbn [finish_load] in E. destruct (forallb _ l); [|discriminate]. injection E as <-.
  pose proof (load_ok_inv py l _ kw L) as F. cbn [schema_fields UtilitarianConfigurationObjectSchema] in F, L.
  inversion F as [|? ? [o1 F1] F']; subst. inversion F' as [|? ? [o2 F2] F'']; subst. inversion F'' as [|? ? [o3 F3] _]; subst. clear F F' F''.
  cbn [load_fields] in L. rewrite F1, F2, F3 in L. unfold field_load in F1, F2, F3. cbn [f_name f_required f_allow_none f_kind] in *.
  destruct (lookup "parameter_type" l) as [w1|] eqn:L1; [|discriminate]. destruct (lookup "data" l) as [w2|] eqn:L2; [|discriminate]. destruct (lookup "series_name" l) as [w3|] eqn:L3; [|discriminate].
  assert (exists n, o1 = Some (VInt n)) as [n ->].
  { unfold deserialize_field in F1. destruct w1; try discriminate; cbn [deserialize] in F1; (destruct (validated _ _); [|discriminate]; injection F1 as <-; eexists; reflexivity). }
  assert (exists d, o2 = Some (VDict d) /\ json_data (VDict d)) as (d & -> & Jd).
  { unfold deserialize_field in F2. destruct w2 as [| | | | | | | |d]; try discriminate. injection F2 as <-. exists d. split; [reflexivity|]. exact (json_item _ _ _ J L2). }
  assert (exists sn, o3 = Some (series_value sn) /\ match sn with Some s => text_ok s | None => True end) as (sn & -> & Ts).
  { unfold deserialize_field in F3. destruct w3 as [| | | |x|b| | |]; try discriminate.
    - injection F3 as <-. exists None. split; [reflexivity|exact Logic.I].
    - injection F3 as <-. exists (Some x). split; [reflexivity|]. pose proof (json_item _ _ _ J L3) as K. inversion K. assumption.
    - pose proof (json_item _ _ _ J L3) as K. inversion K. }
  injection L as <-. exists n, d, sn. split; [reflexivity|]. split; assumption.
Qed.
Lemma list_loaded py k ws v : deserialize py (List_ k) (VList ws) = Ok v -> exists vs, v = VList vs /\ Forall2 (fun w v => deserialize py k w = Ok v) ws vs.
Proof.
  intros E. cbn [deserialize] in E. match type of E with bind (?g ws) _ = _ => set (loop := g) in * end. destruct (loop ws) as [[vs|]|] eqn:L; try discriminate. injection E as <-.
  exists vs. split; [reflexivity|]. revert vs L. induction ws as [|w l IHl]; intros vs L; [injection L as <-; constructor|].
  cbn in L. fold loop in L. destruct (match w with VNone => Err ValidationError | _ => deserialize py k w end) as [v|e] eqn:Ev.
  2: { destruct e; cbn in L; try discriminate; destruct (loop l); discriminate. }
  destruct (loop l) as [[vs0|]|] eqn:L0; cbn in L; try discriminate. injection L as <-. constructor; [destruct w; [discriminate|..]; exact Ev|]. apply IHl. reflexivity.
Qed.
Lemma objects_loaded py data c objects : json_data data -> load py UtilitarianConfigurationSchema data = Ok c -> item_of "objects" c = Ok objects ->
  exists l, objects = VList l /\ Forall config_loaded l.
Proof.
  intros J E It. unfold load in E. destruct data as [| | | | | | | |l]; try discriminate E. rewrite deserialize_nested in E.
  change (schema_fields UtilitarianConfigurationSchema) with [mk_spec "objects" false false (List_ config_kind)] in E. remember config_kind as K eqn:EK. cbn [map f_name load_fields] in E.
  unfold field_load in E. cbn [f_name f_required f_allow_none f_kind] in E. destruct (lookup "objects" l) as [w|] eqn:Lw.
  2: { cbn in E. destruct (forallb _ l); [|discriminate]. injection E as <-. discriminate It. }
  pose proof (json_item _ _ _ J Lw) as Jw. unfold deserialize_field in E.
  assert (exists ws v, w = VList ws /\ deserialize py (List_ K) (VList ws) = Ok v /\ c = VDict [("objects", v)]) as (ws & v & -> & D & ->).
  { destruct w as [| | | | | |ws| |]; try (cbn in E; discriminate E). destruct (deserialize py (List_ K) (VList ws)) as [v|e] eqn:D; [|cbn in E; destruct e; discriminate E].
    cbn in E. destruct (forallb _ l); [|discriminate]. injection E as <-. exists ws, v. repeat split; assumption. }
  cbn in It. injection It as <-. destruct (list_loaded py K ws v D) as (vs & -> & F). exists vs. split; [reflexivity|]. inversion Jw as [| | | | |? Fj|]; subst.
  clear - F Fj. induction F as [|w v ws vs Ev F IH]; [constructor|]. inversion Fj; subst. constructor; [eapply object_loaded; eassumption|auto].
Qed.
Lemma find_code n t : find_type (VInt n) = Ok t -> type_code t = n.
Proof. unfold find_type. destruct (find _ all_types) as [t'|] eqn:F; [|discriminate]. intros E. injection E as <-. apply find_some in F as [_ F]. lia. Qed.
Theorem configuration_settles uni text txt objs : unicode_text txt -> restore_text (cpython uni text) txt = Ok objs ->
  exists txt' objs', save_text (cpython uni text) objs = Ok txt' /\ printable txt' /\ restore_text (cpython uni text) txt' = Ok objs' /\
    Forall2 (fun o o' => fst (fst o) = fst (fst o') /\ alike (snd (fst o)) (snd (fst o')) /\ snd o = snd o') objs objs'.
Proof.
  intros U E. unfold restore_text in E. destruct (json_loads txt) as [data|] eqn:Q; [|discriminate]. cbn [bind] in E. pose proof (read_data _ _ U Q) as J. unfold restore in E.
  destruct (load (cpython uni text) UtilitarianConfigurationSchema data) as [c|] eqn:L; [|discriminate]. cbn [bind] in E. destruct (item_of "objects" c) as [objects|] eqn:It; [|discriminate]. cbn [bind] in E.
  destruct (objects_loaded _ _ _ _ J L It) as (l & -> & F).
  assert (exists raws objs', Forall2 (fun o r => save_object (cpython uni text) o = Ok (config_item r)) objs raws /\
    Forall (fun o : Z * value * value => (exists l, snd (fst o) = VDict l) /\ (snd o = VNone \/ exists s, snd o = VStr s)) raws /\
    Forall2 (fun r o' => restore_object (cpython uni text) (config_item r) = Ok o') raws objs' /\ Forall (fun r => json_data (config_item r)) raws /\
    Forall2 (fun o o' => fst (fst o) = fst (fst o') /\ alike (snd (fst o)) (snd (fst o')) /\ snd o = snd o') objs objs') as (raws & objs' & A & B & C & Jr & D).
  { clear L It. revert objs E. induction F as [|x l (n & li & sn & -> & Jl & Ts) F IH]; intros objs E; cbn [each] in E; [injection E as <-; exists [], []; repeat split; constructor|].
    destruct (restore_object (cpython uni text) _) as [o|] eqn:R; [|discriminate]. cbn [bind] in E. destruct (each _ l) as [os|]; [|discriminate]. cbn [bind] in E. injection E as <-.
    destruct (IH os eq_refl) as (raws & objs' & A & B & C & Jr & D).
    unfold restore_object in R. cbn [item_of lookup] in R. cbn [String.eqb Ascii.eqb Bool.eqb bind] in R. destruct (find_type (VInt n)) as [t|] eqn:T; [|discriminate]. cbn [bind] in R.
    unfold by_parameter_id in R. destruct (registered_schema t) as [s|] eqn:Rs; [|discriminate]. cbn [bind] in R. destruct (load (cpython uni text) s (VDict li)) as [v|] eqn:Lv; [|discriminate]. cbn [bind] in R.
    assert (o = (t, v, sn)) as -> by (destruct sn; injection R as <-; reflexivity).
    destruct (loads_settle uni text t s _ v Rs (json_doubles _ Jl) Lv) as (d & v' & Dv & Lv' & Av & Jd). destruct (loads_dict _ _ _ _ _ _ _ Rs Lv Dv) as [ld ->]. specialize (Jd Jl).
    exists ((type_code t, VDict ld, series_value sn) :: raws), ((t, v', sn) :: objs').
    split; [|split; [|split; [|split]]]; constructor; try assumption; unfold config_item; cbn [fst snd].
    - unfold save_object, by_parameter_id. rewrite Rs. cbn [bind]. rewrite Dv. cbn [bind]. destruct sn; reflexivity.
    - split; [exists ld; reflexivity|]. destruct sn; [right; eexists; reflexivity|left; reflexivity].
    - unfold restore_object. cbn [item_of lookup]. cbn [String.eqb Ascii.eqb Bool.eqb bind]. rewrite find_type_ok. cbn [bind]. unfold by_parameter_id. rewrite Rs. cbn [bind]. rewrite Lv'. cbn [bind]. destruct sn; reflexivity.
    - constructor; [apply nodup_b_ok; reflexivity|]. constructor; [constructor|]. constructor; [exact Jd|]. constructor; [|constructor]. cbn [snd]. destruct sn; constructor. exact Ts.
    - split; [reflexivity|]. split; [exact Av|reflexivity]. }
  destruct (config_dump (cpython uni text) raws B) as [E1 E2].
  change (map (fun o => VDict [("parameter_type", VInt (fst (fst o))); ("data", snd (fst o)); ("series_name", snd o)]) raws) with (map config_item raws) in E1, E2.
  assert (save (cpython uni text) objs = Ok (VDict [("objects", VList (map config_item raws))])) as Sv.
  { unfold save. rewrite (each_ok (save_object (cpython uni text)) objs (map config_item raws)); [exact E1|]. clear - A. induction A; cbn; constructor; assumption. }
  assert (restore (cpython uni text) (VDict [("objects", VList (map config_item raws))]) = Ok objs') as Rv.
  { unfold restore. rewrite E2. cbn [bind item_of lookup]. cbn [String.eqb Ascii.eqb Bool.eqb bind]. apply each_ok. clear - C. induction C; cbn; constructor; assumption. }
  assert (json_data (VDict [("objects", VList (map config_item raws))])) as Jt.
  { constructor; [apply nodup_b_ok; reflexivity|]. constructor; [|constructor]. cbn [snd]. constructor. apply Forall_map. exact Jr. }
  destruct (json_text_round_trip _ Jt) as (txt' & d' & T & P & T' & Ad). pose proof (restore_alike (cpython uni text) _ _ Ad) as K. rewrite Rv in K.
  destruct (restore (cpython uni text) d') as [objs2|] eqn:R2; [|contradiction]. exists txt', objs2. split; [unfold save_text; rewrite Sv; exact T|]. split; [exact P|]. split; [unfold restore_text; rewrite T'; exact R2|].
  cbn [alike_res] in K. clear - D K. revert objs2 K. induction D as [|o o' objs objs' (A1 & A2 & A3) D IH]; intros objs2 K; inversion K as [|? o2 ? l2 (B1 & B2 & B3) K']; subst; constructor; [|apply IH, K'].
  split; [congruence|]. split; [eapply alike_trans; eassumption|congruence].
Qed.
