(** Proofs about the registered schemas: every type, parsed objects, configurations. *)
From Coq Require Import QArith Qpower Qabs Lqa.
From Verif Require Import PyFacts PyFloat ParamLang Parameters Schema Schemas SpecText SpecApplication SpecParameters SpecSchema FloatProofs ParamProofs ParserProofs SchemaProofs SchemaProofs2.
Open Scope string_scope.
Open Scope list_scope.
Open Scope Z_scope.

(** ** The registry *)
Definition usable (t : parameter_type) (an : list (string * annotation)) : list (string * annotation) :=
  match t with
  | FLOW_RATE => map (fun n => if String.eqb (fst n) "decimals" then (fst n, AInt) else n) an
  | DEVICE_ERROR => map (fun n => if String.eqb (fst n) "text_log_0" || String.eqb (fst n) "text_log_1" then (fst n, AOptional AInt) else n) an
  | _ => an
  end.
Definition post_load_is (s : schema) (c : class) (t : parameter_type) : Prop :=
  match t with SET_POINT | ERROR_STANDARD_COUNTER | MODEM => schema_post_load s = None | _ => schema_post_load s = Some c end.
Lemma registry t : t <> DIFFERENCE_BASE_COUNTER -> match registered_schema t, registered_class t, registered_annotations t with
  | Some s, Some c, Some an => map fst an = class_attrs c /\ schema_ok s (usable t an) = true /\ post_load_is s c t /\ map fst (usable t an) = map fst an
  | None, None, None => t = CORRECTION_COUNTER
  | _, _, _ => False
  end.
Proof.
  destruct t; intros N; try contradiction; try reflexivity; (split; [reflexivity|split; [vm_compute; reflexivity|split; reflexivity]]).
Qed.
Lemma usable_fits t v c an attrs : ~ lossy t v -> v = VObj c attrs -> registered_annotations t = Some an -> fits attrs an -> fits attrs (usable t an).
Proof.
  intros L -> R F. destruct t; try exact F.
  - assert (NoDup (map fst attrs)) as N.
    { rewrite (fits_names _ _ F). injection R as <-. apply nodup_b_ok. vm_compute. reflexivity. }
    assert (Forall (fun a : string * annotation => fst a = "decimals" -> snd a = AOptional AInt) an) as O.
    { injection R as <-. repeat constructor; cbn; congruence. }
    unfold usable. assert (forall name v, In (name, v) attrs -> name = "decimals" -> v <> VNone) as D.
    { intros name v I -> ->. apply L. constructor. apply (In_lookup _ _ _ N I). }
    clear L R N. revert O. induction F as [|a n attrs an [E A] F IH]; intros O; [constructor|]. inversion O; subst. constructor; [|apply IH; [intros; eapply D; [right; eauto|assumption]|assumption]].
    cbn beta. destruct (String.eqb_spec (fst n) "decimals") as [En|En]; [|split; assumption]. cbn. split; [exact E|].
    rewrite (H1 En) in A. destruct a as [x v]. cbn in *. subst x. inversion A; subst.
    + exfalso. eapply D; [left; reflexivity|congruence|reflexivity].
    + assumption.
  - assert (NoDup (map fst attrs)) as N.
    { rewrite (fits_names _ _ F). injection R as <-. apply nodup_b_ok. vm_compute. reflexivity. }
    assert (Forall (fun a : string * annotation => (fst a = "text_log_0" \/ fst a = "text_log_1") -> snd a = AOptional AStr) an) as O.
    { injection R as <-. repeat constructor; cbn; intros [X|X]; try congruence; reflexivity. }
    unfold usable. assert (forall name s, In (name, VStr s) attrs -> name = "text_log_0" \/ name = "text_log_1" -> False) as D.
    { intros name s I X. apply L. econstructor; [exact X|]. apply (In_lookup _ _ _ N I). }
    clear L R N. revert O. induction F as [|a n attrs an [E A] F IH]; intros O; [constructor|]. inversion O; subst. constructor; [|apply IH; [intros; eapply D; [right; eauto|assumption]|assumption]].
    cbn beta. destruct (String.eqb (fst n) "text_log_0" || String.eqb (fst n) "text_log_1")%bool eqn:En; [|split; assumption]. cbn. split; [exact E|].
    assert (fst n = "text_log_0" \/ fst n = "text_log_1") as En'.
    { apply orb_prop in En as [X|X]; apply String.eqb_eq in X; [left|right]; exact X. }
    rewrite (H1 En') in A. destruct a as [x v]. cbn in *. subst x. inversion A; subst; [constructor|].
    match goal with H : annotated AStr _ |- _ => inversion H; subst end. exfalso. eapply D; [left; reflexivity|exact En'].
Qed.
Lemma instance_inv t v : instance t v -> t <> DIFFERENCE_BASE_COUNTER -> ~ lossy t v -> exists s c an attrs,
  registered_schema t = Some s /\ registered_class t = Some c /\ v = VObj (class_name c) attrs /\ fits attrs (usable t an) /\
  schema_ok s (usable t an) = true /\ post_load_is s c t /\ map fst (usable t an) = class_attrs c.
Proof.
  intros (c & an & attrs & C & A & -> & F) N L. pose proof (registry t N) as R. rewrite C, A in R.
  destruct (registered_schema t) as [s|]; [|contradiction]. destruct R as (R1 & R2 & R3 & R4). exists s, c, an, attrs.
  split; [reflexivity|]. split; [exact C|]. split; [reflexivity|].
  split; [eapply usable_fits; eauto|]. split; [exact R2|]. split; [exact R3|]. rewrite R4. exact R1.
Qed.
Lemma not_difference t v : ~ lossy t v -> t <> DIFFERENCE_BASE_COUNTER.
Proof. intros L ->. apply L. constructor. Qed.
Theorem round_trip py t s v : lawful py -> registered_schema t = Some s -> instance t v -> finite_floats v -> ~ lossy t v -> ~ makes_no_object t ->
  exists d v', dump py s v = Ok d /\ load py s d = Ok v' /\ same v v'.
Proof.
  intros P Rs I F L M. destruct (instance_inv t v I (not_difference t v L) L) as (s' & c & an & attrs & R & _ & -> & Ft & S & Pl & N).
  rewrite Rs in R. inversion R; subst s'. apply (object_round_trip py P s c (usable t an) attrs); auto.
  unfold post_load_is, makes_no_object in *. destruct t; try exact Pl; exfalso; apply M; cbn; tauto.
Qed.
Theorem round_trip_dict py t s c attrs : lawful py -> registered_schema t = Some s -> instance t (VObj c attrs) -> finite_floats (VObj c attrs) -> makes_no_object t ->
  exists d l, dump py s (VObj c attrs) = Ok d /\ load py s d = Ok (VDict l) /\ same (VDict attrs) (VDict l).
Proof.
  intros P Rs I F M. assert (~ lossy t (VObj c attrs)) as L by (destruct M as [<-|[<-|[<-|[]]]]; intros X; inversion X).
  destruct (instance_inv t _ I (not_difference t _ L) L) as (s' & c' & an & attrs' & R & _ & E & Ft & S & Pl & N).
  inversion E; subst. rewrite Rs in R. inversion R; subst s'. apply (dict_round_trip py P s (class_name c') (usable t an) attrs'); auto.
  unfold post_load_is in Pl. destruct M as [<-|[<-|[<-|[]]]]; exact Pl.
Qed.
Fixpoint no_float (a : annotation) : bool := match a with AFloat | AGasComposition => false | AOptional b => no_float b | _ => true end.
Lemma no_float_ok a v x : annotated a v -> no_float a = true -> ~ occurs x v.
Proof.
  induction 1; intros N O; try discriminate; try (inversion O; fail).
  - exact (IHannotated N O).
  - inversion O as [|? ? HI HO| |]; subst. apply in_map_iff in HI as (s & <- & _). inversion HO.
Qed.
Lemma lossy_no_float t v x : instance t v -> lossy t v -> ~ occurs x v.
Proof.
  intros (c & an & attrs & C & R & -> & F) L O. apply occurs_obj_inv in O as (name & w & J & O).
  apply Forall2_pair with (x := (name, w)) in F; [|exact J]. destruct F as ([n a] & Ja & En & W). cbn [fst snd] in *.
  assert (forallb (fun a => no_float (snd a)) an = true) as B by (destruct L; injection R as <-; vm_compute; reflexivity).
  rewrite forallb_forall in B. exact (no_float_ok a w x W (B _ Ja) O).
Qed.
Theorem nonfinite py t s v x : lawful py -> registered_schema t = Some s -> instance t v -> occurs x v -> finite x = false -> t <> ANALOG_MEASURAND ->
  exists d, dump py s v = Ok d /\ load py s d = Err ValidationError.
Proof.
  intros P Rs I O E A. assert (~ lossy t v) as L by (intros L; exact (lossy_no_float t v x I L O)).
  destruct (instance_inv t v I (not_difference t v L) L) as (s' & c & an & attrs & R & _ & -> & Ft & S & Pl & N).
  rewrite Rs in R. inversion R; subst s'. apply (object_refused py P s (class_name c) (usable t an) attrs S Ft).
  - destruct t; try contradiction; inversion Rs; reflexivity.
  - exists x. split; assumption.
Qed.

(** ** What loading gives *)
Lemma load_inv py s data v : load py s data = Ok v -> exists l kw, data = VDict l /\ load_fields py l (schema_fields s) = Ok (Some kw) /\
  forallb (fun kv => existsb (String.eqb (fst kv)) (map f_name (schema_fields s))) l = true /\
  match schema_post_load s with Some c => construct c kw = Ok v | None => v = VDict kw end.
Proof.
  unfold load. destruct data as [| | | | | | | |l]; try discriminate. rewrite deserialize_nested. unfold finish_load.
  destruct (load_fields py l (schema_fields s)) as [[kw|]|] eqn:E; try discriminate.
  destruct (forallb _ l) eqn:K; [|discriminate]. intros H. exists l, kw. split; [reflexivity|]. split; [exact E|]. split; [exact K|].
  destruct (schema_post_load s); [exact H|inversion H; reflexivity].
Qed.
Lemma loaded_from py l fs kw name w : load_fields py l fs = Ok (Some kw) -> In (name, w) kw -> exists f, In f fs /\ f_name f = name /\ field_load py l f = Ok (Some w).
Proof.
  revert kw. induction fs as [|f fs IH]; intros kw H I; cbn [load_fields] in H; [inversion H; subst; contradiction|].
  destruct (field_load py l f) as [[v|]|e] eqn:E; cbn in H.
  - destruct (load_fields py l fs) as [[k|]|] eqn:L; try discriminate. inversion H; subst. destruct I as [X|I].
    + inversion X; subst. exists f. split; [left; reflexivity|]. split; [reflexivity|exact E].
    + destruct (IH k eq_refl I) as (g & J & R). exists g. split; [right; exact J|exact R].
  - destruct (IH kw H I) as (g & J & R). exists g. split; [right; exact J|exact R].
  - destruct e; try discriminate. destruct (load_fields py l fs); discriminate.
Qed.
Lemma integer_loads py l f w : f_kind f = Integer -> field_load py l f = Ok (Some w) -> (w = VNone /\ f_allow_none f = true) \/ exists n, w = VInt n.
Proof.
  unfold field_load. intros ->. destruct (lookup (f_name f) l) as [v|]; cbn; [|destruct (f_required f); discriminate].
  assert (forall v, (x <- (n <- validated (format_int py) v;; Ok (VInt n));; Ok (Some x)) = Ok (Some w) -> exists n, w = VInt n) as X.
  { intros u. destruct (validated (format_int py) u); [|discriminate]. cbn. intros H. inversion H. eauto. }
  destruct v; try (intros H; right; eapply X; exact H).
  destruct (f_allow_none f); [|discriminate]. intros H. inversion H. left. split; reflexivity.
Qed.
Lemma field_load_none py l f : field_load py l f = Ok None -> f_required f = false.
Proof.
  unfold field_load, deserialize_field. destruct (lookup (f_name f) l) as [v|]; [|destruct (f_required f); [discriminate|reflexivity]].
  assert (forall v, (x <- deserialize py (f_kind f) v;; Ok (Some x)) <> Ok None) as X by (intros u; destruct (deserialize py (f_kind f) u); discriminate).
  destruct v; try (intros H; exfalso; eapply X; exact H). destruct (f_allow_none f); discriminate.
Qed.
Lemma construct_inv c kw v : construct c kw = Ok v -> exists l, v = VObj (class_name c) l /\ arrange (class_attrs c) kw = Some l /\ all_known (class_attrs c) kw = true.
Proof.
  unfold construct. destruct (all_known (class_attrs c) kw); [|discriminate]. destruct (arrange (class_attrs c) kw) as [l|]; [|discriminate].
  intros H. inversion H. exists l. repeat split.
Qed.
Theorem lossy_never_equal py t s v data v' : registered_schema t = Some s -> lossy t v -> load py s data = Ok v' -> ~ same v v'.
Proof.
  intros R L H Q. apply load_inv in H as (l & kw & -> & E & K & P).
  destruct L as [v A|v name x N A|v]; injection R as <-.
  - change (schema_post_load FlowRateSchema) with (Some FlowRate_class) in P. cbv beta iota in P. apply construct_inv in P as (a' & -> & Ar & _).
    destruct v as [| | | | | | |c attrs|]; try discriminate. cbn [attribute] in A. apply lookup_In in A. inversion Q as [| | | | | | | | |? ? ? F|]; subst.
    destruct (Forall2_pair _ _ _ _ F A) as ([n w] & J & En & S). cbn [fst snd] in *. subst n. inversion S; subst.
    apply (arrange_In _ _ _ Ar) in J. destruct (loaded_from py _ _ _ _ _ E J) as (f & I & En & Lf).
    assert (f = mk_spec "decimals" true false Integer) as ->.
    { clear - I En. cbn in I. repeat (destruct I as [<-|I]; [cbn in En; try discriminate En; try reflexivity|]). contradiction. }
    apply integer_loads in Lf as [[_ X]|[n X]]; [discriminate|discriminate|reflexivity].
  - change (schema_post_load DeviceErrorSchema) with (Some DeviceError_class) in P. cbv beta iota in P. apply construct_inv in P as (a' & -> & Ar & _).
    destruct v as [| | | | | | |c attrs|]; try discriminate. cbn [attribute] in A. apply lookup_In in A. inversion Q as [| | | | | | | | |? ? ? F|]; subst.
    destruct (Forall2_pair _ _ _ _ F A) as ([n w] & J & En & S). cbn [fst snd] in *. subst n. inversion S; subst.
    apply (arrange_In _ _ _ Ar) in J. destruct (loaded_from py _ _ _ _ _ E J) as (f & I & En & Lf).
    assert (f_kind f = Integer) as X.
    { clear - I En N. cbn in I. repeat (destruct I as [<-|I]; [cbn in En; destruct N; subst; try discriminate; try reflexivity|]). contradiction. }
    apply integer_loads in Lf as [[Z _]|[n Z]]; [discriminate|discriminate|exact X].
  - change (schema_post_load DifferenceBaseCounterSchema) with (Some DifferenceBaseCounter_class) in P. cbv beta iota in P. apply construct_inv in P as (a' & -> & Ar & Kn).
    assert (kw = []) as ->. { destruct kw as [|[n w] kw]; [reflexivity|]. cbn in Kn. discriminate. }
    apply load_ok_inv in E as F. 
    change (schema_fields DifferenceBaseCounterSchema) with (mk_spec "number" true false Integer :: tl (schema_fields DifferenceBaseCounterSchema)) in E.
    revert E. generalize (tl (schema_fields DifferenceBaseCounterSchema)). intros rest E.
    cbn [load_fields] in E. destruct (field_load py l (mk_spec "number" true false Integer)) as [[w|]|e] eqn:X; cbn in E.
    + destruct (load_fields py l rest) as [[k|]|]; discriminate.
    + apply field_load_none in X. discriminate.
    + destruct e; try discriminate. destruct (load_fields py l rest); discriminate.
Qed.
Theorem no_object_made py t s data v : registered_schema t = Some s -> makes_no_object t -> load py s data = Ok v -> exists l, v = VDict l.
Proof.
  intros R M H. apply load_inv in H as (l & kw & -> & E & K & P). destruct M as [<-|[<-|[<-|[]]]]; injection R as <-; exists kw; exact P.
Qed.
Theorem load_accepts py s data v : load py s data = Ok v -> exists l, data = VDict l /\ accepts_keys s l.
Proof.
  intros H. apply load_inv in H as (l & kw & -> & E & K & _). exists l. split; [reflexivity|]. apply load_ok_inv in E. rewrite Forall_forall in E. split; [|split].
  - intros name w I. rewrite forallb_forall in K. specialize (K _ I). apply existsb_name in K. exact K.
  - intros f I Rq. destruct (E f I) as [o Ho]. unfold field_load in Ho. rewrite Rq in Ho. destruct (lookup (f_name f) l) as [w|]; [eexists; reflexivity|discriminate].
  - intros f I An X. destruct (E f I) as [o Ho]. unfold field_load in Ho. rewrite X, An in Ho. discriminate.
Qed.
Theorem numbers_not_bools py s l v f b : load py s (VDict l) = Ok v -> In f (schema_fields s) -> f_kind f = Integer \/ f_kind f = Number \/ (exists a, f_kind f = Float a) ->
  lookup (f_name f) l <> Some (VBool b).
Proof.
  intros H I Kf X. apply load_inv in H as (l' & kw & El & E & _). inversion El; subst l'. apply load_ok_inv in E. rewrite Forall_forall in E.
  destruct (E f I) as [o Ho]. unfold field_load in Ho. rewrite X in Ho. cbn [deserialize_field] in Ho. destruct Kf as [Kf|[Kf|[a Kf]]]; rewrite Kf in Ho; discriminate.
Qed.
(** the attributes of a loaded object are exactly those of its class, and the class is the registered one *)
Theorem load_makes py t s data v : registered_schema t = Some s -> load py s data = Ok v -> ~ makes_no_object t ->
  exists c attrs, registered_class t = Some c /\ v = VObj (class_name c) attrs /\ map fst attrs = class_attrs c.
Proof.
  intros R H M. assert (t <> DIFFERENCE_BASE_COUNTER) as N.
  { intros ->. pose proof (lossy_never_equal py _ s v data v R (lossy_difference v) H) as X. apply X.
    apply load_inv in H as (l & kw & -> & E & K & P). injection R as <-. apply construct_inv in P as (a' & -> & Ar & Kn).
    cbn in Ar. inversion Ar. constructor. constructor. }
  pose proof (registry t N) as G. rewrite R in G. destruct (registered_class t) as [c|]; [|contradiction].
  destruct (registered_annotations t) as [an|]; [|contradiction]. destruct G as (_ & _ & P & _).
  apply load_inv in H as (l & kw & -> & E & K & Hp). 
  assert (schema_post_load s = Some c) as Sp by (unfold post_load_is, makes_no_object in *; destruct t; try exact P; exfalso; apply M; cbn; tauto).
  rewrite Sp in Hp. apply construct_inv in Hp as (a & -> & Ar & _). exists c, a. split; [reflexivity|]. split; [reflexivity|].
  clear - Ar. revert a Ar. generalize (class_attrs c). intros names. induction names as [|n names IH]; intros a Ar; cbn [arrange] in Ar; [inversion Ar; reflexivity|].
  destruct (lookup n kw); [|discriminate]. destruct (arrange names kw); [|discriminate]. inversion Ar; subst. cbn. f_equal. apply IH. reflexivity.
Qed.

(** ** Loading raises ValidationError only *)
Definition same_names (a b : list string) : bool :=
  nodup_b a && nodup_b b && forallb (fun x => existsb (String.eqb x) b) a && forallb (fun x => existsb (String.eqb x) a) b.
Fixpoint total_kind (k : kind) : bool :=
  match k with
  | List_ k => total_kind k
  | Nested fs p =>
      match p with None => true | Some c => forallb f_required fs && same_names (map f_name fs) (class_attrs c) end &&
      (fix go (l : list (spec kind)) : bool := match l with [] => true | mk_spec _ _ _ k :: l' => total_kind k && go l' end) fs
  | _ => true
  end.
Definition valid {A} (r : res A) : Prop := (exists x, r = Ok x) \/ r = Err ValidationError.
Lemma same_names_ok a b : same_names a b = true -> NoDup a /\ NoDup b /\ forall x, In x a <-> In x b.
Proof.
  unfold same_names. intros H. apply andb_prop in H as [H D]. apply andb_prop in H as [H C]. apply andb_prop in H as [A B].
  split; [apply nodup_b_ok, A|]. split; [apply nodup_b_ok, B|]. rewrite forallb_forall in C, D.
  intros x. split; intros I; apply existsb_name; [apply C, I|apply D, I].
Qed.
Lemma required_loaded py l fs kw : forallb f_required fs = true -> load_fields py l fs = Ok (Some kw) -> map fst kw = map f_name fs.
Proof.
  revert kw. induction fs as [|f fs IH]; intros kw R H; cbn [load_fields] in H; [inversion H; reflexivity|].
  cbn in R. apply andb_prop in R as [R1 R2].
  destruct (field_load py l f) as [[v|]|e] eqn:E; cbn in H.
  - destruct (load_fields py l fs) as [[k|]|] eqn:L; try discriminate. inversion H; subst. cbn. f_equal. apply IH; [exact R2|reflexivity].
  - apply field_load_none in E. congruence.
  - destruct e; try discriminate. destruct (load_fields py l fs); discriminate.
Qed.
Lemma load_fields_valid py l fs : Forall (fun f => valid (field_load py l f)) fs -> exists o, load_fields py l fs = Ok o.
Proof.
  induction 1 as [|f fs [[o H]|H] F (r & Hr)]; [eexists; reflexivity| |]; cbn [load_fields]; rewrite H, Hr; [|eexists; reflexivity].
  destruct o; [destruct r|]; eexists; reflexivity.
Qed.
Lemma deserialize_valid py : value_errors py -> forall k v, total_kind k = true -> valid (deserialize py k v).
Proof.
  intros (Pi & Pf & Pt).
  assert (forall v, valid (validated (format_int py) v)) as Vi.
  { intros v. unfold validated, valid. destruct v as [|n|b|x|s|bs|l|c at0|d]; cbn; eauto.
    - destruct x; cbn; eauto.
    - destruct (read_int py s) eqn:E; eauto. rewrite (Pi _ _ E). eauto. }
  assert (forall v, valid (validated (format_float py) v)) as Vf.
  { intros v. unfold validated, valid. destruct v as [|n|b|x|s|bs|l|c at0|d]; cbn; eauto.
    - unfold float_of_int. destruct (nearest_double _ _ _); eauto.
    - destruct (read_float py s) eqn:E; eauto. rewrite (Pf _ _ E). eauto. }
  fix IH 1. intros k v T. destruct k as [|b| | | | |k|fs p].
  - cbn [deserialize]. destruct (Vi v) as [[x ->]| ->]; cbn; unfold valid; eauto.
  - cbn [deserialize]. destruct (Vf v) as [[x ->]| ->]; cbn; unfold valid; eauto. destruct (finite x); eauto.
  - cbn [deserialize]. destruct (Vf v) as [[x ->]| ->]; cbn; unfold valid; eauto.
  - destruct v; cbn [deserialize]; unfold valid; eauto. destruct (as_text py _) eqn:E; eauto. rewrite (Pt _ _ E). eauto.
  - destruct v as [|n| |x|s| | | |]; cbn [deserialize]; unfold valid; eauto.
    + destruct n as [|[]|]; eauto.
    + destruct (is_one x); eauto. destruct (is_zero x); eauto.
    + destruct (among s truthy); eauto. destruct (among s falsy); eauto.
  - destruct v; cbn [deserialize]; unfold valid; eauto.
  - destruct v as [| | | | | |l| |]; cbn [deserialize]; unfold valid; eauto. cbn in T.
    match goal with |- context [bind (?g l) _] => assert (exists o, g l = Ok o) as [o Ho] end.
    { induction l as [|v l [o Ho]]; [eexists; reflexivity|].
      assert (valid (match v with VNone => Err ValidationError | _ => deserialize py k v end)) as [[x X]|X].
      { destruct v; try apply (IH k _ T). right. reflexivity. }
      - rewrite X, Ho. destruct o; eexists; reflexivity.
      - rewrite X, Ho. eexists; reflexivity. }
    rewrite Ho. cbn. destruct o; eauto.
  - destruct v as [| | | | | | | |l]; try (right; reflexivity). rewrite deserialize_nested. cbn [total_kind] in T. apply andb_prop in T as [C T].
    assert (Forall (fun f => valid (field_load py l f)) fs) as F.
    { clear C. induction fs as [|[n r a k] fs IHf]; [constructor|]. apply andb_prop in T as [T1 T2]. constructor; [|apply IHf, T2].
      unfold field_load. cbn [f_name f_required f_allow_none f_kind]. unfold deserialize_field, valid. pose proof (fun v => IH k v T1) as D.
      destruct (lookup n l) as [w|]; [|destruct r; eauto]. 
      destruct w; try (destruct a; eauto; fail); match goal with |- context [deserialize py k ?w] => destruct (D w) as [[x ->]| ->]; cbn; eauto end. }
    destruct (load_fields_valid py l fs F) as [o Ho]. rewrite Ho. destruct o as [kw|]; cbn [finish_load]; [|right; reflexivity].
    destruct (forallb _ l); [|right; reflexivity]. destruct p as [c|]; [|left; eauto].
    apply andb_prop in C as [R N]. apply same_names_ok in N as (N1 & N2 & N3). pose proof (required_loaded py l fs kw R Ho) as Nk.
    destruct (arrange_all (class_attrs c) kw) as (l' & El & _).
    { intros n I. apply lookup_some. rewrite Nk. apply N3, I. }
    left. unfold construct. replace (all_known (class_attrs c) kw) with true; [rewrite El; eauto|]. symmetry. apply forallb_forall. intros [n v] I.
    apply existsb_name, N3. rewrite <- Nk. apply (in_map fst) in I. exact I.
Qed.
Theorem load_or_validation_error py t s data : value_errors py -> registered_schema t = Some s -> t <> DIFFERENCE_BASE_COUNTER ->
  (exists v, load py s data = Ok v) \/ load py s data = Err ValidationError.
Proof.
  intros P R N. unfold load. apply (deserialize_valid py P). destruct t; try contradiction; try discriminate R; injection R as <-; vm_compute; reflexivity.
Qed.
(** ** The registry, stated without the helpers *)
Definition registry_row (t : parameter_type) (s : schema) (c : class) : bool :=
  forallb f_required (schema_fields s) && same_names (map f_name (schema_fields s)) (class_attrs c).
Theorem registered_names t : t <> DIFFERENCE_BASE_COUNTER ->
  match registered_schema t, registered_class t with
  | Some s, Some c => NoDup (map f_name (schema_fields s)) /\ NoDup (class_attrs c) /\
      (forall name, In name (map f_name (schema_fields s)) <-> In name (class_attrs c)) /\
      (forall f, In f (schema_fields s) -> f_required f = true) /\
      (schema_post_load s = Some c \/ (makes_no_object t /\ schema_post_load s = None))
  | None, None => t = CORRECTION_COUNTER
  | _, _ => False
  end.
Proof.
  intros N. assert (match registered_schema t, registered_class t with Some s, Some c => registry_row t s c = true /\ 
     (schema_post_load s = Some c \/ (makes_no_object t /\ schema_post_load s = None)) | None, None => t = CORRECTION_COUNTER | _, _ => False end) as H.
  { destruct t; try contradiction; try reflexivity; (split; [vm_compute; reflexivity|]); 
      first [left; reflexivity | right; split; [cbn; tauto|reflexivity]]. }
  destruct (registered_schema t) as [s|], (registered_class t) as [c|]; try exact H. destruct H as [H P]. apply andb_prop in H as [R S].
  apply same_names_ok in S as (A & B & C). split; [exact A|]. split; [exact B|]. split; [exact C|]. split; [|exact P].
  rewrite forallb_forall in R. exact R.
Qed.
Theorem registered_nullable t s an f a : registered_schema t = Some s -> registered_annotations t = Some an ->
  In f (schema_fields s) -> lookup (f_name f) an = Some a -> (t, f_name f) <> (FLOW_RATE, "decimals") ->
  (f_allow_none f = true <-> exists b, a = AOptional b).
Proof.
  intros R A I L N.
  assert (forallb (fun f => match lookup (f_name f) an with Some a => Bool.eqb (match a with AOptional _ => true | _ => false end) (f_allow_none f) ||
     match t with FLOW_RATE => String.eqb (f_name f) "decimals" | _ => false end | None => true end) (schema_fields s) = true) as H.
  { destruct t; try discriminate R; injection R as <-; injection A as <-; vm_compute; reflexivity. }
  rewrite forallb_forall in H. specialize (H f I). rewrite L in H. apply orb_prop in H as [H|H].
  - apply Bool.eqb_prop in H. rewrite <- H. destruct a; split; try discriminate; try (intros [b X]; discriminate); eauto.
  - exfalso. destruct t; try discriminate. apply String.eqb_eq in H. apply N. congruence.
Qed.
(** every nested schema is the one of GasComposition *)
Definition nested_gas (f : spec kind) : bool :=
  match f_kind f with
  | Nested fs p =>
      match p with Some c => String.eqb (class_name c) "GasComposition" && names_eqb (class_attrs c) gas_components | None => false end &&
      names_eqb (map f_name fs) gas_components &&
      forallb (fun g => f_required g && negb (f_allow_none g) && match f_kind g with Float _ => true | _ => false end &&
        match lookup (f_name g) GasComposition_annotations with Some AFloat => true | _ => false end) fs
  | _ => true
  end.
Theorem nested_schemas t s f fs p : registered_schema t = Some s -> In f (schema_fields s) -> f_kind f = Nested fs p ->
  (exists c, p = Some c /\ class_name c = "GasComposition" /\ class_attrs c = gas_components) /\ map f_name fs = gas_components /\
  forall g, In g fs -> f_required g = true /\ f_allow_none g = false /\ lookup (f_name g) GasComposition_annotations = Some AFloat /\ exists b, f_kind g = Float b.
Proof.
  intros R I K. assert (forallb nested_gas (schema_fields s) = true) as H by (destruct t; try discriminate R; injection R as <-; vm_compute; reflexivity).
  rewrite forallb_forall in H. specialize (H f I). unfold nested_gas in H. rewrite K in H. apply andb_prop in H as [H H3]. apply andb_prop in H as [H1 H2].
  destruct p as [c|]; [|discriminate]. apply andb_prop in H1 as [H1 H4]. apply String.eqb_eq in H1. apply names_eqb_eq in H4, H2.
  split; [exists c; auto|]. split; [exact H2|]. intros g G. rewrite forallb_forall in H3. specialize (H3 g G).
  apply andb_prop in H3 as [H3 A]. apply andb_prop in H3 as [H3 B]. apply andb_prop in H3 as [C D].
  split; [exact C|]. split; [destruct (f_allow_none g); [discriminate D|reflexivity]|]. split.
  - destruct (lookup _ _) as [[]|]; try discriminate A. reflexivity.
  - destruct (f_kind g); try discriminate B. eauto.
Qed.
Theorem difference_registered : exists s c, registered_schema DIFFERENCE_BASE_COUNTER = Some s /\ registered_class DIFFERENCE_BASE_COUNTER = Some c /\
  length (schema_fields s) = 18%nat /\ class_attrs c = [].
Proof. eexists. eexists. repeat split; reflexivity. Qed.

(** ** JSON *)
Fixpoint strict (k : kind) : bool :=
  match k with
  | Number | Float false | Dict => false
  | List_ k => strict k
  | Nested fs _ => (fix go (l : list (spec kind)) : bool := match l with [] => true | mk_spec _ _ _ k :: l' => strict k && go l' end) fs
  | _ => true
  end.
Definition plain_json (d : value) : Prop := json d /\ forall x, ~ occurs x d.
Lemma plain_none : plain_json VNone. Proof. split; [constructor|intros x O; inversion O]. Qed.
Lemma plain_int n : plain_json (VInt n). Proof. split; [constructor|intros x O; inversion O]. Qed.
Lemma plain_str n : plain_json (VStr n). Proof. split; [constructor|intros x O; inversion O]. Qed.
Lemma plain_bool n : plain_json (VBool n). Proof. split; [constructor|intros x O; inversion O]. Qed.
Lemma plain_list l : Forall plain_json l -> plain_json (VList l).
Proof.
  intros F. rewrite Forall_forall in F. split; [constructor; apply Forall_forall; intros v I; apply F, I|].
  intros x O. inversion O; subst. eapply F; eauto.
Qed.
Lemma plain_dict l : Forall (fun a : string * value => plain_json (snd a)) l -> plain_json (VDict l).
Proof.
  intros F. rewrite Forall_forall in F. split; [constructor; apply Forall_forall; intros v I; apply F, I|].
  intros x O. inversion O as [| | |? ? ? HI HO]; subst. destruct (F _ HI) as [_ X]. apply (X x HO).
Qed.
Lemma strict_json py : forall k v d, strict k = true -> serialize py k v = Ok d -> plain_json d.
Proof.
  fix IH 1. intros k v d K S.
  destruct (match v with VNone => true | _ => false end) eqn:Ev.
  { destruct v; try discriminate. destruct k; cbn in S; inversion S; apply plain_none. }
  assert (v <> VNone) as Nv by (intros ->; discriminate). clear Ev.
  destruct k as [|b| | | | |k|fs p]; cbn [strict] in K; try discriminate.
  - assert ((n <- format_int py v;; Ok (VInt n)) = Ok d) as S' by (destruct v; try contradiction; exact S).
    destruct (format_int py v); [|discriminate]. inversion S'. apply plain_int.
  - destruct b; [|discriminate]. assert ((x <- format_float py v;; Ok (VStr (float_text py x))) = Ok d) as S' by (destruct v; try contradiction; exact S).
    destruct (format_float py v); [|discriminate]. inversion S'. apply plain_str.
  - assert (exists s, d = VStr s) as [s ->]; [|apply plain_str].
    destruct v; try contradiction; cbn [serialize] in S; try (inversion S; eexists; reflexivity);
      match type of S with (_ <- ?r;; _) = _ => destruct r; [|discriminate] end; inversion S; eexists; reflexivity.
  - assert (exists s, d = VBool s) as [s ->]; [|apply plain_bool]. destruct v; try contradiction; cbn [serialize] in S; inversion S; eexists; reflexivity.
  - destruct v as [| | | | | |l| |]; try contradiction; try discriminate. cbn [serialize] in S.
    match type of S with (_ <- ?g l;; _) = _ => set (go := g) in S end.
    destruct (go l) as [vs|] eqn:G; [|discriminate]. cbn in S. inversion S; subst d. apply plain_list. clear S Nv.
    revert vs G. induction l as [|v l IHl]; intros vs G; [inversion G; constructor|]. cbn in G. fold go in G.
    destruct (serialize py k v) as [x|] eqn:Sv; [|discriminate]. cbn in G. destruct (go l) as [xs|]; [|discriminate]. inversion G; subst.
    constructor; [exact (IH k v x K Sv)|apply IHl; reflexivity].
  - rewrite serialize_nested in S by exact Nv. destruct (dump_fields py fs v) as [vs|] eqn:D; [|discriminate]. cbn in S. inversion S; subst d. clear S.
    apply plain_dict. revert vs D. induction fs as [|[n r a k] fs IHf]; intros vs D; [inversion D; constructor|].
    apply andb_prop in K as [K1 K2]. cbn [dump_fields f_name f_kind] in D. destruct (get_value n v) as [w|]; [|apply IHf; assumption].
    destruct (serialize py k w) as [x|] eqn:Sw; [|discriminate]. cbn in D. destruct (dump_fields py fs v) as [xs|]; [|discriminate]. inversion D; subst.
    constructor; [exact (IH k w x K1 Sw)|apply IHf; [exact K2|reflexivity]].
Qed.
Theorem dump_json py t s v d : registered_schema t = Some s -> ~ numeric_type t -> dump py s v = Ok d -> json d /\ forall x, ~ occurs x d.
Proof.
  intros R N D. assert (strict (Nested (schema_fields s) (schema_post_load s)) = true) as K.
  { unfold numeric_type in N. destruct t; try (exfalso; apply N; cbn; tauto); try discriminate R; injection R as <-; vm_compute; reflexivity. }
  unfold dump in D. destruct v; try (eapply strict_json; [exact K|exact D]).
  inversion D. apply plain_dict. constructor.
Qed.

(** ** Parsed objects *)
(** the sign says the sign *)
Lemma dyadic_mantissa s m e q : (q == dyadic s m e)%Q -> (if s then q <= 0 else 0 <= q)%Q -> 0 <= m.
Proof.
  intros E H. destruct (Z.lt_ge_cases m 0) as [L|G]; [exfalso|exact G]. pose proof (pow_pos e) as P. unfold dyadic in E. destruct s.
  - assert (0 < (- m # 1) * (2 # 1) ^ e)%Q by (apply Qmult_lt_0_compat; [unfold Qlt; cbn; lia|exact P]). lra.
  - assert (0 < (- m # 1) * (2 # 1) ^ e)%Q as A by (apply Qmult_lt_0_compat; [unfold Qlt; cbn; lia|exact P]).
    setoid_replace (- m # 1)%Q with (- (m # 1))%Q in A by reflexivity. lra.
Qed.
Lemma denotes_nonneg w f n s m e : (w = 8 /\ f = 23) \/ (w = 11 /\ f = 52) -> 0 <= n -> negative (Fin s m e) = Some (n / 2 ^ (w + f) =? 1) ->
  float_value (Fin s m e) ((if n / 2 ^ (w + f) =? 1 then -1 # 1 else 1 # 1) *
    ((if (n / 2 ^ f) mod 2 ^ w =? 0 then 0 # 1 else 1 # 1) + (n mod 2 ^ f # 1) / (2 # 1) ^ f) *
    (2 # 1) ^ ((if (n / 2 ^ f) mod 2 ^ w =? 0 then 1 else (n / 2 ^ f) mod 2 ^ w) - (2 ^ (w - 1) - 1))) -> 0 <= m.
Proof.
  intros W Hn N V. cbn in N. injection N as N. cbn in V. destruct V as [_ V]. apply (dyadic_mantissa s m e _ V). rewrite N.
  set (G := ((2 # 1) ^ ((if (n / 2 ^ f) mod 2 ^ w =? 0 then 1 else (n / 2 ^ f) mod 2 ^ w) - (2 ^ (w - 1) - 1)))%Q).
  assert (0 < G)%Q as PG by apply pow_pos. assert (0 < (2 # 1) ^ f)%Q as Pf by apply pow_pos.
  assert (0 <= n mod 2 ^ f) as RF by (apply Z.mod_pos_bound; destruct W as [[-> ->]|[-> ->]]; reflexivity).
  assert (0 <= (n mod 2 ^ f # 1) / (2 # 1) ^ f)%Q as PQ.
  { apply Qle_shift_div_l; [exact Pf|]. rewrite Qmult_0_l. unfold Qle; cbn. lia. }
  assert (0 <= (if (n / 2 ^ f) mod 2 ^ w =? 0 then 0 # 1 else 1 # 1) + (n mod 2 ^ f # 1) / (2 # 1) ^ f)%Q as PS.
  { destruct (_ =? 0); lra. }
  set (A := ((if (n / 2 ^ f) mod 2 ^ w =? 0 then 0 # 1 else 1 # 1) + (n mod 2 ^ f # 1) / (2 # 1) ^ f)%Q) in *.
  assert (0 <= A * G)%Q as PA by (apply Qmult_le_0_compat; [exact PS|apply Qlt_le_weak, PG]).
  destruct (_ =? 1).
  - setoid_replace ((-1 # 1) * A * G)%Q with (- (A * G))%Q by ring. lra.
  - setoid_replace ((1 # 1) * A * G)%Q with (A * G)%Q by ring. exact PA.
Qed.
Lemma denotes_double w f n x : (w = 8 /\ f = 23) \/ (w = 11 /\ f = 52) -> 0 <= n -> denotes w f n x -> is_double x.
Proof.
  intros W Hn [(_ & _ & ->)|[(_ & _ & ->)|(E & N & V)]]; [exact I|exact I|]. destruct x as [| |s m e]; [exact I|exact I|].
  split; [exact (denotes_nonneg w f n s m e W Hn N V)|].
  cbn in V. destruct V as [_ V]. set (bE := (n / 2 ^ f) mod 2 ^ w) in *. set (bF := n mod 2 ^ f) in *. set (sg := n / 2 ^ (w + f)) in *.
  assert (0 <= bE < 2 ^ w) as RE by (apply Z.mod_pos_bound; destruct W as [[-> ->]|[-> ->]]; reflexivity).
  assert (0 <= bF < 2 ^ f) as RF by (apply Z.mod_pos_bound; destruct W as [[-> ->]|[-> ->]]; reflexivity).
  assert (0 <= f) as F0 by (destruct W as [[-> ->]|[-> ->]]; lia).
  exists ((if sg =? 1 then -1 else 1) * ((if bE =? 0 then 0 else 2 ^ f) + bF)), ((if bE =? 0 then 1 else bE) - (2 ^ (w - 1) - 1) - f).
  split; [|split].
  - assert (0 <= (if bE =? 0 then 0 else 2 ^ f) + bF < 2 ^ 53) as B.
    { destruct W as [[-> ->]|[-> ->]]; destruct (bE =? 0); lia. }
    destruct (sg =? 1); lia.
  - destruct W as [[-> ->]|[-> ->]]; destruct (Z.eqb_spec bE 0); cbn in *; lia.
  - cbn. rewrite <- V. clear V.
    assert (0 < 2 ^ f) as P by (apply Z.pow_pos_nonneg; lia).
    replace ((if bE =? 0 then 1 else bE) - (2 ^ (w - 1) - 1) - f) with ((if bE =? 0 then 1 else bE) - (2 ^ (w - 1) - 1) + - f) by lia.
    rewrite pow_add. set (G := ((2 # 1) ^ ((if bE =? 0 then 1 else bE) - (2 ^ (w - 1) - 1)))%Q).
    assert (((2 # 1) ^ f * (2 # 1) ^ (- f) == 1)%Q) as Inv by apply pow_opp.
    assert (((2 # 1) ^ f == (2 ^ f # 1))%Q) as Pf by (apply pow_Z; exact F0).
    assert (((bF # 1) / (2 # 1) ^ f == (bF # 1) * (2 # 1) ^ (- f))%Q) as Dv.
    { apply Qmult_inj_r with (z := ((2 # 1) ^ f)%Q); [intros Z0; rewrite Z0 in Inv; discriminate Inv|].
      rewrite <- Qmult_assoc, (Qmult_comm ((2 # 1) ^ (- f))), Inv. field. intros Z0. rewrite Z0 in Inv. discriminate Inv. }
    rewrite Dv. assert (forall a b : Z, ((a * b # 1) == (a # 1) * (b # 1))%Q) as Mu by (intros; unfold Qeq; cbn; lia).
    assert (forall a b : Z, ((a + b # 1) == (a # 1) + (b # 1))%Q) as Ad by (intros; unfold Qeq; cbn; lia).
    rewrite Mu, Ad. assert (((if bE =? 0 then 0 # 1 else 1 # 1) == ((if bE =? 0 then 0 else 2 ^ f) # 1) * (2 # 1) ^ (- f))%Q) as Ld.
    { destruct (bE =? 0); [ring|]. rewrite <- Pf. rewrite Inv. reflexivity. }
    rewrite Ld. destruct (sg =? 1); ring.
Qed.
Lemma double_wd q q' : (q == q')%Q -> double_value q -> double_value q'.
Proof. intros E (M & X & A & B & C). exists M, X. split; [exact A|]. split; [exact B|]. rewrite <- E. exact C. Qed.
Lemma double_zero : double_value 0.
Proof. exists 0, 0. split; [lia|]. split; [lia|]. reflexivity. Qed.
Lemma closest_sign x k : closest_integer x k -> ((0 <= x)%Q -> 0 <= k) /\ ((x <= 0)%Q -> k <= 0).
Proof.
  intros C. specialize (C 0). setoid_replace ((0 # 1) - x)%Q with (- x)%Q in C by ring. rewrite Qabs_opp in C. split; intros H.
  - destruct (Z.lt_ge_cases k 0) as [L|G]; [exfalso|exact G]. rewrite (Qabs_pos x H) in C.
    assert ((k # 1) <= - (1))%Q as K by (unfold Qle; cbn; lia). rewrite Qabs_neg in C by lra. lra.
  - destruct (Z.lt_ge_cases 0 k) as [L|G]; [exfalso|lia]. rewrite (Qabs_neg x H) in C.
    assert (1 <= (k # 1))%Q as K by (unfold Qle; cbn; lia). rewrite Qabs_pos in C by lra. lra.
Qed.
Lemma closest_double_sign x q : closest_double x q -> ((0 <= x)%Q -> (0 <= q)%Q) /\ ((x <= 0)%Q -> (q <= 0)%Q).
Proof.
  intros [_ C]. specialize (C 0%Q double_zero). setoid_replace (0 - x)%Q with (- x)%Q in C by ring. rewrite Qabs_opp in C. split; intros H.
  - apply Qnot_lt_le. intros L. rewrite (Qabs_pos x H) in C. rewrite Qabs_neg in C by lra. lra.
  - apply Qnot_lt_le. intros L. rewrite (Qabs_neg x H) in C. rewrite Qabs_pos in C by lra. lra.
Qed.
Lemma rounded_double x y : is_double x -> rounded_to_7 x y -> is_double y.
Proof.
  destruct x as [| |s m e]; cbn [rounded_to_7]; [intros _ ->; exact I|intros _ ->; exact I|]. intros [M _] (k & q & [CI _] & CD & V & N).
  destruct y as [| |s' m' e']; [exact I|exact I|]. cbn in N. injection N as ->. pose proof CD as [D _]. cbn in V. destruct V as [_ V]. split; [|apply (double_wd q); assumption].
  apply (dyadic_mantissa s m' e' q V). destruct (closest_sign _ _ CI) as [S1 S2]. destruct (closest_double_sign _ _ CD) as [T1 T2].
  assert (0 <= (m # 1) * (2 # 1) ^ e)%Q as P by (apply Qmult_le_0_compat; [unfold Qle; cbn; lia|apply Qlt_le_weak, pow_pos]).
  unfold dyadic in *. destruct s.
  - apply T2. assert (k <= 0) as K; [|unfold Qle; cbn; lia]. apply S2. setoid_replace (- m # 1)%Q with (- (m # 1))%Q by reflexivity. lra.
  - apply T1. assert (0 <= k) as K; [|unfold Qle; cbn; lia]. apply S1. lra.
Qed.
Lemma field_nonneg off w l : is_bytes l -> 0 <= le_value (field off w l).
Proof.
  intros H. assert (is_bytes (field off w l)) as B.
  { unfold field. apply is_bytes_firstn, is_bytes_skipn, H. }
  apply (from_le_range _ B).
Qed.
Definition place_annotated (p : place) (a : annotation) : bool :=
  match p, a with
  | Unsigned _ _, (AInt | AOptional AInt) | Flag _ _, (ABool | AInt) | BitField _ _ _, AInt => true
  | (Text _ _ | HexText _ _ | IpAddress4 _), (AStr | AOptional AStr) => true
  | (Single _ | SingleRounded _ | Double _), AFloat => true
  | HexRows _ _ _, AStrs | Composition _, AGasComposition | Missing, AOptional _ => true
  | _, _ => false
  end.
Lemma shown_annotated l p a v : is_bytes l -> place_annotated p a = true -> shows l p v -> annotated a v.
Proof.
  intros B. destruct p; cbn [place_annotated shows]; intros C S.
  - subst v. destruct a as [| | | |[]| |]; try discriminate; repeat constructor.
  - subst v. destruct a as [| | | |[]| |]; try discriminate; constructor.
  - subst v. destruct a as [| | | |[]| |]; try discriminate; constructor.
  - destruct S as (s & -> & _). destruct a as [| | | |[]| |]; try discriminate; repeat constructor.
  - destruct S as (s & -> & _). destruct a as [| | | |[]| |]; try discriminate; repeat constructor.
  - destruct S as (s & -> & _). destruct a as [| | | |[]| |]; try discriminate; repeat constructor.
  - destruct S as (x & -> & D). destruct a as [| | | |[]| |]; try discriminate; constructor. eapply denotes_double; [left; split; reflexivity|apply field_nonneg, B|exact D].
  - destruct S as (x & y & -> & D & R). destruct a as [| | | |[]| |]; try discriminate; constructor. eapply rounded_double; [|exact R]. eapply denotes_double; [left; split; reflexivity|apply field_nonneg, B|exact D].
  - destruct S as (x & -> & D). destruct a as [| | | |[]| |]; try discriminate; constructor. eapply denotes_double; [right; split; reflexivity|apply field_nonneg, B|exact D].
  - destruct S as (ss & -> & _). destruct a as [| | | |[]| |]; try discriminate; constructor.
  - destruct S as (vs & -> & L & H). destruct a as [| | | |[]| |]; try discriminate.
    assert (exists xs, vs = map VFloat xs /\ Forall is_double xs) as (xs & -> & F).
    { assert (forall i, (i < length vs)%nat -> exists x, nth i vs VNone = VFloat x /\ is_double x) as K.
      { intros i Hi. destruct (H (Z.of_nat i)) as (x & E & D); [unfold len in L; lia|]. rewrite Nat2Z.id in E. exists x. split; [exact E|].
        eapply denotes_double; [left; split; reflexivity|apply field_nonneg, B|exact D]. }
      clear - K. induction vs as [|v vs IH]; [exists []; split; [reflexivity|constructor]|].
      destruct (K O ltac:(cbn; lia)) as (x & E & D). cbn in E. subst v.
      destruct IH as (xs & -> & F); [intros i Hi; apply (K (S i)); cbn; lia|]. exists (x :: xs). split; [reflexivity|constructor; assumption]. }
    constructor; [exact F|]. unfold len in L. rewrite map_length in L. change (length gas_components) with 23%nat. lia.
  - subst v. destruct a; try discriminate. constructor.
Qed.
Definition reading_ok (c : class) (an : list (string * annotation)) (d : reading) : bool :=
  match d with
  | Object cls fs => String.eqb cls (class_name c) && names_eqb (map fst fs) (map fst an) && forallb (fun pa => place_annotated (snd (fst pa)) (snd (snd pa))) (combine fs an)
  | Raises _ => true
  end.
Lemma readings_ok t rows c an : registered_class t = Some c -> registered_annotations t = Some an -> forallb (fun rd => reading_ok c an (snd rd)) (documented t rows) = true.
Proof. destruct t; intros C A; try discriminate; injection C as <-; injection A as <-; vm_compute; reflexivity. Qed.
Theorem parsed_instance t l v : is_bytes l -> parameter_from_bytes t l = Ok v -> instance t v.
Proof.
  intros B E. destruct (proj1 (accepted_lengths t l B) (ex_intro _ v E)) as (r & cls & fields & I & W).
  destruct (parameter_conforms t l r _ B I W) as (attrs & E2 & F). rewrite E in E2. inversion E2; subst v.
  destruct (registered_class t) as [c|] eqn:C; [|unfold parameter_from_bytes in E; rewrite C in E; discriminate].
  destruct (registered_annotations t) as [an|] eqn:A; [|destruct t; discriminate].
  pose proof (readings_ok t (byte_at 34 l) c an C A) as R. rewrite forallb_forall in R. specialize (R _ I). cbn [snd reading_ok] in R.
  apply andb_prop in R as [R P]. apply andb_prop in R as [Rc Rn]. apply String.eqb_eq in Rc. apply names_eqb_eq in Rn. subst cls.
  exists c, an, attrs. split; [exact C|]. split; [exact A|]. split; [reflexivity|].
  clear - F Rn P B. unfold fits. revert an Rn P. induction F as [|a f attrs fields [En S] F IH]; intros [|n an] Rn P; try discriminate; [constructor|].
  cbn in Rn, P. inversion Rn as [[E1 E2]]. apply andb_prop in P as [P1 P2]. constructor; [|apply IH; assumption]. split; [congruence|].
  eapply shown_annotated; eauto.
Qed.

(** ** Configurations *)
(** what elgas/integration.py is used for: each object is dumped with the schema of
    its type, wrapped, and the list is dumped as one configuration *)
Lemma config_dump py (objs : list (Z * value * value)) : Forall (fun o => (exists l, snd (fst o) = VDict l) /\ (snd o = VNone \/ exists s, snd o = VStr s)) objs ->
  let items := map (fun o => VDict [("parameter_type", VInt (fst (fst o))); ("data", snd (fst o)); ("series_name", snd o)]) objs in
  dump py UtilitarianConfigurationSchema (VObj "UtilitarianConfiguration" [("objects", VList items)]) = Ok (VDict [("objects", VList items)]) /\
  load py UtilitarianConfigurationSchema (VDict [("objects", VList items)]) = Ok (VDict [("objects", VList items)]).
Proof.
  intros F items. set (item := Nested (schema_fields UtilitarianConfigurationObjectSchema) (schema_post_load UtilitarianConfigurationObjectSchema)).
  assert (forall o, In o items -> serialize py item o = Ok o /\ deserialize py item o = Ok o /\ o <> VNone) as H.
  { intros o I. apply in_map_iff in I as ([[n d] sn] & <- & I). rewrite Forall_forall in F. destruct (F _ I) as [(l & E) S]. cbn [fst snd] in *. subst d.
    destruct S as [->|[s ->]]; (split; [reflexivity|split; [reflexivity|discriminate]]). }
  assert (serialize py (List_ item) (VList items) = Ok (VList items) /\ deserialize py (List_ item) (VList items) = Ok (VList items)) as [S D].
  { cbn [serialize deserialize]. split.
    - match goal with |- (_ <- ?g items;; _) = _ => assert (g items = Ok items) as X; [|rewrite X; reflexivity] end.
      clear F. revert H. generalize items. clear. intros l H. induction l as [|v l IH]; [reflexivity|].
      destruct (H v (or_introl eq_refl)) as [E _]. rewrite E. cbn [bind]. rewrite IH; [reflexivity|intros; apply H; right; assumption].
    - match goal with |- (_ <- ?g items;; _) = _ => assert (g items = Ok (Some items)) as X; [|rewrite X; reflexivity] end.
      clear F. revert H. generalize items. clear. intros l H. induction l as [|v l IH]; [reflexivity|].
      destruct (H v (or_introl eq_refl)) as (_ & E & N). destruct v; try contradiction; rewrite E; rewrite IH; try reflexivity; intros; apply H; right; assumption. }
  split.
  - change (dump py UtilitarianConfigurationSchema (VObj "UtilitarianConfiguration" [("objects", VList items)])) with
      (x <- (x <- serialize py (List_ item) (VList items);; xs <- Ok [];; Ok (("objects", x) :: xs));; Ok (VDict x)). rewrite S. reflexivity.
  - unfold load. rewrite deserialize_nested.
    change (load_fields py [("objects", VList items)] (schema_fields UtilitarianConfigurationSchema)) with
      (collect "objects" (x <- deserialize py (List_ item) (VList items);; Ok (Some x)) (Ok (Some []))). rewrite D. reflexivity.
Qed.
Lemma find_type_ok t : find_type (VInt (type_code t)) = Ok t.
Proof. destruct t; vm_compute; reflexivity. Qed.
Lemma each_ok {A B} (f : A -> res B) l r : Forall2 (fun x y => f x = Ok y) l r -> each f l = Ok r.
Proof. induction 1 as [|x y l r E F IH]; [reflexivity|]. cbn. rewrite E. cbn. rewrite IH. reflexivity. Qed.
Lemma dump_is_dict py s c attrs d : dump py s (VObj c attrs) = Ok d -> exists l, d = VDict l.
Proof. unfold dump. rewrite serialize_nested by discriminate. destruct (dump_fields _ _ _); [|discriminate]. cbn. intros H. inversion H. eauto. Qed.
Theorem configuration_kept py objs : lawful py -> Forall kept objs -> exists data objs', save py objs = Ok data /\ restore py data = Ok objs' /\
  Forall2 (fun o o' => fst (fst o) = fst (fst o') /\ same (snd (fst o)) (snd (fst o')) /\ snd o = snd o') objs objs'.
Proof.
  intros P F.
  set (item := fun (o : Z * value * value) => VDict [("parameter_type", VInt (fst (fst o))); ("data", snd (fst o)); ("series_name", snd o)]).
  assert (exists raws objs', Forall2 (fun o r => save_object py o = Ok (item r)) objs raws /\
    Forall (fun o : Z * value * value => (exists l, snd (fst o) = VDict l) /\ (snd o = VNone \/ exists s, snd o = VStr s)) raws /\
    Forall2 (fun r o' => restore_object py (item r) = Ok o') raws objs' /\
    Forall2 (fun o o' => fst (fst o) = fst (fst o') /\ same (snd (fst o)) (snd (fst o')) /\ snd o = snd o') objs objs') as (raws & objs' & A & B & C & D).
  { induction F as [|[[t v] sn] objs (I & Fin & L & M) F (raws & objs' & A & B & C & D)]; [exists [], []; repeat split; constructor|].
    cbn [fst snd] in *.
    destruct (instance_inv t v I (not_difference t v L) L) as (s & c & an & attrs & R & _ & Ev & _).
    destruct (round_trip py t s v P R I Fin L M) as (d & v' & Ed & El & Q).
    assert (exists l, d = VDict l) as [l Dl] by (subst v; eapply dump_is_dict; exact Ed).
    exists ((type_code t, d, match sn with Some x => VStr x | None => VNone end) :: raws), ((t, v', sn) :: objs').
    split; [|split; [|split]]; constructor; try assumption.
    - unfold save_object, by_parameter_id. rewrite R. cbn [bind]. rewrite Ed. cbn [bind]. subst d. destruct sn; reflexivity.
    - cbn [fst snd]. split; [exists l; exact Dl|]. destruct sn; [right; eexists; reflexivity|left; reflexivity].
    - unfold restore_object, item. cbn [fst snd item_of lookup]. cbn [String.eqb Ascii.eqb Bool.eqb bind]. rewrite find_type_ok. cbn [bind].
      unfold by_parameter_id. rewrite R. cbn [bind]. rewrite El. cbn [bind]. destruct sn; reflexivity.
    - cbn [fst snd]. split; [reflexivity|]. split; [exact Q|reflexivity]. }
  destruct (config_dump py raws B) as [E1 E2]. fold item in E1, E2.
  exists (VDict [("objects", VList (map item raws))]), objs'. split; [|split; [|exact D]].
  - unfold save. rewrite (each_ok (save_object py) objs (map item raws)); [exact E1|]. clear - A. induction A; cbn; constructor; assumption.
  - unfold restore. rewrite E2. cbn [bind item_of lookup]. cbn [String.eqb Ascii.eqb Bool.eqb bind]. apply each_ok. clear - C. induction C; cbn; constructor; assumption.
Qed.

(** ** For examples: finiteness by computation *)
Fixpoint all_finite (v : value) : bool :=
  match v with
  | VFloat x => finite x
  | VList l => (fix go (l : list value) : bool := match l with [] => true | v :: l' => all_finite v && go l' end) l
  | VObj _ l | VDict l => (fix go (l : list (string * value)) : bool := match l with [] => true | (_, v) :: l' => all_finite v && go l' end) l
  | _ => true
  end.
Lemma all_finite_ok v : all_finite v = true -> finite_floats v.
Proof.
  intros H x O. induction O as [|v l I O IH|c name v l I O IH|name v l I O IH].
  - destruct x; try discriminate. eauto.
  - apply IH. cbn in H. induction l as [|w l IHl]; [contradiction|]. apply andb_prop in H as [A B]. destruct I as [->|I]; auto.
  - apply IH. cbn in H. induction l as [|[m w] l IHl]; [contradiction|]. apply andb_prop in H as [A B]. destruct I as [E|I]; [inversion E; subst|]; auto.
  - apply IH. cbn in H. induction l as [|[m w] l IHl]; [contradiction|]. apply andb_prop in H as [A B]. destruct I as [E|I]; [inversion E; subst|]; auto.
Qed.
Lemma nan_dumped py : exists l v d, is_bytes l /\ parameter_from_bytes ANALOG_MEASURAND l = Ok v /\ dump py AnalogQuantitySchema v = Ok d /\ ~ json d.
Proof.
  exists (repeat 255 71). eexists. eexists. split; [repeat constructor; lia|]. split; [vm_compute; reflexivity|].
  split; [cbv; reflexivity|]. intros J. inversion J as [| | | | | |? F]; subst. rewrite Forall_forall in F.
  specialize (F ("digit", VFloat NaN)). assert (json (VFloat NaN)) as X by (apply F; do 13 right; left; reflexivity). inversion X.
Qed.
Lemma difference_type_error py : exists l, accepts_keys DifferenceBaseCounterSchema l /\ load py DifferenceBaseCounterSchema (VDict l) = Err TypeError.
Proof.
  exists (map (fun f : spec kind => (f_name f, match f_kind f with Boolean => VBool true | String_ => VStr [] | _ => VInt 0 end)) (schema_fields DifferenceBaseCounterSchema)).
  split; [|cbv; reflexivity]. split; [|split].
  - intros name v I. apply in_map_iff in I as (f & E & I). inversion E; subst. apply in_map, I.
  - intros f I _. apply lookup_some. rewrite map_map. cbn [fst]. apply in_map, I.
  - intros f I _ L. apply lookup_In in L. apply in_map_iff in L as (g & E & _). inversion E as [[E1 E2]]. destruct (f_kind g); discriminate.
Qed.
