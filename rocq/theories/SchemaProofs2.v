(** Proofs about the registered schemas. *)
From Coq Require Import QArith.
From Verif Require Import PyFacts PyFloat ParamLang Parameters Schema Schemas SpecText SpecApplication SpecParameters SpecSchema FloatProofs ParamProofs ParserProofs SchemaProofs.
Open Scope string_scope.
Open Scope list_scope.
Open Scope Z_scope.

Definition schema_ok (s : schema) (an : list (string * annotation)) : bool :=
  nodup_b (map f_name (schema_fields s)) && nodup_b (map fst an) &&
  forallb (fun n => existsb (String.eqb n) (map fst an)) (map f_name (schema_fields s)) &&
  forallb (fun n => existsb (String.eqb n) (map f_name (schema_fields s))) (map fst an) &&
  forallb (fun f => match lookup (f_name f) an with Some a => compatible (f_kind f) (f_allow_none f) a | None => false end) (schema_fields s).
Lemma schema_ok_inv s an : schema_ok s an = true -> NoDup (map f_name (schema_fields s)) /\ NoDup (map fst an) /\
  (forall n, In n (map f_name (schema_fields s)) <-> In n (map fst an)) /\
  (forall f, In f (schema_fields s) -> exists a, lookup (f_name f) an = Some a /\ compatible (f_kind f) (f_allow_none f) a = true).
Proof.
  unfold schema_ok. rewrite !andb_true_iff, !forallb_forall. intros ((((A & B) & C) & D) & E).
  split; [apply nodup_b_ok, A|]. split; [apply nodup_b_ok, B|]. split.
  - intros n. split; intros I; [apply C in I|apply D in I]; apply existsb_name in I; exact I.
  - intros f I. specialize (E f I). destruct (lookup (f_name f) an) as [a|]; [|discriminate]. exists a. split; [reflexivity|exact E].
Qed.
Lemma fits_names attrs an : fits attrs an -> map fst attrs = map fst an.
Proof. induction 1 as [|a n attrs an [E _] F IH]; [reflexivity|]. cbn. rewrite E, IH. reflexivity. Qed.
Lemma fits_lookup attrs an name a : fits attrs an -> lookup name an = Some a -> exists v, lookup name attrs = Some v /\ annotated a v.
Proof.
  induction 1 as [|[x v] [y b] attrs an [E A] F IH]; [discriminate|]. cbn in E, A. subst y. cbn [lookup].
  destruct (String.eqb name x); [|exact IH]. intros H. inversion H; subst. exists v. split; [reflexivity|exact A].
Qed.
Lemma finite_attr c attrs name v : finite_floats (VObj c attrs) -> lookup name attrs = Some v -> finite_floats v.
Proof. intros F L x O. apply F. eapply occurs_obj; [apply lookup_In, L|exact O]. Qed.

Lemma occurs_obj_inv x c attrs : occurs x (VObj c attrs) -> exists name v, In (name, v) attrs /\ occurs x v.
Proof. intros O. inversion O. eauto. Qed.

Section Objects.
Variable py : python.
Hypothesis Py : lawful py.

Lemma all_carried s an c attrs : schema_ok s an = true -> fits attrs an -> finite_floats (VObj c attrs) ->
  forall f, In f (schema_fields s) -> exists v, lookup (f_name f) attrs = Some v /\ carried py f v.
Proof.
  intros S F Fin f I. apply schema_ok_inv in S as (_ & _ & _ & K). destruct (K f I) as (a & La & C).
  destruct (fits_lookup _ _ _ _ F La) as (v & Lv & A). exists v. split; [exact Lv|]. eapply carried_ok; eauto. eapply finite_attr; eauto.
Qed.
Lemma object_round_trip s c an attrs : schema_post_load s = Some c -> map fst an = class_attrs c -> schema_ok s an = true ->
  fits attrs an -> finite_floats (VObj (class_name c) attrs) ->
  exists d v', dump py s (VObj (class_name c) attrs) = Ok d /\ load py s d = Ok v' /\ same (VObj (class_name c) attrs) v'.
Proof.
  intros P N S F Fin. pose proof (all_carried s an (class_name c) attrs S F Fin) as H. apply schema_ok_inv in S as (S1 & S2 & S3 & _).
  unfold dump, load. rewrite P. apply object_carried; auto.
  - rewrite <- N. exact S2.
  - rewrite (fits_names _ _ F). exact N.
  - intros n. rewrite S3, N. reflexivity.
Qed.
Lemma dict_round_trip s c an attrs : schema_post_load s = None -> schema_ok s an = true ->
  fits attrs an -> finite_floats (VObj c attrs) ->
  exists d kw, dump py s (VObj c attrs) = Ok d /\ load py s d = Ok (VDict kw) /\ same (VDict attrs) (VDict kw).
Proof.
  intros P S F Fin. pose proof (all_carried s an c attrs S F Fin) as H. apply schema_ok_inv in S as (S1 & S2 & S3 & _).
  unfold dump, load. rewrite P. apply dict_carried; auto.
  intros n. rewrite S3, (fits_names _ _ F). reflexivity.
Qed.

(** without the assumption on floats *)
Lemma total_field f a v : compatible (f_kind f) (f_allow_none f) a = true -> annotated a v ->
  exists d, serialize py (f_kind f) v = Ok d /\
   ((exists o, deserialize_field (f_required f) (f_allow_none f) (deserialize py (f_kind f)) (Some d) = Ok (Some o)) \/
    (deserialize_field (f_required f) (f_allow_none f) (deserialize py (f_kind f)) (Some d) = Err ValidationError)) /\
   (f_kind f <> Number -> (exists x, occurs x v /\ finite x = false) ->
    deserialize_field (f_required f) (f_allow_none f) (deserialize py (f_kind f)) (Some d) = Err ValidationError).
Proof.
  intros C A.
  assert ((exists x, occurs x v /\ finite x = false) \/ finite_floats v) as [O|Fin].
  { assert (forall xs, (exists x, In x xs /\ finite x = false) \/ Forall finite_value xs) as T.
    { induction xs as [|x xs [(y & I & E)|IH]]; [right; constructor|left; exists y; split; [right; exact I|exact E]|].
      destruct (finite x) eqn:E; [|left; exists x; split; [left; reflexivity|exact E]]. right. constructor; [|exact IH].
      destruct x; try discriminate. do 3 eexists. reflexivity. }
    assert (forall v, (exists xs, forall x, occurs x v <-> In x xs) -> (exists x, occurs x v /\ finite x = false) \/ finite_floats v) as U.
    { intros w (xs & H). destruct (T xs) as [(x & I & E)|F]; [left; exists x; split; [apply H, I|exact E]|right].
      intros x O. rewrite Forall_forall in F. apply F, H, O. }
    apply U. clear - A. induction A.
    - exists []. intros x; split; [intros O; inversion O|intros []].
    - exists []. intros x; split; [intros O; inversion O|intros []].
    - exists []. intros x; split; [intros O; inversion O|intros []].
    - exists [x]. intros y; split; [intros O; inversion O; left; reflexivity|intros [<-|[]]; constructor].
    - exists []. intros x; split; [intros O; inversion O|intros []].
    - exists []. intros x; split; [intros O; inversion O|intros []].
    - exact IHA.
    - exists []. intros x; split; [intros O; inversion O as [|? ? HI HO|? ? ? ? HI HO|? ? ? HI HO]; subst|intros []]. apply in_map_iff in HI as (s & <- & _). inversion HO.
    - exists xs. intros x. split; [intros O; apply occurs_obj_inv in O as (name & v & HI & HO)|intros I].
      + apply in_combine_r in HI. apply in_map_iff in HI as (y & <- & I). inversion HO; subst. exact I.
      + assert (exists n, In (n, VFloat x) (combine gas_components (map VFloat xs))) as [n J].
        { apply (in_map VFloat) in I. rewrite <- (map_length VFloat) in H0. revert I H0. generalize (map VFloat xs) gas_components. clear. intros l.
          induction l as [|v l IH]; intros [|n g] I L; try discriminate; [contradiction|]. destruct I as [->|I]; [exists n; left; reflexivity|].
          inversion L. destruct (IH g I H0) as [m J]. exists m. right. exact J. }
        eapply occurs_obj; [exact J|constructor]. }
  - destruct O as (x & O & E). destruct A.
    + inversion O. + inversion O. + inversion O.
    + inversion O; subst. destruct (f_kind f) as [| | | | | |[]|] eqn:K; try discriminate.
      * destruct (float_field_refused py Py f x0 as_string K H E) as (d & S & D). exists d. rewrite K in *. split; [exact S|]. split; [right; exact D|]. intros _ _. exact D.
      * exists (VFloat x0). split; [reflexivity|]. split; [left; exists (VFloat x0); reflexivity|]. intros N; contradiction.
    + inversion O. + inversion O.
    + exfalso. destruct (f_kind f) as [| | | | | |[]|]; try discriminate; destruct a; try discriminate; inversion A; subst; inversion O.
    + exfalso. inversion O as [|? ? HI HO|? ? ? ? HI HO|? ? ? HI HO]; subst. apply in_map_iff in HI as (s & <- & _). inversion HO.
    + destruct (f_kind f) as [| | | | | |[]|fs p] eqn:K; try discriminate. cbn [compatible] in C.
      pose proof C as G. unfold gas_ok in G. apply andb_prop in G as [G P]. apply andb_prop in G as [N Ks]. apply names_eqb_eq in N.
      destruct p as [c|]; [|discriminate].
      assert (map fst (combine gas_components (map VFloat xs)) = gas_components) as Ef by (apply combine_fst; rewrite map_length; exact H0).
      assert (NoDup (map f_name fs)) as Nd by (rewrite N; apply gas_nodup).
      rewrite serialize_nested by discriminate.
      assert (forall g, In g fs -> exists w d, lookup (f_name g) (combine gas_components (map VFloat xs)) = Some (VFloat w) /\ is_double w /\
          serialize py (f_kind g) (VFloat w) = Ok d /\
          ((exists o, deserialize_field (f_required g) (f_allow_none g) (deserialize py (f_kind g)) (Some d) = Ok (Some o)) \/
           deserialize_field (f_required g) (f_allow_none g) (deserialize py (f_kind g)) (Some d) = Err ValidationError) /\
          (finite w = false -> deserialize_field (f_required g) (f_allow_none g) (deserialize py (f_kind g)) (Some d) = Err ValidationError)) as Z.
      { intros g I. destruct (lookup_some (f_name g) (combine gas_components (map VFloat xs))) as [w Hw].
        { rewrite Ef, <- N. apply in_map, I. }
        pose proof (lookup_In _ _ _ Hw) as J. apply in_combine_r in J. apply in_map_iff in J as (y & <- & J).
        rewrite forallb_forall in Ks. specialize (Ks g I). destruct (f_kind g) eqn:Kg; try discriminate.
        assert (is_double y) as Dy by (rewrite Forall_forall in H; apply H, J). exists y.
        destruct (finite y) eqn:Ey.
        - destruct (float_field_carried py Py g y as_string Kg Dy) as (d & v' & S & D & _).
          { destruct y; try discriminate. do 3 eexists; reflexivity. }
          rewrite Kg in *. exists d. split; [exact Hw|]. split; [exact Dy|]. split; [exact S|]. split; [left; exists v'; exact D|discriminate].
        - destruct (float_field_refused py Py g y as_string Kg Dy Ey) as (d & S & D). rewrite Kg in *.
          exists d. split; [exact Hw|]. split; [exact Dy|]. split; [exact S|]. split; [right; exact D|intros _; exact D]. }
      destruct (dump_all py fs (VObj "GasComposition" (combine gas_components (map VFloat xs)))) as (ds & Ed & Fd).
      { apply Forall_forall. intros g I. destruct (Z g I) as (w & d & L & _ & S & _). exists (VFloat w), d. split; [exact L|exact S]. }
      pose proof (dumped_names _ _ _ _ Fd) as Nds. assert (NoDup (map fst ds)) as Dds by (rewrite Nds; exact Nd).
      assert (forall g, In g fs -> exists w, lookup (f_name g) (combine gas_components (map VFloat xs)) = Some (VFloat w) /\
          ((exists o, field_load py ds g = Ok (Some o)) \/ field_load py ds g = Err ValidationError) /\ (finite w = false -> field_load py ds g = Err ValidationError)) as Y.
      { intros g I. destruct (Z g I) as (w & d & L & _ & S & D & Q). exists w. split; [exact L|].
        destruct (Forall2_pair _ _ _ _ Fd I) as ([n d'] & J & En & w' & Gw & Sw). cbn [fst snd get_value] in *. subst n.
        unfold field_load. rewrite (In_lookup _ _ _ Dds J). rewrite L in Gw. inversion Gw; subst w'. rewrite S in Sw. inversion Sw; subst d'.
        split; [exact D|exact Q]. }
      rewrite Ed. exists (VDict ds). split; [reflexivity|].
      assert (deserialize py (Nested fs (Some c)) (VDict ds) = Err ValidationError) as X.
      { rewrite deserialize_nested, load_invalid; [reflexivity| |].
        - apply Forall_forall. intros g I. destruct (Y g I) as (w & _ & [(o & D)|D] & _); [left; eexists; exact D|right; exact D].
        - apply occurs_obj_inv in O as (name & v & HI & HO). pose proof (in_combine_l _ _ _ _ HI) as Jn. rewrite <- N in Jn. apply in_map_iff in Jn as (g & <- & I).
          apply Exists_exists. exists g. split; [exact I|]. destruct (Y g I) as (w & L & _ & Q). apply Q.
          rewrite (In_lookup _ _ _ ltac:(rewrite Ef; apply gas_nodup) HI) in L. inversion L; subst. inversion HO; subst. exact E. }
      cbn [deserialize_field]. rewrite X. split; [right; reflexivity|]. intros _ _. reflexivity.
  - destruct (carried_ok py Py f a v C A Fin) as (d & v' & S & D & _). exists d. split; [exact S|]. split; [left; exists v'; exact D|].
    intros _ (x & O & E). destruct (Fin x O) as (? & ? & ? & ->). discriminate.
Qed.
Lemma object_refused s c an attrs : schema_ok s an = true -> fits attrs an -> forallb (fun f => match f_kind f with Number => false | _ => true end) (schema_fields s) = true ->
  (exists x, occurs x (VObj c attrs) /\ finite x = false) ->
  exists d, dump py s (VObj c attrs) = Ok d /\ load py s d = Err ValidationError.
Proof.
  intros S F K O. apply schema_ok_inv in S as (Nd & Na & Q & C).
  assert (forall f, In f (schema_fields s) -> exists v d, lookup (f_name f) attrs = Some v /\ serialize py (f_kind f) v = Ok d /\
    ((exists o, deserialize_field (f_required f) (f_allow_none f) (deserialize py (f_kind f)) (Some d) = Ok (Some o)) \/
     (deserialize_field (f_required f) (f_allow_none f) (deserialize py (f_kind f)) (Some d) = Err ValidationError)) /\
    ((exists x, occurs x v /\ finite x = false) ->
     deserialize_field (f_required f) (f_allow_none f) (deserialize py (f_kind f)) (Some d) = Err ValidationError)) as Z.
  { intros f I. destruct (C f I) as (a & La & Cf). destruct (fits_lookup _ _ _ _ F La) as (v & Lv & A).
    destruct (total_field f a v Cf A) as (d & Sd & T & X). exists v, d. split; [exact Lv|]. split; [exact Sd|]. split; [exact T|].
    apply X. rewrite forallb_forall in K. specialize (K f I). destruct (f_kind f); discriminate. }
  destruct (dump_all py (schema_fields s) (VObj c attrs)) as (ds & Ed & Fd).
  { apply Forall_forall. intros f I. destruct (Z f I) as (w & d & L & Sd & _). exists w, d. split; [exact L|exact Sd]. }
  pose proof (dumped_names _ _ _ _ Fd) as Nds. assert (NoDup (map fst ds)) as Dds by (rewrite Nds; exact Nd).
  exists (VDict ds). unfold dump, load. rewrite serialize_nested by discriminate. rewrite Ed. split; [reflexivity|].
  assert (forall f, In f (schema_fields s) -> exists v, lookup (f_name f) attrs = Some v /\
     ((exists o, field_load py ds f = Ok (Some o)) \/ field_load py ds f = Err ValidationError) /\
     ((exists x, occurs x v /\ finite x = false) -> field_load py ds f = Err ValidationError)) as Y.
  { intros f I. destruct (Z f I) as (v & d & L & Sd & D & X). exists v. split; [exact L|].
    destruct (Forall2_pair _ _ _ _ Fd I) as ([n d'] & J & En & w' & Gw & Sw). cbn [fst snd get_value] in *. subst n.
    unfold field_load. rewrite (In_lookup _ _ _ Dds J). rewrite L in Gw. inversion Gw; subst w'. rewrite Sd in Sw. inversion Sw; subst d'.
    split; [exact D|exact X]. }
  rewrite deserialize_nested, load_invalid; [reflexivity| |].
  - apply Forall_forall. intros g I. destruct (Y g I) as (w & _ & [(o & D)|D] & _); [left; eexists; exact D|right; exact D].
  - destruct O as (x & O & E). apply occurs_obj_inv in O as (name & v & HI & HO). pose proof (fits_names _ _ F) as Nf.
    assert (In name (map f_name (schema_fields s))) as I. { apply Q. rewrite <- Nf. apply (in_map fst) in HI. exact HI. }
    apply in_map_iff in I as (f & <- & I). apply Exists_exists. exists f. split; [exact I|]. destruct (Y f I) as (w & L & _ & X). apply X.
    rewrite (In_lookup _ _ _ ltac:(rewrite Nf; exact Na) HI) in L. inversion L; subst. exists x. split; assumption.
Qed.
End Objects.
