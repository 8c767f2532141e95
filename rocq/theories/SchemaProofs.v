(** Proofs about Schema.v and Schemas.v. *)
From Coq Require Import QArith.
From Verif Require Import PyFacts PyFloat ParamLang Parameters Schema Schemas SpecParameters SpecSchema FloatProofs ParamProofs.
Open Scope string_scope.
Open Scope list_scope.
Open Scope Z_scope.

(** ** Association lists *)
Lemma lookup_In {A} x (l : list (string * A)) v : lookup x l = Some v -> In (x, v) l.
Proof.
  induction l as [|[y w] l IH]; [discriminate|]. cbn [lookup]. destruct (String.eqb_spec x y) as [->|N].
  - intros E. inversion E. left. reflexivity.
  - intros E. right. apply IH, E.
Qed.
Lemma In_lookup {A} x (l : list (string * A)) v : NoDup (map fst l) -> In (x, v) l -> lookup x l = Some v.
Proof.
  induction l as [|[y w] l IH]; [contradiction|]. cbn [map fst lookup]. intros N I. inversion N; subst. destruct I as [E|I].
  - inversion E; subst. rewrite String.eqb_refl. reflexivity.
  - destruct (String.eqb_spec x y) as [->|D]; [|apply IH; assumption]. exfalso. apply H1. apply (in_map fst) in I. exact I.
Qed.
Lemma lookup_none {A} x (l : list (string * A)) : lookup x l = None <-> ~ In x (map fst l).
Proof.
  induction l as [|[y w] l IH]; [cbn; tauto|]. cbn [map fst lookup]. destruct (String.eqb_spec x y) as [->|D].
  - split; [discriminate|]. intros H. exfalso. apply H. left. reflexivity.
  - rewrite IH. cbn. split; [intros H [E|I]; [congruence|exact (H I)]|tauto].
Qed.
Lemma lookup_some {A} x (l : list (string * A)) : In x (map fst l) -> exists v, lookup x l = Some v.
Proof. intros I. destruct (lookup x l) eqn:E; [eauto|]. exfalso. apply lookup_none in E. contradiction. Qed.
Lemma existsb_name x (l : list string) : existsb (String.eqb x) l = true <-> In x l.
Proof.
  rewrite existsb_exists. split; [intros (y & I & E); apply String.eqb_eq in E; subst; exact I|].
  intros I. exists x. split; [exact I|apply String.eqb_refl].
Qed.
Fixpoint nodup_b (l : list string) : bool := match l with [] => true | x :: l' => negb (existsb (String.eqb x) l') && nodup_b l' end.
Lemma nodup_b_ok l : nodup_b l = true -> NoDup l.
Proof.
  induction l as [|x l IH]; intros H; [constructor|]. cbn in H. apply andb_prop in H as [A B]. constructor; [|apply IH, B].
  intros I. apply existsb_name in I. rewrite I in A. discriminate.
Qed.

Lemma arrange_all {A} (names : list string) (kw : list (string * A)) : (forall n, In n names -> exists v, lookup n kw = Some v) ->
  exists l, arrange names kw = Some l /\ map fst l = names /\ Forall (fun a => lookup (fst a) kw = Some (snd a)) l.
Proof.
  induction names as [|n names IH]; intros H; [exists []; repeat split; constructor|].
  destruct (H n (or_introl eq_refl)) as [v Hv]. destruct IH as (l & El & Em & F); [intros m I; apply H; right; exact I|].
  exists ((n, v) :: l). cbn [arrange]. rewrite Hv, El. split; [reflexivity|]. split; [cbn; f_equal; exact Em|]. constructor; [exact Hv|exact F].
Qed.

Section Marsh.
Variable py : python.

(** ** The loops over the fields *)
Fixpoint dump_fields (fs : list (spec kind)) (v : value) : res (list (string * value)) :=
  match fs with
  | [] => Ok []
  | f :: fs' =>
      match get_value (f_name f) v with
      | None => dump_fields fs' v
      | Some w => x <- serialize py (f_kind f) w ;; xs <- dump_fields fs' v ;; Ok ((f_name f, x) :: xs)
      end
  end.
Definition field_load (l : list (string * value)) (f : spec kind) : res (option value) :=
  deserialize_field (f_required f) (f_allow_none f) (deserialize py (f_kind f)) (lookup (f_name f) l).
Fixpoint load_fields (l : list (string * value)) (fs : list (spec kind)) : res collected :=
  match fs with
  | [] => Ok (Some [])
  | f :: fs' => collect (f_name f) (field_load l f) (load_fields l fs')
  end.
Lemma serialize_nested fs p v : v <> VNone -> serialize py (Nested fs p) v = (vs <- dump_fields fs v ;; Ok (VDict vs)).
Proof.
  intros N. assert (forall fs, (fix go (l : list (spec kind)) : res (list (string * value)) :=
                   match l with
                   | [] => Ok []
                   | mk_spec name _ _ k :: l' =>
                       match get_value name v with
                       | None => go l'
                       | Some w => x <- serialize py k w ;; xs <- go l' ;; Ok ((name, x) :: xs)
                       end
                   end) fs = dump_fields fs v) as E.
  { induction fs0 as [|[n r a k] fs0 IH]; [reflexivity|]. cbn [dump_fields f_name f_kind]. rewrite IH. reflexivity. }
  destruct v; try contradiction; cbn [serialize]; rewrite E; reflexivity.
Qed.
Lemma deserialize_nested fs p l : deserialize py (Nested fs p) (VDict l) = finish_load (map f_name fs) p l (load_fields l fs).
Proof.
  cbn [deserialize]. f_equal. induction fs as [|[n r a k] fs IH]; [reflexivity|]. cbn [load_fields]. rewrite <- IH. reflexivity.
Qed.
Lemma load_not_dict s v : (forall l, v <> VDict l) -> load py s v = Err ValidationError.
Proof. intros H. unfold load. cbn [deserialize]. destruct v; try reflexivity. exfalso. eapply H. reflexivity. Qed.

Lemma dump_all fs v : Forall (fun f => exists w d, get_value (f_name f) v = Some w /\ serialize py (f_kind f) w = Ok d) fs ->
  exists ds, dump_fields fs v = Ok ds /\
    Forall2 (fun f d => fst d = f_name f /\ exists w, get_value (f_name f) v = Some w /\ serialize py (f_kind f) w = Ok (snd d)) fs ds.
Proof.
  induction 1 as [|f fs (w & d & G & S) F (ds & E & H)]; [exists []; split; [reflexivity|constructor]|].
  exists ((f_name f, d) :: ds). split.
  - cbn [dump_fields]. rewrite G, S. cbn. rewrite E. reflexivity.
  - constructor; [|exact H]. split; [reflexivity|]. exists w. split; assumption.
Qed.
Lemma dump_inv fs v ds : dump_fields fs v = Ok ds -> Forall (fun f => exists w, get_value (f_name f) v = Some w) fs ->
    Forall2 (fun f d => fst d = f_name f /\ exists w, get_value (f_name f) v = Some w /\ serialize py (f_kind f) w = Ok (snd d)) fs ds.
Proof.
  intros E F. revert ds E. induction F as [|f fs (w & G) F IH]; intros ds E; cbn [dump_fields] in E; [inversion E; constructor|].
  rewrite G in E. destruct (serialize py (f_kind f) w) as [d|] eqn:S; [|discriminate]. cbn in E.
  destruct (dump_fields fs v) as [ds'|] eqn:D; [|discriminate]. cbn in E. inversion E; subst. constructor; [|apply IH; reflexivity].
  split; [reflexivity|]. exists w. split; assumption.
Qed.
Lemma dumped_names fs v ds : Forall2 (fun (f : spec kind) d => fst d = f_name f /\ exists w : value, get_value (f_name f) v = Some w /\ serialize py (f_kind f) w = Ok (snd d)) fs ds ->
  map fst ds = map f_name fs.
Proof. induction 1 as [|f d fs ds [E _] F IH]; [reflexivity|]. cbn. rewrite E, IH. reflexivity. Qed.
Lemma load_all l fs : Forall (fun f => exists v, field_load l f = Ok (Some v)) fs ->
  exists kw, load_fields l fs = Ok (Some kw) /\ Forall2 (fun f k => fst k = f_name f /\ field_load l f = Ok (Some (snd k))) fs kw.
Proof.
  induction 1 as [|f fs (v & E) F (kw & Ek & H)]; [exists []; split; [reflexivity|constructor]|].
  exists ((f_name f, v) :: kw). split; [cbn [load_fields]; rewrite E, Ek; reflexivity|]. constructor; [split; [reflexivity|exact E]|exact H].
Qed.
Lemma loaded_names l fs kw : Forall2 (fun f k => fst k = f_name f /\ field_load l f = Ok (Some (snd k))) fs kw -> map fst kw = map f_name fs.
Proof. induction 1 as [|f d fs ds [E _] F IH]; [reflexivity|]. cbn. rewrite E, IH. reflexivity. Qed.
Lemma load_invalid l fs : Forall (fun f => (exists o, field_load l f = Ok o) \/ field_load l f = Err ValidationError) fs ->
  Exists (fun f => field_load l f = Err ValidationError) fs -> load_fields l fs = Ok None.
Proof.
  intros F E. assert (forall fs, Forall (fun f => (exists o, field_load l f = Ok o) \/ field_load l f = Err ValidationError) fs ->
    exists o, load_fields l fs = Ok o) as T.
  { induction 1 as [|f fs' [[o H]|H] F' (r & Hr)]; [eexists; reflexivity| |]; cbn [load_fields]; rewrite H, Hr; [|eexists; reflexivity].
    destruct o; [destruct r|]; eexists; reflexivity. }
  induction F as [|f fs H F IH]; [inversion E|]. cbn [load_fields]. inversion E as [? ? X|? ? X]; subst.
  - rewrite X. destruct (T fs F) as [o ->]. reflexivity.
  - rewrite (IH X). destruct H as [[[v|] ->]| ->]; reflexivity.
Qed.
Lemma load_ok_inv l fs kw : load_fields l fs = Ok (Some kw) -> Forall (fun f => exists o, field_load l f = Ok o) fs.
Proof.
  revert kw. induction fs as [|f fs IH]; intros kw H; [constructor|]. cbn [load_fields] in H.
  destruct (field_load l f) as [[v|]|e] eqn:E; cbn in H.
  - destruct (load_fields l fs) as [[k|]|] eqn:L; try discriminate. constructor; [eexists; exact E|]. eapply IH. reflexivity.
  - constructor; [eexists; exact E|]. eapply IH. exact H.
  - destruct e; try discriminate. destruct (load_fields l fs); discriminate.
Qed.

(** ** One field *)
Definition carried (f : spec kind) (v : value) : Prop := exists d v', serialize py (f_kind f) v = Ok d /\
  deserialize_field (f_required f) (f_allow_none f) (deserialize py (f_kind f)) (Some d) = Ok (Some v') /\ same v v'.

(** ** One object *)
Lemma Forall2_pair {A B} (R : A -> B -> Prop) l m x : Forall2 R l m -> In x l -> exists y, In y m /\ R x y.
Proof. induction 1 as [|a b l m H F IH]; [contradiction|]. intros [<-|I]; [exists b; split; [left; reflexivity|exact H]|]. destruct (IH I) as (y & J & K). exists y. split; [right; exact J|exact K]. Qed.
Lemma Forall2_pair_r {A B} (R : A -> B -> Prop) l m y : Forall2 R l m -> In y m -> exists x, In x l /\ R x y.
Proof. induction 1 as [|a b l m H F IH]; [contradiction|]. intros [<-|I]; [exists a; split; [left; reflexivity|exact H]|]. destruct (IH I) as (x & J & K). exists x. split; [right; exact J|exact K]. Qed.

Lemma fields_carried fs c attrs : NoDup (map f_name fs) ->
  (forall f, In f fs -> exists v, lookup (f_name f) attrs = Some v /\ carried f v) ->
  exists ds kw, dump_fields fs (VObj c attrs) = Ok ds /\ load_fields ds fs = Ok (Some kw) /\
    map fst ds = map f_name fs /\ map fst kw = map f_name fs /\
    (forall name v w, lookup name attrs = Some v -> lookup name kw = Some w -> same v w).
Proof.
  intros N H. destruct (dump_all fs (VObj c attrs)) as (ds & Ed & Fd).
  { apply Forall_forall. intros f I. destruct (H f I) as (v & L & d & v' & S & _). exists v, d. split; [exact L|exact S]. }
  pose proof (dumped_names _ _ _ Fd) as Nd. assert (NoDup (map fst ds)) as Dd by (rewrite Nd; exact N).
  assert (forall f, In f fs -> exists v v', lookup (f_name f) attrs = Some v /\ field_load ds f = Ok (Some v') /\ same v v') as L.
  { intros f I. destruct (H f I) as (v & Lv & d & v' & S & D & Q). exists v, v'. split; [exact Lv|]. split; [|exact Q].
    destruct (Forall2_pair _ _ _ _ Fd I) as ([n d'] & J & En & w & Gw & Sw). cbn [fst snd get_value] in *. subst n.
    unfold field_load. rewrite (In_lookup _ _ _ Dd J). rewrite Lv in Gw. inversion Gw; subst w. rewrite S in Sw. inversion Sw; subst d'. exact D. }
  destruct (load_all ds fs) as (kw & Ek & Fk).
  { apply Forall_forall. intros f I. destruct (L f I) as (v & v' & _ & E & _). exists v'. exact E. }
  pose proof (loaded_names _ _ _ Fk) as Nk.
  exists ds, kw. split; [exact Ed|]. split; [exact Ek|]. split; [exact Nd|]. split; [exact Nk|].
  intros name v w Lv Lw. apply lookup_In in Lw. destruct (Forall2_pair_r _ _ _ _ Fk Lw) as (f & I & En & E). cbn [fst snd] in *. subst name.
  destruct (L f I) as (v1 & v2 & L1 & E2 & Q). rewrite L1 in Lv. inversion Lv; subst v1. rewrite E in E2. inversion E2; subst v2. exact Q.
Qed.
Lemma known_keys (ds : list (string * value)) names : map fst ds = names -> forallb (fun kv => existsb (String.eqb (fst kv)) names) ds = true.
Proof.
  intros E. apply forallb_forall. intros [n v] I. apply existsb_name. rewrite <- E. apply (in_map fst) in I. exact I.
Qed.
Lemma dict_carried fs c attrs : NoDup (map f_name fs) -> (forall name, In name (map f_name fs) <-> In name (map fst attrs)) ->
  (forall f, In f fs -> exists v, lookup (f_name f) attrs = Some v /\ carried f v) ->
  exists d kw, serialize py (Nested fs None) (VObj c attrs) = Ok d /\ deserialize py (Nested fs None) d = Ok (VDict kw) /\ same (VDict attrs) (VDict kw).
Proof.
  intros N Q H. destruct (fields_carried fs c attrs N H) as (ds & kw & Ed & Ek & Nd & Nk & S).
  exists (VDict ds), kw. split; [rewrite serialize_nested by discriminate; rewrite Ed; reflexivity|].
  split; [rewrite deserialize_nested, Ek; cbn [finish_load]; rewrite (known_keys ds _ Nd); reflexivity|].
  constructor; [|exact S]. intros name. rewrite !lookup_none, Nk, Q. reflexivity.
Qed.
Lemma object_carried fs c attrs : NoDup (map f_name fs) -> NoDup (class_attrs c) ->
  map fst attrs = class_attrs c -> (forall name, In name (map f_name fs) <-> In name (class_attrs c)) ->
  (forall f, In f fs -> exists v, lookup (f_name f) attrs = Some v /\ carried f v) ->
  exists d v', serialize py (Nested fs (Some c)) (VObj (class_name c) attrs) = Ok d /\ deserialize py (Nested fs (Some c)) d = Ok v' /\
    same (VObj (class_name c) attrs) v'.
Proof.
  intros N Nc Ea Q H. destruct (fields_carried fs (class_name c) attrs N H) as (ds & kw & Ed & Ek & Nd & Nk & S).
  destruct (arrange_all (class_attrs c) kw) as (l & El & Em & F).
  { intros n I. apply lookup_some. rewrite Nk. apply Q, I. }
  exists (VDict ds), (VObj (class_name c) l). split; [rewrite serialize_nested by discriminate; rewrite Ed; reflexivity|]. split.
  - rewrite deserialize_nested, Ek. cbn [finish_load]. rewrite (known_keys ds _ Nd). unfold construct.
    replace (all_known (class_attrs c) kw) with true; [rewrite El; reflexivity|]. symmetry. apply forallb_forall. intros [n v] I.
    apply existsb_name, Q. rewrite <- Nk. apply (in_map fst) in I. exact I.
  - constructor. assert (NoDup (map fst attrs)) as Na by (rewrite Ea; exact Nc).
    assert (map fst attrs = map fst l) as E2 by congruence.
    assert (forall n v, In (n, v) attrs -> lookup n attrs = Some v) as I1 by (intros; apply In_lookup; assumption).
    clear - S F E2 I1. 
    assert (forall a b, (forall n v, In (n, v) a -> lookup n attrs = Some v) -> map fst a = map fst b ->
      Forall (fun x => lookup (fst x) kw = Some (snd x)) b -> Forall2 (fun x y : string * value => fst x = fst y /\ same (snd x) (snd y)) a b) as X; [|apply X; assumption].
    induction a as [|[n v] a IH]; intros [|[m w] b] Ha Eab Fb; try discriminate; [constructor|].
    cbn in Eab. inversion Eab; subst. inversion Fb; subst. cbn [fst snd] in *. constructor.
    + split; [reflexivity|]. eapply S; [apply Ha; left; reflexivity|assumption].
    + apply IH; [intros; apply Ha; right; assumption|assumption|assumption].
Qed.

(** ** Fields and annotations *)
Fixpoint names_eqb (a b : list string) : bool :=
  match a, b with [], [] => true | x :: a', y :: b' => String.eqb x y && names_eqb a' b' | _, _ => false end.
Lemma names_eqb_eq a b : names_eqb a b = true -> a = b.
Proof.
  revert b. induction a as [|x a IH]; intros [|y b] H; try discriminate; [reflexivity|]. cbn in H. apply andb_prop in H as [A B].
  apply String.eqb_eq in A. subst y. f_equal. apply IH, B.
Qed.
(** a schema for a GasComposition *)
Definition gas_ok (fs : list (spec kind)) (p : option class) : bool :=
  names_eqb (map f_name fs) gas_components &&
  forallb (fun f => match f_kind f with Float true => true | _ => false end) fs &&
  match p with Some c => names_eqb (class_attrs c) gas_components && String.eqb (class_name c) "GasComposition" | None => false end.
Definition compatible (k : kind) (none : bool) (a : annotation) : bool :=
  match k, a with
  | Integer, AInt | Float _, AFloat | Number, AFloat | String_, AStr | Boolean, ABool | List_ String_, AStrs => true
  | Integer, AOptional AInt | String_, AOptional AStr => none
  | Nested fs p, AGasComposition => gas_ok fs p
  | _, _ => false
  end.
Definition finite_value (x : pyfloat) : Prop := exists s m e, x = Fin s m e.
Lemma fin_finite x : finite_value x -> finite x = true. Proof. intros (s & m & e & ->). reflexivity. Qed.
Lemma same_finite x y : same_float x y -> finite y = finite x.
Proof. destruct x, y; cbn; tauto. Qed.
Lemma same_float_refl x : same_float x x. Proof. destruct x; cbn; auto. split; reflexivity. Qed.

Hypothesis Py : lawful py.

Lemma float_field_carried f x b : f_kind f = Float b -> is_double x -> finite_value x -> carried f (VFloat x).
Proof.
  intros K D F. unfold carried. rewrite K. destruct b.
  - destruct (Py x D) as (y & R & S). exists (VStr (float_text py x)), (VFloat y). split; [reflexivity|]. split; [|constructor; exact S].
    cbn. rewrite R. cbn. rewrite (same_finite _ _ S), (fin_finite _ F). reflexivity.
  - exists (VFloat x), (VFloat x). split; [reflexivity|]. split; [|constructor; apply same_float_refl].
    cbn. rewrite (fin_finite _ F). reflexivity.
Qed.
Lemma float_field_refused f x b : f_kind f = Float b -> is_double x -> finite x = false ->
  exists d, serialize py (f_kind f) (VFloat x) = Ok d /\ deserialize_field (f_required f) (f_allow_none f) (deserialize py (f_kind f)) (Some d) = Err ValidationError.
Proof.
  intros K D F. rewrite K. destruct b.
  - destruct (Py x D) as (y & R & S). exists (VStr (float_text py x)). split; [reflexivity|]. cbn. rewrite R. cbn.
    rewrite (same_finite _ _ S), F. reflexivity.
  - exists (VFloat x). split; [reflexivity|]. cbn. rewrite F. reflexivity.
Qed.
Lemma strs_list l : (fix go (l : list value) : res (list value) :=
     match l with [] => Ok [] | v :: l' => x <- serialize py String_ v ;; xs <- go l' ;; Ok (x :: xs) end) (map VStr l) = Ok (map VStr l).
Proof. induction l as [|s l IH]; [reflexivity|]. cbn [map]. rewrite IH. reflexivity. Qed.
Lemma strs_load l : (fix go (l : list value) : res (option (list value)) :=
     match l with [] => Ok (Some []) | v :: l' => collect_item (match v with VNone => Err ValidationError | _ => deserialize py String_ v end) (go l') end) (map VStr l) = Ok (Some (map VStr l)).
Proof. induction l as [|s l IH]; [reflexivity|]. cbn [map]. rewrite IH. reflexivity. Qed.
Lemma same_refl_strs l : Forall2 same (map VStr l) (map VStr l).
Proof. induction l; constructor; [constructor|assumption]. Qed.

Lemma combine_fst {A B} (a : list A) : forall (b : list B), length b = length a -> map fst (combine a b) = a.
Proof. induction a as [|x a IH]; intros [|y b] H; try discriminate; [reflexivity|]. cbn. f_equal. apply IH. inversion H. reflexivity. Qed.
Lemma gas_nodup : NoDup gas_components. Proof. apply nodup_b_ok. vm_compute. reflexivity. Qed.

Lemma occurs_attr x c name v attrs : In (name, v) attrs -> occurs x v -> occurs x (VObj c attrs).
Proof. intros. econstructor; eauto. Qed.
Lemma gas_carried fs p xs : gas_ok fs p = true -> Forall is_double xs -> length xs = length gas_components -> Forall finite_value xs ->
  exists d v', serialize py (Nested fs p) (VObj "GasComposition" (combine gas_components (map VFloat xs))) = Ok d /\ deserialize py (Nested fs p) d = Ok v' /\ (exists l, d = VDict l) /\ same (VObj "GasComposition" (combine gas_components (map VFloat xs))) v'.
Proof.
  unfold gas_ok. intros G D L F. apply andb_prop in G as [G C]. apply andb_prop in G as [N K]. apply names_eqb_eq in N.
  destruct p as [c|]; [|discriminate]. apply andb_prop in C as [C1 C2]. apply names_eqb_eq in C1. apply String.eqb_eq in C2.
  assert (map fst (combine gas_components (map VFloat xs)) = gas_components) as Ef by (apply combine_fst; rewrite map_length; exact L).
  assert (forall n v, In (n, v) (combine gas_components (map VFloat xs)) -> exists x, v = VFloat x /\ is_double x /\ finite_value x) as V.
  { intros n v I. apply in_combine_r in I. apply in_map_iff in I as (x & <- & I). exists x. split; [reflexivity|].
    split; [rewrite Forall_forall in D; apply D, I|rewrite Forall_forall in F; apply F, I]. }
  rewrite <- C2. destruct (object_carried fs c (combine gas_components (map VFloat xs))) as (d & v' & S & E & Q).
  - rewrite N. apply gas_nodup.
  - rewrite C1. apply gas_nodup.
  - rewrite Ef, C1. reflexivity.
  - intros n. rewrite N, C1. reflexivity.
  - intros f I. destruct (lookup_some (f_name f) (combine gas_components (map VFloat xs))) as [v Hv].
    { rewrite Ef, <- N. apply in_map, I. }
    exists v. split; [exact Hv|]. destruct (V _ _ (lookup_In _ _ _ Hv)) as (x & -> & Dx & Fx).
    rewrite forallb_forall in K. specialize (K f I). destruct (f_kind f) eqn:Kf; try discriminate.
    eapply float_field_carried; eauto.
  - exists d, v'. split; [exact S|]. split; [exact E|]. split; [|exact Q]. rewrite serialize_nested in S by discriminate.
    destruct (dump_fields fs _); [|discriminate]. cbn in S. inversion S. eexists. reflexivity.
Qed.
Lemma carried_ok f a v : compatible (f_kind f) (f_allow_none f) a = true -> annotated a v -> finite_floats v -> carried f v.
Proof.
  intros C A F. destruct A.
  - unfold carried. destruct (f_kind f) as [| | | | | |[]|]; try discriminate. exists (VInt n), (VInt n). repeat split; constructor.
  - unfold carried. destruct (f_kind f) as [| | | | | |[]|]; try discriminate. exists (VInt (int_of_bool b)), (VInt (int_of_bool b)). repeat split. constructor. reflexivity.
  - unfold carried. destruct (f_kind f) as [| | | | | |[]|]; try discriminate. exists (VBool b), (VBool b). repeat split; constructor.
  - assert (finite_value x) as Fx by (apply F; constructor). destruct (f_kind f) as [| | | | | |[]|] eqn:K; try discriminate.
    + eapply float_field_carried; eauto.
    + unfold carried. rewrite K. exists (VFloat x), (VFloat x). repeat split. constructor. apply same_float_refl.
  - unfold carried. destruct (f_kind f) as [| | | | | |[]|]; try discriminate. exists (VStr s), (VStr s). repeat split; constructor.
  - assert (f_allow_none f = true) as N. { destruct (f_kind f) as [| | | | | |[]|], a; try discriminate C; exact C. }
    unfold carried. exists VNone, VNone. split; [destruct (f_kind f); reflexivity|]. rewrite N. split; [reflexivity|constructor].
  - unfold carried. destruct (f_kind f) as [| | | | | |[]|]; try discriminate; destruct a; try discriminate; inversion A; subst.
    + exists (VInt n), (VInt n). repeat split; constructor.
    + exists (VInt (int_of_bool b)), (VInt (int_of_bool b)). repeat split. constructor. reflexivity.
    + exists (VStr s), (VStr s). repeat split; constructor.
  - unfold carried. destruct (f_kind f) as [| | | | | |[]|]; try discriminate. exists (VList (map VStr l)), (VList (map VStr l)).
    split; [cbn [serialize]; rewrite strs_list; reflexivity|]. split; [|constructor; apply same_refl_strs].
    cbn [deserialize deserialize_field]. rewrite strs_load. reflexivity.
  - unfold carried. destruct (f_kind f) as [| | | | | |[]|fs p]; try discriminate.
    destruct (gas_carried fs p xs C H H0) as (d & v' & S & E & (l & ->) & Q).
    { apply Forall_forall. intros x I. apply F. 
      assert (In (VFloat x) (map snd (combine gas_components (map VFloat xs)))) as J.
      { replace (map snd (combine gas_components (map VFloat xs))) with (map VFloat xs); [apply in_map, I|].
        clear - H0. rewrite <- (map_length VFloat) in H0. revert H0. generalize gas_components (map VFloat xs). clear. intros g l. revert g.
        induction l as [|v l IH]; intros [|n g] H; try discriminate; [reflexivity|]. cbn. f_equal. apply IH. inversion H. reflexivity. }
      apply in_map_iff in J as ([n v] & E & J). cbn in E. subst v. eapply occurs_obj; [exact J|constructor]. }
    exists (VDict l), v'. split; [exact S|]. split; [|exact Q]. cbn [deserialize_field]. rewrite E. reflexivity.
Qed.
End Marsh.
