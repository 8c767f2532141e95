(** Proofs about Secret.v. *)
From Coq Require Import String.
From Verif Require Import PyFacts Secret SpecSecret SpecClient ClientProofs.
Open Scope string_scope.
Open Scope list_scope.
Open Scope Z_scope.

Section ObjectInd.
Variable P : object -> Prop.
Hypothesis Hs : forall s, P (SecretString s).
Hypothesis Hb : forall b, P (SecretBytes b).
Hypothesis Hp : forall x, P (Plain x).
Hypothesis Hc : forall a items b, Forall (fun i => P (snd i)) items -> P (BuiltIn a items b).
Hypothesis Hi : forall c attrs, Forall (fun i => P (snd i)) attrs -> P (Instance c attrs).
Fixpoint object_all (o : object) : P o :=
  match o with
  | SecretString s => Hs s
  | SecretBytes b => Hb b
  | Plain x => Hp x
  | BuiltIn a items b => Hc a items b ((fix go (l : list (str * object)) : Forall (fun i => P (snd i)) l :=
      match l with [] => Forall_nil _ | i :: l' => Forall_cons i (object_all (snd i)) (go l') end) items)
  | Instance c attrs => Hi c attrs ((fix go (l : list (str * object)) : Forall (fun i => P (snd i)) l :=
      match l with [] => Forall_nil _ | i :: l' => Forall_cons i (object_all (snd i)) (go l') end) attrs)
  end.
End ObjectInd.

Section Repr.
Variables (sr : str -> str) (br : bytes -> str).
Notation repr := (object_repr sr br).

Fixpoint items_repr (stack : list string) (l : list (str * object)) : str :=
  match l with [] => [] | (before, o) :: l' => before ++ repr stack o ++ items_repr stack l' end.
Fixpoint attrs_repr (first : bool) (stack : list string) (l : list (str * object)) : str :=
  match l with
  | [] => []
  | (name, o) :: l' => (if first then [] else text ", ") ++ name ++ text "=" ++ repr stack o ++ attrs_repr false stack l'
  end.
Lemma repr_builtin stack a items b : repr stack (BuiltIn a items b) = a ++ items_repr stack items ++ b.
Proof.
  cbn [object_repr]. f_equal. f_equal. induction items as [|[x o] items IH]; [reflexivity|]. cbn [items_repr]. rewrite <- IH. reflexivity.
Qed.
Lemma repr_instance stack c attrs : repr stack (Instance c attrs) = c ++ text "(" ++ attrs_repr true ("__repr__" :: stack) attrs ++ text ")".
Proof.
  cbn [object_repr]. f_equal. f_equal. f_equal.
  match goal with |- ?f true attrs = _ => assert (forall b, f b attrs = attrs_repr b ("__repr__" :: stack) attrs) as X; [|apply X] end.
  induction attrs as [|[x o] attrs IH]; intros b; [reflexivity|]. cbn [attrs_repr].
  do 4 f_equal. apply IH.
Qed.

Lemma censored_alike : forall o stack o', censors stack = true -> alike o o' -> repr stack o = repr stack o'.
Proof.
  intros o. induction o using object_all; intros stack o' C A; inversion A; subst.
  - cbn. rewrite C. reflexivity.
  - cbn. rewrite C. reflexivity.
  - reflexivity.
  - rewrite !repr_builtin. f_equal. f_equal.
    clear A. match goal with F : Forall2 _ items _ |- _ => revert H; induction F as [|[x o] [x' o'] l l' [E1 E2] F IH]; intros H end; [reflexivity|].
    cbn in E1. subst x'. inversion H; subst. cbn [items_repr]. f_equal. rewrite IH by assumption. f_equal. apply H2; [exact C|exact E2].
  - rewrite !repr_instance. f_equal. f_equal. f_equal.
    match goal with |- attrs_repr true ?st _ = _ => set (stk := st); generalize true as b end.
    clear A. match goal with F : Forall2 _ attrs _ |- _ => revert H; induction F as [|[x o] [x' o'] l l' [E1 E2] F IH]; intros H b end; [reflexivity|].
    cbn in E1. subst x'. inversion H; subst. cbn [attrs_repr]. rewrite IH by assumption. f_equal. f_equal. f_equal. f_equal.
    apply H2; [reflexivity|exact E2].
Qed.
Lemma protected_item a items b before o : protected (BuiltIn a items b) -> In (before, o) items -> protected o.
Proof. intros P I s b' x E. apply (P s b' x). econstructor; eauto. Qed.
Lemma instance_alike stack c attrs attrs' : alike (Instance c attrs) (Instance c attrs') ->
  repr stack (Instance c attrs) = repr stack (Instance c attrs').
Proof.
  intros A. rewrite !repr_instance. f_equal. f_equal. f_equal.
  inversion A as [| | | |? ? ? F E1 E2]; subst. clear A. match goal with |- attrs_repr true ?st _ = _ => assert (censors st = true) as C by reflexivity; revert C; generalize st as stk; intros stk C; generalize true as b end.
  induction F as [|[x o] [x' o'] l l' [E1 E2] F IH]; intros b; [reflexivity|].
  cbn in E1. subst x'. cbn [attrs_repr]. rewrite IH. f_equal. f_equal. f_equal. f_equal.
  apply censored_alike; [exact C|exact E2].
Qed.
Lemma protected_alike : forall o stack o', protected o -> alike o o' -> repr stack o = repr stack o'.
Proof.
  intros o. induction o using object_all; intros stack o' P A; inversion A; subst.
  - exfalso. eapply P with (sr := fun s => s) (br := fun s => s). constructor.
  - exfalso. eapply P with (sr := fun s => s) (br := fun s => s). constructor.
  - reflexivity.
  - rewrite !repr_builtin. f_equal. f_equal.
    assert (forall before o, In (before, o) items -> protected o) as Q by (intros; eapply protected_item; eauto).
    clear P A.
    match goal with F : Forall2 _ items _ |- _ => revert H Q; induction F as [|[x o] [x' o'] l l' [E1 E2] F IH]; intros H Q end; [reflexivity|].
    cbn in E1. subst x'. inversion H; subst. cbn [items_repr]. f_equal. rewrite IH; [|assumption|intros; eapply Q; right; eauto]. f_equal.
    apply H2; [|exact E2]. eapply Q. left. reflexivity.
  - apply instance_alike. exact A.
Qed.

Lemma contains_refl x : contains x x. Proof. exists [], []. rewrite app_nil_r. reflexivity. Qed.
Lemma contains_app a b c x : contains b x -> contains (a ++ b ++ c) x.
Proof. intros (p & q & ->). exists (a ++ p), (q ++ c). rewrite <- !app_assoc. reflexivity. Qed.
Lemma contains_l b c x : contains b x -> contains (b ++ c) x. Proof. apply (contains_app [] b c x). Qed.
Lemma contains_r a b x : contains b x -> contains (a ++ b) x.
Proof. intros H. apply (contains_app a b [] x) in H. rewrite app_nil_r in H. exact H. Qed.
Lemma exposed_shown : forall x o, exposed sr br x o -> forall stack, ~ In "__repr__" stack -> contains (repr stack o) x.
Proof.
  assert (forall stack, ~ In "__repr__" stack -> censors stack = false) as C.
  { induction stack as [|n stack IH]; intros N; [reflexivity|]. cbn [censors]. destruct (String.eqb n "__repr__") eqn:E.
    - apply String.eqb_eq in E. subst. exfalso. apply N. left. reflexivity.
    - apply IH. intros X. apply N. right. exact X. }
  induction 1 as [s|b|x before o a items b I _ IH]; intros stack N.
  - cbn. rewrite (C _ N). apply contains_refl.
  - cbn. rewrite (C _ N). apply contains_refl.
  - rewrite repr_builtin. apply contains_app. induction items as [|[y o'] items IHi]; [contradiction|]. cbn [items_repr].
    destruct I as [E|I].
    + inversion E; subst. apply contains_r, contains_l, IH, N.
    + apply contains_r, contains_r, IHi, I.
Qed.
Lemma attr_shown : forall attrs name shown first stack, In (name, Plain shown) attrs -> contains (attrs_repr first stack attrs) shown.
Proof.
  induction attrs as [|[y o] attrs IH]; intros name shown first stack I; [contradiction|]. cbn [attrs_repr].
  destruct I as [E|I].
  - inversion E; subst. apply contains_r, contains_r, contains_r, contains_l, contains_refl.
  - apply contains_r, contains_r, contains_r, contains_r. eapply IH; eauto.
Qed.
Lemma instance_shows stack c attrs name shown : In (name, Plain shown) attrs -> contains (repr stack (Instance c attrs)) shown.
Proof. intros I. rewrite repr_instance. apply contains_r, contains_r, contains_l. eapply attr_shown; eauto. Qed.
End Repr.

Lemma instance_protected c attrs : protected (Instance c attrs).
Proof. intros sr br x E. inversion E. Qed.

Ltac attrs_alike := repeat (apply Forall2_cons; [split; [reflexivity|]|]); [..|apply Forall2_nil]; cbn [snd].
Lemma key_alike k k' : same_key k k' -> alike (key_object k) (key_object k').
Proof.
  intros [A B]. destruct k, k'; cbn; try constructor; exfalso.
  - specialize (B eq_refl). discriminate.
  - specialize (A eq_refl). discriminate.
Qed.
Lemma connection_alike sh c c' : same_connection c c' -> alike (connection_object sh c) (connection_object sh c').
Proof.
  intros (E1 & E2 & E3 & E4 & E5 & K & E6 & E7 & E8 & X). unfold connection_object. rewrite E1, E2, E3, E4, E5, E6, E7, E8.
  constructor. attrs_alike; try constructor.
  - apply key_alike. exact K.
  - attrs_alike. constructor.
  - unfold same_context in X. destruct (context c) as [[i k]|], (context c') as [[i' k']|]; try contradiction; [|constructor].
    cbn in X. subst i'. constructor. attrs_alike; constructor.
Qed.
Lemma client_alike sh cl cl' : same_connection (cl_connection cl) (cl_connection cl') -> alike (client_object sh cl) (client_object sh cl').
Proof.
  intros H. pose proof H as (E1 & E2 & E3 & E4 & E5 & K & E6 & E7 & E8 & X). unfold client_object. rewrite E5, E6.
  constructor. attrs_alike; [constructor|constructor|constructor|apply key_alike; exact K|constructor|apply connection_alike; exact H].
Qed.
Lemma request_alike sh r r' : same_request r r' -> alike (request_object sh r) (request_object sh r').
Proof. intros H. destruct H; cbn [request_object]; constructor; attrs_alike; constructor. Qed.
Lemma client_repr_same sr br sh stack cl cl' : same_connection (cl_connection cl) (cl_connection cl') ->
  object_repr sr br stack (client_object sh cl) = object_repr sr br stack (client_object sh cl').
Proof. intros H. apply protected_alike; [apply instance_protected|apply client_alike, H]. Qed.
Lemma request_repr_same sr br sh stack r r' : same_request r r' ->
  object_repr sr br stack (request_object sh r) = object_repr sr br stack (request_object sh r').
Proof. intros H. apply protected_alike; [destruct r; apply instance_protected|apply request_alike, H]. Qed.
Lemma made_same pw pw' pid k k' id w w' cl cl' : make_client pw pid k id w = Ok cl -> make_client pw' pid k' id w' = Ok cl' ->
  same_key (to_secret_byte k) (to_secret_byte k') -> same_connection (cl_connection cl) (cl_connection cl').
Proof.
  unfold make_client, make_connection. intros E E' [A B].
  destruct (validate 0 0 0 0 pw pid); [|discriminate]. destruct (validate 0 0 0 0 pw' pid); [|discriminate].
  cbn in E, E'. inversion E; inversion E'; subst. unfold same_connection; cbn. repeat split; auto.
  unfold create_cipher_context. destruct (to_secret_byte k), (to_secret_byte k'), id; cbn; auto.
  - specialize (B eq_refl). discriminate.
  - specialize (A eq_refl). discriminate.
Qed.
Lemma user_connection_shows sr br sh stack c :
  contains (object_repr sr br stack (plain_connection_object sr br sh c)) (sr (c_password c)) /\
  forall k, encryption_key c = Some k -> contains (object_repr sr br stack (plain_connection_object sr br sh c)) (br k).
Proof.
  split; [|intros k E]; eapply instance_shows; unfold plain_connection_object.
  - do 4 right. left. reflexivity.
  - rewrite E. do 6 right. left. reflexivity.
Qed.
