(** Reading parameter objects: a symbolic evaluator for the syntax of ParamLang.v,
    proved correct once, computes for each [from_bytes] which bytes every attribute
    comes from; comparing its output with the documented layout is then a
    computation. *)
From Verif Require Import PyFacts BitFacts DecodeFacts TextProofs Utils PyFloat ParamLang Parameters.
From Verif Require Import ApplicationProofs SpecText SpecApplication SpecParameters FloatProofs.
Open Scope string_scope.
Open Scope list_scope.
Open Scope Z_scope.

(** ** Symbolic values and decision trees *)
Inductive sym :=
| YNone
| YEmptyList
| YByte (off : Z)
| YBytes (off n : Z)
| YApp (o : op) (s : sym).

Inductive tree :=
| Need (n : Z) (t : tree)              (* IndexError unless the object has n bytes *)
| Check (s : sym) (t : tree)           (* the exception of s, if it raises *)
| Split (k : Z) (t1 t2 : tree)         (* t1 if there are more than k bytes *)
| AtEnd (k : Z) (t : tree)             (* AssertionError unless there are k bytes *)
| Give (kwargs : list (string * sym))
| Fail (e : exn)
| Unsupported.

Section Symbolic.
Variable call : string -> bytes -> res value.
Variable cls : class.

Fixpoint den (l : bytes) (s : sym) : res value :=
  match s with
  | YNone => Ok VNone
  | YEmptyList => Ok (VList [])
  | YByte off => Ok (VInt (byte_at off l))
  | YBytes off n => Ok (VBytes (field off n l))
  | YApp o s => v <- den l s ;; apply_op call o v
  end.

Fixpoint den_all (l : bytes) (kw : list (string * sym)) : res (list (string * value)) :=
  match kw with
  | [] => Ok []
  | (k, s) :: kw' => v <- den l s ;; vs <- den_all l kw' ;; Ok ((k, v) :: vs)
  end.

Fixpoint tree_eval (l : bytes) (t : tree) : option (res value) :=
  match t with
  | Need n t => if n <=? len l then tree_eval l t else Some (Err IndexError)
  | Check s t => match den l s with Ok _ => tree_eval l t | Err e => Some (Err e) end
  | Split k t1 t2 => if k <? len l then tree_eval l t1 else tree_eval l t2
  | AtEnd k t => if len l =? k then tree_eval l t else Some (Err AssertionError)
  | Give kw => Some (vs <- den_all l kw ;; construct cls vs)
  | Fail e => Some (Err e)
  | Unsupported => None
  end.

Definition senv := list (string * sym).

Fixpoint seval (env : senv) (k : Z) (e : expr) (cont : sym -> Z -> tree) : tree :=
  match e with
  | Var x => match lookup x env with Some s => cont s k | None => Fail KeyError end
  | None_ => cont YNone k
  | EmptyList => cont YEmptyList k
  | Pop => Need (k + 1) (cont (YByte k) (k + 1))
  | PopMany n => if n <? 2 then Unsupported else Need (k + n) (cont (YBytes k n) (k + n))
  | App o e => seval env k e (fun s k' => Check (YApp o s) (cont (YApp o s) k'))
  end.
Fixpoint skwargs (env : senv) (k : Z) (kws : list (string * expr)) (acc : list (string * sym)) : tree :=
  match kws with
  | [] => Give (rev acc)
  | (x, e) :: kws' => seval env k e (fun s k' => skwargs env k' kws' ((x, s) :: acc))
  end.
Fixpoint sexec (s : stmt) (env : senv) (k : Z) (cont : senv -> Z -> tree) : tree :=
  match s with
  | Assign x e => seval env k e (fun s k' => cont ((x, s) :: env) k')
  | IfData s1 s2 => Split k (sexec s1 env k cont) (sexec s2 env k cont)
  | AssertNotData => AtEnd k (cont env k)
  | Return kws => skwargs env k kws []
  | Skip => cont env k
  | Seq s1 s2 => sexec s1 env k (fun env' k' => sexec s2 env' k' cont)
  | AppendTo _ _ | ForRange _ _ => Unsupported
  end.

Definition agrees (l : bytes) (se : senv) (env : locals) : Prop :=
  Forall2 (fun s v => fst s = fst v /\ den l (snd s) = Ok (snd v)) se env.

Lemma agrees_lookup l se env x : agrees l se env ->
  match lookup x se with
  | Some s => exists v, lookup x env = Some v /\ den l s = Ok v
  | None => lookup x env = None
  end.
Proof.
  induction 1 as [|[a s] [b v] se env [E D] _ IH]; [reflexivity|]. cbn in E, D |- *. subst b.
  destruct (String.eqb x a); [exists v; split; [reflexivity|exact D]|exact IH].
Qed.

Lemma seval_ok l se env : agrees l se env -> forall e k cont r (K : value -> bytes -> res value),
  0 <= k <= len l ->
  (forall s v k', 0 <= k' <= len l -> den l s = Ok v -> tree_eval l (cont s k') = Some r -> K v (rest k' l) = r) ->
  tree_eval l (seval se k e cont) = Some r ->
  match eval call env (rest k l) e with Ok (v, d) => K v d | Err e => Err e end = r.
Proof.
  intros A. induction e as [x| | | |n|o e IH]; intros k cont r K Hk HK T; cbn [seval eval] in *.
  - pose proof (agrees_lookup l se env x A) as L. destruct (lookup x se) as [s|].
    + destruct L as (v & -> & D). apply (HK s v k Hk D T).
    + rewrite L. cbn in T. inversion T. reflexivity.
  - apply (HK YNone VNone k Hk eq_refl T).
  - apply (HK YEmptyList (VList []) k Hk eq_refl T).
  - cbn [tree_eval] in T. rewrite (pop0_rest k (k + 1) l eq_refl) by lia.
    destruct (Z.leb_spec (k + 1) (len l)).
    + apply (HK (YByte k) (VInt (byte_at k l)) (k + 1)); [lia|reflexivity|exact T].
    + inversion T. reflexivity.
  - destruct (Z.ltb_spec n 2) as [N|N]; [discriminate|]. cbn [tree_eval] in T.
    rewrite (pop_many_rest k n (k + n) l eq_refl) by lia. destruct (Z.leb_spec (k + n) (len l)).
    + apply (HK (YBytes k n) (VBytes (field k n l)) (k + n)); [lia|reflexivity|exact T].
    + inversion T. reflexivity.
  - pose proof (fun c => IH k c r (fun v d => match apply_op call o v with Ok v' => K v' d | Err e => Err e end) Hk) as IH'.
    assert (forall P : res (value * bytes),
      match match P with Ok (v, d) => match apply_op call o v with Ok v' => Ok (v', d) | Err e => Err e end | Err e => Err e end with
      | Ok (v, d) => K v d | Err e => Err e end =
      match P with Ok (v, d) => match apply_op call o v with Ok v' => K v' d | Err e => Err e end | Err e => Err e end) as COMM.
    { intros [[v d]|]; [|reflexivity]. destruct (apply_op call o v); reflexivity. }
    rewrite COMM. eapply IH'; [|exact T]. intros s v k' Hk' D T'. cbn [tree_eval] in T'. cbn [den] in T'. rewrite D in T'. cbn [bind] in T'.
    destruct (apply_op call o v) as [v'|e'] eqn:AP.
    + apply (HK (YApp o s) v' k' Hk'); [cbn [den]; rewrite D; exact AP|exact T'].
    + inversion T'. reflexivity.
Qed.

Lemma den_all_app l a b : den_all l (a ++ b) = (x <- den_all l a ;; y <- den_all l b ;; Ok (x ++ y)).
Proof.
  induction a as [|[k s] a IH]; cbn [den_all app].
  - cbn [bind]. destruct (den_all l b); reflexivity.
  - destruct (den l s); [|reflexivity]. cbn [bind]. rewrite IH.
    destruct (den_all l a); cbn [bind]; [|reflexivity]. destruct (den_all l b); reflexivity.
Qed.
Lemma skwargs_ok l se env : agrees l se env -> forall kws k acc vacc r, 0 <= k <= len l ->
  den_all l (rev acc) = Ok vacc ->
  tree_eval l (skwargs se k kws acc) = Some r ->
  match eval_kwargs call env (rest k l) kws with Ok (vs, _) => construct cls (vacc ++ vs) | Err e => Err e end = r.
Proof.
  intros A. induction kws as [|[x e] kws IH]; intros k acc vacc r Hk DA T; cbn [skwargs eval_kwargs] in *.
  - cbn [tree_eval] in T. rewrite DA in T. cbn [bind] in T. rewrite app_nil_r. inversion T. reflexivity.
  - pose proof (fun c => seval_ok l se env A e k c r
      (fun v d => match eval_kwargs call env d kws with Ok (vs, _) => construct cls (vacc ++ (x, v) :: vs) | Err e => Err e end) Hk) as S.
    assert (forall P : res (value * bytes),
      match match P with Err e => Err e | Ok (v, d) => match eval_kwargs call env d kws with Ok (vs, d') => Ok ((x, v) :: vs, d') | Err e => Err e end end with
      | Ok (vs, _) => construct cls (vacc ++ vs) | Err e => Err e end =
      match P with Ok (v, d) => match eval_kwargs call env d kws with Ok (vs, _) => construct cls (vacc ++ (x, v) :: vs) | Err e => Err e end | Err e => Err e end) as COMM.
    { intros [[v d]|]; [|reflexivity]. destruct (eval_kwargs call env d kws) as [[vs d']|]; reflexivity. }
    rewrite COMM. eapply S; [|exact T]. intros s v k' Hk' D T'.
    assert (den_all l (rev ((x, s) :: acc)) = Ok (vacc ++ [(x, v)])) as DA'.
    { cbn [rev]. rewrite den_all_app, DA. cbn [den_all bind]. rewrite D. reflexivity. }
    pose proof (IH k' _ _ r Hk' DA' T') as R. rewrite <- R.
    destruct (eval_kwargs call env (rest k' l) kws) as [[vs d']|]; [|reflexivity]. rewrite <- app_assoc. reflexivity.
Qed.

Definition finish (o : outcome) (K : locals -> bytes -> res value) : res value :=
  match o with Next env d => K env d | Returned v => Ok v | Raised e => Err e end.

Lemma sexec_ok l s : forall se env k cont r K, agrees l se env -> 0 <= k <= len l ->
  (forall se' env' k', agrees l se' env' -> 0 <= k' <= len l -> tree_eval l (cont se' k') = Some r -> K env' (rest k' l) = r) ->
  tree_eval l (sexec s se k cont) = Some r ->
  finish (exec call cls s env (rest k l)) K = r.
Proof.
  induction s as [x e|x e|s1 IH1 s2 IH2|x s IH| |kws| |s1 IH1 s2 IH2]; intros se env k cont r K A Hk HK T; cbn [sexec exec] in *; try discriminate.
  - pose proof (fun c => seval_ok l se env A e k c r (fun v d => K ((x, v) :: env) d) Hk) as S.
    assert (forall P : res (value * bytes), finish (match P with Ok (v, d) => Next ((x, v) :: env) d | Err e => Raised e end) K =
      match P with Ok (v, d) => K ((x, v) :: env) d | Err e => Err e end) as COMM by (intros [[v d]|]; reflexivity).
    rewrite COMM. eapply S; [|exact T]. intros s v k' Hk' D T'. cbn in T'. eapply HK; [|exact Hk'|exact T'].
    constructor; [split; [reflexivity|exact D]|exact A].
  - cbn [tree_eval] in T. destruct (Z.ltb_spec k (len l)) as [L|L].
    + destruct (rest k l) as [|b d] eqn:R.
      * apply rest_empty in R; lia.
      * rewrite <- R. eapply IH1; eauto.
    + assert (rest k l = []) as R by (apply rest_empty; lia). rewrite R. rewrite <- R. eapply IH2; eauto.
  - cbn [tree_eval] in T. destruct (Z.eqb_spec (len l) k) as [L|L].
    + assert (rest k l = []) as R by (apply rest_empty; lia). rewrite R. cbn [finish]. rewrite <- R. eapply HK; eauto.
    + destruct (rest k l) as [|b d] eqn:R; [apply rest_empty in R; lia|]. inversion T. reflexivity.
  - pose proof (skwargs_ok l se env A kws k [] [] r Hk eq_refl T) as S. rewrite <- S.
    destruct (eval_kwargs call env (rest k l) kws) as [[vs d]|]; [|reflexivity]. cbn [app].
    destruct (construct cls vs); reflexivity.
  - cbn [finish]. eapply HK; eauto.
  - pose proof (fun c => IH1 se env k c r (fun env' d => finish (exec call cls s2 env' d) K) A Hk) as S.
    match goal with |- ?lhs = _ => assert (lhs = finish (exec call cls s1 env (rest k l)) (fun env' d => finish (exec call cls s2 env' d) K)) as COMM
      by (destruct (exec call cls s1 env (rest k l)); reflexivity) end.
    rewrite COMM. eapply S; [|exact T]. intros se' env' k' A' Hk' T'. eapply IH2; eauto.
Qed.

Definition class_tree : tree :=
  match class_body cls with
  | None => Fail AttributeError
  | Some s => sexec s [] 0 (fun _ _ => Unsupported)
  end.
Lemma class_tree_ok l r : tree_eval l class_tree = Some r -> run_from_bytes call cls l = r.
Proof.
  unfold class_tree, run_from_bytes. destruct (class_body cls) as [s|]; [|intros T; inversion T; reflexivity].
  intros T. pose proof (sexec_ok l s [] [] 0 (fun _ _ => Unsupported) r (fun _ _ => Ok VNone) (Forall2_nil _)) as S.
  rewrite rest_0 in S. rewrite <- S; [destruct (exec call cls s [] l); reflexivity| |intros; discriminate|exact T].
  unfold len. lia.
Qed.
End Symbolic.

(** ** Comparing a tree with the documented layout *)
Inductive ty := TyNone | TyInt | TyBool | TyFloat | TyStr | TyBytes (n : Z) | TyObj.
Definition has_ty (v : value) (t : ty) : Prop :=
  match t, v with
  | TyNone, VNone | TyInt, VInt _ | TyBool, VBool _ | TyFloat, VFloat _ | TyStr, VStr _ | TyObj, VObj _ _ => True
  | TyBytes n, VBytes b => len b = n /\ is_bytes b
  | _, _ => False
  end.

Definition below (hi : option Z) (n : Z) : bool := match hi with Some h => h <? n | None => false end.
Definition cut (hi : option Z) (k : Z) : option Z := match hi with Some h => Some (Z.min h k) | None => Some k end.
Definition inside (n lo : Z) (hi : option Z) : Prop := lo <= n /\ match hi with Some h => n <= h | None => True end.

Definition exn_eqb (a b : exn) : bool :=
  match a, b with
  | IndexError, IndexError | AssertionError, AssertionError | TypeError, TypeError
  | AttributeError, AttributeError | KeyError, KeyError => true
  | _, _ => false
  end.
Lemma exn_eqb_eq a b : exn_eqb a b = true -> a = b.
Proof. destruct a, b; cbn; congruence. Qed.
Definition raises (d : reading) (e : exn) : bool := match d with Raises e' => exn_eqb e e' | _ => false end.
Lemma raises_ok d e l : raises d e = true -> conforms l (Err e) d.
Proof. destruct d as [|e']; [discriminate|]. cbn. intros H. apply exn_eqb_eq in H as ->. reflexivity. Qed.

Definition matches (s : sym) (p : place) : bool :=
  match s, p with
  | YNone, Missing => true
  | YByte o, Unsigned o' w => (o =? o') && (w =? 1)
  | YApp FromLe (YBytes o n), Unsigned o' w => (o =? o') && (n =? w)
  | YApp ToBool (YApp (BitAnd m) (YByte o)), Flag o' b => (o =? o') && (m =? 2 ^ b) && (0 <=? b)
  | YApp ToInt (YApp (ShiftRight k) (YApp (BitAnd m) (YByte o))), BitField o' low w =>
      (o =? o') && (k =? low) && (m =? (2 ^ w - 1) * 2 ^ low) && (0 <=? low) && (0 <=? w)
  | YApp PrettyText (YBytes o n), Text o' w => (o =? o') && (n =? w)
  | YApp Hex (YBytes o n), HexText o' w => (o =? o') && (n =? w)
  | YApp IpAddress (YBytes o n), IpAddress4 o' => (o =? o') && (n =? 4)
  | YApp UnpackF (YBytes o n), Single o' => (o =? o') && (n =? 4)
  | YApp Round7 (YApp UnpackF (YBytes o n)), SingleRounded o' => (o =? o') && (n =? 4)
  | YApp UnpackD (YBytes o n), Double o' => (o =? o') && (n =? 8)
  | YApp (FromBytes c) (YBytes o n), Composition o' => (o =? o') && (n =? 92) && String.eqb c "GasComposition"
  | _, _ => false
  end.

(** what reading a GasComposition gives *)
Definition gas_reading (b : bytes) (v : value) : Prop :=
  exists vs, v = VObj "GasComposition" (combine gas_components vs) /\ len vs = 23 /\
  forall i, 0 <= i < 23 -> exists x, nth (Z.to_nat i) vs VNone = VFloat x /\
    denotes 8 23 (le_value (field (4 * i) 4 b)) x.

Lemma field_1 o l : le_value (field o 1 l) = byte_at o l.
Proof.
  unfold field, byte_at. change (Z.to_nat 1) with 1%nat. generalize (Z.to_nat o) as n. intros n; revert l.
  induction n as [|n IH]; intros [|b l]; try reflexivity; [cbn; lia|]. apply IH.
Qed.
Lemma field_field a n b m l : 0 <= a -> 0 <= b -> 0 <= m -> b + m <= n -> field b m (field a n l) = field (a + b) m l.
Proof.
  intros. unfold field. rewrite skipn_firstn_comm, firstn_firstn, skipn_skipn_add.
  replace (Init.Nat.min (Z.to_nat m) (Z.to_nat n - Z.to_nat b)) with (Z.to_nat m) by lia.
  replace (Z.to_nat a + Z.to_nat b)%nat with (Z.to_nat (a + b)) by lia. reflexivity.
Qed.
Lemma hex_text_of l : is_bytes l -> hex_text l (hex l).
Proof.
  unfold hex_text, hex, nibbles. intros H. induction H as [|b l Hb Hl IH]; [reflexivity|].
  cbn [flat_map map app]. rewrite <- IH. unfold hex_digit, is_byte in *.
  assert (forall d, (if d <? 10 then 48 + d else 87 + d) = (if d <=? 9 then 48 + d else 97 + (d - 10))) as E.
  { intros d. destruct (Z.ltb_spec d 10), (Z.leb_spec d 9); lia. }
  rewrite !E. reflexivity.
Qed.
Lemma land_flag x b : 0 <= b -> negb (Z.land x (2 ^ b) =? 0) = Z.testbit x b.
Proof.
  intros Hb. destruct (Z.testbit x b) eqn:T.
  - apply negb_true_iff, Z.eqb_neq. intros E. apply (f_equal (fun z => Z.testbit z b)) in E.
    rewrite Z.land_spec, T, Z.pow2_bits_true, Z.bits_0 in E by exact Hb. discriminate.
  - apply negb_false_iff, Z.eqb_eq. apply Z.bits_inj'. intros i Hi. rewrite Z.land_spec, Z.bits_0.
    destruct (Z.eq_dec i b) as [->|N]; [rewrite T; reflexivity|]. rewrite Z.pow2_bits_false by lia. apply andb_false_r.
Qed.
Lemma land_field x low w : 0 <= low -> 0 <= w -> Z.shiftr (Z.land x ((2 ^ w - 1) * 2 ^ low)) low = (x / 2 ^ low) mod 2 ^ w.
Proof.
  intros H1 H2. rewrite <- Z.shiftl_mul_pow2 by exact H1. rewrite Z.shiftr_land, Z.shiftr_shiftl_l, Z.sub_diag, Z.shiftl_0_r by exact H1.
  rewrite mask_mod by exact H2. rewrite Z.shiftr_div_pow2 by exact H1. reflexivity.
Qed.

Section Checker.
Variable call : string -> bytes -> res value.
Variable cls : class.
Variable gas : bool.
Hypothesis gas_ok : gas = true -> forall b, is_bytes b -> len b = 92 -> exists v, call "GasComposition" b = Ok v /\ gas_reading b v.

Fixpoint styp (lo : Z) (s : sym) : option ty :=
  match s with
  | YNone => Some TyNone
  | YEmptyList => None
  | YByte _ => Some TyInt
  | YBytes o n => if (0 <=? o) && (0 <=? n) && (o + n <=? lo) then Some (TyBytes n) else None
  | YApp o s =>
      match o, styp lo s with
      | FromLe, Some (TyBytes _) => Some TyInt
      | PrettyText, Some (TyBytes _) | Hex, Some (TyBytes _) => Some TyStr
      | IpAddress, Some (TyBytes n) => if n =? 4 then Some TyStr else None
      | UnpackF, Some (TyBytes n) => if n =? 4 then Some TyFloat else None
      | UnpackD, Some (TyBytes n) => if n =? 8 then Some TyFloat else None
      | Round7, Some TyFloat => Some TyFloat
      | BitAnd _, Some TyInt | ShiftRight _, Some TyInt | ToInt, Some TyInt => Some TyInt
      | ToBool, Some TyInt => Some TyBool
      | FromBytes c, Some (TyBytes n) => if gas && String.eqb c "GasComposition" && (n =? 92) then Some TyObj else None
      | _, _ => None
      end
  end.

Lemma styp_ok lo s l t : is_bytes l -> lo <= len l -> styp lo s = Some t -> exists v, den call l s = Ok v /\ has_ty v t.
Proof.
  intros Hl Hlo. revert t. induction s as [| |off|off n|o s IH]; intros t H; cbn [styp] in H.
  - inversion H. exists VNone. split; [reflexivity|exact I].
  - discriminate.
  - inversion H. eexists. split; [reflexivity|exact I].
  - destruct ((0 <=? off) && (0 <=? n) && (off + n <=? lo)) eqn:E; [|discriminate]. inversion H.
    apply andb_prop in E as [E E3]. apply andb_prop in E as [E1 E2]. apply Z.leb_le in E1, E2, E3.
    eexists. split; [reflexivity|]. cbn. split; [apply field_len; lia|auto with bytes].
  - destruct (styp lo s) as [t'|] eqn:S; [|destruct o; discriminate].
    destruct (IH t' eq_refl) as (v & D & T). cbn [den]. rewrite D. cbn [bind].
    destruct o, t'; try discriminate; destruct v; try contradiction; cbn [apply_op];
      try (inversion H; subst; eexists; split; [reflexivity|exact I]).
    + destruct (Z.eqb_spec n 4) as [->|]; [|discriminate]. inversion H. destruct T as [L B].
      unfold parse_ip_address. rewrite L. eexists; split; [reflexivity|exact I].
    + destruct (Z.eqb_spec n 4) as [->|]; [|discriminate]. inversion H. destruct T as [L B].
      unfold unpack_single. rewrite L. eexists; split; [reflexivity|exact I].
    + destruct (Z.eqb_spec n 8) as [->|]; [|discriminate]. inversion H. destruct T as [L B].
      unfold unpack_double. rewrite L. eexists; split; [reflexivity|exact I].
    + destruct (gas && String.eqb cls0 "GasComposition" && (n =? 92)) eqn:E; [|discriminate]. inversion H.
      apply andb_prop in E as [E E3]. apply andb_prop in E as [E1 E2]. apply String.eqb_eq in E2 as ->. apply Z.eqb_eq in E3 as ->.
      destruct T as [L B]. destruct (gas_ok E1 b B L) as (v & -> & vs & -> & _). eexists; split; [reflexivity|exact I].
Qed.

Definition is_some {A} (o : option A) : bool := match o with Some _ => true | None => false end.
Fixpoint match_fields (l : list (string * sym)) (fs : list (string * place)) : bool :=
  match l, fs with
  | [], [] => true
  | (a, s) :: l', (b, p) :: fs' => String.eqb a b && matches s p && match_fields l' fs'
  | _, _ => false
  end.

Fixpoint check (t : tree) (lo : Z) (hi : option Z) (d : reading) : bool :=
  if below hi lo then true else
  match t with
  | Need n t' => if n <=? lo then check t' lo hi d else raises d IndexError && check t' n hi d
  | Check s t' => is_some (styp lo s) && check t' lo hi d
  | Split k t1 t2 => check t1 (Z.max lo (k + 1)) hi d && check t2 lo (cut hi k) d
  | AtEnd k t' =>
      (((lo =? k) && match hi with Some h => h =? k | None => false end) || raises d AssertionError)
      && check t' (Z.max lo k) (cut hi k) d
  | Give kw =>
      forallb (fun ks => is_some (styp lo (snd ks))) kw &&
      match d with
      | Object c fs => String.eqb c (class_name cls) && all_known (class_attrs cls) kw &&
          match arrange (class_attrs cls) kw with Some l => match_fields l fs | None => false end
      | Raises e => exn_eqb e TypeError && negb (all_known (class_attrs cls) kw && is_some (arrange (class_attrs cls) kw))
      end
  | Fail e => raises d e
  | Unsupported => false
  end.

Definition same_keys (l : bytes) (kw : list (string * sym)) (vs : list (string * value)) : Prop :=
  Forall2 (fun s v => fst s = fst v /\ den call l (snd s) = Ok (snd v)) kw vs.

Lemma den_all_keys lo l kw : is_bytes l -> lo <= len l -> forallb (fun ks : string * sym => is_some (styp lo (snd ks))) kw = true ->
  exists vs, den_all call l kw = Ok vs /\ same_keys l kw vs.
Proof.
  intros Hl Hlo. induction kw as [|[k s] kw IH]; cbn [forallb den_all]; intros H; [exists []; split; [reflexivity|constructor]|].
  apply andb_prop in H as [H1 H2]. destruct (IH H2) as (vs & -> & S). cbn [snd] in H1.
  destruct (styp lo s) as [t|] eqn:T; [|discriminate]. destruct (styp_ok lo s l t Hl Hlo T) as (v & D & _).
  rewrite D. exists ((k, v) :: vs). split; [reflexivity|]. constructor; [split; [reflexivity|exact D]|exact S].
Qed.
Lemma all_known_keys names l kw vs : same_keys l kw vs -> all_known names vs = all_known names kw.
Proof. unfold all_known. induction 1 as [|[a s] [b v] kw vs [E D] _ IH]; [reflexivity|]. cbn in *. subst b. rewrite IH. reflexivity. Qed.
Lemma arrange_keys names l kw vs : same_keys l kw vs ->
  match arrange names kw with
  | Some a => exists b, arrange names vs = Some b /\ same_keys l a b
  | None => arrange names vs = None
  end.
Proof.
  intros S. induction names as [|x names IH]; [exists []; split; [reflexivity|constructor]|]. cbn [arrange].
  pose proof (agrees_lookup call l kw vs x S) as L. destruct (lookup x kw) as [s|].
  - destruct L as (v & -> & D). destruct (arrange names kw) as [a|].
    + destruct IH as (b & -> & SK). exists ((x, v) :: b). split; [reflexivity|]. constructor; [split; [reflexivity|exact D]|exact SK].
    + rewrite IH. reflexivity.
  - rewrite L. reflexivity.
Qed.

Lemma matches_shows l s p v : is_bytes l -> matches s p = true -> den call l s = Ok v -> (exists lo t, lo <= len l /\ styp lo s = Some t) -> shows l p v.
Proof.
  intros Hl M D (lo & t & Hlo & T).
  assert (forall o n, styp lo (YBytes o n) = Some (TyBytes n) -> 0 <= o /\ 0 <= n /\ o + n <= len l) as TB.
  { intros o n H. cbn in H. destruct ((0 <=? o) && (0 <=? n) && (o + n <=? lo)) eqn:E; [|discriminate].
    apply andb_prop in E as [E E3]. apply andb_prop in E as [E1 E2]. apply Z.leb_le in E1, E2, E3. lia. }
  destruct s as [| |o|o n|u s].
  - destruct p; try discriminate. inversion D. reflexivity.
  - destruct p; discriminate.
  - destruct p; try discriminate. cbn [matches] in M. apply andb_prop in M as [M1 M2]. apply Z.eqb_eq in M1, M2. subst.
    inversion D. cbn [shows]. rewrite field_1. reflexivity.
  - destruct p; discriminate.
  - cbn [den] in D. destruct u, s as [| |o0|o0 n0|u' s']; try (destruct p; discriminate).
    + (* FromLe *) destruct p; try discriminate. cbn [matches] in M. apply andb_prop in M as [M1 M2]. apply Z.eqb_eq in M1, M2. subst.
      inversion D. cbn [shows]. reflexivity.
    + (* PrettyText *) destruct p; try discriminate. cbn [matches] in M. apply andb_prop in M as [M1 M2]. apply Z.eqb_eq in M1, M2. subst.
      inversion D. cbn [shows]. eexists. split; [reflexivity|apply pretty_text_of].
    + (* Hex *) destruct p; try discriminate. cbn [matches] in M. apply andb_prop in M as [M1 M2]. apply Z.eqb_eq in M1, M2. subst.
      inversion D. cbn [shows]. eexists. split; [reflexivity|apply hex_text_of; auto with bytes].
    + (* IpAddress *) destruct p; try discriminate. cbn [matches] in M. apply andb_prop in M as [M1 M2]. apply Z.eqb_eq in M1, M2. subst.
      cbn [den bind apply_op] in D. cbn [styp] in T.
      destruct (TB off 4) as (B1 & B2 & B3); [destruct ((0 <=? off) && (0 <=? 4) && (off + 4 <=? lo)) eqn:E; [cbn [styp]; rewrite E; reflexivity|discriminate]|].
      destruct (parse_ip_dotted (field off 4 l)) as (s & E & DT); [auto with bytes|apply field_len; lia|]. rewrite E in D. inversion D.
      cbn [shows]. eexists. split; [reflexivity|exact DT].
    + (* UnpackF *) destruct p; try discriminate. cbn [matches] in M. apply andb_prop in M as [M1 M2]. apply Z.eqb_eq in M1, M2. subst.
      cbn [den bind apply_op] in D. destruct (unpack_single (field off 4 l)) as [x|] eqn:U; [|discriminate]. inversion D.
      cbn [shows]. exists x. split; [reflexivity|]. change le_value with from_le. apply unpack_single_denotes; [auto with bytes|exact U].
    + (* UnpackD *) destruct p; try discriminate. cbn [matches] in M. apply andb_prop in M as [M1 M2]. apply Z.eqb_eq in M1, M2. subst.
      cbn [den bind apply_op] in D. destruct (unpack_double (field off 8 l)) as [x|] eqn:U; [|discriminate]. inversion D.
      cbn [shows]. exists x. split; [reflexivity|]. change le_value with from_le. apply unpack_double_denotes; [auto with bytes|exact U].
    + (* Round7 *) destruct u'; try (destruct p; discriminate). destruct s' as [| |?|o' n'|? ?]; try (destruct p; discriminate).
      destruct p; try discriminate. cbn [matches] in M. apply andb_prop in M as [M1 M2]. apply Z.eqb_eq in M1, M2. subst.
      cbn [den bind apply_op] in D. destruct (unpack_single (field off 4 l)) as [x|] eqn:U; [|discriminate]. cbn [bind apply_op] in D. inversion D.
      cbn [shows]. exists x, (round7 x). split; [reflexivity|]. change le_value with from_le.
      split; [apply unpack_single_denotes; [auto with bytes|exact U]|].
      unfold unpack_single in U. destruct (Z.eqb_spec (len (field off 4 l)) 4) as [L|]; [|discriminate]. inversion U.
      apply decode_single_round. pose proof (from_le_range (field off 4 l) (field_bytes _ _ _ Hl)) as R. rewrite L in R. exact R.
    + (* ToBool *) destruct u'; try (destruct p; discriminate). destruct s' as [| |o'|? ?|? ?]; try (destruct p; discriminate).
      destruct p; try discriminate. cbn [matches] in M. apply andb_prop in M as [M M3]. apply andb_prop in M as [M1 M2].
      apply Z.eqb_eq in M1, M2. apply Z.leb_le in M3. subst. inversion D. cbn [shows]. f_equal. apply land_flag. exact M3.
    + (* ToInt *) destruct u'; try (destruct p; discriminate). destruct s' as [| |?|? ?|u'' s'']; try (destruct p; discriminate).
      destruct u''; try (destruct p; discriminate). destruct s'' as [| |o'|? ?|? ?]; try (destruct p; discriminate).
      destruct p; try discriminate. cbn [matches] in M. apply andb_prop in M as [M M5]. apply andb_prop in M as [M M4]. apply andb_prop in M as [M M3]. apply andb_prop in M as [M1 M2].
      apply Z.eqb_eq in M1, M2, M3. apply Z.leb_le in M4, M5. subst. inversion D. cbn [shows]. f_equal. apply land_field; assumption.
    + (* FromBytes *) destruct p; try discriminate. cbn [matches] in M. apply andb_prop in M as [M M3]. apply andb_prop in M as [M1 M2].
      apply Z.eqb_eq in M1, M2. apply String.eqb_eq in M3. subst. cbn [den bind apply_op] in D. cbn [styp] in T.
      destruct ((0 <=? off) && (0 <=? 92) && (off + 92 <=? lo)) eqn:E; [|discriminate].
      destruct (TB off 92) as (B1 & B2 & B3); [cbn [styp]; rewrite E; reflexivity|].
      destruct gas eqn:G; [|discriminate].
      destruct (gas_ok eq_refl (field off 92 l)) as (w & W & vs & -> & L & F); [auto with bytes|apply field_len; lia|].
      rewrite W in D. inversion D. cbn [shows]. exists vs. split; [reflexivity|]. split; [exact L|].
      intros i Hi. destruct (F i Hi) as (x & X1 & X2). exists x. split; [exact X1|].
      rewrite field_field in X2 by lia. exact X2.
Qed.

Lemma match_fields_ok l lo a b fs : is_bytes l -> same_keys l a b -> match_fields a fs = true ->
  Forall (fun ks : string * sym => is_some (styp lo (snd ks)) = true) a -> lo <= len l ->
  Forall2 (fun (x : string * value) (f : string * place) => fst x = fst f /\ shows l (snd f) (snd x)) b fs.
Proof.
  intros Hl S. revert fs. induction S as [|[x s] [y v] a b [E D] _ IH]; intros [|[z p] fs] M F Hlo; try discriminate; [constructor|].
  cbn [match_fields] in M. apply andb_prop in M as [M M3]. apply andb_prop in M as [M1 M2]. apply String.eqb_eq in M1.
  inversion F as [|? ? F1 F2]; subst. cbn in E, D, F1. constructor; [|apply IH; assumption]. cbn. split; [congruence|].
  destruct (styp lo s) as [t|] eqn:T; [|discriminate]. eapply matches_shows; eauto.
Qed.
Lemma arrange_In {A} names (kw : list (string * A)) l : arrange names kw = Some l -> forall x, In x l -> In x kw.
Proof.
  revert l. induction names as [|n names IH]; intros l H x Hx; cbn [arrange] in H; [inversion H; subst; contradiction|].
  destruct (lookup n kw) as [v|] eqn:L; [|discriminate]. destruct (arrange names kw) as [l'|]; [|discriminate]. inversion H; subst.
  destruct Hx as [<-|Hx]; [|eapply IH; eauto]. clear -L. induction kw as [|[a w] kw IH]; [discriminate|]. cbn [lookup] in L.
  destruct (String.eqb_spec n a) as [->|]; [inversion L; left; reflexivity|right; auto].
Qed.

Lemma check_ok l d t : is_bytes l -> forall lo hi, inside (len l) lo hi -> check t lo hi d = true ->
  exists r, tree_eval call cls l t = Some r /\ conforms l r d.
Proof.
  intros Hl. induction t as [n t IH|s t IH|k t1 IH1 t2 IH2|k t IH|kw|e|]; intros lo hi HI C; cbn [check tree_eval] in C |- *;
    (destruct (below hi lo) eqn:B; [exfalso; unfold below, inside in *; destruct hi; [apply Z.ltb_lt in B; lia|discriminate]|]).
  - destruct (Z.leb_spec n lo) as [L|L].
    + destruct (Z.leb_spec n (len l)); [|unfold inside in HI; lia]. eapply IH; eauto.
    + apply andb_prop in C as [C1 C2]. destruct (Z.leb_spec n (len l)) as [N|N].
      * eapply IH; [|exact C2]. unfold inside in *. split; [lia|tauto].
      * eexists. split; [reflexivity|]. apply raises_ok, C1.
  - apply andb_prop in C as [C1 C2]. destruct (styp lo s) as [t'|] eqn:T; [|discriminate].
    destruct (styp_ok lo s l t' Hl) as (v & D & _); [unfold inside in HI; lia|exact T|]. rewrite D. eapply IH; eauto.
  - apply andb_prop in C as [C1 C2]. unfold inside in HI. destruct (Z.ltb_spec k (len l)).
    + eapply IH1; [|exact C1]. split; [lia|tauto].
    + eapply IH2; [|exact C2]. unfold cut. destruct hi; split; lia.
  - apply andb_prop in C as [C1 C2]. unfold inside in HI. destruct (Z.eqb_spec (len l) k) as [E|E].
    + eapply IH; [|exact C2]. unfold cut. destruct hi; split; lia.
    + apply orb_prop in C1 as [C1|C1].
      * exfalso. apply andb_prop in C1 as [C1 C3]. apply Z.eqb_eq in C1. destruct hi; [|discriminate]. apply Z.eqb_eq in C3. lia.
      * eexists. split; [reflexivity|]. apply raises_ok, C1.
  - apply andb_prop in C as [C1 C2]. assert (lo <= len l) as Hlo by (unfold inside in HI; lia).
    destruct (den_all_keys lo l kw Hl Hlo C1) as (vs & -> & S). cbn [bind]. eexists. split; [reflexivity|].
    unfold construct. rewrite (all_known_keys _ _ _ _ S). pose proof (arrange_keys (class_attrs cls) l kw vs S) as AR.
    destruct d as [c fs|e].
    + apply andb_prop in C2 as [C2 C4]. apply andb_prop in C2 as [C2 C3]. apply String.eqb_eq in C2 as ->. rewrite C3.
      destruct (arrange (class_attrs cls) kw) as [a|] eqn:EA; [|discriminate]. destruct AR as (b & -> & SK).
      exists b. split; [reflexivity|]. eapply match_fields_ok; eauto.
      apply Forall_forall. intros x Hx. eapply arrange_In in EA; [|exact Hx]. rewrite forallb_forall in C1. apply C1, EA.
    + apply andb_prop in C2 as [C2 C3]. apply exn_eqb_eq in C2 as ->. cbn.
      destruct (all_known (class_attrs cls) kw); [|reflexivity]. destruct (arrange (class_attrs cls) kw); [discriminate|]. rewrite AR. reflexivity.
  - eexists. split; [reflexivity|]. apply raises_ok, C.
  - discriminate.
Qed.

Theorem checked d lo hi l : check (class_tree cls) lo hi d = true -> is_bytes l -> inside (len l) lo hi ->
  conforms l (run_from_bytes call cls l) d.
Proof.
  intros C Hl HI. destruct (check_ok l d _ Hl lo hi HI C) as (r & T & CF). rewrite (class_tree_ok _ _ _ _ T). exact CF.
Qed.
End Checker.

(** ** The classes *)
Definition gas_fields : list (string * place) :=
  map (fun '(i, a) => (a, Single (4 * Z.of_nat i))) (combine (seq 0 23) gas_components).
Lemma gas_checked : check GasComposition_class false (class_tree GasComposition_class) 92 None (Object "GasComposition" gas_fields) = true.
Proof. vm_compute. reflexivity. Qed.

Lemma Forall2_combine {A B} (R : A -> B -> Prop) (names : list string) : forall (attrs : list (string * A)) (fs : list (string * B)),
  Forall2 (fun a f => fst a = fst f /\ R (snd a) (snd f)) attrs fs -> map fst fs = names ->
  attrs = combine names (map snd attrs).
Proof.
  induction names as [|n names IH]; intros attrs fs F M.
  - destruct fs; [|discriminate]. inversion F. reflexivity.
  - destruct fs as [|[b p] fs]; [discriminate|]. inversion F as [|[a v] ? ? ? [E R'] F']; subst. cbn in *. inversion M. subst.
    f_equal. apply (IH _ _ F' eq_refl).
Qed.
Lemma Forall2_len {A B} (R : A -> B -> Prop) l m : Forall2 R l m -> length l = length m.
Proof. induction 1; cbn; congruence. Qed.
Lemma Forall2_nth_both {A B} (R : A -> B -> Prop) l m a b : Forall2 R l m -> forall i, (i < length m)%nat -> R (nth i l a) (nth i m b).
Proof. induction 1 as [|x y l m H F IH]; intros [|i] Hi; cbn in *; try lia; auto. apply IH. lia. Qed.

Lemma gas_class_ok b : is_bytes b -> len b = 92 -> exists v, call_gas "GasComposition" b = Ok v /\ gas_reading b v.
Proof.
  intros Hb L. unfold call_gas. cbn [String.eqb Ascii.eqb Bool.eqb].
  destruct (checked (fun _ _ => Err AttributeError) GasComposition_class false ltac:(discriminate) _ _ _ b gas_checked Hb) as (attrs & E & F).
  { split; [lia|exact I]. }
  change (if (_ =? _)%string then ?x else _) with x. 
  exists (VObj "GasComposition" attrs). split; [exact E|]. exists (map snd attrs).
  assert (length attrs = 23%nat) as LA by (apply Forall2_len in F; exact F).
  split; [|split].
  - f_equal. apply (Forall2_combine (fun v p => shows b p v) _ _ gas_fields); [exact F|reflexivity].
  - unfold len. rewrite map_length, LA. reflexivity.
  - intros i Hi. pose proof (Forall2_nth_both _ _ _ ("", VNone) ("", Missing) F (Z.to_nat i)) as N.
    change (length gas_fields) with 23%nat in N. destruct (N ltac:(lia)) as [_ S]. clear N.
    rewrite (map_nth snd attrs ("", VNone)).
    assert (snd (nth (Z.to_nat i) gas_fields ("", Missing)) = Single (4 * i)) as EP.
    { assert (exists k, i = Z.of_nat k /\ (k < 23)%nat) as (k & -> & Hk) by (exists (Z.to_nat i); lia). rewrite Nat2Z.id.
      do 23 (destruct k as [|k]; [reflexivity|]). lia. }
    rewrite EP in S. destruct S as (x & X1 & X2). exists x. split; [exact X1|exact X2].
Qed.

Definition class_checks (c : class) (ds : list (range * reading)) : bool :=
  forallb (fun rd => check c true (class_tree c) (from (fst rd)) (upto (fst rd)) (snd rd)) ds.
Lemma class_checks_ok c ds : class_checks c ds = true -> forall l r d, is_bytes l -> In (r, d) ds -> within (len l) r ->
  conforms l (class_from_bytes c l) d.
Proof.
  unfold class_checks. intros H l r d Hl I W. rewrite forallb_forall in H. specialize (H _ I). cbn [fst snd] in H.
  apply (checked call_gas c true (fun _ => gas_class_ok) d (from r) (upto r) l H Hl). exact W.
Qed.

Lemma all_classes_check t rows : t <> TIME_WINDOW -> match registered_class t with
  | Some c => class_checks c (documented t rows) = true
  | None => t = CORRECTION_COUNTER
  end.
Proof. destruct t; intros N; try contradiction; vm_compute; reflexivity. Qed.

(** ** TIME_WINDOW: the one class with a loop *)
Definition row_of (l : bytes) (i : nat) : str := hex (field (35 + 10 * Z.of_nat i) 10 l).
Definition row_body : stmt := block [AppendTo "rows" (App Hex (PopMany 10))].

Definition exec_loop (call : string -> bytes -> res value) (c : class) (s : stmt) : nat -> locals -> bytes -> outcome :=
  fix loop (k : nat) (env : locals) (data : bytes) : outcome :=
  match k with
  | O => Next env data
  | S k' => match exec call c s env data with
            | Next env' data' => loop k' env' data'
            | o => o
            end
  end.
Lemma exec_loop_S call c s k env data : exec_loop call c s (S k) env data =
  match exec call c s env data with Next env' data' => exec_loop call c s k env' data' | o => o end.
Proof. reflexivity. Qed.
Lemma exec_for call c x s env data : exec call c (ForRange x s) env data =
  match lookup x env with Some (VInt n) => exec_loop call c s (Z.to_nat n) env data | _ => Raised TypeError end.
Proof. reflexivity. Qed.
Lemma exec_seq call c s1 s2 env data : exec call c (Seq s1 s2) env data =
  match exec call c s1 env data with Next env' data' => exec call c s2 env' data' | o => o end.
Proof. reflexivity. Qed.
Lemma exec_assign call c x e env data : exec call c (Assign x e) env data =
  match eval call env data e with Ok (v, data') => Next ((x, v) :: env) data' | Err e => Raised e end.
Proof. reflexivity. Qed.

Lemma exec_if_data call c s1 s2 env data : data <> [] -> exec call c (IfData s1 s2) env data = exec call c s1 env data.
Proof. destruct data; [contradiction|reflexivity]. Qed.
Lemma exec_assert_data call c env data : data <> [] -> exec call c AssertNotData env data = Raised AssertionError.
Proof. destruct data; [contradiction|reflexivity]. Qed.

Lemma row_step l j env : 0 <= j -> lookup "rows" env = Some (VList (map (fun i => VStr (row_of l i)) (seq 0 (Z.to_nat j)))) ->
  exec call_gas TimeWindow_class row_body env (rest (35 + 10 * j) l) =
  if 35 + 10 * (j + 1) <=? len l
  then Next (("rows", VList (map (fun i => VStr (row_of l i)) (seq 0 (S (Z.to_nat j))))) :: env) (rest (35 + 10 * (j + 1)) l)
  else Raised IndexError.
Proof.
  intros Hj R. unfold row_body. cbn [block fold_right exec]. rewrite R. cbn [eval].
  rewrite (pop_many_rest _ 10 (35 + 10 * (j + 1)) l) by lia.
  destruct (Z.leb_spec (35 + 10 * (j + 1)) (len l)) as [L|L]; [|reflexivity].
  cbn [apply_op]. rewrite seq_S, map_app. cbn [map Nat.add]. unfold row_of at 3. rewrite Z2Nat.id by lia. reflexivity.
Qed.

Lemma rows_loop l n : forall j env, 35 + 10 * Z.of_nat j <= len l ->
  lookup "rows" env = Some (VList (map (fun i => VStr (row_of l i)) (seq 0 j))) ->
  let o := exec_loop call_gas TimeWindow_class row_body n env (rest (35 + 10 * Z.of_nat j) l) in
  if 35 + 10 * Z.of_nat (j + n) <=? len l then
    exists env', o = Next env' (rest (35 + 10 * Z.of_nat (j + n)) l) /\
      lookup "rows" env' = Some (VList (map (fun i => VStr (row_of l i)) (seq 0 (j + n)))) /\
      forall x, x <> "rows" -> lookup x env' = lookup x env
  else o = Raised IndexError.
Proof.
  induction n as [|n IH]; intros j env Hj R.
  - cbv zeta. rewrite Nat.add_0_r. destruct (Z.leb_spec (35 + 10 * Z.of_nat j) (len l)); [|lia]. exists env. auto.
  - cbv zeta. rewrite exec_loop_S, row_step by (try lia; rewrite Nat2Z.id; exact R). rewrite Nat2Z.id.
    replace (35 + 10 * (Z.of_nat j + 1)) with (35 + 10 * Z.of_nat (S j)) by lia.
    destruct (Z.leb_spec (35 + 10 * Z.of_nat (S j)) (len l)) as [L|L].
    + specialize (IH (S j) _ L (eq_refl : lookup "rows" (("rows", VList (map (fun i => VStr (row_of l i)) (seq 0 (S j)))) :: env) = _)).
      cbv zeta in IH. replace (S j + n)%nat with (j + S n)%nat in IH by lia.
      destruct (35 + 10 * Z.of_nat (j + S n) <=? len l); [|exact IH].
      destruct IH as (env' & E1 & E2 & E3). exists env'. split; [exact E1|]. split; [exact E2|].
      intros x Hx. rewrite E3 by exact Hx. cbn [lookup]. destruct (String.eqb_spec x "rows"); [contradiction|reflexivity].
    + destruct (Z.leb_spec (35 + 10 * Z.of_nat (j + S n)) (len l)); [lia|]. reflexivity.
Qed.

Definition tw_fields (l : bytes) (a b c : value) : list (string * value) :=
  [("number", VInt (from_le (field 0 2 l))); ("id", VInt (from_le (field 2 2 l)));
   ("bit_order_in_actual_values", VInt (from_le (field 4 2 l)));
   ("bit_order_in_data_archive_record", VInt (from_le (field 6 2 l)));
   ("bit_order_in_binary_archive_record", VInt (from_le (field 8 2 l)));
   ("bit_control", VInt (byte_at 10 l));
   ("in_binary_archive", VBool (negb (Z.land (byte_at 10 l) 1 =? 0)));
   ("in_data_archive", VBool (negb (Z.land (byte_at 10 l) 2 =? 0)));
   ("name", VStr (pretty_text (field 11 23 l))); ("rows_in_window", VInt (byte_at 34 l));
   ("rows", VList (map (fun i => VStr (row_of l i)) (seq 0 (Z.to_nat (byte_at 34 l)))));
   ("action_during_change", a); ("text_log_0", b); ("text_log_1", c)].

Lemma time_window_reads l : is_bytes l -> let k := 35 + 10 * byte_at 34 l in
  class_from_bytes TimeWindow_class l =
  if len l <? k then Err IndexError
  else if len l =? k then Ok (VObj "TimeWindow" (tw_fields l VNone VNone VNone))
  else if len l <? k + 27 then Err IndexError
  else if len l =? k + 27 then Ok (VObj "TimeWindow" (tw_fields l (VInt (byte_at k l)) (VStr (pretty_text (field (k + 1) 13 l))) (VStr (pretty_text (field (k + 14) 13 l)))))
  else Err AssertionError.
Proof.
  intros Hl k. pose proof (byte_at_byte 34 l Hl) as Hr. unfold is_byte in Hr.
  unfold class_from_bytes, run_from_bytes. change (class_body TimeWindow_class) with (Some TimeWindow_from_bytes). cbv iota beta.
  replace (exec call_gas TimeWindow_class TimeWindow_from_bytes [] l) with (exec call_gas TimeWindow_class TimeWindow_from_bytes [] (rest 0 l)) by (rewrite rest_0; reflexivity).
  unfold TimeWindow_from_bytes.
  assert (len l < 35 -> forall A (x y : A), (if len l <? k then x else y) = x) as SHORT.
  { intros S A x y. destruct (Z.ltb_spec (len l) k); [reflexivity|]. unfold k in *. lia. }
  cbn [block fold_right].
  repeat (rewrite exec_seq, exec_assign; cbn [eval apply_op lookup String.eqb Ascii.eqb Bool.eqb];
    try (read_step; [|rewrite SHORT by lia; reflexivity]); cbn [apply_op]).
  rewrite exec_seq, exec_for. cbn [lookup String.eqb Ascii.eqb Bool.eqb].
  match goal with |- context [ exec_loop _ _ ?b _ ?env (rest 35 l)] =>
    change b with row_body; pose proof (rows_loop l (Z.to_nat (byte_at 34 l)) 0 env ltac:(cbn; lia) eq_refl) as LOOP
  end.
  cbv zeta in LOOP. cbn [Nat.add] in LOOP.
  change (35 + 10 * Z.of_nat 0) with 35 in LOOP. rewrite Z2Nat.id in LOOP by lia. fold k in LOOP.
  destruct (Z.leb_spec k (len l)) as [K|K].
  2:{ rewrite LOOP. destruct (Z.ltb_spec (len l) k); [reflexivity|lia]. }
  destruct LOOP as (env' & E1 & E2 & E3). rewrite E1. clear E1.
  destruct (Z.ltb_spec (len l) k); [lia|].
  destruct (Z.eqb_spec (len l) k) as [KE|KE].
  - assert (rest k l = []) as R by (apply rest_empty; lia). rewrite R.
    cbn [exec eval lookup String.eqb Ascii.eqb Bool.eqb eval_kwargs]. rewrite !E3 by discriminate. rewrite E2.
    cbn [lookup String.eqb Ascii.eqb Bool.eqb]. reflexivity.
  - assert (rest k l <> []) as R by (intros R; apply rest_empty in R; lia).
    rewrite exec_seq, exec_if_data by exact R. cbn [block fold_right].
    rewrite exec_seq, exec_assign. cbn [eval]. rewrite (pop0_rest k (k + 1) l) by lia. destruct (Z.leb_spec (k + 1) (len l)); [|lia].
    rewrite exec_seq, exec_assign. cbn [eval]. rewrite (pop_many_rest (k + 1) 13 (k + 14) l) by lia.
    destruct (Z.leb_spec (k + 14) (len l)); [|destruct (Z.ltb_spec (len l) (k + 27)); [reflexivity|lia]].
    cbn [apply_op]. rewrite exec_seq, exec_assign. cbn [eval]. rewrite (pop_many_rest (k + 14) 13 (k + 27) l) by lia.
    destruct (Z.leb_spec (k + 27) (len l)); [|destruct (Z.ltb_spec (len l) (k + 27)); [reflexivity|lia]].
    destruct (Z.ltb_spec (len l) (k + 27)); [lia|]. cbn [apply_op]. match goal with |- context [exec call_gas TimeWindow_class Skip ?e ?d] => change (exec call_gas TimeWindow_class Skip e d) with (Next e d) end. cbv iota beta.
    destruct (Z.eqb_spec (len l) (k + 27)) as [KF|KF].
    + assert (rest (k + 27) l = []) as R' by (apply rest_empty; lia). rewrite R'.
      cbn [exec eval lookup String.eqb Ascii.eqb Bool.eqb eval_kwargs]. rewrite !E3 by discriminate. rewrite E2.
      cbn [lookup String.eqb Ascii.eqb Bool.eqb]. reflexivity.
    + assert (rest (k + 27) l <> []) as R' by (intros R'; apply rest_empty in R'; lia).
      rewrite exec_seq, exec_assert_data by exact R'. reflexivity.
Qed.

Lemma time_window_conforms l r d : is_bytes l -> In (r, d) (documented TIME_WINDOW (byte_at 34 l)) -> within (len l) r ->
  conforms l (class_from_bytes TimeWindow_class l) d.
Proof.
  intros Hl I W. pose proof (time_window_reads l Hl) as R. cbv zeta in R. rewrite R. clear R.
  pose proof (byte_at_byte 34 l Hl) as Hr. unfold is_byte in Hr.
  set (k := 35 + 10 * byte_at 34 l) in *.
  assert (forall a b c fa fb fc, shows l fa a -> shows l fb b -> shows l fc c ->
    Forall2 (fun (x : string * value) (f : string * place) => fst x = fst f /\ shows l (snd f) (snd x)) (tw_fields l a b c)
     (binary [] ([("rows_in_window", Unsigned 34 1); ("rows", HexRows 35 (byte_at 34 l) 10)] ++
        [("action_during_change", fa); ("text_log_0", fb); ("text_log_1", fc)]))) as FIELDS.
  { intros a b c fa fb fc Sa Sb Sc. unfold tw_fields, binary. cbn [app].
    repeat (constructor; [split; [reflexivity|]; cbn [snd]|]); try (cbn [shows]; reflexivity); try constructor; try assumption.
    - cbn [shows]. rewrite field_1. reflexivity.
    - cbn [shows]. rewrite <- (land_flag _ 0) by lia. reflexivity.
    - cbn [shows]. rewrite <- (land_flag _ 1) by lia. reflexivity.
    - cbn [shows]. eexists. split; [reflexivity|apply pretty_text_of].
    - cbn [shows]. rewrite field_1. reflexivity.
    - cbn [shows]. exists (map (row_of l) (seq 0 (Z.to_nat (byte_at 34 l)))). split; [rewrite map_map; reflexivity|].
      split; [unfold len; rewrite map_length, seq_length; lia|]. intros i Hi.
      rewrite (nth_indep _ [] (row_of l 0)) by (rewrite map_length, seq_length; lia).
      rewrite map_nth, seq_nth by lia. cbn [Nat.add]. unfold row_of. rewrite Z2Nat.id by lia. apply hex_text_of. auto with bytes. }
  unfold documented, optional_log in I. fold k in I.
  repeat destruct I as [I|I]; try contradiction; inversion I; subst r d; clear I; unfold within in W; cbn [from upto] in W.
  - destruct (Z.ltb_spec (len l) k); [reflexivity|lia].
  - destruct (Z.ltb_spec (len l) k); [lia|]. destruct (Z.eqb_spec (len l) k); [|lia].
    eexists. split; [reflexivity|]. apply FIELDS; reflexivity.
  - destruct (Z.ltb_spec (len l) k); [lia|]. destruct (Z.eqb_spec (len l) k); [lia|]. destruct (Z.ltb_spec (len l) (k + 27)); [reflexivity|lia].
  - destruct (Z.ltb_spec (len l) k); [lia|]. destruct (Z.eqb_spec (len l) k); [lia|]. destruct (Z.ltb_spec (len l) (k + 27)); [lia|].
    destruct (Z.eqb_spec (len l) (k + 27)); [|lia]. eexists. split; [reflexivity|]. apply FIELDS; cbn [shows].
    + rewrite field_1. reflexivity.
    + eexists. split; [reflexivity|apply pretty_text_of].
    + eexists. split; [reflexivity|apply pretty_text_of].
  - destruct (Z.ltb_spec (len l) k); [lia|]. destruct (Z.eqb_spec (len l) k); [lia|]. destruct (Z.ltb_spec (len l) (k + 27)); [lia|].
    destruct (Z.eqb_spec (len l) (k + 27)); [lia|]. reflexivity.
Qed.

(** ** All types *)
Theorem parameter_conforms t l r d : is_bytes l -> In (r, d) (documented t (byte_at 34 l)) -> within (len l) r ->
  conforms l (parameter_from_bytes t l) d.
Proof.
  intros Hl I W. unfold parameter_from_bytes.
  assert (t = TIME_WINDOW \/ t <> TIME_WINDOW) as [->|N] by (destruct t; try (left; reflexivity); right; discriminate).
  - apply (time_window_conforms l r d Hl I W).
  - pose proof (all_classes_check t (byte_at 34 l) N) as C. destruct (registered_class t) as [c|].
    + apply (class_checks_ok c _ C l r d Hl I W).
    + subst t. cbn in I. destruct I as [I|[]]. inversion I. reflexivity.
Qed.
