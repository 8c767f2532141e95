(** Proofs about parameter blocks (elgas/parser.py) and consequences of
    [parameter_conforms] for lengths, classes and control bits. *)
From Coq Require Import QArith.
From Verif Require Import Py PyFacts Utils PyFloat ParamLang Parameters SpecText SpecApplication SpecParameters FloatProofs ParamProofs DecodeFacts.
From Coq Require Import Lia.
Open Scope string_scope.
Open Scope list_scope.
Open Scope Z_scope.

(** ** The loop *)
Lemma slice_from_len {A} i (l : list A) : len (slice_from i l) <= len l.
Proof. unfold slice_from. rewrite len_skipn. pose proof (len_nonneg l). lia. Qed.

Lemma pop_many2_len l b l' : pop_many l 2 = Ok (b, l') -> len l' = len l - 2.
Proof.
  rewrite <- (rest_0 l) at 1. rewrite (pop_many_rest 0 2 2 l) by lia.
  destruct (Z.leb_spec 2 (len l)); [|discriminate]. intros H0. inversion H0. apply len_rest. lia.
Qed.
Lemma pop0_len l b l' : pop0 l = Ok (b, l') -> len l' = len l - 1.
Proof. destruct l; [discriminate|]. cbn. intros H. inversion H. rewrite len_cons. lia. Qed.

Lemma loop_enough f1 : forall f2 acc l, len l <= Z.of_nat f1 -> len l <= Z.of_nat f2 ->
  parse_loop f1 acc l = parse_loop f2 acc l /\ parse_loop f1 acc l <> None.
Proof.
  induction f1 as [|f1 IH]; intros f2 acc l H1 H2.
  - destruct l as [|x l]; [|rewrite len_cons in H1; pose proof (len_nonneg l); lia].
    destruct f2; split; try reflexivity; discriminate.
  - destruct l as [|x l]; [destruct f2; split; try reflexivity; discriminate|].
    destruct f2 as [|f2]; [rewrite len_cons in H2; pose proof (len_nonneg l); lia|].
    cbn [parse_loop]. destruct (pop_many (x :: l) 2) as [[b d1]|e] eqn:E1; [|split; [reflexivity|discriminate]].
    apply pop_many2_len in E1. destruct (pop0 d1) as [[t d2]|e] eqn:E2; [|split; [reflexivity|discriminate]].
    apply pop0_len in E2. destruct (parameter_type_of t) as [ty|e]; [|split; [reflexivity|discriminate]].
    destruct (parameter_from_bytes ty _) as [o|e]; [|split; [reflexivity|discriminate]].
    apply IH; pose proof (slice_from_len (from_le b - 3) d2); lia.
Qed.

(** the loop without fuel *)
Definition loop (acc : list value) (l : bytes) : res (list value) :=
  match parse_loop (length l) acc l with Some r => r | None => Err RuntimeError end.
Lemma loop_fuel f acc l : len l <= Z.of_nat f -> parse_loop f acc l = Some (loop acc l).
Proof.
  intros H. unfold loop. destruct (loop_enough f (length l) acc l H ltac:(unfold len; lia)) as [E N].
  rewrite <- E. destruct (parse_loop f acc l); [reflexivity|contradiction].
Qed.
Lemma parse_loop_eq l : l <> [] -> parse None (Some l) = Some (loop [] l).
Proof. intros H. destruct l; [contradiction|]. cbn [parse]. apply loop_fuel. unfold len. lia. Qed.

Lemma loop_nil acc : loop acc [] = Ok acc. Proof. reflexivity. Qed.
Lemma loop_header acc a b t l : loop acc (a :: b :: t :: l) =
  match parameter_type_of t with
  | Err e => Err e
  | Ok ty => match parameter_from_bytes ty (slice_to (a + 256 * b - 3) l) with
             | Err e => Err e
             | Ok o => loop (acc ++ [o]) (slice_from (a + 256 * b - 3) l)
             end
  end.
Proof.
  unfold loop at 1. change (length (a :: b :: t :: l)) with (S (S (S (length l)))). remember (S (S (length l))) as f eqn:Hf. cbn [parse_loop].
  change (pop_many (a :: b :: t :: l) 2) with (@Ok (bytes * bytes) ([a; b], t :: l)). cbv iota beta zeta.
  cbn [pop0]. replace (from_le [a; b]) with (a + 256 * b) by (cbn; lia).
  destruct (parameter_type_of t) as [ty|e]; [|reflexivity].
  destruct (parameter_from_bytes ty _) as [o|e]; [|reflexivity].
  rewrite loop_fuel; [reflexivity|]. pose proof (slice_from_len (a + 256 * b - 3) l). unfold len in *. lia.
Qed.
Lemma loop_short acc l : 0 < len l < 3 -> loop acc l = Err IndexError.
Proof.
  unfold len. destruct l as [|x [|y [|z l]]]; cbn [length]; intros H; try reflexivity; lia.
Qed.

Lemma type_code_of t : parameter_type_of (type_code t) = Ok t.
Proof. destruct t; reflexivity. Qed.
Lemma type_of_inv n t : parameter_type_of n = Ok t -> n = type_code t.
Proof.
  unfold parameter_type_of. destruct (find _ _) as [t'|] eqn:E; [|discriminate].
  intros H. inversion H; subst. apply find_some in E as [_ E]. symmetry. apply Z.eqb_eq, E.
Qed.
Lemma type_of_unknown n : (forall t, type_code t <> n) -> parameter_type_of n = Err ValueError.
Proof.
  intros H. unfold parameter_type_of. destruct (find _ _) as [t'|] eqn:E; [|reflexivity].
  apply find_some in E as [_ E]. apply Z.eqb_eq in E. destruct (H t' E).
Qed.

Lemma header_value n : n mod 256 + 256 * (n / 256) = n.
Proof. pose proof (Z.div_mod n 256 ltac:(lia)). lia. Qed.

Lemma loop_transmitted acc t c l : loop acc (transmitted (t, c) ++ l) =
  match parameter_from_bytes t c with Err e => Err e | Ok o => loop (acc ++ [o]) l end.
Proof.
  unfold transmitted, object_header. cbn [fst snd app]. rewrite loop_header, type_code_of, header_value.
  rewrite slice_to_app by lia. rewrite slice_from_app by lia. reflexivity.
Qed.
Lemma loop_transmission objs vs : read_one_by_one objs vs -> forall acc l, loop acc (transmission objs ++ l) = loop (acc ++ vs) l.
Proof.
  intros H. induction H as [|[t c] v objs vs H F IH]; intros acc l; [rewrite app_nil_r; reflexivity|].
  cbn [transmission map concat]. rewrite <- app_assoc, loop_transmitted. cbn [fst snd] in H. rewrite H.
  change (concat (map transmitted objs)) with (transmission objs). rewrite IH, <- app_assoc. reflexivity.
Qed.
(** whatever the objects, and whether they can be read or not *)
Lemma loop_raises objs : forall acc l, (forall acc', exists e, loop acc' l = Err e) -> exists e, loop acc (transmission objs ++ l) = Err e.
Proof.
  induction objs as [|[t c] objs IH]; intros acc l H; [apply H|].
  cbn [transmission map concat]. rewrite <- app_assoc, loop_transmitted. destruct (parameter_from_bytes t c); [apply IH, H|eauto].
Qed.

(** ** C43 *)
Theorem parse_objects objs vs : objs <> [] -> read_one_by_one objs vs -> parse None (Some (transmission objs)) = Some (Ok vs).
Proof.
  intros N H. rewrite parse_loop_eq.
  - rewrite <- (app_nil_r (transmission objs)), (loop_transmission _ _ H). reflexivity.
  - destruct objs as [|[t c] objs]; [contradiction|]. discriminate.
Qed.
Theorem parse_first_error objs vs t c e rest : read_one_by_one objs vs -> parameter_from_bytes t c = Err e ->
  parse None (Some (transmission objs ++ transmitted (t, c) ++ rest)) = Some (Err e).
Proof.
  intros H E. rewrite parse_loop_eq by (destruct (transmission objs); discriminate).
  rewrite (loop_transmission _ _ H), loop_transmitted, E. reflexivity.
Qed.
Theorem parse_any_fuel f l : l <> [] -> (length l <= f)%nat -> parse_loop f [] l = parse None (Some l) /\ exists r, parse None (Some l) = Some r.
Proof. intros N H. rewrite parse_loop_eq by exact N. rewrite loop_fuel by (unfold len; lia). eauto. Qed.

(** reading nothing *)
Lemma read_nothing t : exists e, parameter_from_bytes t [] = Err e.
Proof. destruct t; eexists; vm_compute; reflexivity. Qed.

(** ** C44 *)
Lemma slice_from_neg {A} i (l : list A) : i < 0 -> len (slice_from i l) = Z.min (- i) (len l).
Proof. intros H. unfold slice_from. rewrite clamp_neg by lia. rewrite len_skipn. pose proof (len_nonneg l). lia. Qed.
Lemma slice_to_neg {A} i (l : list A) : i < 0 -> len (slice_to i l) = Z.max 0 (len l + i).
Proof. intros H. unfold slice_to. rewrite clamp_neg by lia. unfold len in *. rewrite firstn_length. lia. Qed.
Lemma len_0 {A} (l : list A) : len l = 0 -> l = [].
Proof. destruct l; [reflexivity|]. rewrite len_cons. pose proof (len_nonneg l). lia. Qed.

Lemma loop_three acc l : len l = 3 -> is_bytes l -> exists e, loop acc l = Err e.
Proof.
  destruct l as [|a [|b [|t [|x l]]]]; rewrite ?len_cons, ?len_nil; intros H B; try lia; try (pose proof (len_nonneg l); lia).
  rewrite loop_header. destruct (parameter_type_of t) as [ty|e]; [|eauto].
  replace (slice_to (a + 256 * b - 3) []) with (@nil Z); [destruct (read_nothing ty) as [e ->]; eauto|].
  unfold slice_to. rewrite firstn_nil. reflexivity.
Qed.

Lemma loop_short_length n t l acc : 0 <= n < 3 -> is_bytes l -> exists e, loop acc (object_header n t ++ l) = Err e.
Proof.
  intros Hn Hl. unfold object_header. cbn [app]. rewrite loop_header, header_value.
  destruct (parameter_type_of t) as [ty|e]; [|eauto].
  destruct (Z.le_gt_cases (len l) (3 - n)) as [L|L].
  - replace (slice_to (n - 3) l) with (@nil Z); [destruct (read_nothing ty) as [e ->]; eauto|].
    symmetry. apply len_0. rewrite slice_to_neg by lia. lia.
  - destruct (parameter_from_bytes ty (slice_to (n - 3) l)) as [o|e]; [|eauto].
    pose proof (slice_from_neg (n - 3) l ltac:(lia)) as S. rewrite Z.min_l in S by lia.
    destruct (Z.eq_dec n 0) as [->|]; [apply loop_three; [lia|auto with bytes]|].
    rewrite loop_short by lia. eauto.
Qed.

Theorem parse_short_length objs n t l : 0 <= n < 3 -> is_bytes l ->
  exists e, parse None (Some (transmission objs ++ object_header n t ++ l)) = Some (Err e).
Proof.
  intros Hn Hl. rewrite parse_loop_eq by (destruct (transmission objs); discriminate).
  destruct (loop_raises objs [] (object_header n t ++ l)) as [e ->]; [|eauto].
  intros acc. apply loop_short_length; assumption.
Qed.
Theorem parse_unknown_type objs n t l : (forall ty, type_code ty <> t) ->
  exists e, parse None (Some (transmission objs ++ object_header n t ++ l)) = Some (Err e) /\
  (forall vs, read_one_by_one objs vs -> e = ValueError).
Proof.
  intros Ht. rewrite parse_loop_eq by (destruct (transmission objs); discriminate).
  assert (forall acc, loop acc (object_header n t ++ l) = Err ValueError) as L.
  { intros acc. unfold object_header. cbn [app]. rewrite loop_header, type_of_unknown by exact Ht. reflexivity. }
  destruct (loop_raises objs [] (object_header n t ++ l)) as [e E]; [eauto|].
  rewrite E. exists e. split; [reflexivity|]. intros vs V. rewrite (loop_transmission _ _ V), L in E. congruence.
Qed.
Theorem parse_cut_header objs l : 0 < len l < 3 ->
  exists e, parse None (Some (transmission objs ++ l)) = Some (Err e) /\ (forall vs, read_one_by_one objs vs -> e = IndexError).
Proof.
  intros H. rewrite parse_loop_eq.
  2:{ intros E. apply app_eq_nil in E as [_ ->]. unfold len in H; cbn in H; lia. }
  destruct (loop_raises objs [] l) as [e E]; [intros; rewrite loop_short by exact H; eauto|].
  rewrite E. exists e. split; [reflexivity|]. intros vs V. rewrite (loop_transmission _ _ V), loop_short in E by exact H. congruence.
Qed.
(** a length field beyond the end of the block is not noticed *)
Theorem parse_overlong objs vs t c v n : read_one_by_one objs vs -> parameter_from_bytes t c = Ok v -> len c + 3 <= n ->
  parse None (Some (transmission objs ++ object_header n (type_code t) ++ c)) = Some (Ok (vs ++ [v])).
Proof.
  intros V E Hn. rewrite parse_loop_eq by (destruct (transmission objs); discriminate).
  rewrite (loop_transmission _ _ V). unfold object_header. cbn [app]. rewrite loop_header, type_code_of, header_value.
  pose proof (len_nonneg c).
  assert (slice_to (n - 3) c = c) as ->. { unfold slice_to. rewrite clamp_pos by lia. rewrite Z.min_r by lia. apply firstn_all2. unfold len. lia. }
  assert (slice_from (n - 3) c = []) as ->. { unfold slice_from. rewrite clamp_pos by lia. rewrite Z.min_r by lia. apply skipn_all2. unfold len. lia. }
  rewrite E. reflexivity.
Qed.
(** every success is one of the two: a whole transmission, or one whose last object is cut short *)
Lemma loop_ok_inv k : forall l acc vs, (length l < k)%nat -> is_bytes l -> loop acc l = Ok vs ->
  (l = [] /\ vs = acc) \/
  exists objs t c n us, l = transmission objs ++ object_header n (type_code t) ++ c /\ len c + 3 <= n < 65536 /\
    is_bytes c /\ Forall sendable objs /\ read_one_by_one (objs ++ [(t, c)]) us /\ vs = acc ++ us.
Proof.
  induction k as [|k IH]; intros l acc vs Hk Hl H; [lia|].
  destruct l as [|a [|b [|t l]]]; try (rewrite loop_short in H by (unfold len; cbn [length]; lia); discriminate).
  - left. rewrite loop_nil in H. inversion H. auto.
  - right. unfold is_bytes in Hl. apply Forall_cons_iff in Hl as [Ha Hl1]. apply Forall_cons_iff in Hl1 as [Hb Hl2]. apply Forall_cons_iff in Hl2 as [Ht Hl3].
    unfold is_byte in Ha, Hb, Ht. set (n := a + 256 * b) in *.
    assert (a :: b :: t :: l = object_header n t ++ l) as HD.
    { unfold object_header, n. cbn [app]. f_equal; [|f_equal].
      - rewrite Z.mul_comm, Z_mod_plus_full, Z.mod_small by lia. reflexivity.
      - rewrite Z.mul_comm, Z.div_add, Z.div_small by lia. lia. }
    destruct (Z.lt_ge_cases n 3) as [N|N].
    { rewrite HD in H. destruct (loop_short_length n t l acc ltac:(lia) Hl3) as [e E]. congruence. }
    rewrite loop_header in H. fold n in H. destruct (parameter_type_of t) as [ty|] eqn:T; [|discriminate].
    apply type_of_inv in T. subst t.
    destruct (parameter_from_bytes ty (slice_to (n - 3) l)) as [o|] eqn:P; [|discriminate].
    assert (slice_to (n - 3) l ++ slice_from (n - 3) l = l) as SPL by (unfold slice_to, slice_from; apply firstn_skipn).
    destruct (IH (slice_from (n - 3) l) (acc ++ [o]) vs) as [[E ->]|(objs & t' & c & m & us & E & M & C & F & V & ->)]; auto with bytes.
    { pose proof (slice_from_len (n - 3) l). unfold len in *. cbn [length] in Hk. lia. }
    + exists [], ty, l, n, [o]. rewrite E, app_nil_r in SPL. rewrite SPL in P. rewrite HD. split; [reflexivity|].
      split; [|split; [exact Hl3|split; [constructor|split; [constructor; [exact P|constructor]|reflexivity]]]].
      assert (len (slice_from (n - 3) l) = 0) as Z0 by (rewrite E; reflexivity).
      unfold slice_from in Z0. rewrite clamp_pos, len_skipn in Z0 by lia. pose proof (len_nonneg l). lia.
    + assert (len (slice_to (n - 3) l) = n - 3) as LS.
      { assert (0 < len (slice_from (n - 3) l)) as L0.
        { rewrite E. unfold object_header. rewrite !len_app, !len_cons. pose proof (len_nonneg (transmission objs)). pose proof (len_nonneg c). change (len (@nil Z)) with 0. lia. }
        unfold slice_from in L0. rewrite clamp_pos, len_skipn in L0 by lia.
        unfold slice_to. rewrite clamp_pos by lia. unfold len in *. rewrite firstn_length. lia. }
      exists ((ty, slice_to (n - 3) l) :: objs), t', c, m, (o :: us). split.
      * cbn [transmission map concat]. unfold transmitted at 1. cbn [fst snd]. rewrite LS.
        change (concat (map transmitted objs)) with (transmission objs).
        rewrite HD. replace (n - 3 + 3) with n by lia. rewrite <- !app_assoc. f_equal. rewrite <- E. symmetry. exact SPL.
      * split; [exact M|]. split; [exact C|]. split; [constructor; [split; [cbn; auto with bytes|cbn [snd]; lia]|exact F]|].
        split; [constructor; [exact P|exact V]|]. rewrite <- app_assoc. reflexivity.
Qed.
Theorem parse_ok_inv l vs : is_bytes l -> parse None (Some l) = Some (Ok vs) ->
  exists objs t c n, l = transmission objs ++ object_header n (type_code t) ++ c /\ len c + 3 <= n < 65536 /\
    is_bytes c /\ Forall sendable objs /\ read_one_by_one (objs ++ [(t, c)]) vs.
Proof.
  intros Hl H. assert (l <> []) as N by (intros ->; discriminate). rewrite parse_loop_eq in H by exact N. inversion H as [H1].
  destruct (loop_ok_inv (S (length l)) l [] vs ltac:(lia) Hl H1) as [[E _]|(objs & t & c & n & us & E & M & C & F & V & ->)]; [contradiction|].
  exists objs, t, c, n. auto.
Qed.

(** ** C46: coverage *)
Definition covered (n : Z) (ds : list (range * reading)) : Prop := exists r d, In (r, d) ds /\ within n r.
Lemma covered_documented t rows n : 0 <= rows -> 0 <= n -> covered n (documented t rows).
Proof.
  intros Hr Hn.
  assert (forall k d, covered n (exactly k d)) as X1.
  { intros k d. destruct (Z.lt_trichotomy n k) as [H|[H|H]]; [do 2 eexists; split; [left; reflexivity|]|do 2 eexists; split; [right; left; reflexivity|]
     |do 2 eexists; split; [do 2 right; left; reflexivity|]]; split; cbn; lia. }
  assert (forall k d, covered n (at_least k d)) as X2.
  { intros k d. destruct (Z.lt_ge_cases n k); [do 2 eexists; split; [left; reflexivity|]|do 2 eexists; split; [right; left; reflexivity|]]; split; cbn; lia. }
  assert (forall k d, covered n (optional_byte k d)) as X3.
  { intros k d. destruct (Z.lt_trichotomy n k) as [H|[H|H]]; [do 2 eexists; split; [left; reflexivity|]; split; cbn; lia|do 2 eexists; split; [right; left; reflexivity|]; split; cbn; lia|].
    destruct (Z.eq_dec n (k + 1)); do 2 eexists; split; [do 2 right; left; reflexivity| |do 3 right; left; reflexivity|]; split; cbn; lia. }
  assert (forall k d, covered n (optional_byte_open k d)) as X4.
  { intros k d. destruct (Z.lt_trichotomy n k) as [H|[H|H]]; [do 2 eexists; split; [left; reflexivity|]|do 2 eexists; split; [right; left; reflexivity|]
     |do 2 eexists; split; [do 2 right; left; reflexivity|]]; split; cbn; lia. }
  assert (forall k a b c d e, covered n [(mk_range 0 (Some (k - 1)), a); (mk_range k (Some k), b); (mk_range (k + 1) (Some (k + 26)), c);
      (mk_range (k + 27) (Some (k + 27)), d); (mk_range (k + 28) None, e)]) as X5.
  { intros k a b c d e. destruct (Z.lt_trichotomy n k) as [H|[H|H]]; [do 2 eexists; split; [left; reflexivity|]; split; cbn; lia|do 2 eexists; split; [right; left; reflexivity|]; split; cbn; lia|].
    destruct (Z.lt_trichotomy n (k + 27)) as [H'|[H'|H']]; do 2 eexists; split; [do 2 right; left; reflexivity| |do 3 right; left; reflexivity| |do 4 right; left; reflexivity|]; split; cbn; lia. }
  assert (forall d, covered n [(mk_range 0 None, d)]) as X6 by (intros d; do 2 eexists; split; [left; reflexivity|split; cbn; lia]).
  destruct t; cbn [documented]; unfold optional_log, unreadable; auto.
Qed.
Theorem lengths_covered t l : is_bytes l -> exists r d, In (r, d) (documented t (byte_at 34 l)) /\ within (len l) r.
Proof. intros Hl. apply covered_documented; [pose proof (byte_at_byte 34 l Hl); unfold is_byte in *; lia|apply len_nonneg]. Qed.

Theorem accepted_lengths t l : is_bytes l ->
  ((exists v, parameter_from_bytes t l = Ok v) <->
   exists r c fields, In (r, Object c fields) (documented t (byte_at 34 l)) /\ within (len l) r).
Proof.
  intros Hl. split.
  - intros [v H]. destruct (lengths_covered t l Hl) as (r & d & I & W). pose proof (parameter_conforms t l r d Hl I W) as C.
    destruct d as [c fields|e]; [eauto|]. cbn in C. congruence.
  - intros (r & c & fields & I & W). destruct (parameter_conforms t l r _ Hl I W) as (attrs & E & _). eauto.
Qed.

Lemma ok_object t l v : is_bytes l -> parameter_from_bytes t l = Ok v ->
  exists r c fields attrs, In (r, Object c fields) (documented t (byte_at 34 l)) /\ within (len l) r /\ v = VObj c attrs /\
    Forall2 (fun (a : string * value) (f : string * place) => fst a = fst f /\ shows l (snd f) (snd a)) attrs fields.
Proof.
  intros Hl H. destruct (proj1 (accepted_lengths t l Hl) (ex_intro _ v H)) as (r & c & fields & I & W).
  destruct (parameter_conforms t l r _ Hl I W) as (attrs & E & F). exists r, c, fields, attrs.
  rewrite E in H. inversion H. auto.
Qed.

(** ** C47 *)
Lemma documented_class t rows : match registered_class t with
  | Some c => Forall (fun rd => match snd rd with
                | Object name fields => name = class_name c /\ map fst fields = class_attrs c
                | Raises _ => True end) (documented t rows)
  | None => forall rd, In rd (documented t rows) -> snd rd = Raises KeyError
  end.
Proof.
  destruct t; cbn [registered_class].
  all: try (repeat constructor; fail).
  all: intros rd [<-|[]]; reflexivity.
Qed.
Theorem registered_result t l v : is_bytes l -> parameter_from_bytes t l = Ok v ->
  exists c attrs, registered_class t = Some c /\ v = VObj (class_name c) attrs /\ map fst attrs = class_attrs c.
Proof.
  intros Hl H. destruct (ok_object t l v Hl H) as (r & name & fields & attrs & I & W & -> & F).
  pose proof (documented_class t (byte_at 34 l)) as D. destruct (registered_class t) as [c|].
  - rewrite Forall_forall in D. specialize (D _ I). cbn in D. destruct D as [-> D]. exists c, attrs. split; [reflexivity|]. split; [reflexivity|].
    rewrite <- D. clear -F. induction F as [|[a v] [b p] attrs fields [E _] F IH]; [reflexivity|]. cbn in *. congruence.
  - specialize (D _ I). discriminate.
Qed.
Theorem unreadable_raises t l : unreadable_type t -> is_bytes l -> exists e, parameter_from_bytes t l = Err e.
Proof.
  intros U Hl. destruct (lengths_covered t l Hl) as (r & d & I & W). pose proof (parameter_conforms t l r d Hl I W) as C.
  destruct d as [c fields|e]; [|cbn in C; eauto]. exfalso. clear C W.
  destruct U as [<-|[<-|[<-|[<-|[]]]]]; cbn in I; repeat destruct I as [I|I]; try discriminate; contradiction.
Qed.
(** ** C48 *)
Lemma lookup_attr l attrs fields : Forall2 (fun (a : string * value) (f : string * place) => fst a = fst f /\ shows l (snd f) (snd a)) attrs fields ->
  forall x, match lookup x attrs, lookup x fields with
            | Some v, Some p => shows l p v
            | None, None => True
            | _, _ => False
            end.
Proof.
  intros F x. induction F as [|[a v] [b p] attrs fields [E S] F IH]; [exact I|]. cbn in *. subst b.
  destruct (String.eqb x a); [exact S|exact IH].
Qed.
Definition flags_agree (t : parameter_type) (fields : list (string * place)) : bool :=
  forallb (fun f => match snd f with
                    | Flag o k => (o =? fst (control_bits t)) && existsb (fun c => String.eqb (fst c) (fst f) && (snd c =? k)) (snd (control_bits t))
                    | _ => true end) fields &&
  forallb (fun c => match lookup (fst c) fields with Some (Flag o k) => (o =? fst (control_bits t)) && (k =? snd c) | _ => false end) (snd (control_bits t)).
Lemma flags_documented t rows : forallb (fun rd => match snd rd with Object _ fields => flags_agree t fields | _ => true end) (documented t rows) = true.
Proof. destruct t; vm_compute; reflexivity. Qed.
Lemma lookup_In {A} x (l : list (string * A)) v : lookup x l = Some v -> In (x, v) l.
Proof.
  induction l as [|[y w] l IH]; [discriminate|]. cbn. destruct (String.eqb_spec x y) as [->|]; [|auto]. intros H; inversion H; auto.
Qed.
Theorem booleans t l c attrs a b : is_bytes l -> parameter_from_bytes t l = Ok (VObj c attrs) ->
  (lookup a attrs = Some (VBool b) <->
   exists k, In (a, k) (snd (control_bits t)) /\ b = Z.testbit (byte_at (fst (control_bits t)) l) k).
Proof.
  intros Hl H. destruct (ok_object t l _ Hl H) as (r & c' & fields & attrs' & I & W & E & F). inversion E; subst c' attrs'. clear E.
  pose proof (flags_documented t (byte_at 34 l)) as D. rewrite forallb_forall in D. specialize (D _ I). cbn [snd] in D.
  unfold flags_agree in D. apply andb_prop in D as [D1 D2]. rewrite forallb_forall in D1, D2.
  pose proof (lookup_attr l attrs fields F a) as A. split.
  - intros L. rewrite L in A. destruct (lookup a fields) as [p|] eqn:P; [|contradiction].
    assert (exists o k, p = Flag o k /\ b = Z.testbit (byte_at o l) k) as (o & k & -> & Hb).
    { destruct p; cbn [shows] in A; try discriminate; try (decompose [ex and] A; discriminate). inversion A. eauto. }
    specialize (D1 _ (lookup_In _ _ _ P)). cbn [snd fst] in D1. apply andb_prop in D1 as [O X]. apply Z.eqb_eq in O. subst o.
    apply existsb_exists in X as ([a' k'] & X & Y). apply andb_prop in Y as [Y1 Y2]. cbn in Y1, Y2. apply String.eqb_eq in Y1. apply Z.eqb_eq in Y2. subst.
    eauto.
  - intros (k & X & ->). specialize (D2 _ X). cbn [fst snd] in D2. destruct (lookup a fields) as [p|]; [|discriminate].
    destruct p; try discriminate. apply andb_prop in D2 as [O K]. apply Z.eqb_eq in O, K. subst.
    destruct (lookup a attrs) as [v|]; [|contradiction]. cbn [shows] in A. subst v. reflexivity.
Qed.

(** ** C58 *)
Lemma value_written_once x y q : float_value x q -> float_value y q -> negative x = negative y -> x = y.
Proof.
  destruct x as [| |s m e], y as [| |s' m' e']; cbn; try contradiction. intros [L E] [L' E'] N. injection N as <-.
  assert ((m # 1) * (2 # 1) ^ e == (m' # 1) * (2 # 1) ^ e')%Q as V.
  { unfold dyadic in *. destruct s; [|rewrite <- E; exact E'].
    setoid_replace (- m # 1)%Q with (- (m # 1))%Q in E by reflexivity. setoid_replace (- m' # 1)%Q with (- (m' # 1))%Q in E' by reflexivity.
    assert (- (m # 1) * (2 # 1) ^ e == - (m' # 1) * (2 # 1) ^ e')%Q as V by (rewrite <- E; exact E').
    transitivity (- (- (m # 1) * (2 # 1) ^ e))%Q; [ring|]. rewrite V. ring. }
  clear E E' q. assert (forall a b c d, ((a # 1) * (2 # 1) ^ b == (c # 1) * (2 # 1) ^ d)%Q -> b <= d -> a = c * 2 ^ (d - b)) as K.
  { intros a b c d V' H. assert ((a # 1) == (c # 1) * (2 # 1) ^ (d - b))%Q as W.
    { replace d with (d - b + b) in V' by lia. rewrite pow_add, Qmult_assoc in V'. pose proof (FloatProofs.pow_pos b) as P.
      apply (Qmult_inj_r _ _ ((2 # 1) ^ b)%Q); [intros Z0; rewrite Z0 in P; discriminate P|exact V']. }
    rewrite pow_Z in W by lia. unfold Qeq in W. cbn in W. lia. }
  assert (forall a b c d, lowest_terms a b -> lowest_terms c d -> a = c * 2 ^ (d - b) -> b <= d -> a = c /\ b = d) as U.
  { intros a b c d La Lc H B. destruct La as [[-> ->]|[Pa Oa]].
    - destruct Lc as [[-> ->]|[Pc _]]; [auto|]. exfalso. pose proof (Z.pow_pos_nonneg 2 (d - 0)). nia.
    - destruct (Z.eq_dec b d) as [->|N]; [rewrite Z.sub_diag in H; lia|]. exfalso. replace (d - b) with (Z.succ (d - b - 1)) in H by lia.
      rewrite Z.pow_succ_r in H by lia. replace (c * (2 * 2 ^ (d - b - 1))) with (2 * (c * 2 ^ (d - b - 1))) in H by ring. rewrite H, Z.odd_mul in Oa. discriminate. }
  destruct (Z.le_ge_cases e e') as [H|H].
  - destruct (U m e m' e' L L' (K _ _ _ _ V H) H) as [-> ->]. reflexivity.
  - symmetry in V. destruct (U m' e' m e L' L (K _ _ _ _ V H) H) as [-> ->]. reflexivity.
Qed.
Lemma denotes_unique w f n x y : denotes w f n x -> denotes w f n y -> x = y.
Proof.
  unfold denotes. cbv zeta. intros [(A1 & A2 & ->)|[(A1 & A2 & ->)|(A1 & A2 & A3)]] [(B1 & B2 & ->)|[(B1 & B2 & ->)|(B1 & B2 & B3)]];
    try reflexivity; try contradiction; try lia.
  eapply value_written_once; eauto. congruence.
Qed.
Lemma single_round_finite b x : is_bytes b -> len b = 4 -> unpack_single b = Ok x ->
  rounded_to_7 x (round7 x) /\ ((exists s m e, x = Fin s m e) -> exists s m e, round7 x = Fin s m e).
Proof.
  intros Hb L H. unfold unpack_single in H. rewrite L in H. inversion H as [E].
  assert (rounded_to_7 x (round7 x)) as R.
  { rewrite <- E. apply decode_single_round. pose proof (from_le_range b Hb) as B. rewrite L in B. cbn in B |- *. lia. }
  rewrite E. split; [exact R|]. intros (s & m & e & X). rewrite X in R |- *. cbn [rounded_to_7] in R.
  destruct R as (k & q & _ & _ & V & _). destruct (round7 (Fin s m e)); cbn [float_value] in V; try contradiction. eauto.
Qed.

(** ** More consequences *)
Theorem attribute_shown t l r cls fields name place :
  is_bytes l -> In (r, Object cls fields) (documented t (byte_at 34 l)) -> within (len l) r ->
  lookup name fields = Some place ->
  exists attrs v, parameter_from_bytes t l = Ok (VObj cls attrs) /\ lookup name attrs = Some v /\ shows l place v.
Proof.
  intros Hl I W P. destruct (parameter_conforms t l r _ Hl I W) as (attrs & E & F). exists attrs.
  pose proof (lookup_attr l attrs fields F name) as A. rewrite P in A. destruct (lookup name attrs) as [v|]; [|contradiction]. eauto.
Qed.
Lemma objects_from t rows : 0 <= rows -> forall r cls fields, In (r, Object cls fields) (documented t rows) -> min_length t <= from r.
Proof.
  intros Hr r cls fields I. destruct t; cbn in I; repeat destruct I as [I|I]; try contradiction; inversion I; subst; cbn [from min_length]; lia.
Qed.
Lemma object_min t l v : is_bytes l -> parameter_from_bytes t l = Ok v -> min_length t <= len l.
Proof.
  intros Hl H. destruct (proj1 (accepted_lengths t l Hl) (ex_intro _ v H)) as (r & c & fields & I & W).
  apply objects_from in I; [destruct W; lia|]. pose proof (byte_at_byte 34 l Hl). unfold is_byte in *. lia.
Qed.
Theorem shorter_raises t l : is_bytes l -> len l < min_length t -> exists e, parameter_from_bytes t l = Err e.
Proof.
  intros Hl Hk. destruct (parameter_from_bytes t l) as [w|e] eqn:E; [|eauto]. apply object_min in E; [lia|exact Hl].
Qed.
Theorem shortest_readable t : ~ unreadable_type t -> exists l v, is_bytes l /\ len l = min_length t /\ parameter_from_bytes t l = Ok v.
Proof.
  intros U. set (n := Z.to_nat (min_length t)). exists (repeat 0 n).
  assert (is_bytes (repeat 0 n)) as B. { apply Forall_forall. intros x X. apply repeat_spec in X as ->. unfold is_byte; lia. }
  assert (len (repeat 0 n) = min_length t) as L.
  { unfold len, n. rewrite repeat_length. rewrite Z2Nat.id; [reflexivity|]. destruct t; discriminate. }
  assert (byte_at 34 (repeat 0 n) = 0) as R by (unfold byte_at; apply nth_repeat).
  enough (exists r c fields, In (r, Object c fields) (documented t 0) /\ within (min_length t) r) as K.
  { rewrite <- R, <- L in K. apply (accepted_lengths t _ B) in K as [v V]. eauto. }
  destruct t; try (exfalso; apply U; unfold unreadable_type; cbn; tauto).
  all: do 3 eexists; split; [right; left; reflexivity|vm_compute; split; [intros X; discriminate|first [exact Logic.I|intros X; discriminate]]].
Qed.
Theorem unreadable_block objs t c following : unreadable_type t -> is_bytes c ->
  exists e, parse None (Some (transmission objs ++ transmitted (t, c) ++ following)) = Some (Err e).
Proof.
  intros U C. rewrite parse_loop_eq by (destruct (transmission objs); discriminate).
  destruct (loop_raises objs [] (transmitted (t, c) ++ following)) as [e ->]; [|eauto].
  intros acc. rewrite loop_transmitted. destruct (unreadable_raises t c U C) as [e ->]. eauto.
Qed.
Theorem single_exact b : is_bytes b -> len b = 4 -> exists x, unpack_single b = Ok x /\ denotes 8 23 (le_value b) x.
Proof.
  intros Hb L. assert (exists x, unpack_single b = Ok x) as [x E] by (unfold unpack_single; rewrite L; eexists; reflexivity).
  exists x. split; [exact E|]. exact (unpack_single_denotes b x Hb E).
Qed.
Theorem double_exact b : is_bytes b -> len b = 8 -> exists x, unpack_double b = Ok x /\ denotes 11 52 (le_value b) x.
Proof.
  intros Hb L. assert (exists x, unpack_double b = Ok x) as [x E] by (unfold unpack_double; rewrite L; eexists; reflexivity).
  exists x. split; [exact E|]. exact (unpack_double_denotes b x Hb E).
Qed.
