(** Proofs: every byte string as parameter data. *)
From Coq Require Import Lia.
From Verif Require Import Py PyFacts Utils PyFloat ParamLang Parameters SpecText SpecApplication SpecParameters FloatProofs ParamProofs DecodeFacts ParserProofs OnceProofs SpecNumbers NumberProofs SpecBlock.
Open Scope string_scope.
Open Scope list_scope.
Open Scope Z_scope.

Lemma cut_to n (l : bytes) : 0 <= n -> slice_to (n - 3) l = firstn (content_size n l) l.
Proof.
  intros H. unfold slice_to, content_size, clamp. destruct (Z.leb_spec 3 n); destruct (Z.ltb_spec (n - 3) 0); try lia.
  - destruct (Z.le_gt_cases (n - 3) (len l)); [f_equal; lia|]. unfold len in *. rewrite !firstn_all2; [reflexivity|lia|lia].
  - f_equal. lia.
Qed.
Lemma cut_from n (l : bytes) : 0 <= n -> slice_from (n - 3) l = skipn (content_size n l) l.
Proof.
  intros H. unfold slice_from, content_size, clamp. destruct (Z.leb_spec 3 n); destruct (Z.ltb_spec (n - 3) 0); try lia.
  - destruct (Z.le_gt_cases (n - 3) (len l)); [f_equal; lia|]. unfold len in *. rewrite !skipn_all2; [reflexivity|lia|lia].
  - f_equal. lia.
Qed.
Lemma part_bytes n (l : bytes) : is_bytes l -> is_bytes (firstn n l) /\ is_bytes (skipn n l).
Proof. intros B. rewrite <- (firstn_skipn n l) in B. apply is_bytes_app in B. exact B. Qed.
Definition result (acc vs : list value) (failure : option exn) : res (list value) :=
  match failure with Some e => Err e | None => Ok (acc ++ vs) end.
Lemma block_loop l objs failure : block l objs failure -> is_bytes l ->
  exists vs, Forall2 object_shown objs vs /\ forall acc, loop acc l = result acc vs failure.
Proof.
  induction 1 as [|l L|lo hi code l U|lo hi code t l e N (r & I & W)|lo hi code t l cls fields objs failure N (r & I & W) H IH]; intros B.
  - exists []. split; [constructor|]. intros acc. cbn. rewrite app_nil_r. reflexivity.
  - exists []. split; [constructor|]. intros acc. apply loop_short. exact L.
  - exists []. split; [constructor|]. intros acc. rewrite loop_header, type_of_unknown by (intros t E; apply type_numbers_iff in E; eapply U; eassumption). reflexivity.
  - apply type_numbers_iff in N as <-. exists []. split; [constructor|]. intros acc. unfold is_bytes in B. rewrite !Forall_cons_iff in B. destruct B as (B1 & B2 & _ & B).
    unfold is_byte in *. rewrite loop_header, type_code_of, cut_to by lia.
    rewrite (parameter_conforms _ _ _ _ (proj1 (part_bytes _ _ B)) I W : _ = Err e). reflexivity.
  - apply type_numbers_iff in N as <-. unfold is_bytes in B. rewrite !Forall_cons_iff in B. destruct B as (B1 & B2 & _ & B). unfold is_byte in *.
    destruct (part_bytes (content_size (lo + 256 * hi) l) l B) as [Bc Bs].
    destruct (parameter_conforms _ _ _ _ Bc I W) as (attrs & E & F). destruct (IH Bs) as (vs & Fv & R).
    exists (VObj cls attrs :: vs). split.
    + constructor; [|exact Fv]. exists cls, fields. split; [exists r; auto|]. exists attrs. auto.
    + intros acc. rewrite loop_header, type_code_of, cut_to, cut_from by lia. rewrite E, R. unfold result. destruct failure; [reflexivity|].
      rewrite <- app_assoc. reflexivity.
Qed.
Lemma block_total k : forall l : bytes, (length l <= k)%nat -> is_bytes l -> exists objs failure, block l objs failure.
Proof.
  induction k as [|k IH]; intros l L B.
  - destruct l; [|cbn in L; lia]. exists [], None. constructor.
  - destruct l as [|lo [|hi [|code l]]]; [exists [], None; constructor|exists [], (Some IndexError); constructor; unfold len; cbn [length]; lia..|].
    unfold is_bytes in B. rewrite !Forall_cons_iff in B. destruct B as (B1 & B2 & _ & B).
    destruct (parameter_type_of code) as [t|e] eqn:T.
    + apply type_of_inv in T as ->. set (n := content_size (lo + 256 * hi) l). destruct (part_bytes n l B) as [Bc Bs].
      destruct (lengths_covered t (firstn n l) Bc) as (r & d & I & W). destruct d as [cls fields|e].
      * destruct (IH (skipn n l)) as (objs & failure & H); [rewrite skipn_length; cbn [length] in L; lia|exact Bs|].
        exists ((t, firstn n l) :: objs), failure. eapply block_object; [apply type_numbers_iff; reflexivity|exists r; split; eassumption|exact H].
      * exists [], (Some e). apply (block_unreadable _ _ _ t); [apply type_numbers_iff; reflexivity|]. exists r. auto.
    + exists [], (Some ValueError). apply block_unknown_type. intros t E. apply type_numbers_iff in E. rewrite <- E, type_code_of in T. discriminate.
Qed.
Lemma form_once t c d d' : is_bytes c -> form t c d -> form t c d' ->
  d = d'.
Proof. intros B (r & I & W) (r' & I' & W'). eapply documented_separate; eassumption. Qed.
Lemma code_once t t' : type_code t = type_code t' -> t = t'.
Proof. intros E. pose proof (type_code_of t) as H. rewrite E, type_code_of in H. congruence. Qed.
Lemma block_once l objs failure : block l objs failure -> is_bytes l -> forall objs' failure', block l objs' failure' -> objs = objs' /\ failure = failure'.
Proof.
  induction 1 as [|l L|lo hi code l U|lo hi code t l e N F|lo hi code t l cls fields objs failure N F H IH]; intros B objs' failure' H'.
  - inversion H'; subst; [auto|]. exfalso. unfold len in *. cbn [length] in *. lia.
  - inversion H'; subst; auto; exfalso; unfold len in *; cbn [length] in *; lia.
  - inversion H'; subst; auto; exfalso; [unfold len in *; cbn [length] in *; lia|eapply U; eauto..].
  - unfold is_bytes in B. rewrite !Forall_cons_iff in B. destruct B as (_ & _ & _ & B). pose proof (proj1 (part_bytes (content_size (lo + 256 * hi) l) l B)) as Bc.
    inversion H' as [|? X|? ? ? ? X|? ? ? t' ? e' N' F' E1|? ? ? t' ? cls' fields' objs'' ? N' F' H'' E1]; subst.
    + exfalso; unfold len in *; cbn [length] in *; lia.
    + exfalso. eapply X; eauto.
    + apply type_numbers_iff in N, N'; subst code; apply code_once in N'; subst t'. split; [reflexivity|]. pose proof (form_once _ _ _ _ Bc F F'). congruence.
    + apply type_numbers_iff in N, N'; subst code; apply code_once in N'; subst t'. pose proof (form_once _ _ _ _ Bc F F'). discriminate.
  - unfold is_bytes in B. rewrite !Forall_cons_iff in B. destruct B as (_ & _ & _ & B). destruct (part_bytes (content_size (lo + 256 * hi) l) l B) as [Bc Bs].
    inversion H' as [|? X|? ? ? ? X|? ? ? t' ? e' N' F' E1|? ? ? t' ? cls' fields' objs'' ? N' F' H'' E1]; subst.
    + exfalso; unfold len in *; cbn [length] in *; lia.
    + exfalso. eapply X; eauto.
    + apply type_numbers_iff in N, N'; subst code; apply code_once in N'; subst t'. pose proof (form_once _ _ _ _ Bc F F'). discriminate.
    + apply type_numbers_iff in N, N'; subst code; apply code_once in N'; subst t'. destruct (IH Bs _ _ H'') as [-> ->]. auto.
Qed.
Theorem every_block l : is_bytes l -> exists objs failure, block l objs failure /\
  (forall objs' failure', block l objs' failure' -> objs' = objs /\ failure' = failure) /\
  (l <> [] -> match failure with
   | Some e => parse None (Some l) = Some (Err e)
   | None => exists vs, parse None (Some l) = Some (Ok vs) /\ Forall2 object_shown objs vs
   end).
Proof.
  intros B. destruct (block_total (length l) l (le_n _) B) as (objs & failure & H). exists objs, failure. split; [exact H|]. split.
  - intros objs' failure' H'. destruct (block_once _ _ _ H B _ _ H') as [-> ->]. auto.
  - intros N. destruct (block_loop _ _ _ H B) as (vs & F & R). pose proof (parse_loop_eq l N) as P. rewrite R in P. destruct failure; cbn [result app] in P; eauto.
Qed.

Lemma shown_once o v v' : is_bytes (snd o) -> object_shown o v -> object_shown o v' -> v = v'.
Proof.
  intros B (cls & fields & F & attrs & E & H) (cls' & fields' & F' & attrs' & E' & H').
  pose proof (form_once _ _ _ _ B F F') as X. injection X as <- <-. injection E as ->. injection E' as ->. f_equal.
  clear F F'. revert attrs' H'. induction H as [|[n a] f attrs fields [N S] H IH]; intros attrs' H'; inversion H' as [|[n' a'] ? attrs'' ? [N' S'] H'']; subst; [reflexivity|].
  cbn [fst snd] in *. subst. f_equal; [|apply IH; exact H'']. f_equal. eapply shows_once; eassumption.
Qed.
Lemma block_bytes l objs failure : block l objs failure -> is_bytes l -> Forall (fun o => is_bytes (snd o)) objs.
Proof.
  induction 1 as [|l L|lo hi code l U|lo hi code t l e N F|lo hi code t l cls fields objs failure N F H IH]; intros B; try constructor.
  - unfold is_bytes in B. rewrite !Forall_cons_iff in B. destruct B as (_ & _ & _ & B). apply part_bytes. exact B.
  - apply IH. unfold is_bytes in B. rewrite !Forall_cons_iff in B. destruct B as (_ & _ & _ & B). apply part_bytes. exact B.
Qed.
Lemma all_shown_once objs vs : Forall2 object_shown objs vs -> Forall (fun o => is_bytes (snd o)) objs -> forall vs', Forall2 object_shown objs vs' -> vs = vs'.
Proof.
  induction 1 as [|o v objs vs S H IH]; intros B vs' H'; inversion H' as [|? v' ? vs'' S' H'']; subst; [reflexivity|].
  inversion B; subst. f_equal; [eapply shown_once; eassumption|]. apply IH; assumption.
Qed.
Theorem reads_once l r r' : is_bytes l -> reads l r -> reads l r' -> r = r'.
Proof.
  intros B R H'. destruct R as [|l objs e H|l objs vs N H F]; inversion H' as [|? objs' e' K|? objs' vs' N' K F']; subst; try reflexivity; try contradiction.
  - inversion K; subst. unfold len in *. cbn [length] in *. lia.
  - inversion H; subst. unfold len in *. cbn [length] in *. lia.
  - destruct (block_once _ _ _ H B _ _ K). congruence.
  - destruct (block_once _ _ _ H B _ _ K). discriminate.
  - destruct (block_once _ _ _ H B _ _ K). discriminate.
  - destruct (block_once _ _ _ H B _ _ K) as [<- _]. f_equal. eapply all_shown_once; try eassumption. eapply block_bytes; eassumption.
Qed.
Theorem reads_iff l r : is_bytes l -> (parse None (Some l) = Some r <-> reads l r).
Proof.
  intros B. assert (exists r, parse None (Some l) = Some r /\ reads l r) as (r0 & P & R).
  { destruct l as [|b l]; [exists (Err ValueError); split; [reflexivity|constructor]|].
    destruct (every_block (b :: l) B) as (objs & failure & H & _ & K). specialize (K ltac:(discriminate)). destruct failure as [e|].
    - exists (Err e). split; [exact K|]. eapply reads_failure. exact H.
    - destruct K as (vs & P & F). exists (Ok vs). split; [exact P|]. eapply reads_objects; eauto. discriminate. }
  split; intros H.
  - replace r with r0; [exact R|]. rewrite P in H. congruence.
  - rewrite P. f_equal. eapply reads_once; eassumption.
Qed.
