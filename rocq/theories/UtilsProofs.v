(** Proofs about Utils.v: escaping and redundancy codes. *)
From Verif Require Import BitFacts SpecUtils Utils.
Open Scope Z_scope.

(** ** escaping *)
Lemma replace_chain l :
  replace1 141 [27; 15] (replace1 13 [27; 14] (replace1 27 [27; 27] l)) = flat_map esc_byte l.
Proof.
  unfold replace1. induction l as [|b l IH]; [reflexivity|].
  cbn [flat_map]. rewrite !flat_map_app, IH. f_equal. unfold esc_byte.
  destruct (Z.eqb_spec b 27) as [->|H27]; [reflexivity|].
  destruct (Z.eqb_spec b 13) as [->|H13]; [reflexivity|].
  cbn. rewrite (proj2 (Z.eqb_neq b 13)) by assumption. cbn.
  destruct (b =? 141); reflexivity.
Qed.
Lemma escape_app body : escape_characters (body ++ [13]) = Ok (flat_map esc_byte body ++ [13]).
Proof.
  unfold escape_characters. rewrite endswith_app, slice_to_neg1, replace_chain. reflexivity.
Qed.
Lemma escape_err_iff data :
  (exists e, escape_characters data = Err e) <-> ~ exists body, data = body ++ [13].
Proof.
  rewrite <- endswith1_false. unfold escape_characters.
  destruct (endswith data [13]); cbn; split; try congruence; eauto.
  intros [e H]; discriminate.
Qed.
Lemma escape_err data e : escape_characters data = Err e -> e = ValueError.
Proof. unfold escape_characters. destruct (negb _); congruence. Qed.
Lemma escape_ok_inv data out : escape_characters data = Ok out ->
  exists body, data = body ++ [13] /\ out = flat_map esc_byte body ++ [13].
Proof.
  unfold escape_characters. destruct (endswith data [13]) eqn:H; cbn; [|discriminate].
  apply endswith_spec in H as [body ->]. rewrite slice_to_neg1, replace_chain.
  intros H; injection H as <-. eauto.
Qed.

Lemma return_unesc d o : return_characters d = Ok o <-> unesc d o.
Proof.
  split.
  - revert d o. fix IH 1. intros d o. destruct d as [|b d]; cbn.
    + intros H; injection H as <-. constructor.
    + destruct (Z.eqb_spec b 27) as [->|Hb].
      * destruct d as [|b' d]; [discriminate|].
        destruct (return_characters d) as [o'|] eqn:E; cbn; [|discriminate].
        apply IH in E.
        destruct (Z.eqb_spec b' 14) as [->|H14]; [intros H; injection H as <-; constructor; exact E|].
        destruct (Z.eqb_spec b' 27) as [->|H27]; [intros H; injection H as <-; constructor; exact E|].
        destruct (Z.eqb_spec b' 15) as [->|H15]; [intros H; injection H as <-; constructor; exact E|].
        intros H; injection H as <-; constructor; assumption.
      * destruct (return_characters d) as [o'|] eqn:E; cbn; [|discriminate].
        apply IH in E. intros H; injection H as <-; constructor; assumption.
  - induction 1; cbn; try (rewrite IHunesc); cbn; auto.
    + destruct (Z.eqb_spec b 27); [contradiction|]. reflexivity.
    + destruct (Z.eqb_spec b 14); [contradiction|].
      destruct (Z.eqb_spec b 27); [contradiction|].
      destruct (Z.eqb_spec b 15); [contradiction|]. reflexivity.
Qed.
Lemma return_dangling d e : return_characters d = Err e <-> e = IndexError /\ dangling d.
Proof.
  split.
  - revert d e. fix IH 1. intros d e. destruct d as [|b d]; cbn; [discriminate|].
    destruct (Z.eqb_spec b 27) as [->|Hb].
    + destruct d as [|b' d].
      * intros H; injection H as <-; split; [reflexivity|constructor].
      * destruct (return_characters d) as [o'|] eqn:E; cbn.
        -- destruct (b' =? 14), (b' =? 27), (b' =? 15); discriminate.
        -- intros H; injection H as ->. apply IH in E as [-> E].
           split; [reflexivity|]. constructor; exact E.
    + destruct (return_characters d) as [o'|] eqn:E; cbn; [discriminate|].
      intros H; injection H as ->. apply IH in E as [-> E].
      split; [reflexivity|]. constructor; assumption.
  - intros [-> H]. induction H; cbn; auto.
    + destruct (Z.eqb_spec b 27); [contradiction|]. rewrite IHdangling. reflexivity.
    + rewrite IHdangling. reflexivity.
Qed.

Lemma unesc_esc body d o : unesc d o -> unesc (flat_map esc_byte body ++ d) (body ++ o).
Proof.
  intros H. induction body as [|b body IH]; cbn [flat_map app]; [exact H|].
  unfold esc_byte.
  destruct (Z.eqb_spec b 13) as [->|]; [cbn [app]; constructor; exact IH|].
  destruct (Z.eqb_spec b 27) as [->|]; [cbn [app]; constructor; exact IH|].
  destruct (Z.eqb_spec b 141) as [->|]; cbn [app]; constructor; auto.
Qed.
Lemma return_escape_ok body :
  return_characters (flat_map esc_byte body ++ [13]) = Ok (body ++ [13]).
Proof.
  apply return_unesc. apply unesc_esc. constructor; [lia|constructor].
Qed.
Lemma escape_roundtrip data out :
  escape_characters data = Ok out -> return_characters out = Ok data.
Proof. intros H. apply escape_ok_inv in H as (body & -> & ->). apply return_escape_ok. Qed.

Lemma esc_no_end body : ~ In 13 (flat_map esc_byte body).
Proof.
  intros H. apply in_flat_map in H as (b & _ & H). unfold esc_byte in H.
  destruct (Z.eqb_spec b 13); [cbn in H; lia|].
  destruct (Z.eqb_spec b 27); [cbn in H; lia|].
  destruct (Z.eqb_spec b 141); cbn in H; lia.
Qed.
Lemma esc_no_8d body : ~ In 141 (flat_map esc_byte body).
Proof.
  intros H. apply in_flat_map in H as (b & _ & H). unfold esc_byte in H.
  destruct (Z.eqb_spec b 13); [cbn in H; lia|].
  destruct (Z.eqb_spec b 27); [cbn in H; lia|].
  destruct (Z.eqb_spec b 141); cbn in H; lia.
Qed.
Lemma esc_length body : len body <= len (flat_map esc_byte body) <= 2 * len body.
Proof.
  induction body as [|b body IH]; [cbn [flat_map]; lenlia|]. cbn [flat_map]. rewrite len_app, len_cons.
  assert (1 <= len (esc_byte b) <= 2).
  { unfold esc_byte. destruct (b =? 13); [lenlia|]. destruct (b =? 27); [lenlia|].
    destruct (b =? 141); lenlia. }
  lia.
Qed.
Lemma esc_is_bytes body : is_bytes body -> is_bytes (flat_map esc_byte body).
Proof.
  induction body as [|b body IH]; intros H; [constructor|].
  apply is_bytes_cons in H as [Hb H]. cbn [flat_map]. apply is_bytes_app. split; [|auto].
  unfold esc_byte. destruct (b =? 13), (b =? 27), (b =? 141); bytes_tac.
Qed.

Lemma escape_shape data out : escape_characters data = Ok out ->
  exists body, out = body ++ [13] /\ ~ In 13 body /\ ~ In 141 out /\
               len data <= len out <= 2 * len data - 1.
Proof.
  intros H. apply escape_ok_inv in H as (body & -> & ->). exists (flat_map esc_byte body).
  pose proof (esc_length body). rewrite !len_app, !len_cons, !len_nil.
  split; [reflexivity|]. split; [apply esc_no_end|]. split; [|lia].
  rewrite in_app_iff. intros [H'|[H'|[]]]; [|lia]. revert H'; apply esc_no_8d.
Qed.

Lemma cut_step cur p l : ~ In 13 p ->
  cut cur (p ++ 13 :: l) = (fst (let '(ts, r) := cut [] l in ((cur ++ p ++ [13]) :: ts, r)),
                            snd (cut [] l)).
Proof.
  revert cur; induction p as [|b p IH]; intros cur H; cbn [app cut].
  - rewrite Z.eqb_refl. destruct (cut [] l); reflexivity.
  - destruct (Z.eqb_spec b 13); [exfalso; apply H; left; auto|].
    rewrite IH by (intros Hi; apply H; right; exact Hi). rewrite <- app_assoc. reflexivity.
Qed.
Lemma cut_telegrams ts tail :
  Forall (fun t => exists p, t = p ++ [13] /\ ~ In 13 p) ts -> ~ In 13 tail ->
  cut [] (concat ts ++ tail) = (ts, tail).
Proof.
  intros H Ht. induction H as [|t ts (p & -> & Hp) _ IH]; cbn [concat app].
  - assert (forall cur, cut cur tail = ([], cur ++ tail)) as G.
    { revert Ht. induction tail as [|b l IH]; intros Ht cur; cbn [cut]; [rewrite app_nil_r; reflexivity|].
      destruct (Z.eqb_spec b 13); [exfalso; apply Ht; left; auto|].
      rewrite IH by (intros Hi; apply Ht; right; exact Hi). rewrite <- app_assoc. reflexivity. }
    apply G.
  - rewrite <- !app_assoc. cbn [app]. rewrite cut_step by exact Hp. rewrite IH. reflexivity.
Qed.
Lemma escaped_stream_cut ds ts tail :
  Forall2 (fun d t => escape_characters d = Ok t) ds ts -> ~ In 13 tail ->
  cut [] (concat ts ++ tail) = (ts, tail) /\
  Forall2 (fun t d => return_characters t = Ok d) ts ds.
Proof.
  intros H Ht. split.
  - apply cut_telegrams; [|exact Ht]. clear Ht. induction H as [|d t ds ts Hd _ IH]; constructor; auto.
    apply escape_ok_inv in Hd as (body & _ & ->). exists (flat_map esc_byte body).
    split; [reflexivity|apply esc_no_end].
  - clear Ht. induction H as [|d t ds ts Hd _ IH]; constructor; auto. apply escape_roundtrip; exact Hd.
Qed.

Lemma unesc_cut p : ~ In 13 p -> exists o, unesc (p ++ [13]) (o ++ [13]).
Proof.
  revert p. fix IH 1. intros p Hp. destruct p as [|b p].
  - exists []. cbn. constructor; [lia|constructor].
  - destruct (Z.eq_dec b 27) as [->|Hb].
    + destruct p as [|c p].
      * exists [27]. cbn. apply unesc_other; try lia. constructor.
      * assert (~ In 13 p) as Hp' by (intros Hi; apply Hp; cbn; tauto).
        destruct (IH p Hp') as [o Ho].
        destruct (Z.eq_dec c 14) as [->|]; [exists (13 :: o); cbn; constructor; exact Ho|].
        destruct (Z.eq_dec c 27) as [->|]; [exists (27 :: o); cbn; constructor; exact Ho|].
        destruct (Z.eq_dec c 15) as [->|]; [exists (141 :: o); cbn; constructor; exact Ho|].
        exists (27 :: c :: o). cbn. constructor; assumption.
    + assert (~ In 13 p) as Hp' by (intros Hi; apply Hp; cbn; tauto).
      destruct (IH p Hp') as [o Ho]. exists (b :: o). cbn. constructor; assumption.
Qed.
Lemma return_cut p : ~ In 13 p -> exists o, return_characters (p ++ [13]) = Ok (o ++ [13]).
Proof. intros H. destruct (unesc_cut p H) as [o Ho]. exists o. apply return_unesc; exact Ho. Qed.
Lemma return_is_bytes d o : return_characters d = Ok o -> is_bytes d -> is_bytes o.
Proof.
  intros H. apply return_unesc in H. induction H; intros Hb;
    repeat match goal with H : is_bytes (_ :: _) |- _ => apply is_bytes_cons in H as [? ?] end; bytes_tac.
Qed.
Lemma return_length d o : return_characters d = Ok o -> len o <= len d.
Proof.
  intros H. apply return_unesc in H. induction H; rewrite ?len_cons in *; lia.
Qed.

(** ** redundancy codes *)
Lemma fold_land_255 (f : Z -> Z -> Z) l a : is_byte a ->
  is_byte (fold_left (fun x b => Z.land (f x b) 255) l a).
Proof.
  revert a; induction l as [|b l IH]; intros a Ha; cbn; [exact Ha|]. apply IH.
  rewrite land_255. unfold is_byte. apply Z.mod_pos_bound; lia.
Qed.
Lemma land_byte x : is_byte x -> Z.land x 255 = x.
Proof. intros H. rewrite land_255. apply Z.mod_small; exact H. Qed.

Lemma xor_all_byte l : is_bytes l -> is_byte (xor_all l).
Proof.
  induction 1 as [|b l Hb _ IH]; cbn; [unfold is_byte; lia|]. apply lxor_byte; auto.
Qed.
Lemma xor_all_app a b : xor_all (a ++ b) = Z.lxor (xor_all a) (xor_all b).
Proof.
  unfold xor_all. induction a as [|x a IH]; cbn [app fold_right]; [rewrite Z.lxor_0_l; reflexivity|].
  rewrite IH, Z.lxor_assoc. reflexivity.
Qed.
Lemma sum_all_app a b : sum_all (a ++ b) = sum_all a + sum_all b.
Proof. unfold sum_all. induction a as [|x a IH]; cbn [app fold_right]; [reflexivity|]. rewrite IH. lia. Qed.

Lemma lrc_closed l : is_bytes l -> calculate_lrc l = xor_all l.
Proof.
  intros H. unfold calculate_lrc.
  assert (forall a, is_byte a ->
    fold_left (fun lrc b => let temp := Z.lxor lrc b in Z.land temp 255) l a = Z.lxor a (xor_all l)) as G.
  { induction H as [|b l Hb _ IH]; intros a Ha; cbn [fold_left xor_all fold_right].
    - rewrite Z.lxor_0_r; reflexivity.
    - rewrite land_byte by (apply lxor_byte; assumption).
      rewrite IH by (apply lxor_byte; assumption). rewrite Z.lxor_assoc. reflexivity. }
  rewrite G by (unfold is_byte; lia). rewrite Z.lxor_0_l. apply land_byte, xor_all_byte, H.
Qed.
Lemma checksum_closed l : calculate_checksum l = sum_all l mod 256.
Proof.
  unfold calculate_checksum. rewrite land_255.
  assert (forall a,
    fold_left (fun c b => let temp := c + b in Z.land temp 255) l a mod 256 = (a + sum_all l) mod 256) as G.
  { induction l as [|b l IH]; intros a; cbn [fold_left sum_all fold_right].
    - rewrite Z.add_0_r; reflexivity.
    - rewrite IH. cbv zeta. rewrite land_255. rewrite Z.add_mod_idemp_l by lia.
      f_equal. unfold sum_all. lia. }
  rewrite G. reflexivity.
Qed.

Lemma drc_step_rot d b : is_byte d -> is_byte b -> drc_step d b = Z.lxor (rotl8 1 d) b.
Proof.
  intros Hd Hb.
  assert (forall d, is_byte d ->
    (Z.land (let temp := Z.shiftl d 1 in
             if negb (Z.land temp 256 =? 0) then temp + 1 else temp) 255 =? rotl8 1 d) &&
    ((0 <=? rotl8 1 d) && (rotl8 1 d <? 256)) = true) as G.
  { apply (byte_sweep (fun d => (Z.land (let temp := Z.shiftl d 1 in
             if negb (Z.land temp 256 =? 0) then temp + 1 else temp) 255 =? rotl8 1 d) &&
             ((0 <=? rotl8 1 d) && (rotl8 1 d <? 256)))).
    vm_compute. reflexivity. }
  specialize (G d Hd). apply andb_prop in G as [G1 G2]. apply Z.eqb_eq in G1.
  unfold drc_step. cbv zeta in *. rewrite G1. apply land_byte. apply lxor_byte; [|exact Hb].
  unfold is_byte; lia.
Qed.
Lemma rotl8_mod k b : rotl8 k b = rotl8 (k mod 8) b.
Proof. unfold rotl8. rewrite Nat.mod_mod by lia. reflexivity. Qed.
Lemma rotl8_byte k b : is_byte b -> is_byte (rotl8 k b).
Proof.
  intros Hb. rewrite rotl8_mod.
  assert (k mod 8 < 8)%nat as Hk by (apply Nat.mod_upper_bound; lia). revert Hk.
  generalize (k mod 8)%nat; clear k; intros k Hk.
  pose (P := fun b => forallb (fun k => (0 <=? rotl8 k b) && (rotl8 k b <? 256)) (seq 0 8)).
  assert (P b = true) as G by (apply (byte_sweep P); [vm_compute; reflexivity|exact Hb]).
  unfold P in G. eapply forallb_forall in G; [|apply in_seq; split; [apply Nat.le_0_l|exact Hk]].
  unfold is_byte; lia.
Qed.
Lemma rotl8_S k b : is_byte b -> rotl8 k (rotl8 1 b) = rotl8 (S k) b.
Proof.
  intros Hb. rewrite (rotl8_mod k), (rotl8_mod (S k)).
  replace (S k mod 8)%nat with (S (k mod 8) mod 8)%nat
    by (rewrite <- Nat.add_1_r, Nat.add_mod_idemp_l, Nat.add_1_r by lia; reflexivity).
  assert (k mod 8 < 8)%nat as Hk by (apply Nat.mod_upper_bound; lia). revert Hk.
  generalize (k mod 8)%nat; clear k; intros k Hk.
  pose (P := fun b => forallb (fun k => rotl8 k (rotl8 1 b) =? rotl8 (S k mod 8) b) (seq 0 8)).
  assert (P b = true) as G by (apply (byte_sweep P); [vm_compute; reflexivity|exact Hb]).
  unfold P in G. eapply forallb_forall in G; [|apply in_seq; split; [apply Nat.le_0_l|exact Hk]].
  apply Z.eqb_eq; exact G.
Qed.
Lemma rotl8_0 b : is_byte b -> rotl8 0 b = b.
Proof.
  intros Hb. apply Z.eqb_eq. apply (byte_sweep (fun b => rotl8 0 b =? b)); [vm_compute; reflexivity|exact Hb].
Qed.
Lemma rotl8_zero k : rotl8 k 0 = 0.
Proof.
  induction k as [|k IH]; [reflexivity|]. rewrite <- (rotl8_S k 0) by (unfold is_byte; lia).
  change (rotl8 1 0) with 0. exact IH.
Qed.
Lemma rotl8_1_lxor a b : is_byte a -> is_byte b -> rotl8 1 (Z.lxor a b) = Z.lxor (rotl8 1 a) (rotl8 1 b).
Proof.
  intros Ha Hb. apply Z.eqb_eq.
  apply (byte_sweep2 (fun a b => rotl8 1 (Z.lxor a b) =? Z.lxor (rotl8 1 a) (rotl8 1 b)));
    [vm_compute; reflexivity|exact Ha|exact Hb].
Qed.
Lemma rotl8_lxor k a b : is_byte a -> is_byte b -> rotl8 k (Z.lxor a b) = Z.lxor (rotl8 k a) (rotl8 k b).
Proof.
  revert a b; induction k as [|k IH]; intros a b Ha Hb.
  - rewrite !rotl8_0; auto using lxor_byte.
  - rewrite <- (rotl8_S k (Z.lxor a b)), <- (rotl8_S k a), <- (rotl8_S k b), rotl8_1_lxor
      by (try apply lxor_byte; assumption).
    apply IH; apply rotl8_byte; assumption.
Qed.
Lemma rotl8_add n m x : is_byte x -> rotl8 n (rotl8 m x) = rotl8 (m + n) x.
Proof.
  revert x; induction m as [|m IH]; intros x Hx.
  - rewrite rotl8_0 by exact Hx. reflexivity.
  - rewrite <- (rotl8_S m x) by exact Hx. rewrite IH by (apply rotl8_byte; exact Hx).
    rewrite (rotl8_S (m + n) x) by exact Hx. reflexivity.
Qed.
Lemma drc_spec_byte l : is_bytes l -> is_byte (drc_spec l).
Proof.
  induction 1 as [|b l Hb _ IH]; cbn; [unfold is_byte; lia|]. apply lxor_byte; [apply rotl8_byte|]; auto.
Qed.
Lemma drc_fold l d : is_bytes l -> is_byte d ->
  fold_left drc_step l d = Z.lxor (rotl8 (length l) d) (drc_spec l).
Proof.
  intros H; revert d; induction H as [|b l Hb Hl IH]; intros d Hd; cbn [fold_left length drc_spec].
  - rewrite Z.lxor_0_r, rotl8_0 by exact Hd. reflexivity.
  - rewrite drc_step_rot by assumption.
    rewrite IH by (apply lxor_byte; [apply rotl8_byte|]; assumption).
    rewrite rotl8_lxor by (try apply rotl8_byte; assumption).
    rewrite rotl8_S by assumption. rewrite Z.lxor_assoc. reflexivity.
Qed.
Lemma drc_closed l : is_bytes l -> calculate_drc l = drc_spec l.
Proof.
  intros H. unfold calculate_drc. rewrite drc_fold by (try assumption; unfold is_byte; lia).
  rewrite rotl8_zero, Z.lxor_0_l. apply land_byte, drc_spec_byte, H.
Qed.
Lemma lrc_byte l : is_byte (calculate_lrc l).
Proof. unfold calculate_lrc. rewrite land_255. apply Z.mod_pos_bound; lia. Qed.
Lemma checksum_byte l : is_byte (calculate_checksum l).
Proof. unfold calculate_checksum. rewrite land_255. apply Z.mod_pos_bound; lia. Qed.
Lemma drc_byte l : is_byte (calculate_drc l).
Proof. unfold calculate_drc. rewrite land_255. apply Z.mod_pos_bound; lia. Qed.
Lemma drc_spec_app a b : is_bytes a ->
  drc_spec (a ++ b) = Z.lxor (rotl8 (length b) (drc_spec a)) (drc_spec b).
Proof.
  intros H. induction H as [|x a Hx Ha IH]; cbn [app drc_spec].
  - rewrite rotl8_zero, Z.lxor_0_l. reflexivity.
  - rewrite IH. rewrite rotl8_lxor by (try apply rotl8_byte; try apply drc_spec_byte; assumption).
    rewrite Z.lxor_assoc. f_equal. rewrite app_length, rotl8_add by exact Hx. reflexivity.
Qed.
Lemma escape_injective d1 d2 out :
  escape_characters d1 = Ok out -> escape_characters d2 = Ok out -> d1 = d2.
Proof. intros H1 H2. apply escape_roundtrip in H1, H2. congruence. Qed.
