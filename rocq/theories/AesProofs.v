(** AES and CBC as modelled in Aes.v are bijections on blocks. *)
From Verif Require Export BitFacts Aes.
Open Scope Z_scope.

(** ** the field operations are additive *)
Definition additive (f : Z -> Z) : Prop := forall a b, f (Z.lxor a b) = Z.lxor (f a) (f b).
Definition additive4 (f : Z -> Z -> Z -> Z -> Z) : Prop :=
  forall a b c d a' b' c' d',
  f (Z.lxor a a') (Z.lxor b b') (Z.lxor c c') (Z.lxor d d') = Z.lxor (f a b c d) (f a' b' c' d').

Lemma xtime_additive : additive xtime.
Proof.
  intros a b. unfold xtime. rewrite Z.shiftl_lxor.
  assert (Z.land (Z.lxor (Z.shiftl a 1) (Z.shiftl b 1)) 255 =
          Z.lxor (Z.land (Z.shiftl a 1) 255) (Z.land (Z.shiftl b 1) 255)) as ->.
  { apply Z.bits_inj'. intros i Hi. rewrite !Z.land_spec, !Z.lxor_spec, !Z.land_spec.
    destruct (Z.testbit (Z.shiftl a 1) i), (Z.testbit (Z.shiftl b 1) i), (Z.testbit 255 i); reflexivity. }
  rewrite lxor_4. f_equal. rewrite Z.lxor_spec.
  destruct (Z.testbit a 7), (Z.testbit b 7); reflexivity.
Qed.
Lemma additive_comp f g : additive f -> additive g -> additive (fun x => f (g x)).
Proof. intros F G a b. rewrite G, F. reflexivity. Qed.
Lemma additive_lxor f g : additive f -> additive g -> additive (fun x => Z.lxor (f x) (g x)).
Proof. intros F G a b. rewrite G, F. apply lxor_4. Qed.
Lemma additive_id : additive (fun x => x). Proof. intros a b. reflexivity. Qed.
#[local] Hint Resolve xtime_additive additive_id : add.
Lemma gmul2_add : additive gmul2. Proof. exact xtime_additive. Qed.
Lemma gmul4_add : additive gmul4. Proof. unfold gmul4. apply additive_comp; auto with add. Qed.
Lemma gmul8_add : additive gmul8.
Proof. unfold gmul8. apply additive_comp; auto with add. apply additive_comp; auto with add. Qed.
#[local] Hint Resolve gmul2_add gmul4_add gmul8_add : add.
Lemma gmul3_add : additive gmul3. Proof. unfold gmul3. apply additive_lxor; auto with add. Qed.
Lemma gmul9_add : additive gmul9. Proof. unfold gmul9. apply additive_lxor; auto with add. Qed.
Lemma gmul11_add : additive gmul11. Proof. exact (additive_lxor _ _ (additive_lxor _ _ gmul8_add gmul2_add) additive_id). Qed.
Lemma gmul13_add : additive gmul13. Proof. exact (additive_lxor _ _ (additive_lxor _ _ gmul8_add gmul4_add) additive_id). Qed.
Lemma gmul14_add : additive gmul14. Proof. exact (additive_lxor _ _ (additive_lxor _ _ gmul8_add gmul4_add) gmul2_add). Qed.
#[local] Hint Resolve gmul3_add gmul9_add gmul11_add gmul13_add gmul14_add : add.

Lemma additive4_xor4 f1 f2 f3 f4 : additive4 f1 -> additive4 f2 -> additive4 f3 -> additive4 f4 ->
  additive4 (fun a b c d => xor4 (f1 a b c d) (f2 a b c d) (f3 a b c d) (f4 a b c d)).
Proof.
  intros F1 F2 F3 F4 a b c d a' b' c' d'. unfold xor4. rewrite F1, F2, F3, F4.
  rewrite (lxor_4 (f1 a b c d)), (lxor_4 (Z.lxor (f1 a b c d) (f2 a b c d))). apply lxor_4.
Qed.
Lemma additive4_comp g f : additive g -> additive4 f -> additive4 (fun a b c d => g (f a b c d)).
Proof. intros G F a b c d a' b' c' d'. rewrite F, G. reflexivity. Qed.
Lemma additive4_1 g : additive g -> additive4 (fun a b c d => g a). Proof. intros G; red; intros; apply G. Qed.
Lemma additive4_2 g : additive g -> additive4 (fun a b c d => g b). Proof. intros G; red; intros; apply G. Qed.
Lemma additive4_3 g : additive g -> additive4 (fun a b c d => g c). Proof. intros G; red; intros; apply G. Qed.
Lemma additive4_4 g : additive g -> additive4 (fun a b c d => g d). Proof. intros G; red; intros; apply G. Qed.
(** an additive function of four bytes is determined by its values on the axes *)
Lemma additive4_axes f g : additive4 f -> additive4 g ->
  forallb (fun x => (f x 0 0 0 =? g x 0 0 0) && (f 0 x 0 0 =? g 0 x 0 0) &&
                    (f 0 0 x 0 =? g 0 0 x 0) && (f 0 0 0 x =? g 0 0 0 x)) byte_list = true ->
  forall a b c d, is_byte a -> is_byte b -> is_byte c -> is_byte d -> f a b c d = g a b c d.
Proof.
  intros F G H a b c d Ha Hb Hc Hd.
  assert (forall h, additive4 h -> h a b c d =
    Z.lxor (Z.lxor (Z.lxor (h a 0 0 0) (h 0 b 0 0)) (h 0 0 c 0)) (h 0 0 0 d)) as E.
  { intros h A. rewrite <- !A. rewrite ?Z.lxor_0_l, ?Z.lxor_0_r. reflexivity. }
  rewrite (E f F), (E g G).
  pose proof (byte_sweep _ H a Ha) as Sa. pose proof (byte_sweep _ H b Hb) as Sb.
  pose proof (byte_sweep _ H c Hc) as Sc. pose proof (byte_sweep _ H d Hd) as Sd.
  cbv beta in *. rewrite !andb_true_iff, !Z.eqb_eq in *.
  destruct Sa as [[[-> _] _] _], Sb as [[[_ ->] _] _], Sc as [[_ ->] _], Sd as [_ ->]. reflexivity.
Qed.

Ltac add4 :=
  repeat match goal with
  | |- additive4 (fun a b c d => xor4 _ _ _ _) => apply additive4_xor4
  | |- additive4 (fun a b c d => a) => apply (additive4_1 (fun x => x)); auto with add
  | |- additive4 (fun a b c d => b) => apply (additive4_2 (fun x => x)); auto with add
  | |- additive4 (fun a b c d => c) => apply (additive4_3 (fun x => x)); auto with add
  | |- additive4 (fun a b c d => d) => apply (additive4_4 (fun x => x)); auto with add
  | |- additive4 (fun a b c d => ?g (@?f a b c d)) => apply (additive4_comp g f); [auto with add|]
  end.
Ltac axes a b c d f g :=
  apply (additive4_axes f g); [add4|add4|vm_compute; reflexivity|assumption..].


Lemma inv_mix_mix a b c d : is_byte a -> is_byte b -> is_byte c -> is_byte d ->
  columns inv_mix_column (mix_column a b c d) = [a; b; c; d].
Proof.
  intros Ha Hb Hc Hd. unfold mix_column. cbn [columns]. unfold inv_mix_column. cbn [app].
  f_equal; [|f_equal; [|f_equal; [|f_equal]]].
  - match goal with |- ?l = a => let f := eval pattern a, b, c, d in l in
      match f with ?F _ _ _ _ => axes a b c d F (fun a _ _ _ : Z => a) end end.
  - match goal with |- ?l = b => let f := eval pattern a, b, c, d in l in
      match f with ?F _ _ _ _ => axes a b c d F (fun _ b _ _ : Z => b) end end.
  - match goal with |- ?l = c => let f := eval pattern a, b, c, d in l in
      match f with ?F _ _ _ _ => axes a b c d F (fun _ _ c _ : Z => c) end end.
  - match goal with |- ?l = d => let f := eval pattern a, b, c, d in l in
      match f with ?F _ _ _ _ => axes a b c d F (fun _ _ _ d : Z => d) end end.
Qed.
Lemma mix_inv_mix a b c d : is_byte a -> is_byte b -> is_byte c -> is_byte d ->
  columns mix_column (inv_mix_column a b c d) = [a; b; c; d].
Proof.
  intros Ha Hb Hc Hd. unfold inv_mix_column. cbn [columns]. unfold mix_column. cbn [app].
  f_equal; [|f_equal; [|f_equal; [|f_equal]]].
  - match goal with |- ?l = a => let f := eval pattern a, b, c, d in l in
      match f with ?F _ _ _ _ => axes a b c d F (fun a _ _ _ : Z => a) end end.
  - match goal with |- ?l = b => let f := eval pattern a, b, c, d in l in
      match f with ?F _ _ _ _ => axes a b c d F (fun _ b _ _ : Z => b) end end.
  - match goal with |- ?l = c => let f := eval pattern a, b, c, d in l in
      match f with ?F _ _ _ _ => axes a b c d F (fun _ _ c _ : Z => c) end end.
  - match goal with |- ?l = d => let f := eval pattern a, b, c, d in l in
      match f with ?F _ _ _ _ => axes a b c d F (fun _ _ _ d : Z => d) end end.
Qed.

(** ** blocks *)
Definition block (s : bytes) : Prop := length s = 16%nat /\ is_bytes s.

Lemma xor_bytes_length a b : length a = length b -> length (xor_bytes a b) = length a.
Proof. revert b; induction a as [|x a IH]; intros [|y b]; cbn; intros H; try discriminate; auto. Qed.
Lemma xor_bytes_bytes a b : is_bytes a -> is_bytes b -> is_bytes (xor_bytes a b).
Proof.
  intros Ha. revert b; induction Ha as [|x a Hx Ha IH]; intros b Hb; cbn; [constructor|].
  destruct Hb as [|y b Hy Hb]; [constructor|]. constructor; [apply lxor_byte; assumption|apply IH; exact Hb].
Qed.
Lemma xor_bytes_block a b : block a -> block b -> block (xor_bytes a b).
Proof.
  intros [La Ha] [Lb Hb]. split; [rewrite xor_bytes_length by congruence; exact La|].
  apply xor_bytes_bytes; assumption.
Qed.
Lemma xor_bytes_invol a b : length a = length b -> xor_bytes (xor_bytes a b) b = a.
Proof.
  revert b; induction a as [|x a IH]; intros [|y b]; cbn; intros H; try discriminate; [reflexivity|].
  rewrite IH by congruence. rewrite Z.lxor_assoc, Z.lxor_nilpotent, Z.lxor_0_r. reflexivity.
Qed.
Lemma xor_block_invol a b : block a -> block b -> xor_bytes (xor_bytes a b) b = a.
Proof. intros [La _] [Lb _]. apply xor_bytes_invol. congruence. Qed.

Lemma sbox_inv b : is_byte b -> inv_sbox (sbox b) = b.
Proof. intros H. apply Z.eqb_eq. apply (byte_sweep (fun b => inv_sbox (sbox b) =? b)); [vm_compute; reflexivity|exact H]. Qed.
Lemma inv_sbox_inv b : is_byte b -> sbox (inv_sbox b) = b.
Proof. intros H. apply Z.eqb_eq. apply (byte_sweep (fun b => sbox (inv_sbox b) =? b)); [vm_compute; reflexivity|exact H]. Qed.
Lemma sbox_byte b : is_byte b -> is_byte (sbox b).
Proof.
  intros H. assert (((0 <=? sbox b) && (sbox b <? 256)) = true) as E; [|unfold is_byte; lia].
  apply (byte_sweep (fun b => (0 <=? sbox b) && (sbox b <? 256))); [vm_compute; reflexivity|exact H].
Qed.
Lemma inv_sbox_byte b : is_byte b -> is_byte (inv_sbox b).
Proof.
  intros H. assert (((0 <=? inv_sbox b) && (inv_sbox b <? 256)) = true) as E; [|unfold is_byte; lia].
  apply (byte_sweep (fun b => (0 <=? inv_sbox b) && (inv_sbox b <? 256))); [vm_compute; reflexivity|exact H].
Qed.
Lemma map_bytes (f : Z -> Z) l : (forall b, is_byte b -> is_byte (f b)) -> is_bytes l -> is_bytes (map f l).
Proof. intros F H. induction H; cbn; constructor; auto. Qed.
Lemma map_map_id (f g : Z -> Z) l : (forall b, is_byte b -> g (f b) = b) -> is_bytes l -> map g (map f l) = l.
Proof. intros F H. induction H; cbn; [reflexivity|]. rewrite F, IHForall by assumption. reflexivity. Qed.
Lemma sub_bytes_block s : block s -> block (sub_bytes s).
Proof. intros [L H]. split; [unfold sub_bytes; rewrite map_length; exact L|apply map_bytes; auto using sbox_byte]. Qed.
Lemma inv_sub_bytes_block s : block s -> block (inv_sub_bytes s).
Proof. intros [L H]. split; [unfold inv_sub_bytes; rewrite map_length; exact L|apply map_bytes; auto using inv_sbox_byte]. Qed.
Lemma sub_inv s : block s -> inv_sub_bytes (sub_bytes s) = s.
Proof. intros [L H]. apply map_map_id; auto using sbox_inv. Qed.
Lemma inv_sub_inv s : block s -> sub_bytes (inv_sub_bytes s) = s.
Proof. intros [L H]. apply map_map_id; auto using inv_sbox_inv. Qed.

(** a block is sixteen bytes in a row *)
Lemma block_16 s : block s -> exists a0 a1 a2 a3 b0 b1 b2 b3 c0 c1 c2 c3 d0 d1 d2 d3,
  s = [a0; a1; a2; a3; b0; b1; b2; b3; c0; c1; c2; c3; d0; d1; d2; d3] /\ is_bytes s.
Proof.
  intros [L H]. do 16 (destruct s as [|? s]; [discriminate L|]). destruct s; [|discriminate L].
  do 16 eexists. split; [reflexivity|exact H].
Qed.
Ltac block16 H :=
  destruct (block_16 _ H) as (a0 & a1 & a2 & a3 & b0 & b1 & b2 & b3 & c0 & c1 & c2 & c3 & d0 & d1 & d2 & d3 & -> & Hs);
  repeat match type of Hs with is_bytes (_ :: _) => apply is_bytes_cons in Hs; let h := fresh in destruct Hs as [h Hs] end.
Ltac is_block := split; [reflexivity|repeat (apply is_bytes_cons; split); try assumption; constructor].
Lemma shift_rows_block s : block s -> block (shift_rows s).
Proof. intros H. block16 H. is_block. Qed.
Lemma inv_shift_rows_block s : block s -> block (inv_shift_rows s).
Proof. intros H. block16 H. is_block. Qed.
Lemma shift_inv s : block s -> inv_shift_rows (shift_rows s) = s.
Proof. intros H. block16 H. reflexivity. Qed.
Lemma inv_shift_inv s : block s -> shift_rows (inv_shift_rows s) = s.
Proof. intros H. block16 H. reflexivity. Qed.

Lemma xtime_byte b : is_byte b -> is_byte (xtime b).
Proof.
  intros H. assert (((0 <=? xtime b) && (xtime b <? 256)) = true) as E; [|unfold is_byte; lia].
  apply (byte_sweep (fun b => (0 <=? xtime b) && (xtime b <? 256))); [vm_compute; reflexivity|exact H].
Qed.
#[local] Opaque xtime.
Ltac gbyte := unfold xor4, gmul14, gmul13, gmul11, gmul9, gmul8, gmul4, gmul3, gmul2;
  repeat first [assumption | apply lxor_byte | apply xtime_byte].
Lemma mix_column_bytes a b c d : is_byte a -> is_byte b -> is_byte c -> is_byte d -> is_bytes (mix_column a b c d).
Proof. intros. unfold mix_column; repeat apply Forall_cons; try apply Forall_nil; gbyte. Qed.
Lemma inv_mix_column_bytes a b c d : is_byte a -> is_byte b -> is_byte c -> is_byte d -> is_bytes (inv_mix_column a b c d).
Proof. intros. unfold inv_mix_column; repeat apply Forall_cons; try apply Forall_nil; gbyte. Qed.
#[local] Transparent xtime.
Lemma mix_columns_block s : block s -> block (mix_columns s).
Proof.
  intros H. block16 H. split; [reflexivity|]. unfold mix_columns. cbn [columns].
  repeat (apply is_bytes_app; split; [apply mix_column_bytes; assumption|]). apply is_bytes_nil.
Qed.
Lemma inv_mix_columns_block s : block s -> block (inv_mix_columns s).
Proof.
  intros H. block16 H. split; [reflexivity|]. unfold inv_mix_columns. cbn [columns].
  repeat (apply is_bytes_app; split; [apply inv_mix_column_bytes; assumption|]). apply is_bytes_nil.
Qed.
Lemma columns_app4 f a b c d s : columns f ([a; b; c; d] ++ s) = f a b c d ++ columns f s.
Proof. reflexivity. Qed.
Lemma columns_mix f (g : Z -> Z -> Z -> Z -> bytes) a b c d s :
  (exists w x y z, g a b c d = [w; x; y; z]) ->
  columns f (g a b c d ++ s) = columns f (g a b c d) ++ columns f s.
Proof. intros (w & x & y & z & E). rewrite E. cbn [columns app]. rewrite app_nil_r. reflexivity. Qed.
Lemma mix_columns_inv s : block s -> inv_mix_columns (mix_columns s) = s.
Proof.
  intros H. block16 H. unfold mix_columns, inv_mix_columns. cbn [columns].
  rewrite !(columns_mix inv_mix_column mix_column) by (do 4 eexists; reflexivity).
  rewrite !inv_mix_mix by assumption. reflexivity.
Qed.
Lemma inv_mix_columns_inv s : block s -> mix_columns (inv_mix_columns s) = s.
Proof.
  intros H. block16 H. unfold mix_columns, inv_mix_columns. cbn [columns].
  rewrite !(columns_mix mix_column inv_mix_column) by (do 4 eexists; reflexivity).
  rewrite !mix_inv_mix by assumption. reflexivity.
Qed.

(** ** the cipher *)
#[local] Hint Resolve xor_bytes_block sub_bytes_block inv_sub_bytes_block shift_rows_block inv_shift_rows_block
  mix_columns_block inv_mix_columns_block : blk.
Lemma rounds_block ks s : Forall block ks -> block s -> block (rounds ks s).
Proof.
  intros H. revert s. induction H as [|k ks Hk Hks IH]; intros s Hs; cbn [rounds]; [exact Hs|].
  destruct ks as [|k' ks']; [auto 6 with blk|]. apply IH. auto 6 with blk.
Qed.
Lemma inv_rounds_block ks s : Forall block ks -> block s -> block (inv_rounds ks s).
Proof.
  intros H. revert s. induction H as [|k ks Hk Hks IH]; intros s Hs; cbn [inv_rounds]; [exact Hs|].
  destruct ks as [|k' ks']; [auto 6 with blk|]. pose proof (IH s Hs). auto 7 with blk.
Qed.
Lemma rounds_inv ks s : Forall block ks -> block s -> inv_rounds ks (rounds ks s) = s.
Proof.
  intros H. revert s. induction H as [|k ks Hk Hks IH]; intros s Hs; [reflexivity|].
  destruct ks as [|k' ks'].
  - cbn [rounds inv_rounds]. rewrite xor_block_invol, shift_inv, sub_inv by auto 6 with blk. reflexivity.
  - change (inv_rounds (k :: k' :: ks') (rounds (k :: k' :: ks') s)) with
      (inv_sub_bytes (inv_shift_rows (inv_mix_columns (xor_bytes
        (inv_rounds (k' :: ks') (rounds (k' :: ks') (xor_bytes (mix_columns (shift_rows (sub_bytes s))) k))) k)))).
    rewrite IH by auto 7 with blk.
    rewrite xor_block_invol, mix_columns_inv, shift_inv, sub_inv by auto 7 with blk. reflexivity.
Qed.
Lemma inv_rounds_inv ks s : Forall block ks -> block s -> rounds ks (inv_rounds ks s) = s.
Proof.
  intros H. revert s. induction H as [|k ks Hk Hks IH]; intros s Hs; [reflexivity|].
  destruct ks as [|k' ks'].
  - cbn [rounds inv_rounds]. rewrite inv_sub_inv, inv_shift_inv, xor_block_invol by auto 6 with blk. reflexivity.
  - change (rounds (k :: k' :: ks') (inv_rounds (k :: k' :: ks') s)) with
      (rounds (k' :: ks') (xor_bytes (mix_columns (shift_rows (sub_bytes
        (inv_sub_bytes (inv_shift_rows (inv_mix_columns (xor_bytes (inv_rounds (k' :: ks') s) k))))))) k)).
    pose proof (inv_rounds_block (k' :: ks') s Hks Hs).
    rewrite inv_sub_inv, inv_shift_inv, inv_mix_columns_inv, xor_block_invol by auto 7 with blk.
    apply IH. exact Hs.
Qed.
Lemma cipher_block ks s : Forall block ks -> block s -> block (cipher ks s).
Proof. intros H Hs. destruct H; cbn [cipher]; [exact Hs|]. apply rounds_block; auto with blk. Qed.
Lemma inv_cipher_block ks s : Forall block ks -> block s -> block (inv_cipher ks s).
Proof. intros H Hs. destruct H as [|k ks Hk Hks]; cbn [inv_cipher]; [exact Hs|]. pose proof (inv_rounds_block ks s Hks Hs). auto with blk. Qed.
Lemma cipher_inv ks s : Forall block ks -> block s -> inv_cipher ks (cipher ks s) = s.
Proof.
  intros H Hs. destruct H as [|k ks Hk Hks]; cbn [inv_cipher cipher]; [reflexivity|].
  rewrite rounds_inv, xor_block_invol by auto with blk. reflexivity.
Qed.
Lemma inv_cipher_inv ks s : Forall block ks -> block s -> cipher ks (inv_cipher ks s) = s.
Proof.
  intros H Hs. destruct H as [|k ks Hk Hks]; cbn [inv_cipher cipher]; [reflexivity|].
  pose proof (inv_rounds_block ks s Hks Hs).
  rewrite xor_block_invol, inv_rounds_inv by auto with blk. reflexivity.
Qed.

(** ** round keys of a 16 byte key *)
Definition word (w : bytes) : Prop := length w = 4%nat /\ is_bytes w.
Lemma xor_word a b : word a -> word b -> word (xor_bytes a b).
Proof.
  intros [La Ha] [Lb Hb]. split; [rewrite xor_bytes_length; congruence|apply xor_bytes_bytes; assumption].
Qed.
Lemma map_sbox_word w : word w -> word (map sbox w).
Proof. intros [L H]. split; [rewrite map_length; exact L|apply map_bytes; auto using sbox_byte]. Qed.
Lemma rot_word_word w : word w -> word (rot_word w).
Proof.
  intros [L H]. destruct w as [|a w]; [discriminate|]. cbn [rot_word]. apply is_bytes_cons in H as [Ha Hw].
  split; [rewrite app_length; cbn in *; lia|]. apply is_bytes_app; split; [exact Hw|]. repeat constructor; apply Ha.
Qed.
Lemma rcon_byte i : is_byte (rcon i).
Proof. induction i; cbn; [unfold is_byte; lia|apply xtime_byte; assumption]. Qed.
Lemma expand_words n nk i ws : (1 <= nk)%nat -> (nk <= length ws)%nat -> Forall word ws ->
  Forall word (expand n nk i ws) /\ length (expand n nk i ws) = (n + length ws)%nat.
Proof.
  intros Hk. revert i ws. induction n as [|n IH]; intros i ws L H; cbn [expand].
  - split; [apply Forall_rev; exact H|apply rev_length].
  - match goal with |- context [xor_bytes ?x ?t :: ws] => set (T := t); set (X := x) end.
    assert (word (hd [] ws)) as Hh by (destruct H; [cbn in L; lia|assumption]).
    assert (word X) as HX.
    {
      subst X. rewrite Forall_forall in H. apply H. apply nth_In. lia. }
    assert (word T) as HT.
    { subst T. cbv zeta. destruct (i mod nk =? 0)%nat.
      - apply xor_word; [apply map_sbox_word, rot_word_word, Hh|]. split; [reflexivity|].
        repeat (apply is_bytes_cons; split); try apply is_bytes_nil; try apply rcon_byte; unfold is_byte; lia.
      - destruct (_ && _); [apply map_sbox_word|]; exact Hh. }
    destruct (IH (S i) (xor_bytes X T :: ws)) as [A B]; [cbn [length]; lia|constructor; [apply xor_word; assumption|exact H]|].
    split; [exact A|]. rewrite B. cbn [length]. lia.
Qed.
Lemma chunks_words n l : is_bytes l -> length l = (4 * n)%nat -> Forall word (chunks 4 n l) /\ length (chunks 4 n l) = n.
Proof.
  revert l; induction n as [|n IH]; intros l Hb L; cbn [chunks]; [split; [constructor|reflexivity]|].
  destruct (IH (skipn 4 l)) as [A B]; [auto with bytes|rewrite skipn_length; lia|].
  split; [constructor; [|exact A]|cbn [length]; congruence].
  split; [rewrite firstn_length; lia|auto with bytes].
Qed.
Lemma group4_blocks ws : Forall word ws -> Forall block (group4 ws).
Proof.
  revert ws. fix IH 1. intros ws H.
  destruct ws as [|a [|b [|c [|d ws]]]]; try constructor; inversion_clear H as [|? ? [La Ha] H1];
    inversion_clear H1 as [|? ? [Lb Hb] H2]; inversion_clear H2 as [|? ? [Lc Hc] H3]; inversion_clear H3 as [|? ? [Ld Hd] H4].
  - split; [rewrite !app_length; lia|]. rewrite !is_bytes_app; auto.
  - apply IH. exact H4.
Qed.
Definition aes_key (key : bytes) : Prop := is_bytes key /\ (len key = 16 \/ len key = 24 \/ len key = 32).
Lemma round_keys_blocks key : aes_key key -> Forall block (round_keys key).
Proof.
  intros [Hb Hl]. unfold round_keys. apply group4_blocks. cbv zeta.
  assert (exists n, length key = (4 * n)%nat /\ (1 <= n)%nat) as (n & En & Hn).
  { unfold len in Hl. destruct Hl as [H|[H|H]]; [exists 4%nat|exists 6%nat|exists 8%nat]; lia. }
  rewrite En. replace (4 * n / 4)%nat with n by (rewrite Nat.mul_comm, Nat.div_mul; lia).
  destruct (chunks_words n key Hb En) as [A B].
  apply expand_words; [exact Hn|rewrite rev_length, B; lia|apply Forall_rev; exact A].
Qed.

(** ** CBC *)
Lemma chunks_flat n l : length l = (16 * n)%nat -> concat (chunks 16 n l) = l.
Proof.
  revert l; induction n as [|n IH]; intros l L; cbn [chunks concat].
  - destruct l; [reflexivity|discriminate].
  - rewrite IH by (rewrite skipn_length; lia). apply firstn_skipn.
Qed.
Lemma chunks_blocks n l : is_bytes l -> length l = (16 * n)%nat -> Forall block (chunks 16 n l).
Proof.
  revert l; induction n as [|n IH]; intros l Hb L; cbn [chunks]; [constructor|].
  constructor; [split; [rewrite firstn_length; lia|auto with bytes]|].
  apply IH; [auto with bytes|rewrite skipn_length; lia].
Qed.
Lemma chunks_concat bs : Forall block bs -> chunks 16 (length bs) (concat bs) = bs.
Proof.
  induction 1 as [|b bs [Lb Hb] _ IH]; cbn [length chunks concat]; [reflexivity|].
  rewrite firstn_app_exact, skipn_app_exact, IH by (symmetry; exact Lb). reflexivity.
Qed.
Lemma concat_blocks_length bs : Forall block bs -> length (concat bs) = (16 * length bs)%nat.
Proof. induction 1 as [|b bs [Lb Hb] _ IH]; cbn [length concat]; [reflexivity|]. rewrite app_length, IH, Lb. lia. Qed.
Lemma blocks_of_concat bs : Forall block bs -> blocks_of (concat bs) = bs.
Proof.
  intros H. unfold blocks_of. rewrite concat_blocks_length by exact H.
  rewrite Nat.mul_comm, Nat.div_mul by lia. apply chunks_concat, H.
Qed.
Lemma blocks_of_spec l : is_bytes l -> len l mod 16 = 0 ->
  Forall block (blocks_of l) /\ concat (blocks_of l) = l.
Proof.
  intros Hb Hl. unfold len in Hl. assert (length l = (16 * (length l / 16))%nat) as L.
  { pose proof (Nat.div_mod (length l) 16 ltac:(lia)). assert (length l mod 16 = 0)%nat; lia. }
  unfold blocks_of. split; [apply chunks_blocks|apply chunks_flat]; assumption.
Qed.
(** the ciphertext blocks *)
Fixpoint cbc_blocks (ks : list bytes) (iv : bytes) (blocks : list bytes) : list bytes :=
  match blocks with
  | [] => []
  | p :: ps => let c := cipher ks (xor_bytes p iv) in c :: cbc_blocks ks c ps
  end.
Fixpoint uncbc_blocks (ks : list bytes) (iv : bytes) (blocks : list bytes) : list bytes :=
  match blocks with
  | [] => []
  | c :: cs => xor_bytes (inv_cipher ks c) iv :: uncbc_blocks ks c cs
  end.
Lemma cbc_encrypt_blocks ks iv bs : cbc_encrypt ks iv bs = concat (cbc_blocks ks iv bs).
Proof. revert iv; induction bs as [|b bs IH]; intros iv; cbn; [reflexivity|]. rewrite IH. reflexivity. Qed.
Lemma cbc_decrypt_blocks ks iv bs : cbc_decrypt ks iv bs = concat (uncbc_blocks ks iv bs).
Proof. revert iv; induction bs as [|b bs IH]; intros iv; cbn; [reflexivity|]. rewrite IH. reflexivity. Qed.
Lemma cbc_blocks_ok ks iv bs : Forall block ks -> block iv -> Forall block bs ->
  Forall block (cbc_blocks ks iv bs) /\ length (cbc_blocks ks iv bs) = length bs /\
  uncbc_blocks ks iv (cbc_blocks ks iv bs) = bs.
Proof.
  intros Hk Hi H. revert iv Hi. induction H as [|b bs Hb Hbs IH]; intros iv Hi; cbn; [auto|].
  assert (block (cipher ks (xor_bytes b iv))) as Hc by (apply cipher_block; auto with blk).
  destruct (IH _ Hc) as (A & B & C). repeat split; [constructor; assumption|congruence|].
  rewrite C, cipher_inv, xor_block_invol by auto with blk. reflexivity.
Qed.
Lemma uncbc_blocks_ok ks iv bs : Forall block ks -> block iv -> Forall block bs ->
  Forall block (uncbc_blocks ks iv bs) /\ length (uncbc_blocks ks iv bs) = length bs /\
  cbc_blocks ks iv (uncbc_blocks ks iv bs) = bs.
Proof.
  intros Hk Hi H. revert iv Hi. induction H as [|b bs Hb Hbs IH]; intros iv Hi; cbn; [auto|].
  assert (block (inv_cipher ks b)) as Hc by (apply inv_cipher_block; auto with blk).
  destruct (IH _ Hb) as (A & B & C). repeat split; [constructor; auto with blk|congruence|].
  rewrite xor_block_invol, inv_cipher_inv by auto with blk. rewrite C. reflexivity.
Qed.

Lemma len_mod_blocks bs : Forall block bs -> len (concat bs) mod 16 = 0.
Proof. intros H. unfold len. rewrite concat_blocks_length by exact H. lia. Qed.
Lemma blocks_bytes bs : Forall block bs -> is_bytes (concat bs).
Proof. induction 1 as [|b bs [_ Hb] _ IH]; cbn [concat]; [constructor|]. apply is_bytes_app; auto. Qed.

(** encryption and decryption of whole messages are inverse bijections that
    keep the length *)
Lemma cbc_roundtrip ks iv m : Forall block ks -> block iv -> is_bytes m -> len m mod 16 = 0 ->
  let c := cbc_encrypt ks iv (blocks_of m) in
  is_bytes c /\ len c = len m /\ cbc_decrypt ks iv (blocks_of c) = m.
Proof.
  intros Hk Hi Hm Hl. cbv zeta. destruct (blocks_of_spec m Hm Hl) as [A B].
  rewrite cbc_encrypt_blocks. destruct (cbc_blocks_ok ks iv _ Hk Hi A) as (C & D & E).
  repeat split; [apply blocks_bytes, C| |].
  - rewrite <- B at 2. unfold len. rewrite !concat_blocks_length by assumption. congruence.
  - rewrite blocks_of_concat, cbc_decrypt_blocks, E, B by exact C. reflexivity.
Qed.
Lemma uncbc_roundtrip ks iv c : Forall block ks -> block iv -> is_bytes c -> len c mod 16 = 0 ->
  let m := cbc_decrypt ks iv (blocks_of c) in
  is_bytes m /\ len m = len c /\ cbc_encrypt ks iv (blocks_of m) = c.
Proof.
  intros Hk Hi Hm Hl. cbv zeta. destruct (blocks_of_spec c Hm Hl) as [A B].
  rewrite cbc_decrypt_blocks. destruct (uncbc_blocks_ok ks iv _ Hk Hi A) as (C & D & E).
  repeat split; [apply blocks_bytes, C| |].
  - rewrite <- B at 2. unfold len. rewrite !concat_blocks_length by assumption. congruence.
  - rewrite blocks_of_concat, cbc_encrypt_blocks, E, B by exact C. reflexivity.
Qed.
