(** Proofs: the AES of Aes.v is that of the standard (SpecAes.v). *)
From Verif Require Import PyFacts BitFacts Aes AesProofs SpecAes.
Open Scope list_scope.
Open Scope Z_scope.

(** ** the field and the S-box *)
Lemma times_2 b : is_byte b -> times 2 b = gmul2 b.
Proof. intros H. apply Z.eqb_eq. apply (byte_sweep (fun b => times 2 b =? gmul2 b)); [vm_compute; reflexivity|exact H]. Qed.
Lemma times_3 b : is_byte b -> times 3 b = gmul3 b.
Proof. intros H. apply Z.eqb_eq. apply (byte_sweep (fun b => times 3 b =? gmul3 b)); [vm_compute; reflexivity|exact H]. Qed.
Lemma times_1 b : is_byte b -> times 1 b = b.
Proof. intros H. apply Z.eqb_eq. apply (byte_sweep (fun b => times 1 b =? b)); [vm_compute; reflexivity|exact H]. Qed.
Lemma S_box_sbox b : is_byte b -> S_box b = sbox b.
Proof. intros H. apply Z.eqb_eq. apply (byte_sweep (fun b => S_box b =? sbox b)); [vm_compute; reflexivity|exact H]. Qed.
Lemma power_rcon n : power_of_x n = rcon n.
Proof. induction n as [|n IH]; [reflexivity|]. cbn [power_of_x rcon]. rewrite IH. apply times_2, rcon_byte. Qed.

(** ** states *)
Definition four : list nat := [0; 1; 2; 3]%nat.
Lemma in_four n : (n < 4)%nat -> n = 0%nat \/ n = 1%nat \/ n = 2%nat \/ n = 3%nat. Proof. lia. Qed.
Definition shows (s : state) (l : bytes) : Prop := block l /\ forall r c, (r < 4)%nat -> (c < 4)%nat -> s r c = nth (r + 4 * c) l 0.
Lemma shows_block l : block l -> shows (state_of l) l.
Proof. intros B. split; [exact B|reflexivity]. Qed.
Lemma block_of_shows s l : shows s l -> block_of s = l.
Proof.
  intros [B E]. block16 B. unfold block_of. cbn [seq map].
  repeat match goal with |- context [Nat.modulo ?a 4] => let r := eval vm_compute in (Nat.modulo a 4) in change (Nat.modulo a 4) with r end.
  repeat match goal with |- context [Nat.div ?a 4] => let r := eval vm_compute in (Nat.div a 4) in change (Nat.div a 4) with r end.
  rewrite !E by lia. reflexivity.
Qed.
Ltac cells r c := 
  let Hr := fresh in let Hc := fresh in intros r c Hr Hc; apply in_four in Hr, Hc;
  destruct Hr as [ -> |[ -> |[ -> | -> ]]], Hc as [ -> |[ -> |[ -> | -> ]]].
Lemma shows_sub s l : shows s l -> shows (SubBytes s) (sub_bytes l).
Proof.
  intros [B E]. split; [apply sub_bytes_block, B|]. intros r c Hr Hc. unfold SubBytes. rewrite E by assumption.
  destruct B as [L B]. unfold sub_bytes. rewrite (nth_indep (map sbox l) 0 (sbox 0)) by (rewrite map_length; lia). rewrite map_nth. apply S_box_sbox.
  apply (proj1 (Forall_forall _ _) B). apply nth_In. lia.
Qed.
Lemma shows_shift s l : shows s l -> shows (ShiftRows s) (shift_rows l).
Proof.
  intros [B E]. split; [apply shift_rows_block, B|]. intros r c Hr Hc. unfold ShiftRows.
  rewrite E by (try assumption; apply Nat.mod_upper_bound; lia). clear E. block16 B.
  revert r c Hr Hc. cells r c; reflexivity.
Qed.
Lemma shows_mix s l : shows s l -> shows (MixColumns s) (mix_columns l).
Proof.
  intros [B E]. split; [apply mix_columns_block, B|]. intros r c Hr Hc. unfold MixColumns. cbn [map].
  rewrite !E by lia. clear E. block16 B. revert r c Hr Hc.
  cells r c; cbn -[times Z.lxor xor_all gmul2 gmul3 xor4];
    repeat match goal with |- context [coefficient ?n] => let r := eval vm_compute in (coefficient n) in change (coefficient n) with r end;
    rewrite ?times_1, ?times_2, ?times_3 by assumption; unfold xor_all, xor4; cbn [fold_right]; rewrite Z.lxor_0_r, !Z.lxor_assoc; reflexivity.
Qed.

(** ** the key schedule *)
Definition word_at (w : schedule) (i : nat) : bytes := map (w i) four.
Definition key_at (w : schedule) (i : nat) : bytes := word_at w (4 * i) ++ word_at w (4 * i + 1) ++ word_at w (4 * i + 2) ++ word_at w (4 * i + 3).
Lemma shows_key w i s l : shows s l -> block (key_at w i) -> shows (AddRoundKey w i s) (xor_bytes l (key_at w i)).
Proof.
  intros [B E] K. split; [apply xor_bytes_block; assumption|]. intros r c Hr Hc. unfold AddRoundKey. rewrite E by assumption. clear E K.
  unfold key_at, word_at, four. generalize (4 * i)%nat as x. intros x. block16 B. revert r c Hr Hc. cells r c; cbn [Nat.add Nat.mul nth map app xor_bytes]; rewrite ?Nat.add_0_r; reflexivity.
Qed.
Lemma xor_map (f g : nat -> Z) l : xor_bytes (map f l) (map g l) = map (fun j => Z.lxor (f j) (g j)) l.
Proof. induction l; cbn [map xor_bytes]; [reflexivity|]. rewrite IHl. reflexivity. Qed.
Lemma expand_schedule w nk : (1 <= nk)%nat -> forall n i, (nk <= i)%nat ->
  (forall i' j, (i <= i' < i + n)%nat -> (j < 4)%nat -> w i' j = Z.lxor (w (i' - nk)%nat j) (temp nk w i' j)) ->
  Forall word (map (word_at w) (seq 0 i)) ->
  expand n nk i (rev (map (word_at w) (seq 0 i))) = map (word_at w) (seq 0 (i + n)).
Proof.
  intros Hk. induction n as [|n IH]; intros i Hi K W.
  - cbn [expand]. rewrite rev_involutive, Nat.add_0_r. reflexivity.
  - cbn [expand]. cbv zeta.
    assert (forall m, (m < i)%nat -> word (word_at w m)) as W'.
    { intros m Hm. apply (proj1 (Forall_forall _ _) W). apply in_map. apply in_seq. lia. }
    assert (forall m, (m < i)%nat -> forall j, (j < 4)%nat -> is_byte (w m j)) as Wb.
    { intros m Hm j Hj. destruct (W' m Hm) as [_ B]. apply (proj1 (Forall_forall _ _) B). apply in_map. unfold four. cbn [In]. lia. }
    assert (hd [] (rev (map (word_at w) (seq 0 i))) = word_at w (i - 1)) as ->.
    { destruct i as [|i]; [lia|]. rewrite seq_S, map_app, rev_app_distr. cbn [map rev app hd]. f_equal. lia. }
    assert (nth (nk - 1) (rev (map (word_at w) (seq 0 i))) [] = word_at w (i - nk)) as ->.
    { rewrite rev_nth by (rewrite map_length, seq_length; lia). rewrite map_length, seq_length. rewrite (nth_indep _ [] (word_at w 0)) by (rewrite map_length, seq_length; lia).
      rewrite map_nth, seq_nth by lia. f_equal. lia. }
    match goal with |- expand _ _ _ (xor_bytes _ ?t :: _) = _ => set (T := t) end.
    assert (T = map (temp nk w i) four) as ET.
    { subst T. unfold temp. pose proof (Wb (i - 1)%nat ltac:(lia)) as Wi. destruct (i mod nk =? 0)%nat.
      - unfold word_at, four. cbn [map rot_word app]. rewrite !S_box_sbox by (apply Wi; cbn; lia). cbn [xor_bytes map Nat.eqb]. rewrite power_rcon. reflexivity.
      - destruct ((6 <? nk) && (i mod nk =? 4))%nat; [|reflexivity]. unfold word_at. rewrite map_map. apply map_ext_in. intros j Hj. symmetry. apply S_box_sbox, Wi. unfold four in Hj. cbn [In] in Hj. lia. }
    assert (xor_bytes (word_at w (i - nk)) T = word_at w i) as EW.
    { rewrite ET. unfold word_at. rewrite xor_map. apply map_ext_in. intros j Hj. symmetry. apply K; [lia|]. unfold four in Hj. cbn [In] in Hj. lia. }
    assert (word (word_at w i)) as Wi.
    { rewrite <- EW. apply xor_word; [apply W'; lia|]. subst T. pose proof (W' (i - 1)%nat ltac:(lia)) as Wp. destruct (i mod nk =? 0)%nat.
      - apply xor_word; [apply map_sbox_word, rot_word_word, Wp|]. split; [reflexivity|]. repeat (apply is_bytes_cons; split); try apply is_bytes_nil; try apply rcon_byte; unfold is_byte; lia.
      - destruct (_ && _)%nat; [apply map_sbox_word|]; exact Wp. }
    rewrite EW. replace (word_at w i :: rev (map (word_at w) (seq 0 i))) with (rev (map (word_at w) (seq 0 (S i)))) by (rewrite seq_S, map_app, rev_app_distr; reflexivity).
    rewrite (IH (S i)); [f_equal; f_equal; lia|lia|intros; apply K; [lia|assumption]|]. rewrite seq_S, map_app. apply Forall_app. split; [exact W|]. constructor; [exact Wi|constructor].
Qed.
Lemma chunks_word_at w : forall n a key, length key = (4 * n)%nat -> (forall i j, (i < n)%nat -> (j < 4)%nat -> w (a + i)%nat j = nth (4 * i + j) key 0) ->
  chunks 4 n key = map (word_at w) (seq a n).
Proof.
  induction n as [|n IH]; intros a key L K; [reflexivity|]. cbn [chunks seq map]. do 4 (destruct key as [|? key]; [cbn in L; lia|]).
  f_equal.
  - unfold word_at, four. cbn [map firstn]. replace a with (a + 0)%nat by lia. rewrite !K by lia. reflexivity.
  - cbn [skipn]. apply IH; [cbn in L; lia|]. intros i j Hi Hj. replace (S a + i)%nat with (a + S i)%nat by lia. rewrite K by lia.
    replace (4 * S i + j)%nat with (S (S (S (S (4 * i + j))))) by lia. reflexivity.
Qed.
Lemma group4_keys w : forall n a, group4 (map (word_at w) (seq (4 * a) (4 * n))) = map (key_at w) (seq a n).
Proof.
  induction n as [|n IH]; intros a; [reflexivity|]. replace (4 * S n)%nat with (S (S (S (S (4 * n))))) by lia. cbn [seq map group4]. rewrite <- (IH (S a)).
  replace (S (S (S (S (4 * a))))) with (4 * S a)%nat by lia. f_equal. unfold key_at. repeat f_equal; lia.
Qed.
Lemma aes_key_size key : aes_key key -> length key = (4 * Nk key)%nat /\ (4 <= Nk key)%nat.
Proof. intros [_ H]. unfold Nk, len in *. destruct H as [H|[H|H]]; [replace (length key) with 16%nat by lia|replace (length key) with 24%nat by lia|replace (length key) with 32%nat by lia]; cbn; lia. Qed.
Lemma round_keys_schedule key w : aes_key key -> key_schedule key w -> round_keys key = map (key_at w) (seq 0 (Nr key + 1)).
Proof.
  intros A [K1 K2]. destruct (aes_key_size key A) as [L N]. unfold round_keys. cbv zeta. fold (Nk key).
  rewrite (chunks_word_at w (Nk key) 0 key L); [|intros i j Hi Hj; apply K1; assumption].
  rewrite expand_schedule; [|lia|lia| |].
  - replace (Nk key + (4 * (Nk key + 7) - Nk key))%nat with (4 * (Nr key + 1))%nat by (unfold Nr; lia). apply (group4_keys w _ 0).
  - intros i j Hi Hj. apply K2; [unfold Nr; lia|assumption].
  - rewrite <- (chunks_word_at w (Nk key) 0 key L); [|intros i j Hi Hj; apply K1; assumption]. apply chunks_words; [apply A|exact L].
Qed.
(** every key has a schedule *)
Fixpoint gen (nk : nat) (key : bytes) (fuel i j : nat) : Z :=
  match fuel with
  | O => 0
  | S fuel => if (i <? nk)%nat then nth (4 * i + j) key 0 else Z.lxor (gen nk key fuel (i - nk) j) (temp nk (gen nk key fuel) i j)
  end.
Lemma temp_ext nk w w' i j : (1 <= i)%nat -> (j < 4)%nat -> (forall j, (j < 4)%nat -> w (i - 1)%nat j = w' (i - 1)%nat j) -> temp nk w i j = temp nk w' i j.
Proof.
  intros Hi Hj E. unfold temp. rewrite (E j Hj), (E ((j + 1) mod 4)%nat) by (apply Nat.mod_upper_bound; lia). reflexivity.
Qed.
Lemma gen_stable nk key : (1 <= nk)%nat -> forall f f' i j, (i < f)%nat -> (i < f')%nat -> (j < 4)%nat -> gen nk key f i j = gen nk key f' i j.
Proof.
  intros Hk. induction f as [|f IH]; intros f' i j Hf Hf' Hj; [lia|]. destruct f' as [|f']; [lia|]. cbn [gen]. destruct (Nat.ltb_spec i nk); [reflexivity|].
  rewrite (IH f' (i - nk)%nat j) by lia. f_equal. apply temp_ext; [lia|exact Hj|]. intros j' Hj'. apply IH; lia.
Qed.
Lemma schedule_exists key : aes_key key -> exists w, key_schedule key w.
Proof.
  intros A. destruct (aes_key_size key A) as [_ N]. exists (fun i j => gen (Nk key) key (S i) i j). split.
  - intros i j Hi Hj. cbn [gen]. destruct (Nat.ltb_spec i (Nk key)); [reflexivity|lia].
  - intros i j Hi Hj. transitivity (Z.lxor (gen (Nk key) key i (i - Nk key) j) (temp (Nk key) (gen (Nk key) key i) i j)).
    { cbn [gen]. destruct (Nat.ltb_spec i (Nk key)); [lia|reflexivity]. }
    f_equal.
    + apply gen_stable; lia.
    + apply temp_ext; [lia|exact Hj|]. intros j' Hj'. apply gen_stable; lia.
Qed.

(** ** the cipher *)
Lemma rounds_standard w nr : forall n a s l, shows s l -> (1 <= n)%nat -> (a + n = S nr)%nat -> Forall block (map (key_at w) (seq a n)) ->
  shows (AddRoundKey w nr (ShiftRows (SubBytes (fold_left (fun s round => AddRoundKey w round (MixColumns (ShiftRows (SubBytes s)))) (seq a (n - 1)) s)))) (rounds (map (key_at w) (seq a n)) l).
Proof.
  induction n as [|n IH]; intros a s l Sh Hn E K; [lia|]. cbn [seq map] in *. inversion K as [|? ? K1 K2]; subst. destruct n as [|n].
  - cbn [Nat.sub seq fold_left map rounds]. replace nr with a by lia. apply shows_key; [|exact K1]. apply shows_shift, shows_sub, Sh.
  - replace (S (S n) - 1)%nat with (S (S n - 1)) by lia. cbn [seq fold_left].
    change (rounds _ l) with (rounds (map (key_at w) (seq (S a) (S n))) (xor_bytes (mix_columns (shift_rows (sub_bytes l))) (key_at w a))).
    apply IH; [|lia|lia|exact K2]. apply shows_key; [|exact K1]. apply shows_mix, shows_shift, shows_sub, Sh.
Qed.
Lemma cipher_standard key w l : aes_key key -> key_schedule key w -> block l -> Cipher w (Nr key) l = cipher (round_keys key) l.
Proof.
  intros A K B. pose proof (round_keys_blocks key A) as RB. rewrite (round_keys_schedule key w A K) in *.
  replace (Nr key + 1)%nat with (S (Nr key)) in * by lia. cbn [seq map] in *. inversion RB as [|? ? R1 R2]; subst. unfold Cipher, cipher. apply block_of_shows.
  apply rounds_standard; [|unfold Nr; lia|lia|exact R2]. apply shows_key; [|exact R1]. apply shows_block, B.
Qed.
Lemma combined_xor a b : block a -> block b -> combined a b = xor_bytes a b.
Proof.
  intros [La _] [Lb _]. do 16 (destruct a as [|? a]; [discriminate La|]). destruct a; [|discriminate La].
  do 16 (destruct b as [|? b]; [discriminate Lb|]). destruct b; [|discriminate Lb]. reflexivity.
Qed.
Lemma chained_iff key w : aes_key key -> key_schedule key w -> forall bs iv ct, block iv -> Forall block bs ->
  (chained w (Nr key) iv (concat bs) ct <-> ct = cbc_encrypt (round_keys key) iv bs).
Proof.
  intros A K. pose proof (round_keys_blocks key A) as RB. induction bs as [|b bs IH]; intros iv ct I B; cbn [concat cbc_encrypt].
  - split; [|intros ->; constructor]. intros C. inversion C as [|? p c plain ct' L E C']; subst; [reflexivity|]. destruct p; [discriminate L|discriminate].
  - inversion B as [|? ? B1 B2]; subst. cbv zeta. assert (Cipher w (Nr key) (combined b iv) = cipher (round_keys key) (xor_bytes b iv)) as EC.
    { rewrite combined_xor by assumption. apply cipher_standard; [assumption..|]. apply xor_bytes_block; assumption. }
    assert (block (cipher (round_keys key) (xor_bytes b iv))) as CB by (apply cipher_block; [exact RB|apply xor_bytes_block; assumption]).
    split.
    + intros C. inversion C as [? E0 E1|? p c plain ct' L E C' E0 E1]; subst.
      * destruct B1 as [L _]. destruct b; discriminate.
      * assert (p = b /\ plain = concat bs) as [-> ->].
        { assert (firstn 16 (p ++ plain) = firstn 16 (b ++ concat bs)) as F by congruence. assert (skipn 16 (p ++ plain) = skipn 16 (b ++ concat bs)) as G by congruence.
          destruct B1 as [L1 _]. rewrite !firstn_app_exact in F by (symmetry; assumption). rewrite !skipn_app_exact in G by (symmetry; assumption). split; assumption. }
        rewrite EC in *. f_equal. apply IH; assumption.
    + intros ->. constructor; [apply B1|symmetry; exact EC|]. apply IH; [exact CB|exact B2|reflexivity].
Qed.
Theorem aes_cbc_iff key iv plain ct : aes_key key -> block iv -> is_bytes plain -> len plain mod 16 = 0 ->
  (aes_cbc key iv plain ct <-> ct = cbc_encrypt (round_keys key) iv (blocks_of plain)).
Proof.
  intros A I B L. destruct (blocks_of_spec plain B L) as [BB C]. split.
  - intros (w & K & Ch). rewrite <- C in Ch. apply (chained_iff key w A K _ _ _ I BB) in Ch. exact Ch.
  - intros ->. destruct (schedule_exists key A) as [w K]. exists w. split; [exact K|]. rewrite <- C at 1. apply (chained_iff key w A K _ _ _ I BB). reflexivity.
Qed.
