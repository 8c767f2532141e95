(** Proofs about elgas/security.py. *)
From Verif Require Import PyFacts SpecUtils SpecFrames SpecSecurity AesProofs AesStandard CrcProofs FramesProofs.
From Verif Require Export Security.
Open Scope Z_scope.

Lemma key16_block k : key16 k -> block k.
Proof. intros [H L]. split; [unfold len in L; lia|exact H]. Qed.
Lemma key16_rounds k : key16 k -> Forall block (round_keys k).
Proof. intros [H L]. apply round_keys_blocks. split; [exact H|auto]. Qed.

Lemma enciphers_iff k plain ct : key16 k -> is_bytes plain -> len plain mod 16 = 0 ->
  (enciphers k plain ct <-> ct = cbc_encrypt (round_keys k) k (blocks_of plain)).
Proof.
  intros K B L. apply aes_cbc_iff; [|apply key16_block, K|exact B|exact L]. destruct K as [Kb Kl]. split; [exact Kb|left; exact Kl].
Qed.
Lemma random_padding_len rnd n : 0 <= n -> len (random_padding rnd n) = n.
Proof. intros. unfold random_padding. rewrite len_map. unfold len. rewrite seq_length. lia. Qed.
Lemma random_padding_range rnd n : Forall (fun b => 0 <= b <= 125) (random_padding rnd n).
Proof.
  apply Forall_forall. intros b H. apply in_map_iff in H as (i & <- & _).
  pose proof (Z.mod_pos_bound (rnd i) 126 ltac:(lia)). lia.
Qed.
Lemma padding_spec rnd data : let pad := data_padding rnd data in
  Forall (fun b => 0 <= b <= 125) pad /\ len pad < 16 /\ (len data + len pad + 2) mod 16 = 0.
Proof.
  unfold data_padding. cbv zeta. destruct (Z.eqb_spec ((len data + 2) mod 16) 0) as [E|E].
  - split; [constructor|]. rewrite len_nil. split; [lia|]. rewrite <- E. f_equal; lia.
  - split; [apply random_padding_range|]. pose proof (Z.mod_pos_bound (len data + 2) 16 ltac:(lia)).
    rewrite random_padding_len by lia. split; lia.
Qed.
Lemma padding_bytes rnd data : is_bytes (data_padding rnd data).
Proof.
  destruct (padding_spec rnd data) as [H _]. eapply Forall_impl; [|exact H]. unfold is_byte. intros; lia.
Qed.

Lemma to_be_crc l : is_bytes l -> to_be 2 (calculate_crc l) = Ok (be2 (calculate_crc l)).
Proof.
  intros H. pose proof (crc_two_byte_range l H). rewrite to_be_fits2. unfold fits2.
  destruct (Z.leb_spec 0 (calculate_crc l)), (Z.leb_spec (calculate_crc l) 65535); cbn [andb]; try reflexivity; lia.
Qed.

Lemma aes_encrypt_ok k m : key16 k -> len m mod 16 = 0 ->
  aes_cbc_encrypt m k k = Ok (cbc_encrypt (round_keys k) k (blocks_of m)).
Proof. intros [_ L] H. unfold aes_cbc_encrypt. rewrite L, H. reflexivity. Qed.
Lemma aes_decrypt_ok k m : key16 k -> len m mod 16 = 0 ->
  aes_cbc_decrypt m k k = Ok (cbc_decrypt (round_keys k) k (blocks_of m)).
Proof. intros [_ L] H. unfold aes_cbc_decrypt. rewrite L, H. reflexivity. Qed.
Lemma aes_encrypt_bad_key k m : len k <> 16 -> aes_cbc_encrypt m k k = Err ValueError.
Proof.
  intros H. unfold aes_cbc_encrypt. destruct (Z.eqb_spec (len k) 16); [lia|]. destruct (_ || _); reflexivity.
Qed.
Lemma aes_decrypt_bad_key k m : len k <> 16 -> aes_cbc_decrypt m k k = Err ValueError.
Proof.
  intros H. unfold aes_cbc_decrypt. destruct (Z.eqb_spec (len k) 16); [lia|]. destruct (_ || _); reflexivity.
Qed.

(** *** encrypt *)
Lemma encrypt_eval rnd id k data : is_bytes data -> 0 <= id <= 255 -> len data <= 65535 ->
  let body := data ++ data_padding rnd data in
  context_encrypt rnd (mk_context id k) data =
  match aes_cbc_encrypt (body ++ be2 (payload_crc (len data) id body)) k k with
  | Ok ct => Ok (le2 (len data) ++ [id] ++ ct)
  | Err e => Err e
  end.
Proof.
  intros Hd Hi Hl body. unfold context_encrypt. cbn [key_id key]. pose proof (len_nonneg data).
  rewrite to_le_fits2. unfold fits2. destruct (Z.leb_spec 0 (len data)), (Z.leb_spec (len data) 65535); cbn [andb]; try lia.
  cbn [bind]. cbv zeta. rewrite append_ok by (unfold is_byte; lia). cbn [bind].
  rewrite <- !app_assoc. cbn [app].
  assert (is_bytes (le2 (len data) ++ [id] ++ body)) as Hb.
  { rewrite !is_bytes_app. split; [apply le2_bytes; lia|]. split; [repeat constructor; lia|].
    apply is_bytes_app; split; [exact Hd|apply padding_bytes]. }
  change (le2 (len data) ++ id :: data ++ data_padding rnd data) with (le2 (len data) ++ [id] ++ body).
  rewrite to_be_crc by exact Hb. cbn [bind]. rewrite crc_closed by exact Hb.
  change (swap16 (crc16_modbus (le2 (len data) ++ [id] ++ body))) with (payload_crc (len data) id body).
  match goal with |- context [slice_to 3 ?x] => replace x with ((le2 (len data) ++ [id]) ++ body ++ be2 (payload_crc (len data) id body)) by (rewrite <- !app_assoc; reflexivity) end.
  rewrite slice_to_app, slice_from_app by reflexivity.
  destruct (aes_cbc_encrypt _ k k); cbn [bind]; [rewrite <- app_assoc|]; reflexivity.
Qed.
Lemma body_block_len rnd data n id : let body := data ++ data_padding rnd data in
  len (body ++ be2 (payload_crc n id body)) mod 16 = 0.
Proof.
  destruct (padding_spec rnd data) as (_ & _ & H). cbv zeta. rewrite !len_app. change (len (be2 _)) with 2. exact H.
Qed.
Lemma payload_crc_range n id body : is_bytes body -> 0 <= n <= 65535 -> 0 <= id <= 255 -> 0 <= payload_crc n id body < 65536.
Proof.
  intros Hb Hn Hi. unfold payload_crc.
  assert (is_bytes (le2 n ++ [id] ++ body)) as H.
  { rewrite !is_bytes_app. split; [apply le2_bytes; lia|]. split; [repeat constructor; lia|exact Hb]. }
  rewrite <- crc_closed by exact H. pose proof (crc_two_byte_range _ H). lia.
Qed.
Lemma plain_bytes n id body : is_bytes body -> 0 <= n <= 65535 -> 0 <= id <= 255 ->
  is_bytes (body ++ be2 (payload_crc n id body)).
Proof. intros. apply is_bytes_app; split; [assumption|]. apply be2_bytes, payload_crc_range; assumption. Qed.

(** the payload, its header and the size of its ciphertext *)
Lemma encrypt_payload rnd id k data : key16 k -> is_bytes data -> 0 <= id <= 255 -> len data <= 65535 ->
  exists p pad, context_encrypt rnd (mk_context id k) data = Ok p /\
    payload k id (len data) (data ++ pad) p /\ is_bytes p /\
    Forall (fun b => 0 <= b <= 125) pad /\ len pad < 16.
Proof.
  intros Hk Hd Hi Hl. pose proof (len_nonneg data). rewrite encrypt_eval by assumption.
  pose proof (body_block_len rnd data (len data) id) as Hm. cbv zeta in Hm.
  rewrite aes_encrypt_ok by assumption.
  destruct (padding_spec rnd data) as (Hp & Hp' & Hp'').
  assert (is_bytes (data ++ data_padding rnd data)) as Hbd
    by (apply is_bytes_app; split; [exact Hd|apply padding_bytes]).
  eexists; exists (data_padding rnd data). split; [reflexivity|]. split; [|split; [|auto]].
  - eexists. split; [reflexivity|]. split; [rewrite len_app; exact Hp''|]. apply enciphers_iff; [exact Hk|apply plain_bytes; try assumption; lia|exact Hm|reflexivity].
  - rewrite !is_bytes_app. split; [apply le2_bytes; lia|]. split; [repeat constructor; lia|].
    apply cbc_roundtrip; auto using key16_block, key16_rounds, plain_bytes; apply plain_bytes; try assumption; lia.
Qed.
Lemma payload_sizes k id n body p : key16 k -> is_bytes body -> 0 <= n <= 65535 -> 0 <= id <= 255 ->
  payload k id n body p ->
  exists ct, p = le2 n ++ [id] ++ ct /\ is_bytes ct /\ len ct = len body + 2 /\
             cbc_decrypt (round_keys k) k (blocks_of ct) = body ++ be2 (payload_crc n id body).
Proof.
  intros Hk Hb Hn Hi (ct & -> & Hm & He).
  assert (len (body ++ be2 (payload_crc n id body)) mod 16 = 0) as Hl by (rewrite len_app; exact Hm).
  destruct (cbc_roundtrip (round_keys k) k _ (key16_rounds k Hk) (key16_block k Hk) (plain_bytes n id body Hb Hn Hi) Hl) as (A & B & C).
  apply (proj1 (enciphers_iff _ _ _ Hk (plain_bytes n id body Hb Hn Hi) Hl)) in He.
  exists ct. rewrite He. repeat split; [exact A| |exact C].
  rewrite B, len_app. reflexivity.
Qed.

(** *** decrypt *)
Lemma decrypt_eval id k a b i ct : is_bytes (a :: b :: i :: ct) -> key16 k ->
  let m := cbc_decrypt (round_keys k) k (blocks_of ct) in
  context_decrypt (mk_context id k) (a :: b :: i :: ct) =
  if negb (i =? id) then Err AssertionError
  else if negb (len ct mod 16 =? 0) then Err ValueError
  else if list_eqb (be2 (calculate_crc ([a; b; i] ++ slice_to (-2) m))) (slice_from (-2) m)
       then Ok (slice_to (a + 256 * b) m) else Err ValueError.
Proof.
  intros H Hk m. unfold context_decrypt. cbn [key_id key]. cbv zeta.
  change (a :: b :: i :: ct) with ([a; b; i] ++ ct).
  rewrite !slice_to_app, slice_from_app by reflexivity.
  change (slice_to 2 [a; b; i]) with [a; b].
  change (getitem 2 [a; b; i]) with (Ok i). cbn [bind].
  destruct (Z.eqb_spec i id) as [->|]; cbn [negb]; [|reflexivity].
  destruct (Z.eqb_spec (len ct mod 16) 0) as [E|E]; cbn [negb].
  2:{ unfold aes_cbc_decrypt. destruct (Z.eqb_spec (len ct mod 16) 0); [lia|]. destruct Hk as [_ ->]. reflexivity. }
  rewrite aes_decrypt_ok by assumption. cbn [bind]. fold m.
  apply is_bytes_cons in H as [Ha H]. apply is_bytes_cons in H as [Hb H]. apply is_bytes_cons in H as [Hi H].
  assert (is_bytes m) as Hm by (apply uncbc_roundtrip; auto using key16_block, key16_rounds).
  unfold is_byte in *. change (from_le [a; b]) with (a + 256 * (b + 256 * 0)).
  replace (a + 256 * (b + 256 * 0)) with (a + 256 * b) by lia.
  rewrite to_le_fits2. unfold fits2.
  destruct (Z.leb_spec 0 (a + 256 * b)), (Z.leb_spec (a + 256 * b) 65535); cbn [andb]; try lia. cbn [bind].
  rewrite append_ok by exact Hi. cbn [bind app].
  replace (le2 (a + 256 * b)) with [a; b] by (unfold le2; f_equal; [|f_equal]; lia).
  cbn [app]. rewrite to_be_crc by (repeat (apply is_bytes_cons; split; [assumption|]); auto with bytes).
  cbn [bind]. reflexivity.
Qed.
Lemma tail2 (m : bytes) : 2 <= len m -> exists body x y, m = body ++ [x; y].
Proof.
  intros H. exists (firstn (length m - 2) m). pose proof (firstn_skipn (length m - 2) m) as E.
  assert (length (skipn (length m - 2) m) = 2)%nat as L by (rewrite skipn_length; unfold len in H; lia).
  destruct (skipn _ m) as [|x [|y [|]]]; try discriminate. exists x, y. symmetry. exact E.
Qed.
Lemma payload_crc_code a b i body : is_bytes (a :: b :: i :: body) ->
  calculate_crc ([a; b; i] ++ body) = payload_crc (a + 256 * b) i body.
Proof.
  intros H. unfold payload_crc. rewrite crc_closed by exact H.
  apply is_bytes_cons in H as [Ha H]. apply is_bytes_cons in H as [Hb H]. unfold is_byte in *.
  replace (le2 (a + 256 * b)) with [a; b] by (unfold le2; f_equal; [|f_equal]; lia). reflexivity.
Qed.
(** exactly the sealed payloads are opened *)
Lemma decrypt_iff id k p d : is_bytes p -> key16 k ->
  context_decrypt (mk_context id k) p = Ok d <->
  exists n body, 0 <= n <= 65535 /\ 0 <= id <= 255 /\ is_bytes body /\ payload k id n body p /\
    d = firstn (Z.to_nat n) (body ++ be2 (payload_crc n id body)).
Proof.
  intros Hp Hk. split.
  - destruct p as [|a [|b [|i ct]]]; try (intros H; discriminate H).
    rewrite decrypt_eval by assumption. set (m := cbc_decrypt _ _ _).
    destruct (Z.eqb_spec i id) as [->|]; cbn [negb]; [|discriminate].
    destruct (Z.eqb_spec (len ct mod 16) 0) as [E|E]; cbn [negb]; [|discriminate].
    pose proof Hp as Hq.
    apply is_bytes_cons in Hq as [Ha H]. apply is_bytes_cons in H as [Hb H]. apply is_bytes_cons in H as [Hi H].
    destruct (uncbc_roundtrip (round_keys k) k ct (key16_rounds k Hk) (key16_block k Hk) H E) as (Bm & Lm & Cm).
    fold m in Bm, Lm, Cm.
    destruct (list_eqb _ _) eqn:Ec; [|discriminate]. intros Hd. injection Hd as <-. apply list_eqb_eq in Ec.
    assert (2 <= len m) as L2.
    { destruct (Z_lt_le_dec (len m) 2); [|assumption]. exfalso.
      assert (m = []) as -> by (apply len_0_nil; pose proof (len_nonneg m); lia).
      discriminate Ec. }
    destruct (tail2 m L2) as (body & x & y & Em). rewrite Em in *.
    rewrite slice_to_neg_app, slice_from_neg_app in Ec by reflexivity.
    apply is_bytes_app in Bm as [Bb Bx].
    rewrite payload_crc_code in Ec by (repeat (apply is_bytes_cons; split; [assumption|]); assumption).
    unfold is_byte in *. exists (a + 256 * b), body. rewrite Ec.
    repeat split; try lia; try assumption.
    + exists ct. split; [unfold le2; cbn [app]; f_equal; [|f_equal]; lia|]. split; [rewrite len_app in Lm; change (len [x; y]) with 2 in Lm; lia|].
      rewrite Ec. apply enciphers_iff; [exact Hk|apply is_bytes_app; split; assumption|rewrite Lm; exact E|symmetry; exact Cm].
    + unfold slice_to. rewrite clamp_pos by lia.
      destruct (Z_le_gt_dec (a + 256 * b) (len (body ++ [x; y]))).
      * rewrite Z.min_l by lia. reflexivity.
      * rewrite Z.min_r by lia. unfold len. rewrite Nat2Z.id, firstn_all.
        symmetry. apply firstn_all2. unfold len in *. lia.
  - intros (n & body & Hn & Hi & Hb & Hpay & ->).
    destruct (payload_sizes k id n body p Hk Hb Hn Hi Hpay) as (ct & -> & Bc & Lc & Dc).
    assert (len ct mod 16 = 0) as E by (destruct Hpay as (ct' & _ & Hm & _); rewrite Lc; exact Hm).
    change (le2 n ++ [id] ++ ct) with (n mod 256 :: n / 256 :: id :: ct) in *.
    rewrite decrypt_eval by assumption. rewrite Dc, Z.eqb_refl. cbn [negb]. rewrite E. cbn [Z.eqb negb].
    rewrite slice_to_neg_app, slice_from_neg_app by reflexivity.
    assert (is_bytes (n mod 256 :: n / 256 :: id :: body)) as Hh.
    { apply is_bytes_cons in Hp as [Ha Hp']. apply is_bytes_cons in Hp' as [Hb' Hp']. apply is_bytes_cons in Hp' as [Hi' Hp'].
      repeat (apply is_bytes_cons; split; [assumption|]). assumption. }
    rewrite payload_crc_code by exact Hh.
    replace (n mod 256 + 256 * (n / 256)) with n by lia.
    rewrite list_eqb_refl. f_equal. unfold slice_to. rewrite clamp_pos by lia.
    destruct (Z_le_gt_dec n (len (body ++ be2 (payload_crc n id body)))).
    + rewrite Z.min_l by lia. reflexivity.
    + rewrite Z.min_r by lia. unfold len. rewrite Nat2Z.id, firstn_all.
      symmetry. apply firstn_all2. unfold len in *. lia.
Qed.
Lemma decrypt_errors id k p e : is_bytes p -> key16 k -> context_decrypt (mk_context id k) p = Err e ->
  (e = IndexError /\ len p < 3) \/ (e = AssertionError /\ exists a b i ct, p = a :: b :: i :: ct /\ i <> id) \/
  (e = ValueError /\ exists a b ct, p = a :: b :: id :: ct).
Proof.
  intros Hp Hk.
  destruct p as [|a [|b [|i ct]]];
    try (intros H; injection H as <-; left; split; [reflexivity|unfold len; cbn; lia]).
  rewrite decrypt_eval by assumption.
  destruct (Z.eqb_spec i id) as [->|]; cbn [negb].
  - intros H. right. right. split; [|do 3 eexists; reflexivity].
    destruct (negb _); [congruence|]. destruct (list_eqb _ _); congruence.
  - intros H. injection H as <-. right. left. split; [reflexivity|]. do 4 eexists. split; [reflexivity|assumption].
Qed.

(** *** round trip *)
Lemma encrypt_decrypt rnd id k data : key16 k -> is_bytes data -> 0 <= id <= 255 -> len data <= 65535 ->
  exists p, context_encrypt rnd (mk_context id k) data = Ok p /\ context_decrypt (mk_context id k) p = Ok data.
Proof.
  intros Hk Hd Hi Hl. destruct (encrypt_payload rnd id k data Hk Hd Hi Hl) as (p & pad & E & Hp & Bp & Hpad & Lpad).
  exists p. split; [exact E|]. apply decrypt_iff; [exact Bp|exact Hk|]. pose proof (len_nonneg data).
  exists (len data), (data ++ pad). split; [lia|]. split; [exact Hi|]. split.
  { apply is_bytes_app; split; [exact Hd|]. eapply Forall_impl; [|exact Hpad]. unfold is_byte. intros; lia. }
  split; [exact Hp|]. rewrite <- !app_assoc. symmetry. apply firstn_app_exact. unfold len. lia.
Qed.
Lemma encrypt_format rnd id k data p : key16 k -> is_bytes data ->
  context_encrypt rnd (mk_context id k) data = Ok p ->
  exists ct, p = le2 (len data) ++ [id] ++ ct /\ len ct mod 16 = 0 /\ len data + 2 <= len ct < len data + 2 + 16.
Proof.
  intros Hk Hd E.
  assert (0 <= id <= 255 /\ len data <= 65535) as [Hi Hl].
  { revert E. unfold context_encrypt. cbn [key_id]. rewrite to_le_fits2. unfold fits2.
    destruct (Z.leb_spec 0 (len data)), (Z.leb_spec (len data) 65535); cbn [andb bind]; try discriminate.
    cbv zeta. destruct (append_cases ([] ++ le2 (len data)) id) as [[Hb ->]|[_ ->]]; [|discriminate].
    unfold is_byte in Hb. intros _. lia. }
  destruct (encrypt_payload rnd id k data Hk Hd Hi Hl) as (p' & pad & E' & Hp & Bp & Hpad & Lpad).
  assert (p' = p) by congruence; subst p'.
  assert (is_bytes (data ++ pad)) as Hb.
  { apply is_bytes_app; split; [exact Hd|]. eapply Forall_impl; [|exact Hpad]. unfold is_byte. intros; lia. }
  pose proof (len_nonneg data).
  destruct (payload_sizes k id (len data) (data ++ pad) p Hk Hb ltac:(lia) Hi Hp) as (ct & -> & _ & Lc & _).
  exists ct. split; [reflexivity|]. rewrite Lc, len_app in *. split; [|pose proof (len_nonneg pad); lia].
  destruct Hp as (_ & _ & Hm & _). rewrite len_app in Hm. exact Hm.
Qed.
Lemma encrypt_errors rnd id k data : is_bytes data ->
  context_encrypt rnd (mk_context id k) data =
  if len data >? 65535 then Err OverflowError
  else if negb ((0 <=? id) && (id <=? 255)) then Err ValueError
  else if negb (len k =? 16) then Err ValueError
  else context_encrypt rnd (mk_context id k) data.
Proof.
  intros Hd. pose proof (len_nonneg data) as H0. rewrite Z.gtb_ltb.
  destruct (Z.ltb_spec 65535 (len data)).
  { unfold context_encrypt. rewrite to_le_fits2. unfold fits2.
    destruct (Z.leb_spec 0 (len data)), (Z.leb_spec (len data) 65535); cbn [andb bind]; try lia. reflexivity. }
  destruct (Z.leb_spec 0 id) as [Hi0|Hi0]; destruct (Z.leb_spec id 255) as [Hi1|Hi1]; cbn [andb negb].
  2-4: unfold context_encrypt; cbn [key_id]; rewrite to_le_fits2; unfold fits2;
    (destruct (Z.leb_spec 0 (len data)), (Z.leb_spec (len data) 65535); cbn [andb bind]; try lia);
    cbv zeta; rewrite append_err by (unfold is_byte; lia); reflexivity.
  destruct (Z.eqb_spec (len k) 16) as [|Hk]; cbn [negb]; [reflexivity|].
  rewrite encrypt_eval by (try assumption; lia). rewrite aes_encrypt_bad_key by exact Hk. reflexivity.
Qed.
Lemma encrypt_bad_key rnd id k data : is_bytes data -> len data <= 65535 -> len k <> 16 ->
  context_encrypt rnd (mk_context id k) data = Err ValueError.
Proof.
  intros Hd Hl Hk. rewrite encrypt_errors by exact Hd. rewrite Z.gtb_ltb.
  destruct (Z.ltb_spec 65535 (len data)); [lia|]. destruct (negb _); [reflexivity|].
  destruct (Z.eqb_spec (len k) 16); [lia|]. reflexivity.
Qed.
Lemma decrypt_bad_key id k a b ct : len k <> 16 ->
  context_decrypt (mk_context id k) (a :: b :: id :: ct) = Err ValueError.
Proof.
  intros Hk. unfold context_decrypt. cbn [key_id key]. cbv zeta.
  change (a :: b :: id :: ct) with ([a; b; id] ++ ct).
  rewrite !slice_to_app by reflexivity. change (getitem 2 [a; b; id]) with (Ok id). cbn [bind].
  rewrite Z.eqb_refl. rewrite aes_decrypt_bad_key by exact Hk. reflexivity.
Qed.
Lemma encrypt_too_long rnd id k data : len data > 65535 ->
  context_encrypt rnd (mk_context id k) data = Err OverflowError.
Proof.
  intros H. unfold context_encrypt. rewrite to_le_fits2. unfold fits2.
  destruct (Z.leb_spec 0 (len data)), (Z.leb_spec (len data) 65535); cbn [andb bind]; try lia; reflexivity.
Qed.

(** *** tampering *)
Lemma decrypt_key_id id k a b i ct : i <> id ->
  context_decrypt (mk_context id k) (a :: b :: i :: ct) = Err AssertionError.
Proof.
  intros H. unfold context_decrypt. cbn [key_id key]. cbv zeta.
  change (a :: b :: i :: ct) with ([a; b; i] ++ ct).
  rewrite !slice_to_app by reflexivity. change (getitem 2 [a; b; i]) with (Ok i). cbn [bind].
  destruct (Z.eqb_spec i id); [contradiction|reflexivity].
Qed.
Lemma decrypt_ragged id k a b i ct : len ct mod 16 <> 0 ->
  context_decrypt (mk_context id k) (a :: b :: i :: ct) = Err ValueError \/
  context_decrypt (mk_context id k) (a :: b :: i :: ct) = Err AssertionError.
Proof.
  intros H. destruct (Z.eq_dec i id) as [->|E]; [left|right; apply decrypt_key_id, E].
  unfold context_decrypt. cbn [key_id key]. cbv zeta.
  change (a :: b :: id :: ct) with ([a; b; id] ++ ct).
  rewrite !slice_to_app, slice_from_app by reflexivity. change (getitem 2 [a; b; id]) with (Ok id). cbn [bind].
  rewrite Z.eqb_refl. unfold aes_cbc_decrypt.
  destruct (Z.eqb_spec (len ct mod 16) 0); [contradiction|].
  destruct (_ || _); [|reflexivity]. destruct (len k =? 16); reflexivity.
Qed.
Lemma decrypt_short id k p : len p < 3 -> context_decrypt (mk_context id k) p = Err IndexError.
Proof.
  intros H. destruct p as [|a [|b [|i ct]]]; try reflexivity.
  rewrite !len_cons in H. pose proof (len_nonneg ct). lia.
Qed.
Lemma decrypt_length_tamper id k a b a' b' ct d :
  is_bytes (a :: b :: id :: ct) -> is_byte a' -> is_byte b' -> key16 k ->
  context_decrypt (mk_context id k) (a :: b :: id :: ct) = Ok d -> (a', b') <> (a, b) ->
  context_decrypt (mk_context id k) (a' :: b' :: id :: ct) = Err ValueError.
Proof.
  intros Hp Ha' Hb' Hk H N.
  pose proof Hp as Hq. apply is_bytes_cons in Hq as [Ha Hq]. apply is_bytes_cons in Hq as [Hb Hq]. apply is_bytes_cons in Hq as [Hi Hc].
  assert (is_bytes (a' :: b' :: id :: ct)) as Hp' by (repeat (apply is_bytes_cons; split; [assumption|]); assumption).
  rewrite decrypt_eval in H by assumption. rewrite decrypt_eval by assumption.
  rewrite Z.eqb_refl in *. cbn [negb] in *.
  destruct (negb (len ct mod 16 =? 0)) eqn:E; [reflexivity|].
  set (m := cbc_decrypt _ _ _) in *.
  destruct (list_eqb (be2 (calculate_crc ([a; b; id] ++ slice_to (-2) m))) (slice_from (-2) m)) eqn:E1; [|discriminate].
  destruct (list_eqb (be2 (calculate_crc ([a'; b'; id] ++ slice_to (-2) m))) (slice_from (-2) m)) eqn:E2; [|reflexivity].
  exfalso. apply list_eqb_eq in E1, E2. rewrite <- E2 in E1.
  assert (is_bytes m) as Bm.
  { apply uncbc_roundtrip; auto using key16_block, key16_rounds. destruct (Z.eqb_spec (len ct mod 16) 0); [assumption|discriminate]. }
  assert (calculate_crc ([] ++ [a; b] ++ id :: slice_to (-2) m) = calculate_crc ([] ++ [a'; b'] ++ id :: slice_to (-2) m)) as EC.
  { cbn [app] in *. unfold be2 in E1. injection E1 as X Y. lia. }
  apply crc_two_bytes in EC; [congruence|..]; try reflexivity; try (cbn; lia).
  - apply is_bytes_nil.
  - apply is_bytes_cons; split; [exact Hi|auto with bytes].
  - repeat (apply is_bytes_cons; split; [assumption|]). apply is_bytes_nil.
  - repeat (apply is_bytes_cons; split; [assumption|]). apply is_bytes_nil.
Qed.

(** *** C59, C60 *)
Lemma decrypt_length id k p d : is_bytes p -> key16 k -> context_decrypt (mk_context id k) p = Ok d ->
  let n := from_le (firstn 2 p) in let room := len p - 5 in
  (n <= room -> len d = n) /\ (room < n -> len d = Z.min n (room + 2) /\ room < len d).
Proof.
  intros Hp Hk H. apply decrypt_iff in H; [|assumption..].
  destruct H as (n & body & Hn & Hi & Hb & Hpay & ->).
  destruct (payload_sizes k id n body p Hk Hb Hn Hi Hpay) as (ct & -> & Bc & Lc & Dc).
  cbv zeta. rewrite firstn_app_exact by reflexivity. rewrite from_le_le2.
  rewrite !len_app, len_firstn, len_app, Lc. change (len (le2 n)) with 2. change (len [id]) with 1. change (len (be2 _)) with 2.
  split; intros; lia.
Qed.
Lemma crc_leak id k n body p : key16 k -> is_bytes p -> is_bytes body -> 0 <= id <= 255 -> 0 <= n <= 65535 ->
  len body + 2 <= n -> payload k id n body p ->
  context_decrypt (mk_context id k) p = Ok (body ++ be2 (payload_crc n id body)).
Proof.
  intros Hk Hp Hb Hi Hn Hl Hpay. apply decrypt_iff; [assumption..|]. exists n, body. repeat split; try assumption; try lia.
  symmetry. apply firstn_all2. rewrite app_length. cbn [length be2]. unfold len in Hl. lia.
Qed.
Lemma chunks_S k n l : chunks k (S n) l = firstn k l :: chunks k n (skipn k l). Proof. reflexivity. Qed.
Lemma cbc_prefix ks iv ps ps1 ps2 :
  firstn (length (cbc_encrypt ks iv ps)) (cbc_encrypt ks iv (ps ++ ps1)) =
  firstn (length (cbc_encrypt ks iv ps)) (cbc_encrypt ks iv (ps ++ ps2)).
Proof.
  assert (forall iv, exists iv', forall r, cbc_encrypt ks iv (ps ++ r) = cbc_encrypt ks iv ps ++ cbc_encrypt ks iv' r) as H.
  { induction ps as [|p ps IH]; intros i; [exists i; reflexivity|].
    destruct (IH (cipher ks (xor_bytes p i))) as (iv' & E). exists iv'. intros r. cbn [app cbc_encrypt].
    rewrite E, app_assoc. reflexivity. }
  destruct (H iv) as (iv' & E). rewrite !E, !firstn_app_exact by reflexivity. reflexivity.
Qed.
Lemma blocks_app_prefix m r1 : is_bytes m -> is_bytes r1 -> len m mod 16 = 0 -> len (m ++ r1) mod 16 = 0 ->
  blocks_of (m ++ r1) = blocks_of m ++ blocks_of r1.
Proof.
  intros Hm Hr Lm Lr. assert (len r1 mod 16 = 0) as L1 by (rewrite len_app in Lr; lia).
  destruct (blocks_of_spec m Hm Lm) as [A B]. destruct (blocks_of_spec r1 Hr L1) as [C D].
  rewrite <- B at 1. rewrite <- D at 1. rewrite <- concat_app. apply blocks_of_concat. apply Forall_app; auto.
Qed.
Lemma encrypt_deterministic_prefix rnd rnd' id k common d1 d2 p1 p2 :
  key16 k -> is_bytes common -> is_bytes d1 -> is_bytes d2 -> len common mod 16 = 0 ->
  context_encrypt rnd (mk_context id k) (common ++ d1) = Ok p1 ->
  context_encrypt rnd' (mk_context id k) (common ++ d2) = Ok p2 ->
  firstn (length common) (skipn 3 p1) = firstn (length common) (skipn 3 p2).
Proof.
  intros Hk Hc H1 H2 Lc E1 E2.
  assert (forall rnd d p, is_bytes d -> context_encrypt rnd (mk_context id k) (common ++ d) = Ok p ->
    exists r, skipn 3 p = cbc_encrypt (round_keys k) k (blocks_of common ++ r)) as G.
  { clear - Hk Hc Lc. intros rnd d p Hd E.
    assert (is_bytes (common ++ d)) as Hb by (apply is_bytes_app; auto).
    destruct (Z_le_gt_dec (len (common ++ d)) 65535) as [Hl|Hl]; [|rewrite encrypt_too_long in E by lia; discriminate].
    assert (0 <= id <= 255) as Hi.
    { rewrite encrypt_errors in E by exact Hb. rewrite Z.gtb_ltb in E.
      destruct (Z.ltb_spec 65535 (len (common ++ d))); [lia|].
      destruct (Z.leb_spec 0 id), (Z.leb_spec id 255); cbn [andb negb] in E; try discriminate. lia. }
    destruct (encrypt_payload rnd id k (common ++ d) Hk Hb Hi Hl) as (p' & pad & E' & Hp & Bp & Hpad & Lpad).
    assert (p' = p) by congruence; subst p'.
    assert (is_bytes pad) as Hbp by (eapply Forall_impl; [|exact Hpad]; unfold is_byte; intros; lia).
    destruct Hp as (ct & -> & Hm & He).
    apply (proj1 (enciphers_iff _ _ _ Hk (plain_bytes (len (common ++ d)) id ((common ++ d) ++ pad) ltac:(apply is_bytes_app; auto) ltac:(pose proof (len_nonneg (common ++ d)); lia) Hi) ltac:(rewrite len_app; exact Hm))) in He.
    subst ct. cbn [app le2 skipn].
    set (c := be2 _).
    assert (is_bytes c) as Hbc.
    { apply be2_bytes. apply payload_crc_range; [rewrite !is_bytes_app; auto|pose proof (len_nonneg (common ++ d)); lia|exact Hi]. }
    exists (blocks_of (d ++ pad ++ c)). rewrite <- blocks_app_prefix; [rewrite <- !app_assoc; reflexivity|exact Hc|rewrite !is_bytes_app; auto|exact Lc|].
    rewrite !app_assoc, len_app. change (len c) with 2. exact Hm. }
  destruct (G _ _ _ H1 E1) as (r1 & ->). destruct (G _ _ _ H2 E2) as (r2 & ->).
  destruct (blocks_of_spec common Hc Lc) as [A B].
  assert (length common = length (cbc_encrypt (round_keys k) k (blocks_of common))) as ->.
  { destruct (cbc_roundtrip (round_keys k) k common (key16_rounds k Hk) (key16_block k Hk) Hc Lc) as (_ & L & _).
    unfold len in L. lia. }
  apply cbc_prefix.
Qed.
Lemma encrypt_unpadded_deterministic rnd rnd' ctx data : (len data + 2) mod 16 = 0 ->
  context_encrypt rnd ctx data = context_encrypt rnd' ctx data.
Proof. intros H. unfold context_encrypt, data_padding. rewrite H. reflexivity. Qed.
(** the crc method computes the CRC that encrypt seals when the draws agree *)
Lemma context_crc_spec rnd id k data : is_bytes data -> 0 <= id <= 255 -> len data <= 65535 ->
  context_crc rnd (mk_context id k) data = Ok (payload_crc (len data) id (data ++ data_padding rnd data)).
Proof.
  intros Hd Hi Hl. pose proof (len_nonneg data). unfold context_crc. cbn [key_id]. rewrite to_le_fits2. unfold fits2.
  destruct (Z.leb_spec 0 (len data)), (Z.leb_spec (len data) 65535); cbn [andb bind]; try lia.
  cbv zeta. rewrite append_ok by (unfold is_byte; lia). cbn [bind].
  rewrite <- !app_assoc. cbn [app]. unfold payload_crc. rewrite crc_closed; [reflexivity|].
  change (is_bytes (le2 (len data) ++ [id] ++ data ++ data_padding rnd data)).
  rewrite !is_bytes_app. split; [apply le2_bytes; lia|]. split; [repeat constructor; lia|].
  split; [exact Hd|apply padding_bytes].
Qed.
Lemma overlong_accepted id k n body : key16 k -> is_bytes body -> 0 <= id <= 255 ->
  (len body + 2) mod 16 = 0 -> len body + 2 <= n <= 65535 ->
  exists p crc, is_bytes p /\ len p = len body + 5 /\ firstn 3 p = le2 n ++ [id] /\ len crc = 2 /\
    context_decrypt (mk_context id k) p = Ok (body ++ crc).
Proof.
  intros Hk Hb Hi Hm Hn. pose proof (len_nonneg body).
  assert (payload k id n body (le2 n ++ [id] ++ cbc_encrypt (round_keys k) k (blocks_of (body ++ be2 (payload_crc n id body))))) as Hp.
  { eexists. split; [reflexivity|]. split; [exact Hm|]. apply enciphers_iff; [exact Hk|apply plain_bytes; try assumption; lia|rewrite len_app; exact Hm|reflexivity]. }
  destruct (payload_sizes k id n body _ Hk Hb ltac:(lia) Hi Hp) as (ct & E & Bc & Lc & Dc).
  rewrite E in Hp. exists (le2 n ++ [id] ++ ct), (be2 (payload_crc n id body)).
  assert (is_bytes (le2 n ++ [id] ++ ct)) as Hbp.
  { rewrite !is_bytes_app. split; [apply le2_bytes; lia|]. split; [repeat constructor; lia|exact Bc]. }
  split; [exact Hbp|]. split; [rewrite !len_app, Lc; change (len (le2 n)) with 2; change (len [id]) with 1; lia|].
  split; [reflexivity|]. split; [reflexivity|]. apply crc_leak; try assumption; lia.
Qed.

(** *** the two functions of the module *)
Lemma aes_sizes {A} (key iv data : bytes) (r : A) :
  (guard (len key =? 16) || (len key =? 24) || (len key =? 32) else ValueError ;; guard len iv =? 16 else ValueError ;; guard len data mod 16 =? 0 else ValueError ;; Ok r) =
  if ((len key =? 16) || (len key =? 24) || (len key =? 32)) && (len iv =? 16) && (len data mod 16 =? 0) then Ok r else Err ValueError.
Proof. destruct ((len key =? 16) || (len key =? 24) || (len key =? 32)), (len iv =? 16), (len data mod 16 =? 0); reflexivity. Qed.
Lemma aes_sizes_iff (key iv data : bytes) : ((len key =? 16) || (len key =? 24) || (len key =? 32)) && (len iv =? 16) && (len data mod 16 =? 0) = true <->
  SpecAes.aes_key_length key /\ len iv = 16 /\ len data mod 16 = 0.
Proof. unfold SpecAes.aes_key_length. rewrite !andb_true_iff, !orb_true_iff, !Z.eqb_eq. tauto. Qed.
Lemma encrypt_standard data key iv ct : is_bytes data -> is_bytes key -> is_bytes iv ->
  (aes_cbc_encrypt data key iv = Ok ct <-> SpecAes.aes_key_length key /\ len iv = 16 /\ len data mod 16 = 0 /\ SpecAes.aes_cbc key iv data ct).
Proof.
  intros D K I. unfold aes_cbc_encrypt. rewrite aes_sizes. destruct (_ && _) eqn:E.
  - apply aes_sizes_iff in E as (E1 & E2 & E3). assert (block iv) as Bi by (split; [unfold len in E2; lia|exact I]).
    pose proof (aes_cbc_iff key iv data ct (conj K E1) Bi D E3) as A. split.
    + intros H. injection H as H. symmetry in H. apply A in H. auto.
    + intros (_ & _ & _ & H). apply A in H. congruence.
  - split; [discriminate|]. intros (E1 & E2 & E3 & _). rewrite (proj2 (aes_sizes_iff key iv data)) in E by auto. discriminate.
Qed.
Lemma decrypt_standard data key iv ct : is_bytes ct -> is_bytes key -> is_bytes iv ->
  (aes_cbc_decrypt ct key iv = Ok data <-> SpecAes.aes_key_length key /\ len iv = 16 /\ len ct mod 16 = 0 /\ is_bytes data /\ SpecAes.aes_cbc key iv data ct).
Proof.
  intros D K I. unfold aes_cbc_decrypt. rewrite aes_sizes. destruct (_ && _) eqn:E.
  - apply aes_sizes_iff in E as (E1 & E2 & E3). assert (block iv) as Bi by (split; [unfold len in E2; lia|exact I]).
    pose proof (round_keys_blocks key (conj K E1)) as RB. split.
    + intros H. injection H as <-. destruct (uncbc_roundtrip (round_keys key) iv ct RB Bi D E3) as (B & L & C).
      repeat split; try assumption. apply (aes_cbc_iff key iv _ ct (conj K E1) Bi B); [rewrite L; exact E3|congruence].
    + intros (_ & _ & _ & B & A). assert (len data mod 16 = 0) as L.
      { destruct A as (w & _ & A). clear -A. induction A as [|iv p c plain ct Lp Ec A IH]; [reflexivity|]. rewrite len_app. unfold len at 1. rewrite Lp. change (Z.of_nat 16) with 16. rewrite Z.add_comm, <- (Z.mul_1_l 16) at 1. rewrite Z_mod_plus_full. exact IH. }
      apply (aes_cbc_iff key iv data ct (conj K E1) Bi B L) in A. subst ct. f_equal. apply (cbc_roundtrip (round_keys key) iv data RB Bi B L).
  - split; [discriminate|]. intros (E1 & E2 & E3 & _). rewrite (proj2 (aes_sizes_iff key iv ct)) in E by auto. discriminate.
Qed.
Lemma aes_refused (data key iv : bytes) x :
  (aes_cbc_encrypt data key iv = Err x <-> x = ValueError /\ ~ (SpecAes.aes_key_length key /\ len iv = 16 /\ len data mod 16 = 0)) /\
  (aes_cbc_decrypt data key iv = Err x <-> x = ValueError /\ ~ (SpecAes.aes_key_length key /\ len iv = 16 /\ len data mod 16 = 0)).
Proof.
  unfold aes_cbc_encrypt, aes_cbc_decrypt. rewrite !aes_sizes. pose proof (aes_sizes_iff key iv data) as S0.
  destruct (_ && _).
  - split; (split; [discriminate|intros [_ N]; exfalso; apply N, S0; reflexivity]).
  - assert (~ (SpecAes.aes_key_length key /\ len iv = 16 /\ len data mod 16 = 0)) as N by (intros Q; apply S0 in Q; discriminate).
    split; (split; [intros H; injection H as <-; auto|intros [ -> _]; reflexivity]).
Qed.
