(** Proofs about Frames.v. *)
From Verif Require Import BitFacts SpecUtils SpecFrames Utils UtilsProofs Frames.
Open Scope Z_scope.

Lemma service_number_byte s : is_byte (service_number s).
Proof. unfold is_byte. destruct s; cbn; lia. Qed.
Lemma service_of_number_ok s : service_of_number (service_number s) = Ok s.
Proof. destruct s; reflexivity. Qed.
Lemma service_of_number_inv n s : service_of_number n = Ok s -> service_number s = n.
Proof.
  unfold service_of_number. destruct (find _ _) eqn:E; [|discriminate].
  intros H; injection H as ->. apply find_some in E as [_ E]. apply Z.eqb_eq; exact E.
Qed.
Lemma service_of_number_err n e : service_of_number n = Err e -> e = ValueError.
Proof. unfold service_of_number. destruct (find _ _); congruence. Qed.

Lemma le_bytes_2 n : 0 <= n < 65536 -> le_bytes 2 n = le2 n.
Proof. intros H. cbn [le_bytes]. unfold le2. rewrite (Z.mod_small (n / 256)) by lia. reflexivity. Qed.
Lemma le2_bytes n : 0 <= n < 65536 -> is_bytes (le2 n).
Proof. intros H. rewrite <- le_bytes_2 by exact H. apply le_bytes_is_bytes. Qed.
Lemma be2_bytes n : 0 <= n < 65536 -> is_bytes (be2 n).
Proof. intros H. pose proof (le2_bytes n H) as G. apply is_bytes_rev in G. exact G. Qed.
Lemma from_le_le2 n : from_le (le2 n) = n.
Proof. unfold le2. cbn [from_le]. lia. Qed.
Lemma from_le_be2 n : 0 <= n < 65536 -> from_le (be2 n) = swap2 n.
Proof. intros H. unfold be2, swap2. cbn [from_le]. lia. Qed.
Lemma le2_from_le b c : is_byte b -> is_byte c -> le2 (from_le [b; c]) = [b; c].
Proof. unfold is_byte, le2. cbn [from_le]. intros. f_equal; [|f_equal]; lia. Qed.

Definition in_range (f : frame) : Prop :=
  0 <= destination_address_1 f <= 65535 /\ 0 <= destination_address_2 f <= 255 /\
  0 <= source_address_1 f <= 65535 /\ 0 <= source_address_2 f <= 255 /\
  len (f_data f) <= 65520.

Definition misfit (f : frame) : option field_error :=
  first_misfit (destination_address_1 f) (destination_address_2 f)
    (source_address_1 f) (source_address_2 f) (f_data f).
Definition misfit_exn (e : field_error) : exn :=
  match e with two_byte_field => OverflowError | one_byte_field => ValueError end.

Lemma misfit_none f : misfit f = None <-> in_range f.
Proof.
  unfold misfit, first_misfit, in_range, fits2, fits1.
  destruct (Z.gtb_spec (len (f_data f)) 65520); [split; [discriminate|lia]|].
  destruct (Z.leb_spec 0 (destination_address_1 f)), (Z.leb_spec (destination_address_1 f) 65535);
    cbn [andb negb]; try (split; [discriminate|lia]).
  destruct (Z.leb_spec 0 (destination_address_2 f)), (Z.leb_spec (destination_address_2 f) 255);
    cbn [andb negb]; try (split; [discriminate|lia]).
  destruct (Z.leb_spec 0 (source_address_1 f)), (Z.leb_spec (source_address_1 f) 65535);
    cbn [andb negb]; try (split; [discriminate|lia]).
  destruct (Z.leb_spec 0 (source_address_2 f)), (Z.leb_spec (source_address_2 f) 255);
    cbn [andb negb]; try (split; [discriminate|lia]).
  split; [lia|reflexivity].
Qed.

Lemma append_fits1 out b : append out b = if fits1 b then Ok (out ++ [b]) else Err ValueError.
Proof.
  unfold append, fits1. destruct (Z.leb_spec 0 b), (Z.ltb_spec b 256), (Z.leb_spec b 255);
    cbn [andb]; auto; lia.
Qed.
Lemma fits2_range n : fits2 n = true -> 0 <= n < 65536.
Proof. unfold fits2. lia. Qed.
Lemma to_le_fits2 n : to_le 2 n = if fits2 n then Ok (le2 n) else Err OverflowError.
Proof.
  destruct (fits2 n) eqn:E.
  - apply fits2_range in E. rewrite to_le_ok, le_bytes_2 by (change (256 ^ Z.of_nat 2) with 65536; lia). reflexivity.
  - apply to_le_err. change (256 ^ Z.of_nat 2) with 65536. unfold fits2 in E. lia.
Qed.
Lemma to_be_fits2 n : to_be 2 n = if fits2 n then Ok (be2 n) else Err OverflowError.
Proof.
  destruct (fits2 n) eqn:E.
  - apply fits2_range in E. rewrite to_be_ok, le_bytes_2 by (change (256 ^ Z.of_nat 2) with 65536; lia). reflexivity.
  - apply to_be_err. change (256 ^ Z.of_nat 2) with 65536. unfold fits2 in E. lia.
Qed.

Lemma seal_tail R : is_bytes R ->
  (out <- append (2 :: R) (calculate_lrc (slice_from 1 (2 :: R))) ;;
   out <- append out (calculate_checksum (slice_from 1 (2 :: R))) ;;
   out <- append out (calculate_drc (slice_from 1 (2 :: R))) ;;
   append out 13) = Ok (sealed R).
Proof.
  intros H. change (2 :: R) with ([2] ++ R). rewrite slice_from_app by reflexivity.
  rewrite append_ok by apply lrc_byte. cbn [bind].
  rewrite append_ok by apply checksum_byte. cbn [bind].
  rewrite append_ok by apply drc_byte. cbn [bind].
  rewrite append_ok by (unfold is_byte; lia).
  rewrite lrc_closed, checksum_closed, drc_closed by exact H.
  unfold sealed. cbn [app]. rewrite <- !app_assoc. reflexivity.
Qed.

(** both to_bytes in one go: [tob] is how addresses are written *)
Lemma to_bytes_gen (tob : Z -> res bytes) (addr : Z -> bytes) TYPE f :
  (forall n, tob n = if fits2 n then Ok (addr n) else Err OverflowError) ->
  (forall n, 0 <= n < 65536 -> is_bytes (addr n)) ->
  is_byte TYPE -> is_bytes (f_data f) ->
  (out <- append [] 2 ;;
   out <- append out 254 ;;
   out <- append out TYPE ;;
   out <- append out (service_number (f_service f)) ;;
   l <- to_le 2 (frame_length f) ;;
   let out := out ++ l in
   d1 <- tob (destination_address_1 f) ;;
   let out := out ++ d1 in
   out <- append out (destination_address_2 f) ;;
   s1 <- tob (source_address_1 f) ;;
   let out := out ++ s1 in
   out <- append out (source_address_2 f) ;;
   let out := out ++ f_data f in
   let redundancy_source := slice_from 1 out in
   out <- append out (calculate_lrc redundancy_source) ;;
   out <- append out (calculate_checksum redundancy_source) ;;
   out <- append out (calculate_drc redundancy_source) ;;
   append out 13) =
  match misfit f with
  | Some e => Err (misfit_exn e)
  | None => Ok (wire addr TYPE (service_number (f_service f)) (destination_address_1 f)
                  (destination_address_2 f) (source_address_1 f) (source_address_2 f) (f_data f))
  end.
Proof.
  intros Htob Haddr HT Hd.
  rewrite append_ok by (unfold is_byte; lia). cbn [bind].
  rewrite append_ok by (unfold is_byte; lia). cbn [bind].
  rewrite append_ok by exact HT. cbn [bind].
  rewrite append_ok by apply service_number_byte. cbn [bind].
  rewrite to_le_fits2. unfold frame_length.
  unfold misfit, first_misfit.
  pose proof (len_nonneg (f_data f)).
  destruct (Z.gtb_spec (len (f_data f)) 65520).
  { replace (fits2 (len (f_data f) + 15)) with false by (unfold fits2; lia). reflexivity. }
  replace (fits2 (len (f_data f) + 15)) with true by (unfold fits2; lia). cbn [bind]. cbv zeta.
  rewrite Htob. destruct (fits2 (destination_address_1 f)) eqn:E1; [|reflexivity]. cbn [bind negb].
  rewrite append_fits1. destruct (fits1 (destination_address_2 f)) eqn:E2; [|reflexivity]. cbn [bind negb].
  rewrite Htob. destruct (fits2 (source_address_1 f)) eqn:E3; [|reflexivity]. cbn [bind negb].
  rewrite append_fits1. destruct (fits1 (source_address_2 f)) eqn:E4; [|reflexivity]. cbn [bind negb].
  apply fits2_range in E1, E3. unfold fits1 in E2, E4.
  rewrite <- !app_assoc. cbn [app].
  match goal with |- context [append (2 :: ?R) _] => set (RR := R) end.
  rewrite (seal_tail RR).
  - unfold wire. reflexivity.
  - unfold RR. pose proof (service_number_byte (f_service f)).
    pose proof (le2_bytes (len (f_data f) + 15)). pose proof (Haddr _ E1). pose proof (Haddr _ E3).
    repeat first [apply is_bytes_cons; split | apply is_bytes_app; split]; try assumption; try (unfold is_byte; lia).
    all: try (unfold is_byte in *; lia).
Qed.

Lemma response_to_bytes_wire TYPE f : is_byte TYPE -> is_bytes (f_data f) ->
  response_to_bytes TYPE f =
  match misfit f with
  | Some e => Err (misfit_exn e)
  | None => Ok (response_wire TYPE (service_number (f_service f)) (destination_address_1 f)
                  (destination_address_2 f) (source_address_1 f) (source_address_2 f) (f_data f))
  end.
Proof. apply (to_bytes_gen (to_le 2) le2); [apply to_le_fits2|apply le2_bytes]. Qed.
Lemma request_to_bytes_wire TYPE f : is_byte TYPE -> is_bytes (f_data f) ->
  request_to_bytes TYPE f =
  match misfit f with
  | Some e => Err (misfit_exn e)
  | None => Ok (request_wire TYPE (service_number (f_service f)) (destination_address_1 f)
                  (destination_address_2 f) (source_address_1 f) (source_address_2 f) (f_data f))
  end.
Proof. apply (to_bytes_gen (to_be 2) be2); [apply to_be_fits2|apply be2_bytes]. Qed.

Lemma request_from_bytes_eq TYPE b : request_from_bytes TYPE b = response_from_bytes TYPE b.
Proof. reflexivity. Qed.

(** ** parsing *)
Lemma slice_14_neg4 R a b c d : slice 1 (-4) (2 :: R ++ [a; b; c; d]) = R.
Proof. exact (slice_mid_neg [2] R [a; b; c; d] 1 (-4) eq_refl eq_refl eq_refl). Qed.

Lemma from_bytes_wire addr TYPE s d1 d2 s1 s2 data :
  (forall n, length (addr n) = 2%nat) ->
  is_byte d2 -> is_byte s2 -> is_bytes data -> is_byte TYPE ->
  0 <= d1 < 65536 -> 0 <= s1 < 65536 ->
  (forall n, 0 <= n < 65536 -> is_bytes (addr n)) ->
  len data <= 65520 ->
  response_from_bytes TYPE (wire addr TYPE (service_number s) d1 d2 s1 s2 data) =
  Ok (mk_frame s (from_le (addr d1)) d2 (from_le (addr s1)) s2 data).
Proof.
  intros Hlen Hd2 Hs2 Hd HT Hd1 Hs1 Haddr Hn.
  pose proof (len_nonneg data) as Hn0.
  pose proof (Hlen d1) as L1. pose proof (Hlen s1) as L2.
  pose proof (Haddr d1 Hd1) as B1. pose proof (Haddr s1 Hs1) as B2.
  destruct (addr d1) as [|x1 [|x2 [|? ?]]] eqn:A1; try discriminate L1.
  destruct (addr s1) as [|y1 [|y2 [|? ?]]] eqn:A2; try discriminate L2.
  unfold wire. rewrite A1, A2. unfold le2. cbn [app].
  set (l := len data + 15). assert (Hl : 15 <= l <= 65535) by (unfold l; lia).
  set (R := 254 :: TYPE :: service_number s :: l mod 256 :: l / 256 :: x1 :: x2 :: d2 :: y1 :: y2 :: s2 :: data).
  assert (HR : is_bytes R).
  { unfold R. pose proof (service_number_byte s).
    repeat match goal with H : is_bytes (_ :: _) |- _ => apply is_bytes_cons in H as [? ?] end.
    repeat (apply is_bytes_cons; split); try assumption; unfold is_byte; lia. }
  assert (Hlw : len (sealed R) = l + 1).
  { unfold sealed, R, l. rewrite len_cons, len_app. repeat rewrite len_cons. rewrite ?len_nil. lia. }
  unfold response_from_bytes.
  assert (startswith (sealed R) [2; 254; TYPE] = true) as ->.
  { apply startswith_spec. exists (skipn 2 R ++ [xor_all R; sum_all R mod 256; drc_spec R; 13]). reflexivity. }
  assert (endswith (sealed R) [13] = true) as ->.
  { apply endswith_spec. exists (2 :: R ++ [xor_all R; sum_all R mod 256; drc_spec R]).
    unfold sealed. cbn [app]. rewrite <- app_assoc. reflexivity. }
  assert (slice 3 4 (sealed R) = [service_number s]) as ->
    by exact (slice_mid [2; 254; TYPE] [service_number s] _ 3 4 eq_refl eq_refl).
  rewrite from_le_1, service_of_number_ok. cbn [bind].
  assert (slice 4 6 (sealed R) = le2 l) as ->
    by exact (slice_mid [2; 254; TYPE; service_number s] (le2 l) _ 4 6 eq_refl eq_refl).
  rewrite from_le_le2. cbv zeta. rewrite Hlw.
  destruct (Z.eqb_spec l (l + 1 - 1)); [|lia].
  assert (slice 1 (-4) (sealed R) = R) as -> by apply slice_14_neg4.
  assert (getitem (-4) (sealed R) = Ok (xor_all R)) as ->
    by exact (getitem_neg_app (2 :: R) (xor_all R) [sum_all R mod 256; drc_spec R; 13] (-4) eq_refl).
  cbn [bind]. rewrite lrc_closed, Z.eqb_refl by exact HR.
  assert (getitem (-3) (sealed R) = Ok (sum_all R mod 256)) as ->.
  { assert (sealed R = (2 :: R ++ [xor_all R]) ++ (sum_all R mod 256) :: [drc_spec R; 13]) as ->
      by (unfold sealed; cbn [app]; rewrite <- app_assoc; reflexivity).
    apply getitem_neg_app. reflexivity. }
  cbn [bind]. rewrite checksum_closed, Z.eqb_refl.
  assert (getitem (-2) (sealed R) = Ok (drc_spec R)) as ->.
  { assert (sealed R = (2 :: R ++ [xor_all R; sum_all R mod 256]) ++ drc_spec R :: [13]) as ->
      by (unfold sealed; cbn [app]; rewrite <- app_assoc; reflexivity).
    apply getitem_neg_app. reflexivity. }
  cbn [bind]. rewrite drc_closed, Z.eqb_refl by exact HR.
  f_equal.
  assert (slice 6 8 (sealed R) = [x1; x2]) as ->
    by exact (slice_mid [2; 254; TYPE; service_number s; l mod 256; l / 256] [x1; x2] _ 6 8 eq_refl eq_refl).
  assert (slice 8 9 (sealed R) = [d2]) as ->
    by exact (slice_mid [2; 254; TYPE; service_number s; l mod 256; l / 256; x1; x2] [d2] _ 8 9 eq_refl eq_refl).
  assert (slice 9 11 (sealed R) = [y1; y2]) as ->
    by exact (slice_mid [2; 254; TYPE; service_number s; l mod 256; l / 256; x1; x2; d2] [y1; y2] _ 9 11 eq_refl eq_refl).
  assert (slice 11 12 (sealed R) = [s2]) as ->
    by exact (slice_mid [2; 254; TYPE; service_number s; l mod 256; l / 256; x1; x2; d2; y1; y2] [s2] _ 11 12 eq_refl eq_refl).
  assert (slice 12 (-4) (sealed R) = data) as ->
    by exact (slice_mid_neg [2; 254; TYPE; service_number s; l mod 256; l / 256; x1; x2; d2; y1; y2; s2] data [xor_all R; sum_all R mod 256; drc_spec R; 13] 12 (-4) eq_refl eq_refl eq_refl).
  rewrite !from_le_1. reflexivity.
Qed.

Lemma response_roundtrip TYPE f : is_byte TYPE -> is_bytes (f_data f) -> in_range f ->
  exists t, response_to_bytes TYPE f = Ok t /\ response_from_bytes TYPE t = Ok f.
Proof.
  intros HT Hd Hr. rewrite response_to_bytes_wire by assumption.
  rewrite (proj2 (misfit_none f) Hr). eexists; split; [reflexivity|].
  destruct Hr as (H1 & H2 & H3 & H4 & H5). unfold response_wire.
  rewrite from_bytes_wire; try assumption; try (unfold is_byte; lia); auto using le2_bytes.
  rewrite !from_le_le2. destruct f; reflexivity.
Qed.
Lemma request_roundtrip_swapped TYPE f : is_byte TYPE -> is_bytes (f_data f) -> in_range f ->
  exists t, request_to_bytes TYPE f = Ok t /\
    request_from_bytes TYPE t =
    Ok (mk_frame (f_service f) (swap2 (destination_address_1 f)) (destination_address_2 f)
          (swap2 (source_address_1 f)) (source_address_2 f) (f_data f)).
Proof.
  intros HT Hd Hr. rewrite request_to_bytes_wire by assumption.
  rewrite (proj2 (misfit_none f) Hr). eexists; split; [reflexivity|].
  destruct Hr as (H1 & H2 & H3 & H4 & H5). rewrite request_from_bytes_eq. unfold request_wire.
  rewrite from_bytes_wire; try assumption; try (unfold is_byte; lia); auto using be2_bytes.
  rewrite !from_le_be2 by lia. reflexivity.
Qed.

(** what acceptance implies *)
Lemma last3 (r : bytes) : 3 <= len r -> exists R a b c, r = R ++ [a; b; c].
Proof.
  intros H. exists (firstn (length r - 3) r).
  destruct (skipn (length r - 3) r) as [|a [|b [|c [|x y]]]] eqn:E;
    pose proof (f_equal (@length Z) E) as L; rewrite skipn_length in L; cbn [length] in L;
    try (unfold len in *; lia).
  exists a, b, c. rewrite <- E. symmetry. apply firstn_skipn.
Qed.
Lemma from_bytes_inv TYPE b f : is_bytes b -> 5 <= len b ->
  response_from_bytes TYPE b = Ok f ->
  exists R, b = sealed R /\ is_bytes R /\ startswith b [2; 254; TYPE] = true /\
    service_number (f_service f) = from_le (slice 3 4 b) /\
    from_le (slice 4 6 b) = len b - 1 /\
    f = mk_frame (f_service f) (from_le (slice 6 8 b)) (from_le (slice 8 9 b))
          (from_le (slice 9 11 b)) (from_le (slice 11 12 b)) (slice 12 (-4) b).
Proof.
  intros Hb Hlen. unfold response_from_bytes.
  destruct (startswith b [2; 254; TYPE]) eqn:Es; [|discriminate].
  destruct (endswith b [13]) eqn:Ee; [|discriminate].
  destruct (service_of_number (from_le (slice 3 4 b))) as [s|] eqn:Ev; [|discriminate]. cbn [bind]. cbv zeta.
  destruct (Z.eqb_spec (from_le (slice 4 6 b)) (len b - 1)) as [El|]; [|discriminate].
  apply startswith_spec in Es as [r Er].
  assert (exists R l c d, b = 2 :: R ++ [l; c; d; 13]) as (R & l & c & d & Hsh).
  { apply endswith_spec in Ee as [r' Er'].
    destruct r' as [|r0 r']; [rewrite Er' in Hlen; lenlia|]. rewrite Er' in Er, Hlen |- *. cbn [app] in Er. injection Er as -> Er.
    destruct (last3 r') as (R & l & c & d & ->); [lenlia|].
    exists R, l, c, d. cbn [app]. rewrite <- app_assoc. reflexivity. }
  assert (HR : is_bytes R).
  { rewrite Hsh in Hb. apply is_bytes_cons in Hb as [_ Hb]. apply is_bytes_app in Hb; tauto. }
  assert (slice 1 (-4) b = R) as -> by (rewrite Hsh; apply slice_14_neg4).
  assert (getitem (-4) b = Ok l) as ->
    by (rewrite Hsh; exact (getitem_neg_app (2 :: R) l [c; d; 13] (-4) eq_refl)).
  assert (getitem (-3) b = Ok c) as ->.
  { rewrite Hsh. replace (2 :: R ++ [l; c; d; 13]) with ((2 :: R ++ [l]) ++ c :: [d; 13])
      by (cbn [app]; rewrite <- app_assoc; reflexivity). apply getitem_neg_app; reflexivity. }
  assert (getitem (-2) b = Ok d) as ->.
  { rewrite Hsh. replace (2 :: R ++ [l; c; d; 13]) with ((2 :: R ++ [l; c]) ++ d :: [13])
      by (cbn [app]; rewrite <- app_assoc; reflexivity). apply getitem_neg_app; reflexivity. }
  cbn [bind].
  destruct (Z.eqb_spec l (calculate_lrc R)) as [->|]; [|discriminate].
  destruct (Z.eqb_spec c (calculate_checksum R)) as [->|]; [|discriminate].
  destruct (Z.eqb_spec d (calculate_drc R)) as [->|]; [|discriminate].
  intros H; injection H as <-. cbn [f_service].
  exists R. split.
  { rewrite Hsh. unfold sealed. rewrite lrc_closed, checksum_closed, drc_closed by exact HR. reflexivity. }
  split; [exact HR|]. split; [reflexivity|].
  split; [apply service_of_number_inv; exact Ev|]. split; [exact El|reflexivity].
Qed.

(** only ValueError *)
Lemma response_from_bytes_errs TYPE b e : TYPE <> 13 ->
  response_from_bytes TYPE b = Err e -> e = ValueError.
Proof.
  intros HT. unfold response_from_bytes.
  destruct (startswith b [2; 254; TYPE]) eqn:Es; [|congruence].
  destruct (endswith b [13]) eqn:Ee; [|congruence].
  destruct (service_of_number (from_le (slice 3 4 b))) as [s|] eqn:Ev; cbn [bind];
    [|intros H; injection H as ->; eapply service_of_number_err; exact Ev]. cbv zeta.
  destruct (_ =? len b - 1); [|congruence].
  assert (4 <= len b) as Hlen.
  { apply startswith_spec in Es as [r ->]. apply endswith_spec in Ee as [r' Er].
    destruct r as [|x r]; [|lenlia]. exfalso. cbn [app] in Er.
    destruct r' as [|a [|b [|c [|d r']]]]; cbn in Er; try discriminate. }
  assert (forall k, -4 <= k < 0 -> exists x, getitem k b = Ok x) as G.
  { intros k Hk. unfold getitem. destruct (Z.ltb_spec k 0); [|lia].
    destruct (Z.ltb_spec (k + len b) 0); [lia|]. destruct (Z.leb_spec (len b) (k + len b)); [lia|].
    cbn [orb]. destruct (nth_error b (Z.to_nat (k + len b))) eqn:N; [eauto|].
    apply nth_error_None in N. unfold len in *. lia. }
  destruct (G (-4)) as [x ->]; [lia|]. cbn [bind]. destruct (x =? _); [|congruence].
  destruct (G (-3)) as [y ->]; [lia|]. cbn [bind]. destruct (y =? _); [|congruence].
  destruct (G (-2)) as [z ->]; [lia|]. cbn [bind]. destruct (z =? _); congruence.
Qed.
Lemma response_factory_errs b e : response_factory b = Err e -> e = ValueError.
Proof.
  unfold response_factory.
  destruct (startswith b [2; 254; 134]).
  - destruct (response_from_bytes RESPONSE_TYPE b) eqn:E; cbn; [discriminate|].
    intros H; injection H as ->. eapply response_from_bytes_errs; [|exact E]. discriminate.
  - destruct (startswith b [2; 254; 135]); [|congruence].
    destruct (response_from_bytes ENCRYPTED_RESPONSE_TYPE b) eqn:E; cbn; [discriminate|].
    intros H; injection H as ->. eapply response_from_bytes_errs; [|exact E]. discriminate.
Qed.
Lemma response_factory_plain b f : response_factory b = Ok (PlainResponse f) <->
  response_from_bytes 134 b = Ok f.
Proof.
  unfold response_factory, RESPONSE_TYPE, ENCRYPTED_RESPONSE_TYPE.
  destruct (startswith b [2; 254; 134]) eqn:E1.
  - destruct (response_from_bytes 134 b); cbn; split; congruence.
  - split.
    + destruct (startswith b [2; 254; 135]); [|discriminate].
      destruct (response_from_bytes 135 b); cbn; congruence.
    + unfold response_from_bytes at 1. rewrite E1. discriminate.
Qed.
Lemma startswith_135_134 b : startswith b [2; 254; 135] = true -> startswith b [2; 254; 134] = false.
Proof.
  intros H. destruct (startswith b [2; 254; 134]) eqn:E; [|reflexivity].
  apply startswith_spec in H as [r ->]. apply startswith_spec in E as [r' E]. discriminate.
Qed.
Lemma response_factory_encrypted b f : response_factory b = Ok (EncryptedResponse f) <->
  response_from_bytes 135 b = Ok f.
Proof.
  unfold response_factory, RESPONSE_TYPE, ENCRYPTED_RESPONSE_TYPE.
  destruct (startswith b [2; 254; 135]) eqn:E1.
  - rewrite startswith_135_134 by exact E1.
    destruct (response_from_bytes 135 b); cbn; split; congruence.
  - split.
    + destruct (startswith b [2; 254; 134]); [|discriminate].
      destruct (response_from_bytes 134 b); cbn; congruence.
    + unfold response_from_bytes at 1. rewrite E1. discriminate.
Qed.

(** canonical form *)
Lemma accepted_canonical TYPE b f : is_bytes b -> is_byte TYPE -> 16 <= len b ->
  response_from_bytes TYPE b = Ok f ->
  in_range f /\ is_bytes (f_data f) /\ response_to_bytes TYPE f = Ok b.
Proof.
  intros Hb HT Hlen H.
  apply from_bytes_inv in H as (R & Hsh & HR & Hs & Hsv & Hl & Hf); [|exact Hb|lia].
  apply startswith_spec in Hs as [r Hr].
  assert (exists sv l0 l1 x1 x2 d2 y1 y2 s2 data,
    R = 254 :: TYPE :: sv :: l0 :: l1 :: x1 :: x2 :: d2 :: y1 :: y2 :: s2 :: data) as
    (sv & l0 & l1 & x1 & x2 & d2 & y1 & y2 & s2 & data & HReq).
  { rewrite Hsh in Hr, Hlen. unfold sealed in Hr, Hlen. cbn [app] in Hr.
    destruct R as [|a0 [|a1 [|a2 [|a3 [|a4 [|a5 [|a6 [|a7 [|a8 [|a9 [|a10 R]]]]]]]]]]];
      try (exfalso; lenlia).
    cbn [app] in Hr. injection Hr as -> -> _. do 10 eexists. reflexivity. }
  subst R.
  set (R := 254 :: TYPE :: sv :: l0 :: l1 :: x1 :: x2 :: d2 :: y1 :: y2 :: s2 :: data) in *.
  assert (E1 : slice 3 4 b = [sv])
    by (rewrite Hsh; exact (slice_mid [2; 254; TYPE] [sv] _ 3 4 eq_refl eq_refl)).
  assert (E2 : slice 4 6 b = [l0; l1])
    by (rewrite Hsh; exact (slice_mid [2; 254; TYPE; sv] [l0; l1] _ 4 6 eq_refl eq_refl)).
  assert (E3 : slice 6 8 b = [x1; x2])
    by (rewrite Hsh; exact (slice_mid [2; 254; TYPE; sv; l0; l1] [x1; x2] _ 6 8 eq_refl eq_refl)).
  assert (E4 : slice 8 9 b = [d2])
    by (rewrite Hsh; exact (slice_mid [2; 254; TYPE; sv; l0; l1; x1; x2] [d2] _ 8 9 eq_refl eq_refl)).
  assert (E5 : slice 9 11 b = [y1; y2])
    by (rewrite Hsh; exact (slice_mid [2; 254; TYPE; sv; l0; l1; x1; x2; d2] [y1; y2] _ 9 11 eq_refl eq_refl)).
  assert (E6 : slice 11 12 b = [s2])
    by (rewrite Hsh; exact (slice_mid [2; 254; TYPE; sv; l0; l1; x1; x2; d2; y1; y2] [s2] _ 11 12 eq_refl eq_refl)).
  assert (E7 : slice 12 (-4) b = data)
    by (rewrite Hsh; exact (slice_mid_neg [2; 254; TYPE; sv; l0; l1; x1; x2; d2; y1; y2; s2] data [xor_all R; sum_all R mod 256; drc_spec R; 13] 12 (-4) eq_refl eq_refl eq_refl)).
  rewrite E1, E2, E3, E4, E5, E6, E7 in *. rewrite !from_le_1 in *.
  assert (Hlb : len b = len data + 16).
  { rewrite Hsh. unfold sealed, R. rewrite len_cons, len_app. repeat rewrite len_cons. rewrite ?len_nil. lia. }
  assert (Hbs : is_byte l0 /\ is_byte l1 /\ is_byte x1 /\ is_byte x2 /\ is_byte d2 /\ is_byte y1 /\
          is_byte y2 /\ is_byte s2 /\ is_bytes data).
  { unfold R in HR. repeat match goal with H : is_bytes (_ :: _) |- _ => apply is_bytes_cons in H as [? ?] end.
    do 8 (split; [assumption|]); assumption. }
  destruct Hbs as (B1 & B2 & B3 & B4 & B5 & B6 & B7 & B8 & B9).
  assert (Hr' : in_range f).
  { rewrite Hf. unfold in_range. cbn [destination_address_1 destination_address_2 source_address_1 source_address_2 f_data].
    cbn [from_le] in *. unfold is_byte in *. repeat split; try lia. }
  split; [exact Hr'|].
  assert (Hd' : is_bytes (f_data f)) by (rewrite Hf; exact B9).
  split; [exact Hd'|].
  rewrite response_to_bytes_wire by assumption.
  rewrite (proj2 (misfit_none f) Hr'). f_equal.
  rewrite Hf. cbn [destination_address_1 destination_address_2 source_address_1 source_address_2 f_data f_service].
  rewrite Hsv. unfold response_wire, wire. rewrite !le2_from_le by assumption.
  replace (len data + 15) with (from_le [l0; l1]) by lia.
  rewrite le2_from_le by assumption. rewrite Hsh. reflexivity.
Qed.

(** ** corruption *)
Lemma app_cons_split {A} (p : list A) x q R T : p ++ x :: q = R ++ T ->
  (exists q1, R = p ++ x :: q1 /\ q = q1 ++ T) \/ (exists p1, p = R ++ p1 /\ T = p1 ++ x :: q).
Proof.
  revert p; induction R as [|r R IH]; intros p H.
  - right. exists p. auto.
  - destruct p as [|a p]; cbn [app] in H; injection H as -> H.
    + left. exists R. auto.
    + destruct (IH p H) as [(q1 & -> & ->)|(p1 & -> & ->)]; [left; exists q1|right; exists p1]; auto.
Qed.

Lemma sealed_len R : len (sealed R) = len R + 5.
Proof. unfold sealed. rewrite len_cons, len_app. repeat rewrite len_cons. rewrite ?len_nil. lia. Qed.

Lemma sealed_one_byte R R' : is_bytes R -> is_bytes R' -> ~ one_byte_changed (sealed R) (sealed R').
Proof.
  intros HR HR' (p & x & y & q & E & E' & Hxy).
  unfold sealed in E, E'.
  destruct p as [|p0 p]; cbn [app] in E, E'; injection E as E0 E; injection E' as E0' E'; [congruence|].
  assert (Hll : length R = length R').
  { apply (f_equal (@length Z)) in E, E'. rewrite !app_length in E, E'. cbn [length] in E, E'. lia. }
  symmetry in E, E'.
  apply app_cons_split in E as [(q1 & EA & EB)|(p1 & EA & EB)];
  apply app_cons_split in E' as [(q1' & EA' & EB')|(p1' & EA' & EB')].
  - assert (q1 = q1' /\ [xor_all R; sum_all R mod 256; drc_spec R; 13] =
                        [xor_all R'; sum_all R' mod 256; drc_spec R'; 13]) as [Eq Et].
    { apply app_inj_len_r; [reflexivity|congruence]. }
    subst q1'. injection Et as Ex _ _. rewrite EA, EA' in Ex.
    rewrite !xor_all_app in Ex. apply lxor_cancel_l in Ex.
    cbn [xor_all fold_right] in Ex. rewrite !(Z.lxor_comm _ (fold_right _ _ _)) in Ex.
    apply lxor_cancel_l in Ex. contradiction.
  - exfalso. rewrite EA in Hll. rewrite EA' in *. rewrite !app_length in Hll. cbn [length] in Hll. lia.
  - exfalso. rewrite EA' in Hll. rewrite EA in *. rewrite !app_length in Hll. cbn [length] in Hll. lia.
  - assert (R = R' /\ p1 = p1') as [-> ->]
      by (apply app_inj_len; [exact Hll|congruence]).
    rewrite EB in EB'. apply app_inv_head in EB'. congruence.
Qed.

Lemma from_bytes_one_byte TYPE R b : TYPE <> 13 -> is_bytes R -> is_bytes b ->
  one_byte_changed (sealed R) b -> response_from_bytes TYPE b = Err ValueError.
Proof.
  intros HT HR Hb Hc.
  destruct (response_from_bytes TYPE b) as [f|e] eqn:E.
  - exfalso. apply from_bytes_inv in E as (R' & -> & HR' & _); [|exact Hb|].
    + exact (sealed_one_byte R R' HR HR' Hc).
    + destruct Hc as (p & x & y & q & E1 & -> & _). apply (f_equal len) in E1.
      rewrite sealed_len, len_app, len_cons in E1. rewrite len_app, len_cons.
      pose proof (len_nonneg R). lia.
  - f_equal. eapply response_from_bytes_errs; eauto.
Qed.

Lemma wire_sealed addr TYPE sv d1 d2 s1 s2 data :
  (forall n, 0 <= n < 65536 -> is_bytes (addr n)) ->
  is_byte TYPE -> is_byte sv -> is_byte d2 -> is_byte s2 -> 0 <= d1 < 65536 -> 0 <= s1 < 65536 ->
  is_bytes data -> len data <= 65520 ->
  exists R, wire addr TYPE sv d1 d2 s1 s2 data = sealed R /\ is_bytes R.
Proof.
  intros. eexists; split; [reflexivity|].
  pose proof (len_nonneg data).
  repeat first [apply is_bytes_cons; split | apply is_bytes_app; split]; auto;
    try (unfold is_byte; lia); try apply is_bytes_nil.
Qed.
Lemma response_to_bytes_sealed TYPE f t : is_byte TYPE -> is_bytes (f_data f) ->
  response_to_bytes TYPE f = Ok t -> exists R, t = sealed R /\ is_bytes R.
Proof.
  intros HT Hd. rewrite response_to_bytes_wire by assumption.
  destruct (misfit f) eqn:E; [discriminate|]. apply misfit_none in E as (H1 & H2 & H3 & H4 & H5).
  intros H; injection H as <-. apply wire_sealed; try assumption; try (unfold is_byte; lia).
  - apply le2_bytes.
  - apply service_number_byte.
Qed.
Lemma request_to_bytes_sealed TYPE f t : is_byte TYPE -> is_bytes (f_data f) ->
  request_to_bytes TYPE f = Ok t -> exists R, t = sealed R /\ is_bytes R.
Proof.
  intros HT Hd. rewrite request_to_bytes_wire by assumption.
  destruct (misfit f) eqn:E; [discriminate|]. apply misfit_none in E as (H1 & H2 & H3 & H4 & H5).
  intros H; injection H as <-. apply wire_sealed; try assumption; try (unfold is_byte; lia).
  - apply be2_bytes.
  - apply service_number_byte.
Qed.
Lemma factory_one_byte R b : is_bytes R -> is_bytes b ->
  one_byte_changed (sealed R) b -> response_factory b = Err ValueError.
Proof.
  intros HR Hb Hc. unfold response_factory, RESPONSE_TYPE, ENCRYPTED_RESPONSE_TYPE.
  rewrite !(from_bytes_one_byte _ R b) by (try assumption; discriminate). cbn [bind].
  destruct (startswith _ _); [reflexivity|]. destruct (startswith _ _); reflexivity.
Qed.

(** C08: changes inside the protected region with an unchanged trailer *)
Lemma with_region_sealed R R' : with_region (sealed R) R' =
  2 :: R' ++ [xor_all R; sum_all R mod 256; drc_spec R; 13].
Proof.
  unfold with_region, sealed. cbn [length app firstn]. rewrite app_length. cbn [length].
  replace (S (length R + 4) - 4)%nat with (length (2 :: R)) by (cbn [length]; lia).
  change (2 :: R ++ [xor_all R; sum_all R mod 256; drc_spec R; 13])
    with ((2 :: R) ++ [xor_all R; sum_all R mod 256; drc_spec R; 13]).
  rewrite skipn_app_exact by reflexivity. reflexivity.
Qed.
Lemma region_accept TYPE R R' f : is_bytes R -> is_bytes R' -> (1 <= length R')%nat ->
  response_from_bytes TYPE (2 :: R' ++ [xor_all R; sum_all R mod 256; drc_spec R; 13]) = Ok f ->
  xor_all R' = xor_all R /\ sum_all R' mod 256 = sum_all R mod 256 /\ drc_spec R' = drc_spec R.
Proof.
  intros HR HR' Hn H.
  assert (is_bytes (2 :: R' ++ [xor_all R; sum_all R mod 256; drc_spec R; 13])) as Hb.
  { apply is_bytes_cons; split; [unfold is_byte; lia|]. apply is_bytes_app; split; [exact HR'|].
    pose proof (xor_all_byte R HR). pose proof (drc_spec_byte R HR).
    repeat (apply is_bytes_cons; split); auto; try (unfold is_byte; lia); apply is_bytes_nil. }
  apply from_bytes_inv in H as (R2 & E & _ & _); [|exact Hb|lenlia].
  unfold sealed in E. injection E as E.
  apply app_inj_len_r in E as [<- E]; [|reflexivity]. injection E as -> -> ->. auto.
Qed.

Lemma rot1_fix x : is_byte x -> rotl8 1 x = x -> x = 0 \/ x = 255.
Proof.
  intros Hx. 
  pose proof (byte_sweep (fun x => negb (rotl8 1 x =? x) || (x =? 0) || (x =? 255))) as G.
  specialize (G eq_refl x Hx). cbn beta in G. lia.
Qed.
Lemma rotl8_inj0 k x : is_byte x -> rotl8 k x = 0 -> x = 0.
Proof.
  revert x; induction k as [|k IH]; intros x Hx H.
  - rewrite rotl8_0 in H by exact Hx. exact H.
  - rewrite <- (rotl8_S k x) in H by exact Hx. apply IH in H; [|apply rotl8_byte; exact Hx].
    pose proof (byte_sweep (fun x => negb (rotl8 1 x =? 0) || (x =? 0)) eq_refl x Hx) as G. cbn beta in G. lia.
Qed.
Lemma lxor_255 a b : is_byte a -> is_byte b -> Z.lxor a b = 255 -> a + b = 255.
Proof.
  intros Ha Hb.
  pose proof (byte_sweep2 (fun a b => negb (Z.lxor a b =? 255) || (a + b =? 255)) eq_refl a b Ha Hb) as G.
  cbn beta in G. lia.
Qed.

Lemma drc_pair p a b q : is_bytes p -> is_byte a -> is_byte b -> is_bytes q ->
  drc_spec (p ++ a :: b :: q) =
  Z.lxor (rotl8 (2 + length q) (drc_spec p))
   (Z.lxor (rotl8 (length q) (Z.lxor (rotl8 1 a) b)) (drc_spec q)).
Proof.
  intros Hp Ha Hb Hq. rewrite drc_spec_app by exact Hp. cbn [length drc_spec]. f_equal.
  rewrite rotl8_lxor by (try apply rotl8_byte; assumption).
  rewrite rotl8_S, Z.lxor_assoc by assumption. reflexivity.
Qed.
Lemma swap_undetected_iff p a b q : is_bytes p -> is_byte a -> is_byte b -> is_bytes q ->
  drc_spec (p ++ b :: a :: q) = drc_spec (p ++ a :: b :: q) -> a = b \/ a + b = 255.
Proof.
  intros Hp Ha Hb Hq. rewrite !drc_pair by assumption. intros H.
  apply lxor_cancel_l in H. rewrite !(Z.lxor_comm _ (drc_spec q)) in H. apply lxor_cancel_l in H.
  apply eq_lxor_0 in H.
  pose proof (rotl8_byte 1 a Ha). pose proof (rotl8_byte 1 b Hb).
  rewrite <- rotl8_lxor in H by (apply lxor_byte; assumption).
  apply rotl8_inj0 in H; [|apply lxor_byte; apply lxor_byte; assumption].
  rewrite lxor_4 in H. rewrite <- rotl8_1_lxor in H by assumption.
  apply lxor_0_eq in H. rewrite (Z.lxor_comm b a) in H.
  destruct (rot1_fix (Z.lxor a b)) as [E|E]; [apply lxor_byte; assumption|exact H| |].
  - left. apply lxor_0_eq; exact E.
  - right. apply lxor_255; assumption.
Qed.
Lemma swap_complement_same p a b q : is_bytes p -> is_byte a -> is_byte b -> is_bytes q ->
  a + b = 255 ->
  xor_all (p ++ b :: a :: q) = xor_all (p ++ a :: b :: q) /\
  sum_all (p ++ b :: a :: q) = sum_all (p ++ a :: b :: q) /\
  drc_spec (p ++ b :: a :: q) = drc_spec (p ++ a :: b :: q).
Proof.
  intros Hp Ha Hb Hq Hab. split; [|split].
  - rewrite !xor_all_app. f_equal. cbn [xor_all fold_right].
    rewrite <- !Z.lxor_assoc. f_equal. apply Z.lxor_comm.
  - rewrite !sum_all_app. cbn [sum_all fold_right]. unfold sum_all. lia.
  - rewrite !drc_pair by assumption. f_equal. f_equal. f_equal.
    pose proof (byte_sweep (fun a => Z.lxor (rotl8 1 (255 - a)) a =? Z.lxor (rotl8 1 a) (255 - a)) eq_refl a Ha) as G.
    cbn beta in G. replace b with (255 - a) by lia. lia.
Qed.

(** one bit flipped in each of two bytes *)
Lemma pow2_byte i : 0 <= i < 8 -> is_byte (2 ^ i).
Proof.
  intros H. unfold is_byte. split; [apply Z.pow_nonneg; lia|].
  change 256 with (2 ^ 8). apply Z.pow_lt_mono_r; lia.
Qed.
Lemma flip_byte i x : 0 <= i < 8 -> is_byte x -> is_byte (flip i x).
Proof. intros Hi Hx. apply lxor_byte; [exact Hx|apply pow2_byte; exact Hi]. Qed.
Lemma flip_sum i x : 0 <= i < 8 -> is_byte x ->
  flip i x = if Z.testbit x i then x - 2 ^ i else x + 2 ^ i.
Proof.
  intros Hi Hx. apply Z.eqb_eq.
  assert (i = 0 \/ i = 1 \/ i = 2 \/ i = 3 \/ i = 4 \/ i = 5 \/ i = 6 \/ i = 7) as Hc by lia.
  destruct Hc as [->|[->|[->|[->|[->|[->|[->| ->]]]]]]].
  all: match goal with |- (flip ?i _ =? _) = true =>
    apply (byte_sweep (fun x => flip i x =? (if Z.testbit x i then x - 2 ^ i else x + 2 ^ i)));
      [vm_compute; reflexivity|exact Hx] end.
Qed.
Lemma rotl8_pow2_period i k : 0 <= i < 8 -> rotl8 k (2 ^ i) = 2 ^ i -> (k mod 8 = 0)%nat.
Proof.
  intros Hi H. rewrite rotl8_mod in H. assert (k mod 8 < 8)%nat as Hk by (apply Nat.mod_upper_bound; lia).
  revert H Hk. generalize (k mod 8)%nat. clear k. intros k H Hk.
  assert (i = 0 \/ i = 1 \/ i = 2 \/ i = 3 \/ i = 4 \/ i = 5 \/ i = 6 \/ i = 7) as Hc by lia.
  destruct Hc as [->|[->|[->|[->|[->|[->|[->| ->]]]]]]];
  (do 8 (destruct k as [|k]; [vm_compute in H; try discriminate H; reflexivity|])); lia.
Qed.
Lemma two_flips p x m y q i j :
  is_bytes p -> is_byte x -> is_bytes m -> is_byte y -> is_bytes q -> 0 <= i < 8 -> 0 <= j < 8 ->
  let R := p ++ x :: m ++ y :: q in
  let R' := p ++ flip i x :: m ++ flip j y :: q in
  xor_all R' = xor_all R -> sum_all R' mod 256 = sum_all R mod 256 -> drc_spec R' = drc_spec R ->
  i = j /\ (Z.testbit x i <> Z.testbit y i \/ i = 7) /\ ((length m + 1) mod 8 = 0)%nat.
Proof.
  intros Hp Hx Hm Hy Hq Hi Hj R R' HX HS HD. unfold R, R' in *. clear R R'.
  assert (i = j) as <-.
  { rewrite !xor_all_app in HX. apply lxor_cancel_l in HX.
    change (xor_all (flip i x :: m ++ flip j y :: q)) with (Z.lxor (flip i x) (xor_all (m ++ flip j y :: q))) in HX.
    change (xor_all (x :: m ++ y :: q)) with (Z.lxor x (xor_all (m ++ y :: q))) in HX.
    unfold flip in HX at 1. rewrite Z.lxor_assoc in HX. apply lxor_cancel_l in HX.
    rewrite !xor_all_app in HX. 
    change (xor_all (flip j y :: q)) with (Z.lxor (flip j y) (xor_all q)) in HX.
    change (xor_all (y :: q)) with (Z.lxor y (xor_all q)) in HX.
    assert (Z.lxor (2 ^ i) (2 ^ j) = 0) as E.
    { unfold flip in HX.
      rewrite <- Z.lxor_assoc, (Z.lxor_comm (2 ^ i)), Z.lxor_assoc in HX. apply lxor_cancel_l in HX.
      rewrite (Z.lxor_comm y (2 ^ j)), (Z.lxor_assoc (2 ^ j)), <- (Z.lxor_assoc (2 ^ i)) in HX.
      rewrite <- (Z.lxor_0_l (Z.lxor y (xor_all q))) in HX at 2.
      rewrite !(Z.lxor_comm _ (Z.lxor y (xor_all q))) in HX. apply lxor_cancel_l in HX. exact HX. }
    apply lxor_0_eq in E. apply (f_equal Z.log2) in E. rewrite !Z.log2_pow2 in E by lia. exact E. }
  split; [reflexivity|]. split.
  - rewrite !sum_all_app in HS. cbn [sum_all fold_right] in HS. unfold sum_all in HS.
    fold (sum_all (m ++ flip i y :: q)) (sum_all (m ++ y :: q)) in HS.
    rewrite !sum_all_app in HS. cbn [sum_all fold_right] in HS. unfold sum_all in HS.
    rewrite !flip_sum in HS by assumption.
    destruct (Z.eq_dec i 7); [right; exact e|left].
    assert (i = 0 \/ i = 1 \/ i = 2 \/ i = 3 \/ i = 4 \/ i = 5 \/ i = 6) as Hc by lia.
    destruct (Z.testbit x i), (Z.testbit y i); try discriminate; exfalso;
    destruct Hc as [->|[->|[->|[->|[->|[->| ->]]]]]];
      match type of HS with context [2 ^ ?k] => let v := eval vm_compute in (2 ^ k) in change (2 ^ k) with v in HS end; lia.
  - rewrite !drc_spec_app in HD by exact Hp.
    rewrite ?app_length in HD. cbn [length] in HD. rewrite ?app_length in HD. cbn [length] in HD.
    apply lxor_cancel_l in HD. cbn [drc_spec] in HD. rewrite ?app_length in HD. cbn [length] in HD.
    rewrite !drc_spec_app in HD by exact Hm. cbn [drc_spec length] in HD.
    unfold flip in HD. rewrite !rotl8_lxor in HD by (try apply pow2_byte; assumption).
    set (A := rotl8 (length m + S (length q)) x) in HD.
    set (B := rotl8 (length q) y) in HD. set (M := rotl8 (S (length q)) (drc_spec m)) in HD.
    set (Q := drc_spec q) in HD.
    set (U := rotl8 (length m + S (length q)) (2 ^ i)) in HD. set (V := rotl8 (length q) (2 ^ i)) in HD.
    assert (Z.lxor U V = 0) as E.
    { rewrite !(Z.lxor_assoc A) in HD. apply lxor_cancel_l in HD.
      rewrite <- (Z.lxor_assoc U), (Z.lxor_comm U M), (Z.lxor_assoc M) in HD. apply lxor_cancel_l in HD.
      rewrite (Z.lxor_comm B V), (Z.lxor_assoc V), <- (Z.lxor_assoc U) in HD.
      rewrite <- (Z.lxor_0_l (Z.lxor B Q)) in HD at 2.
      rewrite !(Z.lxor_comm _ (Z.lxor B Q)) in HD. apply lxor_cancel_l in HD. exact HD. }
    apply lxor_0_eq in E. unfold U, V in E. clear -E Hi.
    replace (length m + S (length q))%nat with ((length m + 1) + length q)%nat in E by lia.
    rewrite <- rotl8_add in E by (apply pow2_byte; exact Hi).
    apply eq_lxor_0 in E. pose proof (pow2_byte i Hi) as Hb.
    pose proof (rotl8_byte (length m + 1) _ Hb) as Hb'.
    rewrite <- rotl8_lxor in E by assumption. apply rotl8_inj0 in E; [|apply lxor_byte; assumption].
    apply lxor_0_eq in E. apply (rotl8_pow2_period i); assumption.
Qed.

Lemma telegram_type_facts TYPE : telegram_type TYPE -> is_byte TYPE /\ TYPE <> 13.
Proof. unfold telegram_type, is_byte. lia. Qed.

(** ** statements used in PropFrames.v *)
Lemma corrupt_response TYPE f t t' : telegram_type TYPE -> is_bytes (f_data f) ->
  response_to_bytes TYPE f = Ok t -> one_byte_changed t t' -> is_bytes t' ->
  response_from_bytes TYPE t' = Err ValueError /\ response_factory t' = Err ValueError.
Proof.
  intros HT Hd Ht Hc Hb. apply telegram_type_facts in HT as [HT HT'].
  destruct (response_to_bytes_sealed TYPE f t HT Hd Ht) as (R & -> & HR).
  split; [eapply from_bytes_one_byte|eapply factory_one_byte]; eauto.
Qed.
Lemma corrupt_request TYPE f t t' : telegram_type TYPE -> is_bytes (f_data f) ->
  request_to_bytes TYPE f = Ok t -> one_byte_changed t t' -> is_bytes t' ->
  request_from_bytes TYPE t' = Err ValueError.
Proof.
  intros HT Hd Ht Hc Hb. apply telegram_type_facts in HT as [HT HT'].
  destruct (request_to_bytes_sealed TYPE f t HT Hd Ht) as (R & -> & HR).
  rewrite request_from_bytes_eq. eapply from_bytes_one_byte; eauto.
Qed.
Lemma region_of_sealed R R0 : is_bytes R -> sealed R = 2 :: R0 ++ skipn (length (sealed R) - 4) (sealed R) ->
  R0 = R.
Proof.
  intros HR E.
  assert (skipn (length (sealed R) - 4) (sealed R) = [xor_all R; sum_all R mod 256; drc_spec R; 13]) as Es.
  { pose proof (with_region_sealed R []) as W. unfold with_region in W. cbn [app] in W.
    unfold sealed at 1 in W. cbn [firstn app] in W. injection W as W. exact W. }
  rewrite Es in E. unfold sealed in E. injection E as E. apply app_inv_tail in E. congruence.
Qed.
Lemma swap_adjacent TYPE f t p a b q : telegram_type TYPE -> is_bytes (f_data f) ->
  response_to_bytes TYPE f = Ok t -> t = with_region t (p ++ a :: b :: q) ->
  a <> b -> a + b <> 255 ->
  response_from_bytes TYPE (with_region t (p ++ b :: a :: q)) = Err ValueError.
Proof.
  intros HT Hd Ht Hreg Hab Hc. apply telegram_type_facts in HT as [HT HT'].
  destruct (response_to_bytes_sealed TYPE f t HT Hd Ht) as (R & -> & HR).
  assert (p ++ a :: b :: q = R) as <- by (apply region_of_sealed; [exact HR|exact Hreg]).
  clear Hreg. assert (HR' := HR). apply is_bytes_app in HR' as [Hp HR'].
  apply is_bytes_cons in HR' as [Ha HR']. apply is_bytes_cons in HR' as [Hb Hq].
  rewrite with_region_sealed.
  destruct (response_from_bytes TYPE _) as [g|e] eqn:E;
    [|f_equal; eapply response_from_bytes_errs; eauto].
  exfalso. apply region_accept in E as (_ & _ & D).
  - apply swap_undetected_iff in D; auto. tauto.
  - exact HR.
  - apply is_bytes_app; split; [exact Hp|]. repeat (apply is_bytes_cons; split); auto.
  - rewrite app_length. cbn [length]. lia.
Qed.
Lemma swap_adjacent_request TYPE f t p a b q : telegram_type TYPE -> is_bytes (f_data f) ->
  request_to_bytes TYPE f = Ok t -> t = with_region t (p ++ a :: b :: q) ->
  a <> b -> a + b <> 255 ->
  request_from_bytes TYPE (with_region t (p ++ b :: a :: q)) = Err ValueError.
Proof.
  intros HT Hd Ht Hreg Hab Hc. apply telegram_type_facts in HT as [HT HT'].
  destruct (request_to_bytes_sealed TYPE f t HT Hd Ht) as (R & -> & HR).
  assert (p ++ a :: b :: q = R) as <- by (apply region_of_sealed; [exact HR|exact Hreg]).
  clear Hreg. assert (HR' := HR). apply is_bytes_app in HR' as [Hp HR'].
  apply is_bytes_cons in HR' as [Ha HR']. apply is_bytes_cons in HR' as [Hb Hq].
  rewrite with_region_sealed, request_from_bytes_eq.
  destruct (response_from_bytes TYPE _) as [g|e] eqn:E;
    [|f_equal; eapply response_from_bytes_errs; eauto].
  exfalso. apply region_accept in E as (_ & _ & D).
  - apply swap_undetected_iff in D; auto. tauto.
  - exact HR.
  - apply is_bytes_app; split; [exact Hp|]. repeat (apply is_bytes_cons; split); auto.
  - rewrite app_length. cbn [length]. lia.
Qed.
(** the exchanges that are not rejected: complements inside the payload *)
Lemma swap_complement_accepted TYPE f t p a b q : telegram_type TYPE ->
  is_bytes (f_data f) -> f_data f = p ++ a :: b :: q -> a + b = 255 ->
  response_to_bytes TYPE f = Ok t ->
  exists f' t', f_data f' = p ++ b :: a :: q /\ f_service f' = f_service f /\
    skipn (length t' - 4) t' = skipn (length t - 4) t /\ response_from_bytes TYPE t' = Ok f'.
Proof.
  intros HT Hd Ed Hab Ht. apply telegram_type_facts in HT as [HT HT'].
  assert (Hd' := Hd). rewrite Ed in Hd'. apply is_bytes_app in Hd' as [Hp Hd'].
  apply is_bytes_cons in Hd' as [Ha Hd']. apply is_bytes_cons in Hd' as [Hb Hq].
  set (f' := mk_frame (f_service f) (destination_address_1 f) (destination_address_2 f)
               (source_address_1 f) (source_address_2 f) (p ++ b :: a :: q)).
  assert (in_range f) as Hr.
  { rewrite response_to_bytes_wire in Ht by assumption. destruct (misfit f) eqn:M; [discriminate|].
    apply misfit_none; exact M. }
  assert (in_range f') as Hr'.
  { destruct Hr as (R1 & R2 & R3 & R4 & R5). unfold f', in_range.
    cbn [destination_address_1 destination_address_2 source_address_1 source_address_2 f_data].
    rewrite Ed in R5. rewrite len_app, !len_cons in *. lia. }
  assert (is_bytes (f_data f')) as Hdf'.
  { unfold f'. cbn [f_data]. apply is_bytes_app; split; [exact Hp|]. repeat (apply is_bytes_cons; split); auto. }
  destruct (response_roundtrip TYPE f' HT Hdf' Hr') as (t' & E1 & E2).
  exists f', t'. split; [reflexivity|]. split; [reflexivity|]. split; [|exact E2].
  rewrite response_to_bytes_wire in Ht, E1 by assumption.
  rewrite (proj2 (misfit_none f) Hr) in Ht. rewrite (proj2 (misfit_none f') Hr') in E1.
  injection Ht as <-. injection E1 as <-. unfold response_wire, wire, f'.
  cbn [destination_address_1 destination_address_2 source_address_1 source_address_2 f_data f_service].
  rewrite Ed.
  assert (len (p ++ b :: a :: q) = len (p ++ a :: b :: q)) as -> by (rewrite !len_app, !len_cons; lia).
  set (H := [254; TYPE; service_number (f_service f)] ++ le2 (len (p ++ a :: b :: q) + 15) ++
     le2 (destination_address_1 f) ++ [destination_address_2 f] ++ le2 (source_address_1 f) ++ [source_address_2 f]).
  assert (HH : is_bytes H).
  { destruct Hr as (R1 & R2 & R3 & R4 & R5). rewrite Ed in R5. pose proof (service_number_byte (f_service f)).
    unfold H. repeat first [apply is_bytes_cons; split | apply is_bytes_app; split]; auto;
    try (apply le2_bytes; pose proof (len_nonneg (p ++ a :: b :: q)); lia);
    try (unfold is_byte; lia); try apply is_bytes_nil.
    all: try (pose proof (le2_bytes (len (p ++ a :: b :: q) + 15)) as G; pose proof (len_nonneg (p ++ a :: b :: q));
      specialize (G ltac:(lia)); unfold le2 in G; repeat (apply is_bytes_cons in G as [? G]); assumption). }
  assert (forall d, [254; TYPE; service_number (f_service f)] ++ le2 (len (p ++ a :: b :: q) + 15) ++
     le2 (destination_address_1 f) ++ [destination_address_2 f] ++ le2 (source_address_1 f) ++ [source_address_2 f] ++ d
     = H ++ d) as EH by (intros d; unfold H; rewrite <- !app_assoc; reflexivity).
  rewrite !EH.
  assert (forall R, skipn (length (sealed R) - 4) (sealed R) = [xor_all R; sum_all R mod 256; drc_spec R; 13]) as Es.
  { intros R. pose proof (with_region_sealed R []) as W. unfold with_region in W. cbn [app] in W.
    unfold sealed at 1 in W. cbn [firstn app] in W. injection W as W. exact W. }
  rewrite !Es. rewrite !(app_assoc H p).
  destruct (swap_complement_same (H ++ p) a b q) as (X1 & X2 & X3); auto.
  { apply is_bytes_app; split; assumption. }
  rewrite X1, X2, X3. reflexivity.
Qed.
Lemma two_bit_flips TYPE f t p x m y q i j : telegram_type TYPE -> is_bytes (f_data f) ->
  response_to_bytes TYPE f = Ok t -> t = with_region t (p ++ x :: m ++ y :: q) ->
  0 <= i < 8 -> 0 <= j < 8 ->
  ~ (i = j /\ (Z.testbit x i <> Z.testbit y i \/ i = 7) /\ ((length m + 1) mod 8 = 0)%nat) ->
  response_from_bytes TYPE (with_region t (p ++ flip i x :: m ++ flip j y :: q)) = Err ValueError.
Proof.
  intros HT Hd Ht Hreg Hi Hj Hn. apply telegram_type_facts in HT as [HT HT'].
  destruct (response_to_bytes_sealed TYPE f t HT Hd Ht) as (R & -> & HR).
  assert (p ++ x :: m ++ y :: q = R) as <- by (apply region_of_sealed; [exact HR|exact Hreg]).
  clear Hreg. assert (HR' := HR). apply is_bytes_app in HR' as [Hp HR'].
  apply is_bytes_cons in HR' as [Hx HR']. apply is_bytes_app in HR' as [Hm HR'].
  apply is_bytes_cons in HR' as [Hy Hq].
  rewrite with_region_sealed.
  destruct (response_from_bytes TYPE _) as [g|e] eqn:E;
    [|f_equal; eapply response_from_bytes_errs; eauto].
  exfalso. apply region_accept in E as (D1 & D2 & D3).
  - apply Hn. apply (two_flips p x m y q i j); assumption.
  - exact HR.
  - apply is_bytes_app; split; [exact Hp|]. apply is_bytes_cons; split; [apply flip_byte; assumption|].
    apply is_bytes_app; split; [exact Hm|]. apply is_bytes_cons; split; [apply flip_byte; assumption|exact Hq].
  - rewrite app_length. cbn [length]. lia.
Qed.

Lemma request_roundtrip_iff TYPE f : is_byte TYPE -> is_bytes (f_data f) -> in_range f ->
  exists t, request_to_bytes TYPE f = Ok t /\
   (request_from_bytes TYPE t = Ok f <->
    swap2 (destination_address_1 f) = destination_address_1 f /\ swap2 (source_address_1 f) = source_address_1 f).
Proof.
  intros HT Hd Hr. destruct (request_roundtrip_swapped TYPE f HT Hd Hr) as (t & E1 & E2).
  exists t. split; [exact E1|]. rewrite E2. destruct f; cbn. split.
  - intros H; injection H as -> ->. auto.
  - intros [-> ->]. reflexivity.
Qed.
(** a device that reads addresses big-endian, as they are written, would get them right *)
Lemma request_from_bytes_errs TYPE b e : TYPE <> 13 -> request_from_bytes TYPE b = Err e -> e = ValueError.
Proof. rewrite request_from_bytes_eq. apply response_from_bytes_errs. Qed.
Lemma to_bytes_injective TYPE f g t : is_byte TYPE -> is_bytes (f_data f) -> is_bytes (f_data g) ->
  response_to_bytes TYPE f = Ok t -> response_to_bytes TYPE g = Ok t -> f = g.
Proof.
  intros HT Hf Hg Ef Eg.
  assert (in_range f) as Rf.
  { rewrite response_to_bytes_wire in Ef by assumption. destruct (misfit f) eqn:M; [discriminate|].
    apply misfit_none; exact M. }
  assert (in_range g) as Rg.
  { rewrite response_to_bytes_wire in Eg by assumption. destruct (misfit g) eqn:M; [discriminate|].
    apply misfit_none; exact M. }
  destruct (response_roundtrip TYPE f HT Hf Rf) as (t1 & A1 & A2).
  destruct (response_roundtrip TYPE g HT Hg Rg) as (t2 & B1 & B2). congruence.
Qed.
Lemma response_layout TYPE f : is_byte TYPE -> is_bytes (f_data f) ->
  response_to_bytes TYPE f =
  match first_misfit (destination_address_1 f) (destination_address_2 f)
          (source_address_1 f) (source_address_2 f) (f_data f) with
  | Some two_byte_field => Err OverflowError
  | Some one_byte_field => Err ValueError
  | None => Ok (response_wire TYPE (service_number (f_service f)) (destination_address_1 f)
                  (destination_address_2 f) (source_address_1 f) (source_address_2 f) (f_data f))
  end.
Proof.
  intros HT Hd. rewrite response_to_bytes_wire by assumption. unfold misfit.
  destruct (first_misfit _ _ _ _ _) as [[|]|]; reflexivity.
Qed.
Lemma request_layout TYPE f : is_byte TYPE -> is_bytes (f_data f) ->
  request_to_bytes TYPE f =
  match first_misfit (destination_address_1 f) (destination_address_2 f)
          (source_address_1 f) (source_address_2 f) (f_data f) with
  | Some two_byte_field => Err OverflowError
  | Some one_byte_field => Err ValueError
  | None => Ok (request_wire TYPE (service_number (f_service f)) (destination_address_1 f)
                  (destination_address_2 f) (source_address_1 f) (source_address_2 f) (f_data f))
  end.
Proof.
  intros HT Hd. rewrite request_to_bytes_wire by assumption. unfold misfit.
  destruct (first_misfit _ _ _ _ _) as [[|]|]; reflexivity.
Qed.
Lemma service_number_inj s s' : service_number s = service_number s' -> s = s'.
Proof.
  intros H. pose proof (service_of_number_ok s). rewrite H, service_of_number_ok in H0. congruence.
Qed.
Lemma response_errors TYPE b e : telegram_type TYPE -> response_from_bytes TYPE b = Err e -> e = ValueError.
Proof. intros H. apply telegram_type_facts in H as [_ H]. apply response_from_bytes_errs; exact H. Qed.
Lemma request_errors TYPE b e : telegram_type TYPE -> request_from_bytes TYPE b = Err e -> e = ValueError.
Proof. intros H. apply telegram_type_facts in H as [_ H]. apply request_from_bytes_errs; exact H. Qed.
Lemma request_roundtrip_fails : exists f, is_bytes (f_data f) /\ in_range f /\
  exists t g, request_to_bytes 132 f = Ok t /\ request_from_bytes 132 t = Ok g /\ g <> f.
Proof.
  exists (mk_frame READ_VALUES 1 0 0 0 []). split; [constructor|]. split; [unfold in_range, len; cbn; lia|].
  exists [2; 254; 132; 100; 15; 0; 0; 1; 0; 0; 0; 0; 16; 246; 1; 13], (mk_frame READ_VALUES 256 0 0 0 []).
  split; [vm_compute; reflexivity|]. split; [vm_compute; reflexivity|]. discriminate.
Qed.
Definition runt : bytes := [2; 254; 134; 100; 9; 0; 21; 241; 88; 13].
Lemma runt_accepted : exists b f, is_bytes b /\ len b < 16 /\
  response_from_bytes 134 b = Ok f /\ response_to_bytes 134 f <> Ok b.
Proof.
  exists runt, (mk_frame READ_VALUES 61717 88 13 0 []).
  split; [repeat constructor; unfold is_byte; lia|]. split; [reflexivity|].
  split; [vm_compute; reflexivity|]. vm_compute. discriminate.
Qed.
Lemma two_flips_undetected : exists f f' t t',
  f <> f' /\ response_to_bytes 134 f = Ok t /\ response_from_bytes 134 t' = Ok f' /\
  skipn (length t - 4) t = skipn (length t' - 4) t' /\
  f_data f = [1; 9; 9; 9; 9; 9; 9; 9; 0] /\ f_data f' = [0; 9; 9; 9; 9; 9; 9; 9; 1].
Proof.
  set (f := mk_frame READ_VALUES 1 0 0 0 [1; 9; 9; 9; 9; 9; 9; 9; 0]).
  set (f' := mk_frame READ_VALUES 1 0 0 0 [0; 9; 9; 9; 9; 9; 9; 9; 1]).
  exists f, f'.
  exists [2; 254; 134; 100; 24; 0; 1; 0; 0; 0; 0; 0; 1; 9; 9; 9; 9; 9; 9; 9; 0; 13; 65; 117; 13],
         [2; 254; 134; 100; 24; 0; 1; 0; 0; 0; 0; 0; 0; 9; 9; 9; 9; 9; 9; 9; 1; 13; 65; 117; 13].
  split; [discriminate|]. split; [vm_compute; reflexivity|]. split; [vm_compute; reflexivity|]. auto.
Qed.
