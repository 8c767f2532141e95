(** Proofs about a device with a state and the client that talks to it. *)
From Verif Require Import PyFacts SpecUtils SpecFrames SpecText SpecApplication SpecPdu SpecSecurity SpecMeaning SpecConnection.
From Verif Require Import UtilsProofs FramesProofs TextProofs ApplicationProofs AesProofs SecurityProofs.
From Verif Require Import Connection ConnectionProofs LineProofs MeansProofs ParamLang Parameters SpecBlock Client SpecClient ClientProofs SpecDevice.
Open Scope list_scope.
Open Scope Z_scope.

(** ** what is heard is determined *)
Lemma app_inv_len {A} (a b c d : list A) : length a = length b -> a ++ c = b ++ d -> a = b /\ c = d.
Proof.
  revert b. induction a as [|x a IH]; intros [|y b] L E; cbn in *; try discriminate; [auto|].
  injection E as -> E. destruct (IH b ltac:(lia) E) as [-> ->]. auto.
Qed.
Lemma app_inv_tail_len {A} (a b c d : list A) : length c = length d -> a ++ c = b ++ d -> a = b /\ c = d.
Proof.
  intros L E. apply app_inv_len; [|exact E]. apply (f_equal (@length A)) in E. rewrite !app_length in E. lia.
Qed.
Lemma sealed_inj R R' : sealed R = sealed R' -> R = R'.
Proof. unfold sealed. intros E. injection E as E. apply app_inv_tail_len in E as [E _]; [exact E|reflexivity]. Qed.
Lemma request_wire_inj T s d1 d2 s1 s2 p T' s' d1' d2' s1' s2' p' :
  request_wire T s d1 d2 s1 s2 p = request_wire T' s' d1' d2' s1' s2' p' -> T = T' /\ s = s' /\ p = p'.
Proof.
  unfold request_wire, wire. intros E. apply sealed_inj in E. cbn [app le2 be2] in E. injection E as -> -> _ _ _ _ _ _ _ _ ->. auto.
Qed.
Lemma le2_inj n m : le2 n = le2 m -> n = m.
Proof. unfold le2. intros E. injection E as A B. lia. Qed.
Lemma le4_inj n m : le4 n = le4 m -> n = m.
Proof. unfold le4. intros E. injection E as A B C D. lia. Qed.
Lemma field_len pw p : password_field pw p -> length p = (length pw + 4)%nat.
Proof. intros (c1 & c2 & _ & _ & ->). rewrite app_length. reflexivity. Qed.
Lemma clock_time_fun l t dst sup t' dst' sup' : clock_time l t dst sup -> clock_time l t' dst' sup' -> t = t'.
Proof.
  intros (s & mi & h & d & mo & y & vs & vmi & vh & vd & vmo & vy & -> & A1 & A2 & A3 & A4 & A5 & A6 & A7 & _).
  intros (s' & mi' & h' & d' & mo' & y' & vs' & vmi' & vh' & vd' & vmo' & vy' & E & B1 & B2 & B3 & B4 & B5 & B6 & B7 & _).
  injection E as <- <- <- <- <- <-. congruence.
Qed.
Lemma requested_fun pw f d q q' : requested pw f d q -> requested pw f d q' -> q = q'.
Proof.
  intros H. inversion H; subst; intros H'; inversion H'; subst; try reflexivity;
    repeat match goal with E : ?p ++ _ = ?p' ++ _, F : password_field pw ?p, F' : password_field pw ?p' |- _ =>
      apply app_inv_len in E as [? E]; [|rewrite (field_len _ _ F), (field_len _ _ F'); reflexivity]; clear F F' end.
  - apply app_inv_tail in H2. subst. f_equal. eapply clock_time_fun; eassumption.
  - unfold le2 in H3. injection H3 as A1 A2 A3 A4. f_equal; lia.
  - unfold le2 in H3. injection H3 as A0 A1 A2 A3 A4 A5 A6. f_equal; lia.
  - injection H3 as A0 A1 A2 A3. f_equal; [lia|lia|]. subst f. eapply clock_time_fun; eassumption.
Qed.
Lemma on_line_fun w w' t : on_line w t -> on_line w' t -> w = w'.
Proof. intros (p & _ & _ & U) (p' & _ & _ & U'). exact (unesc_det _ _ _ U U'). Qed.
Lemma hears_fun ctx pw t q q' : usable_context ctx -> hears ctx pw t q -> hears ctx pw t q' -> q = q'.
Proof.
  intros U (f & d1 & d2 & s1 & s2 & p & d & B & R & H) (f' & d1' & d2' & s1' & s2' & p' & d' & B' & R' & H').
  destruct ctx as [[i k]|]; destruct H as [O H], H' as [O' H']; pose proof (on_line_fun _ _ _ O O') as E;
    apply request_wire_inj in E as (_ & <- & <-).
  - destruct U as [K I]. apply unseals_iff in H, H'; auto. rewrite H in H'. injection H' as <-. eapply requested_fun; eassumption.
  - subst. eapply requested_fun; eassumption.
Qed.

(** ** the telegrams of the client are heard as its queries *)
Inductive carries (pw : str) : query -> request -> Prop :=
| carries_values : carries pw AskValues (ReadInstantaneousValuesRequest pw)
| carries_time : carries pw AskTime ReadTimeRequest
| carries_set t c : encodable_time t -> carries pw (SetTime t) (WriteTimeRequest pw t c)
| carries_parameters n size : carries pw (AskParameters n size) (ReadDeviceParametersRequest pw n size)
| carries_archive a n i : carries pw (AskArchive a n i) (ReadArchiveRequest pw a n i)
| carries_since a n t : encodable_time t -> carries pw (AskArchiveSince a n t) (ReadArchiveByTimeRequest pw a n t).
Lemma field_bytes pw p : latin1 pw -> password_field pw p -> is_bytes p.
Proof.
  intros L (c1 & c2 & A1 & A2 & ->). apply is_bytes_app. split.
  - eapply Forall_impl; [|exact L]. unfold is_byte. intros; lia.
  - unfold alphanumeric in *. repeat constructor; unfold is_byte; lia.
Qed.
Lemma encodable_digits t f : encodable_time t -> (calendar_time t -> f = time_digits t) -> clock_time f t false false /\ is_bytes f /\ len f = 6.
Proof.
  intros [C Y] H. specialize (H C). destruct (datetime_roundtrip t C Y) as (b & E & L & B & D).
  pose proof (datetime_to_bytes_century t C Y) as E'. rewrite E in E'. injection E' as ->.
  assert (f = [bcd_byte (second t); bcd_byte (minute t); bcd_byte (hour t); bcd_byte (day t); bcd_byte (month t); bcd_byte (year t - 2000)]) as ->.
  { rewrite H. unfold time_digits. destruct (Z.leb_spec (year t) 2099); [reflexivity|lia]. }
  split; [apply clock_time_decodes; assumption|]. split; assumption.
Qed.
Lemma one_byte a : 0 <= a <= 255 -> is_bytes [a].
Proof. intros H. constructor; [unfold is_byte; lia|constructor]. Qed.
Lemma le4_bytes n : 0 <= n < 2 ^ 32 -> is_bytes (le4 n).
Proof. intros H. unfold le4. repeat constructor; unfold is_byte; lia. Qed.
Lemma data_heard pw q r d : latin1 pw -> carries pw q r -> request_data r d -> requested pw (function_code r) d q /\ is_bytes d /\ len d <= len pw + 13.
Proof.
  intros L C D. destruct C; inversion D; subst; cbn [function_code];
    try match goal with F : password_field pw ?p |- _ => pose proof (field_bytes _ _ L F) as B; pose proof (field_len _ _ F) as G end;
    try match goal with E : encodable_time ?t, F : calendar_time ?t -> ?f = _ |- _ => destruct (encodable_digits _ _ E F) as (CT & FB & FL) end.
  - split; [constructor; assumption|]. split; [exact B|]. unfold len. lia.
  - split; [constructor|]. split; [constructor|]. unfold len. cbn. lia.
  - split; [constructor; assumption|]. split; [rewrite !is_bytes_app; split; [exact B|split; [exact FB|repeat constructor; lia]]|].
    rewrite !len_app, FL. unfold len. rewrite G. cbn [length]. lia.
  - split; [constructor; assumption|]. split; [rewrite !is_bytes_app; split; [exact B|split; apply le2_bytes; lia]|].
    rewrite !len_app. unfold len. rewrite G. cbn [length le2]. lia.
  - split; [constructor; auto; lia|]. split; [rewrite !is_bytes_app; split; [exact B|split; [apply one_byte; assumption|split; [apply le4_bytes; lia|apply le2_bytes; lia]]]|].
    rewrite !len_app. unfold len. rewrite G. cbn [length le2 le4]. lia.
  - split; [constructor; assumption|]. split; [rewrite !is_bytes_app; split; [exact B|split; [apply one_byte; assumption|split; [apply le2_bytes; lia|exact FB]]]|].
    rewrite !len_app, FL. unfold len. rewrite G. cbn [length le2]. lia.
Qed.
Lemma line_heard ctx pw q r t : usable_context ctx -> latin1 pw -> len pw <= 6 -> carries pw q r -> request_line ctx r t -> hears_only ctx pw q t.
Proof.
  intros U L N C (d & D & W). destruct (data_heard _ _ _ _ L C D) as (R & B & Ld).
  assert (hears ctx pw t q) as H.
  { destruct ctx as [[i k]|].
    - destruct W as (p & S & O). destruct U as [K I]. destruct (seals_decrypt k i d p K I B ltac:(lia) S) as (Bp & E).
      exists (function_code r), 0, 0, 0, 0, p, d. split; [exact Bp|]. split; [exact R|]. split; [exact O|]. apply unseals_iff; assumption.
    - exists (function_code r), 0, 0, 0, 0, d, d. split; [exact B|]. split; [exact R|]. split; [exact W|reflexivity]. }
  split; [exact H|]. intros q' H'. eapply hears_fun; eassumption.
Qed.

(** ** the operations *)
Lemma encodable_time_year t : encodable_time t -> (2000 <=? year t) = true.
Proof. intros [_ Y]. lia. Qed.
Lemma latin1_test pw : latin1 pw -> forallb (fun c => (0 <=? c) && (c <=? 255)) pw = true.
Proof. intros L. apply forallb_forall. intros c I. pose proof (proj1 (Forall_forall _ _) L c I) as X. cbn beta in X. lia. Qed.
Lemma meant_asks pw o q : latin1 pw -> meant o q ->
  exists r, asks pw o = Some r /\ encodable r /\ carries pw q r /\ request_service r = query_service q.
Proof.
  intros L M. pose proof (latin1_test pw L) as F. unfold encodable.
  destruct M as [| |t c T|a n i A N I|a n t A N T]; eexists; (split; [reflexivity|]); cbn [request_misfit request_times_valid]; rewrite ?F;
    try (rewrite (encodable_time_year _ T)).
  - split; [auto|]. split; [constructor|reflexivity].
  - split; [auto|]. split; [constructor|reflexivity].
  - split; [split; [reflexivity|apply T]|]. split; [constructor; exact T|reflexivity].
  - destruct (Z.leb_spec 0 a), (Z.leb_spec a 255), (Z.leb_spec 0 n), (Z.leb_spec n 65535), (Z.leb_spec 0 i), (Z.leb_spec i 4294967295); try lia. cbn [andb].
    split; [auto|]. split; [constructor|reflexivity].
  - destruct (Z.leb_spec 0 a), (Z.leb_spec a 255), (Z.leb_spec 0 n), (Z.leb_spec n 65535); try lia. cbn [andb].
    split; [split; [reflexivity|apply T]|]. split; [constructor; exact T|reflexivity].
Qed.
Lemma len_objects d n : 0 <= n -> len (objects_from d n) = Z.max 0 (len (dv_memory d) - n).
Proof. intros N. unfold objects_from, len. rewrite skipn_length. lia. Qed.
Lemma skip_more {A} (l : list A) a b : skipn (b + a) l = skipn b (skipn a l).
Proof. revert l. induction a as [|a IH]; intros l; [rewrite Nat.add_0_r; reflexivity|]. destruct l as [|x l]; [rewrite !skipn_nil; reflexivity|]. rewrite Nat.add_succ_r. cbn [skipn]. apply IH. Qed.
Lemma objects_on d n here later : 0 <= n -> objects_from d n = here ++ later -> objects_from d (n + len here) = later.
Proof.
  intros N E. unfold objects_from in *. assert (Z.to_nat (n + len here) = length here + Z.to_nat n)%nat as -> by (unfold len; lia).
  rewrite skip_more, E, skipn_app, skipn_all, Nat.sub_diag. reflexivity.
Qed.
(** the pages of a device are pages for the client *)
Lemma pages_sent ctx pw d : forall n qs results, sends_pages ctx d n qs results -> 0 <= n <= 65535 -> len (dv_memory d) <= 65535 ->
  exists pages, Forall (page_ok ctx) pages /\ complete pages /\ n + total (map pg_amount (removelast pages)) <= 65535 /\
    concat (map pg_data pages) = concat (objects_from d n) /\ results = concat (map pg_results pages) /\
    Forall2 (carries pw) qs (page_requests pw n pages).
Proof.
  induction 1 as [n number data amount results P D|n number data amount results qs results' P D Sp IH]; intros N M.
  - inversion P; subst. destruct later as [|x later]; [|discriminate]. match goal with E : objects_from d n = _ |- _ => rename E into Eo end. rewrite app_nil_r in Eo.
    exists [mk_page (concat here) number (len here) true results]. split; [constructor; [exact D|constructor]|].
    split; [exists [], (mk_page (concat here) number (len here) true results); repeat split; constructor|].
    split; [cbn; lia|]. cbn [map concat pg_data pg_results]. rewrite !app_nil_r, Eo. split; [reflexivity|]. split; [reflexivity|].
    unfold page_requests, objects_before. cbn [length seq map firstn total fold_right]. rewrite Z.add_0_r. constructor; [constructor|constructor].
  - inversion P; subst. match goal with E : objects_from d n = _ |- _ => rename E into Eo end. destruct later as [|x later]; [discriminate|].
    pose proof (len_objects d n ltac:(lia)) as Lo. rewrite Eo, len_app, len_cons in Lo. pose proof (len_nonneg here). pose proof (len_nonneg later).
    destruct (IH ltac:(lia) M) as (pages & Ok1 & (front & last & Ep & Ff & Fl) & T & Ed & Er & C).
    exists (mk_page (concat here) number (len here) false results :: pages).
    split; [constructor; [exact D|exact Ok1]|].
    split; [exists (mk_page (concat here) number (len here) false results :: front), last; rewrite Ep; split; [reflexivity|]; split; [constructor; [reflexivity|exact Ff]|exact Fl]|].
    split.
    { subst pages. change (mk_page (concat here) number (len here) false results :: front ++ [last]) with ((mk_page (concat here) number (len here) false results :: front) ++ [last]).
      rewrite removelast_last in *. cbn [map total fold_right pg_amount]. fold (total (map pg_amount front)). lia. }
    split; [cbn [map concat pg_data]; rewrite Ed, (objects_on d n here (x :: later)), Eo, concat_app by (auto; lia); reflexivity|].
    split; [cbn [map concat pg_results]; rewrite Er; reflexivity|].
    unfold page_requests. cbn [length seq map]. constructor.
    + unfold objects_before. cbn [firstn map total fold_right]. rewrite Z.add_0_r. constructor.
    + rewrite <- seq_shift, map_map. unfold page_requests in C.
      assert (map (fun i => ReadDeviceParametersRequest pw (n + len here + objects_before pages i) 1024) (seq 0 (length pages)) =
              map (fun i => ReadDeviceParametersRequest pw (n + objects_before (mk_page (concat here) number (len here) false results :: pages) (S i)) 1024) (seq 0 (length pages))) as <-; [|exact C].
      apply map_ext. intros i. f_equal. unfold objects_before. cbn [firstn map total fold_right pg_amount]. fold (total (map pg_amount (firstn i pages))). lia.
Qed.
Lemma served ctx pw : latin1 pw -> forall d os results qs vs d', serves ctx d os results qs vs d' ->
  exists rs, converses ctx pw os results rs vs /\ Forall2 (carries pw) qs rs.
Proof.
  intros L. induction 1 as [d|d d1 os results qs vs d' R S IH|d o q p d1 v results os results' qs vs d' M P D G S IH|d n results qs os results' qs' vs d' outcome N Lm Sp Rd S IH].
  - exists []. split; constructor.
  - exact IH.
  - destruct IH as (rs & C & F). destruct (meant_asks pw o q L M) as (r & A & E & Ca & Sv).
    exists (r :: rs). split; [|constructor; assumption]. eapply conv_exchange; eauto. rewrite Sv. exact D.
  - destruct IH as (rs & C & F). destruct (pages_sent ctx pw d n qs results Sp N Lm) as (pages & P1 & P2 & P3 & P4 & -> & P6).
    exists (page_requests pw n pages ++ rs). split; [|apply Forall2_app; assumption].
    apply conv_parameters; auto; [lia|]. rewrite P4. exact Rd.
Qed.
Lemma Forall2_trans_impl {A B C} (P : A -> B -> Prop) (Q : B -> C -> Prop) (R : A -> C -> Prop) :
  (forall a b c, P a b -> Q b c -> R a c) -> forall la lb lc, Forall2 P la lb -> Forall2 Q lb lc -> Forall2 R la lc.
Proof.
  intros H la lb lc F. revert lc. induction F as [|a b la lb X F IH]; intros lc G; inversion G; subst; constructor; eauto.
Qed.
Theorem client_served : forall pw pid k id w cl d os results qs vs d' rest,
  make_client pw pid k id w = Ok cl -> usable_context (client_context k id) -> latin1 pw -> tx w = [] -> sent w = [] ->
  serves (client_context k id) d os results qs vs d' -> rx w = results ++ rest ->
  exists cl', session cl os = (vs, cl') /\ Forall2 (hears_only (client_context k id) pw) qs (sent (cl_world cl')) /\
    rx (cl_world cl') = rest.
Proof.
  intros pw pid k id w cl d os results qs vs d' rest H U L T Hs S E.
  destruct (served _ _ L _ _ _ _ _ _ S) as (rs & C & F).
  destruct (client_conversation _ _ _ _ _ _ _ _ _ _ _ H U T Hs C E) as (cl' & Es & Fs & Er & _).
  destruct (make_client_inv _ _ _ _ _ _ H) as (Lp & _).
  exists cl'. split; [exact Es|]. split; [|exact Er]. eapply Forall2_trans_impl; [|exact F|exact Fs]. intros q r t. apply line_heard; assumption.
Qed.
(** a time that is set is the time that is read *)
Theorem set_and_read : forall ctx t cryout os d results qs vs d',
  serves ctx d (OpWriteTime t cryout :: OpReadTime :: os) results qs vs d' ->
  exists n t' vs', 0 <= n /\ seconds_later n t t' /\ vs = Done (Ok RNothing) :: Done (Ok (RTime t')) :: vs'.
Proof.
  intros ctx t cryout os d results qs vs d' S.
  remember (OpWriteTime t cryout :: OpReadTime :: os) as l eqn:El. induction S; try discriminate; [apply IHS, El|].
  injection El as -> ->. inversion H; subst. inversion H0; subst. inversion H2; subst. clear IHS H H0 H1 H2.
  cbn [with_clock] in S. assert (exists n vs', 0 <= n /\ (exists t', seconds_later n t t' /\ vs = Done (Ok (RTime t')) :: vs')) as (n & vs' & Hn & t' & Sl & ->).
  { assert (exists m, 0 <= m /\ seconds_later m t (dv_clock (with_clock d t))) as B by (exists 0; split; [lia|constructor]).
    revert B S. generalize (with_clock d t). intros d0 B S. remember (OpReadTime :: os) as l eqn:El. induction S; try discriminate.
    - apply IHS; [|exact El]. destruct B as (m & Hm & Sm). destruct H as (m' & t1 & Hm' & Sm' & ->). exists (m + m'). split; [lia|]. cbn [with_clock dv_clock].
      clear - Sm Sm'. induction Sm'; [rewrite Z.add_0_r; exact Sm|]. rewrite Z.add_assoc. econstructor; eauto.
    - injection El as -> ->. inversion H; subst. inversion H0; subst. inversion H2; subst. destruct B as (m & Hm & Sm). eexists m, vs. split; [exact Hm|]. eexists. split; [exact Sm|reflexivity]. }
  exists n, t', vs'. auto.
Qed.
(** what is read is the memory, whatever the pages were *)
Theorem memory_read : forall ctx n os d results qs vs d',
  serves ctx d (OpReadParameters n :: os) results qs vs d' ->
  exists outcome vs', reads (concat (skipn (Z.to_nat n) (dv_memory d))) outcome /\
    vs = Done (match outcome with Ok l => Ok (RObjects l) | Err e => Err e end) :: vs'.
Proof.
  intros ctx n os d results qs vs d' S. remember (OpReadParameters n :: os) as l eqn:El. induction S; try discriminate.
  - destruct H as (m & t & _ & _ & ->). apply IHS, El.
  - injection El as -> ->. inversion H.
  - injection El as -> ->. exists outcome, vs. split; [assumption|reflexivity].
Qed.
