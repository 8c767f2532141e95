(** Proofs about the class variables of parameter objects. *)
From Verif Require Import Py PyFacts PyFloat ParamLang Parameters Schema Schemas ClassVars SpecApplication SpecParameters SpecSchema SpecClassVars
  ParamProofs ParserProofs SchemaProofs SchemaProofs3.
Open Scope string_scope.
Open Scope list_scope.
Open Scope Z_scope.

Lemma lookup_absent {A} x (l : list (string * A)) names : map fst l = names -> existsb (String.eqb x) names = false -> lookup x l = None.
Proof.
  intros <-. induction l as [|[y v] l IH]; cbn; [reflexivity|]. destruct (String.eqb x y); [discriminate|]. exact IH.
Qed.
Lemma class_type t c : registered_class t = Some c ->
  existsb (String.eqb "object_type") (class_attrs c) = false /\ class_attribute (class_name c) "object_type" = Some (CType t).
Proof. destruct t; intros H; inversion H; split; vm_compute; reflexivity. Qed.
Lemma class_length t c : registered_class t = Some c ->
  existsb (String.eqb "value_length") (class_attrs c) = false /\
  match class_attribute (class_name c) "value_length" with Some (CInt n) => Some n | _ => None end = documented_value_length t.
Proof. destruct t; intros H; inversion H; split; vm_compute; reflexivity. Qed.

Lemma made_type t c attrs : registered_class t = Some c -> map fst attrs = class_attrs c -> get_object_type (VObj (class_name c) attrs) = Ok t.
Proof.
  intros R E. destruct (class_type t c R) as [N C]. unfold get_object_type. rewrite (lookup_absent _ _ _ E N), C. reflexivity.
Qed.
Theorem parsed_type t l v : is_bytes l -> parameter_from_bytes t l = Ok v -> get_object_type v = Ok t.
Proof. intros B H. destruct (registered_result t l v B H) as (c & attrs & R & -> & E). apply made_type; assumption. Qed.
Theorem loaded_type py t s data v : registered_schema t = Some s -> load py s data = Ok v -> ~ makes_no_object t -> get_object_type v = Ok t.
Proof. intros R H M. destruct (load_makes py t s data v R H M) as (c & attrs & Rc & -> & E). apply made_type; assumption. Qed.
Theorem loaded_dict_type py t s data v : registered_schema t = Some s -> load py s data = Ok v -> makes_no_object t -> get_object_type v = Err AttributeError.
Proof. intros R H M. destruct (no_object_made py t s data v R M H) as [l ->]. reflexivity. Qed.

Lemma read_types objs vs : Forall (fun o => is_bytes (snd o)) objs -> read_one_by_one objs vs -> map get_object_type vs = map (fun o => Ok (fst o)) objs.
Proof.
  intros B H. induction H as [|[t c] v objs vs E H IH]; [reflexivity|]. inversion B as [|? ? B1 B2]; subst. cbn [map fst]. f_equal; [|apply IH; exact B2].
  exact (parsed_type t c v B1 E).
Qed.
Theorem parsed_types l vs : is_bytes l -> parse None (Some l) = Some (Ok vs) ->
  exists objs t c n, l = transmission objs ++ object_header n (type_code t) ++ c /\ len c + 3 <= n < 65536 /\
    map get_object_type vs = map (fun o => Ok (fst o)) (objs ++ [(t, c)]).
Proof.
  intros B H. destruct (parse_ok_inv l vs B H) as (objs & t & c & n & E & N & C & S & R). exists objs, t, c, n. split; [exact E|]. split; [exact N|].
  apply read_types; [|exact R]. apply Forall_app. split; [|constructor; [exact C|constructor]].
  eapply Forall_impl; [|exact S]. intros o [X _]. exact X.
Qed.

Lemma read_kept objs vs : Forall (fun o => is_bytes (snd o)) objs -> read_one_by_one objs vs -> Forall restorable vs ->
  exists os, each (fun v => t <- get_object_type v ;; Ok (t, v, @None str)) vs = Ok os /\ Forall kept os /\ map (fun o => snd (fst o)) os = vs.
Proof.
  intros B H. induction H as [|[t c] v objs vs E H IH]; intros F; [exists []; repeat split; constructor|].
  inversion B as [|? ? B1 B2]; subst. inversion F as [|? ? [F1 F2] F3]; subst. destruct (IH B2 F3) as (os & E1 & K & M).
  cbn [fst snd] in E, B1. pose proof (parsed_type t c v B1 E) as T. destruct (F2 t T) as [L N].
  exists ((t, v, None) :: os). split; [cbn [each]; rewrite T; cbn [bind]; rewrite E1; reflexivity|]. split.
  - constructor; [|exact K]. split; [exact (parsed_instance t c v B1 E)|]. repeat split; assumption.
  - cbn [map fst snd]. rewrite M. reflexivity.
Qed.
Theorem parameters_kept py l vs : lawful py -> is_bytes l -> parse None (Some l) = Some (Ok vs) -> Forall restorable vs ->
  exists data objs', save_parameters py vs = Ok data /\ restore py data = Ok objs' /\
    Forall2 (fun v o => get_object_type v = Ok (fst (fst o)) /\ same v (snd (fst o)) /\ snd o = None) vs objs'.
Proof.
  intros P B H F. destruct (parse_ok_inv l vs B H) as (objs & t & c & n & E & N & C & S & R).
  assert (Forall (fun o => is_bytes (snd o)) (objs ++ [(t, c)])) as BB.
  { apply Forall_app. split; [|constructor; [exact C|constructor]]. eapply Forall_impl; [|exact S]. intros o [X _]. exact X. }
  destruct (read_kept _ vs BB R F) as (os & E1 & K & M). destruct (configuration_kept py os P K) as (data & objs' & Sv & Rs & Q).
  exists data, objs'. split; [unfold save_parameters; rewrite E1; exact Sv|]. split; [exact Rs|].
  assert (Forall (fun o => get_object_type (snd (fst o)) = Ok (fst (fst o)) /\ snd o = None) os) as T.
  { clear - E1. revert os E1. induction vs as [|v vs IH]; intros os E1; cbn [each] in E1; [inversion E1; constructor|].
    destruct (get_object_type v) as [t|] eqn:T; [|discriminate]. cbn [bind] in E1. destruct (each _ vs) as [r|] eqn:Er; [|discriminate]. cbn [bind] in E1.
    inversion E1; subst. constructor; [split; [exact T|reflexivity]|]. apply IH. reflexivity. }
  clear - M Q T. subst vs. induction Q as [|o o' os os' (A & Bq & Cq) Q IH]; cbn [map]; constructor.
  - inversion T as [|? ? [T1 T2] T3]; subst. rewrite T1, A. split; [reflexivity|]. split; [exact Bq|congruence].
  - apply IH. inversion T; assumption.
Qed.

(** ** Values in archive records *)
Definition lengths_ok (cls : string) : bool :=
  match class_attribute cls "object_type" with
  | Some (CType t) =>
      match (class_attribute cls "value_length" : option class_value), match t with CORRECTION_COUNTER => Some 4 | _ => documented_value_length t end with
      | Some (CInt a), Some b => a =? b | None, None => true | _, _ => false end &&
      match (class_attribute cls "data_length" : option class_value), match t with TARIFF_COUNTER => Some 4 | DOUBLE_TARIFF_COUNTER | BASE_TARIFF_COUNTER => Some 8 | _ => None end with
      | Some (CInt a), Some b => a =? b | None, None => true | _, _ => false end
  | _ => true
  end.
Lemma all_lengths_ok : forallb (fun x => lengths_ok (fst x)) class_variables = true. Proof. vm_compute. reflexivity. Qed.
Lemma lookup_in {A} x (l : list (string * A)) v : lookup x l = Some v -> In (x, v) l.
Proof. induction l as [|[y w] l IH]; cbn; [discriminate|]. destruct (String.eqb_spec x y) as [->|N]; [intros H; injection H as ->; auto|auto]. Qed.
Theorem lengths_of_class cls t attrs : get_object_type (VObj cls attrs) = Ok t ->
  lookup "value_length" attrs = None -> lookup "data_length" attrs = None ->
  documented_lengths t (get_length "value_length" (VObj cls attrs)) (get_length "data_length" (VObj cls attrs)).
Proof.
  unfold get_object_type, get_length. destruct (lookup "object_type" attrs); [discriminate|]. destruct (class_attribute cls "object_type") as [[t0|n]|] eqn:C; try discriminate.
  intros H N1 N2. injection H as ->. rewrite N1, N2. assert (lengths_ok cls = true) as K.
  { unfold class_attribute in C. destruct (lookup cls class_variables) as [own|] eqn:E; [|discriminate]. apply lookup_in in E.
    pose proof (proj1 (forallb_forall _ _) all_lengths_ok _ E) as H. exact H. }
  unfold lengths_ok in K. rewrite C in K. apply andb_true_iff in K. destruct K as [K1 K2]. unfold documented_lengths.
  split; [destruct (class_attribute cls "value_length") as [[|a]|], t; cbn in K1 |- *; try discriminate; try reflexivity; apply Z.eqb_eq in K1; congruence|].
  destruct (class_attribute cls "data_length") as [[|a]|], t; cbn in K2 |- *; try discriminate; try reflexivity; apply Z.eqb_eq in K2; congruence.
Qed.
Theorem lengths_of_object py v : ((exists t l, is_bytes l /\ parameter_from_bytes t l = Ok v) \/ (exists t s data, registered_schema t = Some s /\ load py s data = Ok v /\ ~ makes_no_object t)) ->
  exists t, get_object_type v = Ok t /\ documented_lengths t (get_length "value_length" v) (get_length "data_length" v).
Proof.
  intros H.
  assert (exists t c attrs, registered_class t = Some c /\ v = VObj (class_name c) attrs /\ map fst attrs = class_attrs c) as (t & c & attrs & R & -> & E).
  { destruct H as [(t & l & B & P)|(t & s & d & R & L & M)].
    - destruct (registered_result t l v B P) as (c & attrs & R & -> & E). exists t, c, attrs. auto.
    - destruct (load_makes py t s d v R L M) as (c & attrs & Rc & -> & E). exists t, c, attrs. auto. }
  exists t. split; [apply made_type; assumption|]. apply lengths_of_class; [apply made_type; assumption| |]; (eapply lookup_absent; [exact E|]).
  - exact (proj1 (class_length t c R)).
  - destruct t; inversion R; vm_compute; reflexivity.
Qed.
Lemma parsed_length t l v : is_bytes l -> parameter_from_bytes t l = Ok v -> get_length "value_length" v = documented_value_length t.
Proof.
  intros B H. destruct (registered_result t l v B H) as (c & attrs & R & -> & E). destruct (class_length t c R) as [N C].
  unfold get_length. rewrite (lookup_absent _ _ _ E N). exact C.
Qed.
Definition addressed (fields : list (string * place)) : bool :=
  match lookup "address_in_data_archive_record" fields with Some (Unsigned 6 2) => true | _ => false end.
Definition has_address (t : parameter_type) : bool :=
  match documented_value_length t with Some _ => true | None => existsb (fun u => type_code u =? type_code t) length_missing end.
Lemma documented_address t rows : forallb (fun rd => match snd rd with
    | Object _ fields => if has_address t then addressed fields else match lookup "address_in_data_archive_record" fields with None => true | _ => false end
    | _ => true end) (documented t rows) = true.
Proof. destruct t; vm_compute; reflexivity. Qed.
Lemma fields_lookup l attrs fields name : Forall2 (fun (a : string * value) (f : string * place) => fst a = fst f /\ shows l (snd f) (snd a)) attrs fields ->
  match lookup name fields with Some p => exists v, lookup name attrs = Some v /\ shows l p v | None => lookup name attrs = None end.
Proof.
  induction 1 as [|[a v] [b p] attrs fields [E S] F IH]; cbn [lookup]; [reflexivity|]. cbn in E, S. subst b.
  destruct (String.eqb name a); [exists v; auto|exact IH].
Qed.
Lemma parsed_address t l v : is_bytes l -> parameter_from_bytes t l = Ok v ->
  attribute "address_in_data_archive_record" v = if has_address t then Some (VInt (le_value (field 6 2 l))) else None.
Proof.
  intros B H. destruct (ok_object t l v B H) as (r & c & fields & attrs & I & W & -> & F).
  pose proof (documented_address t (byte_at 34 l)) as D. rewrite forallb_forall in D. specialize (D _ I). cbn [snd] in D.
  pose proof (fields_lookup l attrs fields "address_in_data_archive_record" F) as L. cbn [attribute].
  destruct (has_address t); unfold addressed in *.
  - destruct (lookup _ fields) as [[off w| | | | | | | | | | |]|]; try discriminate.
    destruct off as [|[[[|[]|]|[|[]|]|]|[[|[]|]|[]|]|]|]; try discriminate; destruct w as [|[[]|[]|]|]; try discriminate.
    all: destruct L as (v & E & S); rewrite E; cbn in S; rewrite S; reflexivity.
  - destruct (lookup _ fields); [discriminate|]. exact L.
Qed.
Theorem archived t l v n record : is_bytes l -> parameter_from_bytes t l = Ok v -> documented_value_length t = Some n ->
  archived_value v record = Some (Ok (firstn (Z.to_nat n) (skipn (Z.to_nat (le_value (field 6 2 l))) record))).
Proof.
  intros B H D. unfold archived_value. rewrite (parsed_address t l v B H). unfold has_address. rewrite D. rewrite (parsed_length t l v B H), D. f_equal. f_equal.
  pose proof (field_nonneg 6 2 l B) as A. set (a := le_value (field 6 2 l)) in *.
  assert (0 <= n) as Hn by (destruct t; inversion D; lia).
  unfold slice_from, slice_to. rewrite !clamp_pos by lia.
  assert (forall (i : nat) (l : bytes), firstn (Nat.min i (length l)) l = firstn i l) as FM.
  { intros i l'. destruct (Nat.le_ge_cases i (length l')) as [X|X]; [rewrite Nat.min_l by exact X; reflexivity|].
    rewrite Nat.min_r by exact X. rewrite firstn_all, firstn_all2 by exact X. reflexivity. }
  replace (Z.to_nat (Z.min (a + n) (len record))) with (Nat.min (Z.to_nat a + Z.to_nat n) (length record)) by (unfold len; lia). rewrite FM.
  set (p := firstn _ record).
  assert (skipn (Z.to_nat (Z.min a (len p))) p = skipn (Z.to_nat a) p) as ->.
  { destruct (Z.le_ge_cases a (len p)) as [X|X]; [rewrite Z.min_l by exact X; reflexivity|]. rewrite Z.min_r by exact X.
    rewrite !skipn_all2 by (unfold len in *; lia). reflexivity. }
  unfold p. rewrite skipn_firstn_comm. f_equal. lia.
Qed.
Theorem archived_missing t l v record : is_bytes l -> parameter_from_bytes t l = Ok v ->
  (archived_value v record = Some (Err TypeError) <-> In t length_missing).
Proof.
  intros B H. unfold archived_value. rewrite (parsed_address t l v B H), (parsed_length t l v B H).
  clear. split; [destruct t; cbn; try discriminate; tauto|]. cbn. intros I. repeat destruct I as [<-|I]; try contradiction; reflexivity.
Qed.

(** ** From the device to a stored configuration *)
From Verif Require Import Application Connection Client SpecText SpecSecurity SpecConnection SpecClient ClientProofs.
Lemma sendable_bytes objs : Forall sendable objs -> is_bytes (transmission objs).
Proof.
  intros F. unfold transmission. induction F as [|[t c] objs [B L] F IH]; [constructor|]. cbn [map concat]. apply is_bytes_app. split; [|exact IH].
  unfold transmitted. cbn [fst snd] in *. apply is_bytes_app. split; [|exact B]. pose proof (len_nonneg c).
  unfold object_header. constructor; [|constructor; [|constructor; [|constructor]]]; unfold is_byte; cbn [fst snd].
  - pose proof (Z.mod_pos_bound (len c + 3) 256). lia.
  - split; [apply Z.div_pos; lia|]. apply Z.div_lt_upper_bound; lia.
  - destruct t; cbn; lia.
Qed.
Theorem device_to_configuration py pw pid k id w cl pages rest objs vs :
  lawful py -> make_client pw pid k id w = Ok cl -> usable_context (client_context k id) -> tx w = [] -> sent w = [] -> latin1 pw ->
  Forall (page_ok (client_context k id)) pages -> complete pages -> total (map pg_amount (removelast pages)) <= 65535 ->
  rx w = concat (map pg_results pages) ++ rest ->
  concat (map pg_data pages) = transmission objs -> objs <> [] -> Forall sendable objs -> read_one_by_one objs vs -> Forall restorable vs ->
  exists cl' data objs', client_read_parameters cl 0 = (Done (Ok vs), cl') /\ save_parameters py vs = Ok data /\ restore py data = Ok objs' /\
    Forall2 (fun o o' => fst o = fst (fst o')) objs objs' /\ Forall2 (fun v o' => same v (snd (fst o'))) vs objs'.
Proof.
  intros P M U T S L F C N R E O D V K. pose proof (parse_objects objs vs O V) as X. rewrite <- E in X.
  destruct (client_parameters pw pid k id w cl 0 pages rest (Ok vs) M U T S L F C ltac:(lia) ltac:(lia) R (proj1 (BlockProofs.reads_iff _ _ (pages_bytes _ _ F)) X)) as (cl' & A & _).
  rewrite E in X. destruct (parameters_kept py (transmission objs) vs P (sendable_bytes objs D) X K) as (data & objs' & Sv & Rs & Q).
  exists cl', data, objs'. split; [exact A|]. split; [exact Sv|]. split; [exact Rs|].
  assert (Forall (fun o => is_bytes (snd o)) objs) as B by (eapply Forall_impl; [|exact D]; intros o [Y _]; exact Y).
  split.
  - pose proof (read_types objs vs B V) as G. clear - G Q. revert objs G. induction Q as [|v o' vs objs' (A & _) Q IH]; intros objs G; destruct objs as [|o objs]; try discriminate; constructor.
    + cbn in G. inversion G. congruence.
    + apply IH. cbn in G. inversion G. reflexivity.
  - clear - Q. induction Q as [|v o' vs objs' (_ & A & _) Q IH]; constructor; assumption.
Qed.

Theorem no_object_no_type v : (forall cls attrs, v <> VObj cls attrs) -> get_object_type v = Err AttributeError.
Proof. destruct v; intros H; try reflexivity. exfalso. eapply H. reflexivity. Qed.

(** the classes with a type *)
Definition names_a_type (cls : string) : bool :=
  match class_attribute cls "object_type" with
  | Some (CType t) => match registered_class t with Some c => String.eqb (class_name c) cls
                      | None => String.eqb cls "CorrectionCounter" && match t with CORRECTION_COUNTER => true | _ => false end end
  | Some (CInt _) => false
  | None => true
  end.
Theorem type_of_class cls attrs : lookup "object_type" attrs = None ->
  (forall t, get_object_type (VObj cls attrs) = Ok t <->
     (exists c, registered_class t = Some c /\ class_name c = cls) \/ (t = CORRECTION_COUNTER /\ cls = "CorrectionCounter")) /\
  ((forall t, get_object_type (VObj cls attrs) <> Ok t) -> get_object_type (VObj cls attrs) = Err AttributeError).
Proof.
  intros N. unfold get_object_type. rewrite N.
  assert (names_a_type cls = true) as T.
  { destruct (lookup cls class_variables) as [own|] eqn:L.
    - assert (forallb (fun x => names_a_type (fst x)) class_variables = true) as F by (vm_compute; reflexivity).
      rewrite forallb_forall in F. exact (F (cls, own) (lookup_in _ _ _ L)).
    - unfold names_a_type, class_attribute. rewrite L. reflexivity. }
  split.
  - intros t. split.
    + unfold names_a_type in T. destruct (class_attribute cls "object_type") as [[t'|n]|]; try discriminate. intros [= <-].
      destruct (registered_class t') as [c|] eqn:R.
      * left. exists c. split; [reflexivity|]. apply String.eqb_eq, T.
      * right. apply andb_prop in T as [T1 T2]. apply String.eqb_eq in T1. destruct t'; try discriminate T2. auto.
    + intros [(c & R & <-)|[-> ->]]; [|reflexivity]. destruct (class_type t c R) as [_ ->]. reflexivity.
  - unfold names_a_type in T. destruct (class_attribute cls "object_type") as [[t'|n]|]; [|discriminate T|reflexivity].
    intros H. exfalso. exact (H t' eq_refl).
Qed.
