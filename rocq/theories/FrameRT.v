(** * The round trip of whole frames: what [deserialize] makes of the output of
    [serialize] *)
From Verif Require Export RoundTrip.

(** attributes of a message: the slots, and for Hello its version after them *)
Definition full (c : mcls) (v : ustr) (a : attrs_t) : attrs_t :=
  match c with MHello => a ++ [("_version"%string, VStr v)] | _ => a end.

Lemma assoc_or_app {A} (d : A) k l m : In k (map fst l) -> assoc_or d k (l ++ m) = assoc_or d k l.
Proof.
  induction l as [|[k0 x] l IH]; cbn [map fst app assoc_or]; [intros []|]. intros [->|H].
  - rewrite String.eqb_refl. reflexivity.
  - rewrite IH by exact H. reflexivity.
Qed.
Lemma slots_full c v a : map fst a = slot_names c -> slots c (full c v a) = slots c a.
Proof.
  intros Hf. destruct c; try reflexivity. cbn [full]. unfold slots, slot_list. rewrite map_app. f_equal. f_equal. apply map_ext_in.
  intros k Hk. rewrite assoc_or_app; [reflexivity|]. rewrite map_map. change (In k (map fst a)). rewrite Hf. exact Hk.
Qed.
Lemma payload_full c v a : map fst a = slot_names c -> payload_of c (full c v a) = payload_of c a.
Proof. intros Hf. unfold payload_of. rewrite slots_full by exact Hf. reflexivity. Qed.
Lemma attr_get_last k v (a : attrs_t) : ~ In k (map fst a) -> attr_get k (a ++ [(k, v)]) = Some v.
Proof.
  induction a as [|[k0 x] a IH]; cbn [app attr_get map fst In].
  - rewrite String.eqb_refl. reflexivity.
  - intros H. destruct (String.eqb k0 k) eqn:Q; [apply String.eqb_eq in Q; tauto|]. apply IH. tauto.
Qed.
Lemma attr_set_last k v (a : attrs_t) : ~ In k (map fst a) -> attr_set k v a = a ++ [(k, v)].
Proof.
  induction a as [|[k0 x] a IH]; cbn [app attr_set map fst In]; [reflexivity|]. intros H.
  destruct (String.eqb k0 k) eqn:Q; [apply String.eqb_eq in Q; tauto|]. rewrite IH by tauto. reflexivity.
Qed.
Lemma version_full v a : map fst a = slot_names MHello -> version_bytes (full MHello v a) = Ok (ascii_replace v).
Proof.
  intros Hf. unfold version_bytes. cbn [full]. rewrite attr_get_last; [reflexivity|]. rewrite Hf. apply version_not_slot.
Qed.
Lemma hash_full E E' c ty ts v a a' p : cr E' = cr E -> map fst a = slot_names c -> map fst a' = slot_names c ->
  hash_payload E' c ty ts (full c v a') p = hash_payload E c ty ts (full c v a) p.
Proof.
  intros HE Ha Ha'. unfold hash_payload. rewrite HE. destruct (dumps _); [|reflexivity]. cbn [bind]. cbv zeta.
  destruct c; try reflexivity. rewrite !version_full by assumption. reflexivity.
Qed.

(** loading the payload of a well-formed message *)
Lemma payload_rt E' c v a p : mok c a -> payload_of c a = Ok p ->
  (forall s, slots c a = Ok s -> wirewf s = true /\ (vdepth s < cdepth E')%nat) ->
  exists s a', loads (cdepth E') p = Ok s /\ arrives c a a' /\ mok c a' /\
    ((mwire c a -> a' = a) /\ (exists d q s0, loads d q = Ok s0 /\ load_attrs FUEL c s0 = Ok a' /\ post_init c a' = a')) /\ p <> [] /\
    forall h sig, msg_init E' 0 c (Some h) sig s (match c with MHello => [("_version"%string, VStr v)] | _ => [] end) =
      Ok (let '(ty, ts, enc) := h in VMsg c ty ts enc sig (full c v a')).
Proof.
  intros M P W. unfold payload_of in P. apply bind_ok in P as (s & Hs & P).
  destruct (W s Hs) as [W1 W2]. unfold dumps in P. destruct (enc s) as [bs|] eqn:En; [|discriminate]. apply Ok_inj in P. subst bs.
  destruct (slots_rt FUEL c a (rank_bound c) M s Hs) as (a' & HL & HP & M' & AR & MW).
  assert (LD : loads (cdepth E') p = Ok (norm s)) by (rewrite <- (app_nil_r p); apply loads_enc; assumption).
  exists (norm s), a'. split; [exact LD|].
  split; [exact AR|]. split; [exact M'|]. split; [split; [exact MW|exists (cdepth E'), p, (norm s); auto]|]. split; [intros ->; apply enc_nonempty in En; cbn in En; lia|].
  intros [[ty ts] enc'] sig. unfold msg_init. rewrite HL. cbn [bind].
  assert (Hf : map fst a' = slot_names c) by (inversion M'; assumption).
  destruct c; cbn [apply_kwargs bind set_version full]; try (rewrite HP; reflexivity).
  pose proof (version_not_slot MHello) as N. rewrite <- Hf in N.
  assert (N' : attr_get_or_none "_version" a' = VNone) by (unfold attr_get_or_none; rewrite (proj2 (attr_get_none _ _) N); reflexivity).
  rewrite (unset_slot _ MHello) by reflexivity. rewrite N'. cbn [bind is_none]. change (kw_ok MHello "_version") with true. cbv iota. cbn [bind]. rewrite attr_set_last by exact N.
  cbn [post_init set_version]. rewrite attr_get_last by exact N. reflexivity.
Qed.

Definition hello_ok (E' : env) (c : mcls) (v : ustr) : Prop :=
  c = MHello -> Forall (fun x => 0 <= x < 128) v /\ (List.length v <= 31)%nat /\ verify_version (our_version E') v = Ok tt.
(** [decf] undoes [encf] on the payload [p] of a class that is encrypted *)
Definition undoes (encf : option (bytes -> result bytes)) (decf : bytes -> result bytes) (c : mcls) (p : bytes) : Prop :=
  forall f x, encf = Some f -> encrypts c = true -> f p = Ok x -> x <> [] /\ decf x = Ok p.

Lemma frame_rt E E' now c t enc0 sig v a key encf m' bs ct decf pub :
  cr E' = cr E -> crypto_ok (cr E) -> (forall s, sig = VBytes s -> List.length s = 65%nat) ->
  1262304000 < t < 32819212800 -> (ct = true -> now - 600000000 <= t * 1000000 <= now + 300000000) ->
  mok c a -> hello_ok E' c v ->
  (forall s, slots c a = Ok s -> wirewf s = true /\ (vdepth s < cdepth E')%nat) ->
  (forall p, payload_of c a = Ok p -> undoes encf decf c p) ->
  serialize E (VMsg c (VInt (type_of c)) (VInt t) enc0 sig (full c v a)) key encf = (m', Ok bs) ->
  (forall k, pub = Some k -> k <> [] -> signs c = true -> verify_signature E m' (VBytes k) = Ok tt) ->
  exists a', arrives c a a' /\ mok c a' /\ ((mwire c a -> a' = a) /\ (exists d q s0, loads d q = Ok s0 /\ load_attrs FUEL c s0 = Ok a' /\ post_init c a' = a')) /\
    let m'' := VMsg c (VInt (type_of c)) (VInt t) (VBool (encrypts c && given encf)) (sig_of m') (full c v a') in
    deserialize E' now bs decf ct pub = do _ <- vet E' c m''; Ok m''.
Proof.
  intros HE HC HL HT Hct M HH W U H HV.
  assert (Hf : map fst a = slot_names c) by (inversion M; assumption).
  pose proof (frame_layout _ _ _ _ _ _ _ _ _ _ _ HC H HL) as
    (s & payload & p & sfx & Sg & Hpay & Hp & Hs0 & Hs32 & Ls & (n & Hn & Hu) & F1 & F2 & _).
  pose proof (serialize_ok _ _ _ _ _ _ _ _ _ _ _ H) as (h & s1 & payload1 & p1 & v1 & Em' & Ebs & Hh & Hpay1 & Hp1 & Hv & _).
  rewrite payload_full in Hpay by exact Hf.
  assert (n = t) as -> by (cbn [num_of] in Hn; apply Some_inj in Hn; congruence).
  destruct (payload_rt E' c v a payload M Hpay W) as (sl & a' & HLd & AR & M' & MW & NE & HI).
  exists a'. split; [exact AR|]. split; [exact M'|]. split; [exact MW|]. cbv zeta.
  assert (Hf' : map fst a' = slot_names c) by (inversion M'; assumption).
  set (b := encrypts c && given encf) in *.
  set (m'' := VMsg c (VInt (type_of c)) (VInt t) (VBool b) (sig_of m') (full c v a')).
  assert (Dp : p <> [] /\ decrypted decf b p = Ok payload).
  { specialize (U _ Hpay). unfold undoes in U. subst b. unfold decrypted. destruct (encrypts c); cbn [andb]; [|apply Ok_inj in Hp; subst; auto].
    destruct encf as [f|]; cbn [given]; [|apply Ok_inj in Hp; subst; auto].
    destruct (U f p eq_refl eq_refl Hp) as [U1 ->]. auto. }
  destruct Dp as [Np Dp].
  assert (Lbs : (76 < List.length bs)%nat).
  { pose proof (f_equal (@List.length _) F2) as L. rewrite skipn_length, app_length in L. destruct p; [congruence|]. cbn [List.length] in L. lia. }
  assert (Sk : skipn 11 bs = s ++ p ++ sfx).
  { rewrite <- (firstn_skipn 65 (skipn 11 bs)), F1, skipn_skipn'. change (11 + 65)%nat with 76%nat. rewrite F2. reflexivity. }
  assert (BL : base_load E' c (type_of c) t b (s ++ p) decf pub (match c with MHello => [("_version"%string, VStr v)] | _ => [] end) = Ok m'').
  { unfold base_load, SIG_LEN. cbv zeta. rewrite firstn_app_exact, skipn_app_exact by exact Ls. rewrite Dp. cbn [bind]. rewrite HLd. cbn [bind].
    rewrite HI. cbn [bind]. rewrite <- Sg. fold m''.
    replace (check_sender E' m'' payload pub) with (@Ok unit tt); [reflexivity|]. symmetry. unfold m''. cbn [check_sender].
    destruct (key_given pub && signs c) eqn:K; [|reflexivity]. apply andb_true_iff in K as [K1 K2].
    destruct pub as [k|]; [|discriminate]. assert (k <> []) as Hk by (destruct k; discriminate).
    specialize (HV k eq_refl Hk K2). rewrite Em' in HV. cbn [verify_signature short_hash] in HV. rewrite payload_full in HV by exact Hf.
    rewrite Hpay in HV. cbn [bind] in HV. apply bind_ok in HV as (d & Hd & HV).
    rewrite (hash_full E E' c _ _ v a a') by assumption. rewrite Hd. cbn [bind]. rewrite HE, Em'. exact HV. }
  rewrite (deserialize_dispatch _ _ _ _ _ _ _ _ _ _ Lbs Hu HT (registry_roundtrip c)).
  assert (ct && (t * 1000000 <? now - 600000000) = false /\ ct && (now + 300000000 <? t * 1000000) = false) as [-> ->].
  { destruct ct; [|auto]. specialize (Hct eq_refl). cbn [andb]. lia. }
  rewrite Sk. destruct (mcls_eqb c MHello) eqn:Q.
  - apply mcls_eqb_eq in Q. subst c. destruct (HH eq_refl) as (A1 & A2 & A3).
    destruct Hv as (w & Hw & ->). rewrite version_full in Hw by exact Hf. apply Ok_inj in Hw. subst w.
    assert (sfx = pack32p (ascii_replace v)) as ->.
    { assert (E2 : slice_last 32 bs = slice_last 32 bs) by reflexivity. rewrite Ebs in E2 at 2. rewrite !app_assoc in E2.
      rewrite <- (firstn_skipn 76 bs), F2, app_assoc in E2. specialize (Hs32 eq_refl).
      rewrite <- Hs32 in E2 at 1. rewrite slice_last_app in E2. rewrite <- (pack32p_length (ascii_replace v)) in E2. rewrite slice_last_app in E2. exact E2. }
    cbn [vet is_task_message bind]. apply class_load_hello. exists (firstn 31 (ascii_replace v)).
    rewrite app_assoc. rewrite <- (pack32p_length (ascii_replace v)) at 1. rewrite slice_last_app. split; [apply unpack_pack32p|].
    rewrite firstn_all2 by (unfold ascii_replace; rewrite map_length; exact A2). rewrite ascii_roundtrip by exact A1. split; [exact A3|].
    rewrite firstn_app_exact; [exact BL|]. rewrite (app_length (s ++ p)), pack32p_length. lia.
  - assert (N : c <> MHello) by (intros ->; discriminate Q). rewrite class_load_split by exact N. rewrite (Hs0 N), app_nil_r.
    assert (BL' : base_load E' c (type_of c) t b (s ++ p) decf pub [] = Ok m'') by (rewrite <- BL; destruct c; congruence).
    rewrite BL'. reflexivity.
Qed.

(** ** The checks made after loading come out the same for what arrives *)
Lemma getattr_slot c k ty ts enc sig a : In k (slot_names c) -> getattr k (VMsg c ty ts enc sig a) = Ok (attr_get_or_none k a).
Proof.
  intros H. unfold getattr. cbn [acc]. cbv zeta. rewrite (proj2 (existsb_exists _ _)); [reflexivity|]. exists k. split; [exact H|apply String.eqb_refl].
Qed.
Lemma mok_fst c a : mok c a -> map fst a = slot_names c.
Proof. intros [H _ _]. exact H. Qed.
Lemma mok_slot c a k : mok c a -> In k (slot_names c) -> In (k, attr_get_or_none k a) a.
Proof.
  intros M H. rewrite <- (mok_fst _ _ M) in H. destruct (attr_get_some _ _ H) as (w & Hw & Hin). unfold attr_get_or_none. rewrite Hw. exact Hin.
Qed.
Lemma arr_slot c a a' k : mok c a -> arrives c a a' -> In k (slot_names c) ->
  slot_good c k (attr_get_or_none k a) /\ same_or_wire (slot_kind c k) (attr_get_or_none k a) (attr_get_or_none k a') /\
  (forall d an il, slot_kind c k = KMsg d an il -> nested_arr arrives d (attr_get_or_none k a) (attr_get_or_none k a')).
Proof.
  intros M AR Hk. destruct AR as [F K N _]. pose proof (mok_slot c a k M Hk) as H1.
  assert (H2 : In (k, attr_get_or_none k a') a').
  { rewrite <- (mok_fst _ _ M), <- F in Hk. destruct (attr_get_some _ _ Hk) as (w & Hw & Hin). unfold attr_get_or_none. rewrite Hw. exact Hin. }
  split; [apply mok_good in M as [_ M]; apply M, H1|]. split; [exact (K _ _ _ H1 H2)|]. intros d an il Q. exact (N _ _ _ _ _ _ H1 H2 Q).
Qed.
(** a required single message slot *)
Lemma arr_nested c a a' k d : mok c a -> arrives c a a' -> slot_kind c k = KMsg d false false ->
  exists ty ts enc sig b b', attr_get_or_none k a = VMsg d ty ts enc sig b /\
    attr_get_or_none k a' = VMsg d (norm ty) (norm ts) (norm enc) (norm sig) b' /\ mok d b /\ arrives d b b'.
Proof.
  intros M AR Hk. assert (Hin : In k (slot_names c)).
  { destruct (slot_kind_cases c k) as [H|H]; [rewrite Hk in H; apply (in_map fst) in H; exact H|rewrite (slot_kind_default _ _ H) in Hk; discriminate]. }
  destruct (arr_slot c a a' k M AR Hin) as ([_ G] & _ & N). specialize (G _ _ _ Hk). specialize (N _ _ _ Hk).
  destruct G as [(_ & E)|[(_ & ty & ts & enc & sig & b & E & Mb)|(E & _)]]; try discriminate E. rewrite E in N.
  destruct N as [(N & _)|[(ty' & ts' & enc' & sig' & b0 & b' & N1 & N2 & N3)|(l & l' & N & _)]]; try discriminate N.
  exists ty, ts, enc, sig, b, b'. split; [exact E|].
  assert (ty' = ty /\ ts' = ts /\ enc' = enc /\ sig' = sig /\ b0 = b) as (-> & -> & -> & -> & ->) by (repeat split; congruence). auto.
Qed.

Lemma hash_arr E c ty ts e1 s1 e2 s2 b b' : c <> MHello -> arrives c b b' ->
  short_hash E (VMsg c (norm ty) (norm ts) e2 s2 b') = short_hash E (VMsg c ty ts e1 s1 b).
Proof.
  intros Hc [_ _ _ (s & s' & Hs & Hs' & Q)]. cbn [short_hash]. unfold payload_of. rewrite Hs, Hs'. cbn [bind].
  rewrite <- (dumps_norm s), <- Q, dumps_norm. destruct (dumps s') as [p|]; cbn [bind]; [|reflexivity].
  unfold hash_payload. rewrite <- (dumps_norm (VList [ty; ts])). cbn [norm map]. destruct (dumps _); [|reflexivity]. cbn [bind]. cbv zeta.
  destruct c; try reflexivity. congruence.
Qed.
Lemma ecdsa_verify_norm C p s d : ecdsa_verify C p (norm s) d = ecdsa_verify C p s d.
Proof. destruct s as [| | | | | | | | |e t| | | |]; try reflexivity. cbn [norm]. destruct (is_string_enum e); reflexivity. Qed.
Lemma verify_arr E E' c ty ts e1 sig e2 b b' p : cr E' = cr E -> c <> MHello -> arrives c b b' ->
  verify_signature E' (VMsg c (norm ty) (norm ts) e2 (norm sig) b') p = verify_signature E (VMsg c ty ts e1 sig b) p.
Proof.
  intros HE Hc AR. cbn [verify_signature]. rewrite (hash_arr E' c ty ts e1 sig e2 (norm sig) b b' Hc AR).
  assert (short_hash E' (VMsg c ty ts e1 sig b) = short_hash E (VMsg c ty ts e1 sig b)) as ->.
  { cbn [short_hash]. destruct (payload_of c b); [|reflexivity]. cbn [bind]. unfold hash_payload. rewrite HE. reflexivity. }
  destruct (short_hash E _); [|reflexivity]. cbn [bind]. rewrite HE. apply ecdsa_verify_norm.
Qed.

Lemma hexval_ascii c z : hexval c = Some z -> (0 <=? c) && (c <? 128) = true.
Proof.
  unfold hexval. destruct ((48 <=? c) && (c <=? 57)) eqn:E1; [lia|]. destruct ((97 <=? c) && (c <=? 102)) eqn:E2; [lia|].
  destruct ((65 <=? c) && (c <=? 70)) eqn:E3; [lia|discriminate].
Qed.
Lemma unhex_ascii n : forall s b, (List.length s <= n)%nat -> unhex s = Some b -> is_ascii s = true.
Proof.
  induction n as [|n IH]; intros [|x [|y r]] b L H; try reflexivity; try discriminate H; cbn [List.length] in L; try lia.
  cbn [unhex] in H. destruct (hexval x) eqn:Hx; [|discriminate]. destruct (hexval y) eqn:Hy; [|discriminate]. destruct (unhex r) as [t|] eqn:Hr; [|discriminate].
  unfold is_ascii. cbn [forallb]. rewrite (hexval_ascii _ _ Hx), (hexval_ascii _ _ Hy). cbn [andb]. apply (IH r t); [lia|exact Hr].
Qed.
Lemma decode_hex_wire k b : decode_hex k = Ok b -> decode_hex (norm (deenum k)) = Ok b.
Proof.
  destruct k as [| | | | | | | | |e value| | | |]; try (cbn; intros; discriminate); try (cbn [deenum norm]; auto; fail). cbn [decode_hex deenum norm].
  destruct (is_string_enum e); [|discriminate]. destruct (unhex (u value)) as [x|] eqn:Q; [|discriminate].
  intros H. rewrite (unhex_ascii _ _ _ (Nat.le_refl _) Q). exact H.
Qed.

(** *** the ids of a TaskToCompute *)
Definition id_name (name : string) : Prop := name = "task_id"%string \/ name = "subtask_id"%string.
Lemma dict_get_norm s kvs : Forall (fun kv => exists t, str_of (fst kv) = Some t) kvs ->
  dict_get (skey s) (map (fun kv => (norm (fst kv), norm (snd kv))) kvs) = option_map norm (dict_get (skey s) kvs).
Proof.
  intros F. induction F as [|[k w] kvs [t Ht] F IH]; cbn [map dict_get fst snd]; [reflexivity|]. cbn [fst] in Ht.
  rewrite (norm_text _ _ Ht). rewrite (py_eq_both (VStr t) (skey s) t (u s) eq_refl eq_refl), (py_eq_both k (skey s) t (u s) Ht eq_refl).
  destruct (ustr_eqb t (u s)); [reflexivity|exact IH].
Qed.
Lemma ctd_ids a a' name : mok MTaskToCompute a -> arrives MTaskToCompute a a' -> id_name name ->
  exists d x t, attr_get_or_none "compute_task_def" a = d /\ ctd_item d name = Ok x /\ str_of x = Some t /\
    ctd_item (attr_get_or_none "compute_task_def" a') name = Ok (VStr t) /\ truthy d = true /\
    truthy (attr_get_or_none "compute_task_def" a') = true.
Proof.
  intros M AR Hn. destruct (arr_slot _ _ _ "compute_task_def"%string M AR) as ([[_ V] _] & S & _); [cbn; tauto|].
  change (slot_kind MTaskToCompute "compute_task_def") with KCtd in V, S. cbn [val_ok same_or_wire] in V, S. destruct V as (kvs & E & Sc).
  specialize (S _ E). pose proof (dinv_keys _ _ (schema_dinv _ _ Sc)) as Hk.
  destruct (schema_get DCTD kvs name Sc) as (k & x & G1 & G2 & G3); [destruct Hn as [-> | ->]; cbn; tauto|].
  assert (exists t, str_of x = Some t) as [t Ht].
  { destruct Sc as [_ Sc]. specialize (Sc _ _ _ G2 G3). unfold validated in Sc. unfold dvalidator in Sc.
    destruct Hn as [-> | ->]; cbn in Sc; unfold validate_varchar in Sc; destruct (str_of x); eauto; discriminate. }
  assert (NE : kvs <> []) by (intros ->; destruct G2).
  exists (VDict DCTD kvs), x, t. split; [exact E|]. split; [cbn [ctd_item]; rewrite G1; reflexivity|]. split; [exact Ht|].
  rewrite S. split; [cbn [ctd_item]; rewrite dict_get_norm by exact Hk; rewrite G1; cbn [option_map]; rewrite (norm_text _ _ Ht); reflexivity|].
  destruct kvs; [congruence|]. auto.
Qed.
Lemma acc_ttc_id name ty ts enc sig a : id_name name ->
  acc name (VMsg MTaskToCompute ty ts enc sig a) =
    let d := attr_get_or_none "compute_task_def" a in
    if truthy d then match ctd_item d name with Ok x => Some x | Err EKeyError => Some VNone | Err _ => None end else Some VNone.
Proof.
  intros [-> | ->]; cbn [acc]; change (slot_names MTaskToCompute) with (map fst (slot_table MTaskToCompute)); cbn -[attr_get_or_none dict_get];
    unfold ctd_item; destruct (truthy _); try reflexivity; destruct (attr_get_or_none "compute_task_def" a); try reflexivity;
    destruct (dict_get _ _); reflexivity.
Qed.
Lemma ttc_ids name a a' : mok MTaskToCompute a -> arrives MTaskToCompute a a' -> id_name name ->
  exists x t, str_of x = Some t /\ forall ty ts enc sig ty' ts' enc' sig',
    acc name (VMsg MTaskToCompute ty ts enc sig a) = Some x /\ acc name (VMsg MTaskToCompute ty' ts' enc' sig' a') = Some (VStr t).
Proof.
  intros M AR Hn. destruct (ctd_ids a a' name M AR Hn) as (d & x & t & E & H1 & H2 & H3 & H4 & H5). exists x, t. split; [exact H2|].
  intros. rewrite !acc_ttc_id by exact Hn. cbv zeta. rewrite E, H1, H4, H3, H5. auto.
Qed.
Definition tr (x : pyval) : pyval := if truthy x then x else VNone.
Lemma assoc_or_get name (a : attrs_t) k : In k (map fst a) ->
  assoc_or None k (map (fun kv => (fst kv, acc name (snd kv))) a) = acc name (attr_get_or_none k a).
Proof.
  unfold attr_get_or_none. induction a as [|[k0 w] a IH]; cbn [map fst snd In assoc_or attr_get]; [intros []|].
  destruct (String.eqb k0 k) eqn:Q; [reflexivity|]. intros [->|H]; [rewrite String.eqb_refl in Q; discriminate|]. apply IH, H.
Qed.
(** one provider slot *)
Lemma acc_single c p name ty ts enc sig a : map fst a = slot_names c -> In p (slot_names c) -> task_id_providers c = [p] -> is_task_message c = true ->
  c <> MTaskToCompute -> ~ In name (slot_names c) -> In name chain_names ->
  acc name (VMsg c ty ts enc sig a) = Some (match acc name (attr_get_or_none p a) with Some x => tr x | None => VNone end).
Proof.
  intros F P T I N1 N2 N3.
  assert (X : existsb (String.eqb name) (slot_names c) = false).
  { destruct (existsb _ _) eqn:Q; [|reflexivity]. apply existsb_exists in Q as (y & Hy & Q). apply String.eqb_eq in Q. subst. contradiction. }
  assert (Y : existsb (String.eqb name) chain_names = true) by (apply existsb_exists; exists name; split; [exact N3|apply String.eqb_refl]).
  cbn [acc]. cbv zeta. rewrite X. rewrite <- F in P. destruct c; try discriminate I; try congruence; rewrite I, Y, T; cbn [map andb];
    rewrite (assoc_or_get name a p P); destruct (acc name (attr_get_or_none p a)); reflexivity.
Qed.
Lemma tr_str x t y s : str_of x = Some t -> str_of y = Some s -> py_eq (tr (tr x)) (tr y) = true ->
  py_eq (tr (tr (VStr t))) (tr (VStr s)) = true.
Proof.
  intros Hx Hy. assert (T : forall z r, str_of z = Some r -> (truthy z = true \/ (z = VStr [] /\ r = []))).
  { intros z r H. destruct z; try discriminate H; [|left; reflexivity]. cbn in H. apply Some_inj in H. subst. destruct r; auto. }
  assert (V : forall r, tr (tr (VStr r)) = tr (VStr r)) by (intros [|]; reflexivity). rewrite V.
  unfold tr at 1 2 3. destruct (T _ _ Hx) as [Tx|[-> ->]]; [rewrite Tx, Tx|]; destruct (T _ _ Hy) as [Ty|[-> ->]]; try rewrite Ty; cbn [truthy].
  - rewrite (py_eq_both _ _ _ _ Hx Hy). intros Q. apply ustr_eqb_eq in Q. subst s. destruct t; [reflexivity|]. cbn [tr truthy].
    rewrite py_eq_str. apply ustr_eqb_refl.
  - intros Q. exfalso. destruct x; discriminate Q || discriminate Hx || idtac. all: cbn in Q, Hx. all: try (rewrite Hx in Q; discriminate Q).
  - intros Q. exfalso. destruct y; try discriminate Q; discriminate Hy || idtac. all: cbn in Q, Hy. all: try (rewrite Hy in Q; discriminate Q).
  - reflexivity.
Qed.
Lemma not_in_dec name l : existsb (String.eqb name) l = false -> ~ In name l.
Proof. intros H Hin. assert (existsb (String.eqb name) l = true) by (apply existsb_exists; exists name; split; [exact Hin|apply String.eqb_refl]). congruence. Qed.
Ltac slots_in := cbn; tauto.

Lemma rct_ids name a a' : mok MReportComputedTask a -> arrives MReportComputedTask a a' -> id_name name ->
  exists x t, str_of x = Some t /\ forall ty ts enc sig ty' ts' enc' sig',
    acc name (VMsg MReportComputedTask ty ts enc sig a) = Some (tr x) /\
    acc name (VMsg MReportComputedTask ty' ts' enc' sig' a') = Some (tr (VStr t)).
Proof.
  intros M AR Hn. pose proof (mok_fst _ _ M) as F. assert (F' : map fst a' = slot_names MReportComputedTask) by (destruct AR as [F' _ _ _]; congruence).
  destruct (arr_nested _ _ _ "task_to_compute"%string MTaskToCompute M AR eq_refl) as (ty0 & ts0 & e0 & s0 & b & b' & E1 & E2 & Mb & Ab).
  destruct (ttc_ids name b b' Mb Ab Hn) as (x & t & Ht & H). exists x, t. split; [exact Ht|]. intros.
  assert (N : ~ In name (slot_names MReportComputedTask)) by (destruct Hn as [-> | ->]; apply not_in_dec; reflexivity).
  assert (C : In name chain_names) by (destruct Hn as [-> | ->]; slots_in).
  rewrite !(acc_single MReportComputedTask "task_to_compute") by first [assumption|reflexivity|discriminate|slots_in].
  rewrite E1, E2. destruct (H ty0 ts0 e0 s0 (norm ty0) (norm ts0) (norm e0) (norm s0)) as [-> ->]. auto.
Qed.
Lemma fgtrf_ids name a a' : mok MForceGetTaskResultFailed a -> arrives MForceGetTaskResultFailed a a' -> id_name name ->
  exists x t, str_of x = Some t /\ forall ty ts enc sig ty' ts' enc' sig',
    acc name (VMsg MForceGetTaskResultFailed ty ts enc sig a) = Some (tr x) /\
    acc name (VMsg MForceGetTaskResultFailed ty' ts' enc' sig' a') = Some (tr (VStr t)).
Proof.
  intros M AR Hn. pose proof (mok_fst _ _ M) as F. assert (F' : map fst a' = slot_names MForceGetTaskResultFailed) by (destruct AR as [F' _ _ _]; congruence).
  destruct (arr_nested _ _ _ "task_to_compute"%string MTaskToCompute M AR eq_refl) as (ty0 & ts0 & e0 & s0 & b & b' & E1 & E2 & Mb & Ab).
  destruct (ttc_ids name b b' Mb Ab Hn) as (x & t & Ht & H). exists x, t. split; [exact Ht|]. intros.
  assert (N : ~ In name (slot_names MForceGetTaskResultFailed)) by (destruct Hn as [-> | ->]; apply not_in_dec; reflexivity).
  assert (C : In name chain_names) by (destruct Hn as [-> | ->]; slots_in).
  rewrite !(acc_single MForceGetTaskResultFailed "task_to_compute") by first [assumption|reflexivity|discriminate|slots_in].
  rewrite E1, E2. destruct (H ty0 ts0 e0 s0 (norm ty0) (norm ts0) (norm e0) (norm s0)) as [-> ->]. auto.
Qed.
Lemma srr_ids name a a' : mok MSubtaskResultsRejected a -> arrives MSubtaskResultsRejected a a' -> id_name name ->
  exists x t, str_of x = Some t /\ forall ty ts enc sig ty' ts' enc' sig',
    acc name (VMsg MSubtaskResultsRejected ty ts enc sig a) = Some (tr (tr x)) /\
    acc name (VMsg MSubtaskResultsRejected ty' ts' enc' sig' a') = Some (tr (tr (VStr t))).
Proof.
  intros M AR Hn. pose proof (mok_fst _ _ M) as F. assert (F' : map fst a' = slot_names MSubtaskResultsRejected) by (destruct AR as [F' _ _ _]; congruence).
  destruct (arr_nested _ _ _ "report_computed_task"%string MReportComputedTask M AR eq_refl) as (ty0 & ts0 & e0 & s0 & b & b' & E1 & E2 & Mb & Ab).
  destruct (rct_ids name b b' Mb Ab Hn) as (x & t & Ht & H). exists x, t. split; [exact Ht|]. intros.
  assert (N : ~ In name (slot_names MSubtaskResultsRejected)) by (destruct Hn as [-> | ->]; apply not_in_dec; reflexivity).
  assert (C : In name chain_names) by (destruct Hn as [-> | ->]; slots_in).
  rewrite !(acc_single MSubtaskResultsRejected "report_computed_task") by first [assumption|reflexivity|discriminate|slots_in].
  rewrite E1, E2. destruct (H ty0 ts0 e0 s0 (norm ty0) (norm ts0) (norm e0) (norm s0)) as [-> ->]. auto.
Qed.

Lemma sra_arrives w ts : sra_valid w (VInt ts) = Ok tt -> sra_valid (norm (deenum w)) (VInt ts) = Ok tt.
Proof.
  intros H. replace (norm (deenum w)) with w; [exact H|]. unfold sra_valid in H. apply bind_ok in H as (b & Hb & _).
  unfold py_lt in Hb. cbn [num_of] in Hb. destruct w; try discriminate Hb; reflexivity.
Qed.
Lemma srr_arrives ty ts e1 s1 e2 s2 a a' : mok MSubtaskResultsRejected a -> arrives MSubtaskResultsRejected a a' ->
  srr_valid (VMsg MSubtaskResultsRejected ty ts e1 s1 a) = Ok tt -> srr_valid (VMsg MSubtaskResultsRejected ty ts e2 s2 a') = Ok tt.
Proof.
  intros M AR. unfold srr_valid. rewrite !(getattr_slot MSubtaskResultsRejected "reason") by slots_in.
  rewrite !(getattr_slot MSubtaskResultsRejected "force_get_task_result_failed") by slots_in. cbn [bind].
  destruct (arr_slot _ _ _ "reason"%string M AR) as (_ & S & _); [slots_in|]. change (slot_kind MSubtaskResultsRejected "reason") with (KEnum EnSRR) in S.
  cbn [same_or_wire] in S. rewrite S. destruct (negb (truthy _)); [intros H; exact H|].
  destruct (arr_slot _ _ _ "force_get_task_result_failed"%string M AR) as ([_ G] & _ & N); [slots_in|].
  specialize (G _ _ _ eq_refl). specialize (N _ _ _ eq_refl).
  set (w := attr_get_or_none "force_get_task_result_failed" a) in *. set (w' := attr_get_or_none "force_get_task_result_failed" a') in *.
  destruct G as [(E & _)|[(_ & ty0 & ts0 & enc0 & sig0 & b & E & Mb)|(E & _)]]; try discriminate E.
  - rewrite E in N |- *. destruct N as [(_ & ->)|[(? & ? & ? & ? & ? & ? & N & _)|(? & ? & N & _)]]; try discriminate N. intros H; exact H.
  - rewrite E in N |- *. destruct N as [(N & _)|[(ty' & ts' & enc' & sig' & b0 & b' & N1 & N2 & N3)|(? & ? & N & _)]]; try discriminate N.
    assert (b0 = b) as -> by congruence. rewrite N2. cbn [truthy negb].
    destruct (srr_ids "task_id" a a' M AR (or_introl eq_refl)) as (x1 & t1 & X1 & H1).
    destruct (srr_ids "subtask_id" a a' M AR (or_intror eq_refl)) as (x2 & t2 & X2 & H2).
    destruct (fgtrf_ids "task_id" b b' Mb N3 (or_introl eq_refl)) as (y1 & u1 & Y1 & K1).
    destruct (fgtrf_ids "subtask_id" b b' Mb N3 (or_intror eq_refl)) as (y2 & u2 & Y2 & K2).
    unfold getattr. destruct (H1 ty ts e1 s1 ty ts e2 s2) as [-> ->]. destruct (H2 ty ts e1 s1 ty ts e2 s2) as [-> ->].
    destruct (K1 ty0 ts0 enc0 sig0 (norm ty') (norm ts') (norm enc') (norm sig')) as [-> ->].
    destruct (K2 ty0 ts0 enc0 sig0 (norm ty') (norm ts') (norm enc') (norm sig')) as [-> ->]. cbn [bind].
    destruct (py_eq (tr (tr x1)) (tr y1)) eqn:Q1; cbn [negb]; [|intros H; discriminate H].
    destruct (py_eq (tr (tr x2)) (tr y2)) eqn:Q2; cbn [negb]; [|intros H; discriminate H].
    rewrite (tr_str _ _ _ _ X1 Y1 Q1), (tr_str _ _ _ _ X2 Y2 Q2). cbn [negb]. intros H; exact H.
Qed.
Lemma py_uuid_text x t : str_of x = Some t -> py_uuid x = py_uuid (VStr t).
Proof.
  destruct x as [| | | | | | | | |e s| | | |]; try discriminate; cbn [str_of py_uuid].
  - intros H. apply Some_inj in H. subst. reflexivity.
  - destruct (is_string_enum e); [|discriminate]. intros H. apply Some_inj in H. subst. reflexivity.
Qed.
Lemma taskid_arrives name ty ts e1 s1 e2 s2 a a' : mok MTaskToCompute a -> arrives MTaskToCompute a a' -> id_name name ->
  validate_taskid_key (VMsg MTaskToCompute ty ts e1 s1 a) name = Ok tt ->
  validate_taskid_key (VMsg MTaskToCompute ty ts e2 s2 a') name = Ok tt.
Proof.
  intros M AR Hn. unfold validate_taskid_key. rewrite !(getattr_slot MTaskToCompute "compute_task_def") by slots_in.
  rewrite !(getattr_slot MTaskToCompute "requestor_id") by slots_in. cbn [bind].
  destruct (ctd_ids a a' name M AR Hn) as (d & x & t & E & H1 & H2 & H3 & _). rewrite E, H1, H3. cbn [bind].
  destruct (arr_slot _ _ _ "requestor_id"%string M AR) as (_ & S & _); [slots_in|]. change (slot_kind MTaskToCompute "requestor_id") with KPlain in S.
  cbn [same_or_wire] in S. rewrite S. unfold check_id_hex_seed. destruct (decode_hex (attr_get_or_none "requestor_id" a)) as [b|] eqn:D; [|intros H; discriminate H].
  rewrite (decode_hex_wire _ _ D). cbn [bind]. unfold check_id_seed. rewrite (py_uuid_text x t H2). intros H; exact H.
Qed.
Lemma ethsig_arrives E E' ty ts e1 s1 e2 s2 a a' : cr E' = cr E -> mok MTaskToCompute a -> arrives MTaskToCompute a a' ->
  verify_ethsig E (VMsg MTaskToCompute ty ts e1 s1 a) = Ok tt -> verify_ethsig E' (VMsg MTaskToCompute ty ts e2 s2 a') = Ok tt.
Proof.
  intros HE M AR. unfold verify_ethsig. rewrite !(getattr_slot MTaskToCompute "want_to_compute_task") by slots_in.
  rewrite !(getattr_slot MTaskToCompute "ethsig") by slots_in. rewrite !(getattr_slot MTaskToCompute "requestor_ethereum_public_key") by slots_in. cbn [bind].
  destruct (arr_nested _ _ _ "want_to_compute_task"%string MWantToComputeTask M AR eq_refl) as (ty0 & ts0 & e0 & s0 & b & b' & E1 & E2 & Mb & Ab).
  rewrite E1, E2.
  destruct (arr_slot _ _ _ "requestor_ethereum_public_key"%string M AR) as (_ & S & _); [slots_in|].
  change (slot_kind MTaskToCompute "requestor_ethereum_public_key") with KPlain in S. cbn [same_or_wire] in S. rewrite S.
  destruct (arr_slot _ _ _ "ethsig"%string M AR) as (_ & S' & _); [slots_in|].
  change (slot_kind MTaskToCompute "ethsig") with KPlain in S'. cbn [same_or_wire] in S'. rewrite S'.
  destruct (decode_hex _) as [k|] eqn:D; [|intros H; discriminate H]. rewrite (decode_hex_wire _ _ D). cbn [bind].
  rewrite (hash_arr E' MWantToComputeTask ty0 ts0 e0 s0) with (b := b); [|discriminate|exact Ab].
  assert (short_hash E' (VMsg MWantToComputeTask ty0 ts0 e0 s0 b) = short_hash E (VMsg MWantToComputeTask ty0 ts0 e0 s0 b)) as ->.
  { cbn [short_hash]. destruct (payload_of _ b); [|reflexivity]. cbn [bind]. unfold hash_payload. rewrite HE. reflexivity. }
  destruct (short_hash E _); [|intros H; exact H]. cbn [bind]. rewrite HE. intros H. pose proof H as H'. apply ecdsa_verify_ok in H' as (_ & sg & Q & _).
  rewrite Q in H |- *. exact H.
Qed.
Lemma vet_arrives E E' c ty ts e1 s1 e2 s2 a a' v : cr E' = cr E -> mok c a -> arrives c a a' -> c <> MVerdictReportComputedTask ->
  vet E c (VMsg c ty (VInt ts) e1 s1 (full c v a)) = Ok tt -> vet E' c (VMsg c ty (VInt ts) e2 s2 (full c v a')) = Ok tt.
Proof.
  intros HE M AR N. destruct c; try (exfalso; apply N; reflexivity); cbn [full]; unfold vet; cbn [is_task_message is_valid]; try (intros H; exact H); try reflexivity; cbn [bind].
  - intros H. apply bind_ok in H as ([] & H1 & H). unfold validate_taskid in *. apply bind_ok in H as ([] & H2 & H3).
    rewrite (ethsig_arrives E E' _ _ _ _ e2 s2 a a' HE M AR H1). cbn [bind].
    rewrite (taskid_arrives "task_id" _ _ _ _ e2 s2 a a' M AR (or_introl eq_refl) H2). cbn [bind].
    apply (taskid_arrives "subtask_id" _ _ _ _ e2 s2 a a' M AR (or_intror eq_refl) H3).
  - intros H. apply bind_ok in H as ([] & H & _).
    destruct (arr_slot _ _ _ "payment_ts"%string M AR) as (_ & S & _); [slots_in|]. change (slot_kind MSubtaskResultsAccepted "payment_ts") with KPlain in S.
    cbn [same_or_wire] in S. rewrite S, (sra_arrives _ _ H). reflexivity.
  - intros H. apply bind_ok in H as ([] & H & _). rewrite (srr_arrives _ _ _ _ _ _ _ _ M AR H). reflexivity.
Qed.
(** with unchanged contents nothing is excluded *)
Lemma vet_same E E' c ty ts e1 s1 e2 s2 a : cr E' = cr E ->
  vet E c (VMsg c ty ts e1 s1 a) = vet E' c (VMsg c ty ts e2 s2 a).
Proof.
  intros HE. assert (H : forall w, short_hash E w = short_hash E' w).
  { intros w. destruct w; try reflexivity. cbn [short_hash]. destruct (payload_of _ _); [|reflexivity]. cbn [bind]. unfold hash_payload. rewrite HE. reflexivity. }
  assert (V : forall m, verify_ethsig E m = verify_ethsig E' m).
  { intros m. unfold verify_ethsig. destruct (getattr _ m) as [w|]; [|reflexivity]. cbn [bind]. destruct w; try reflexivity. rewrite H, HE. reflexivity. }
  unfold vet. destruct c; try reflexivity; cbn [is_task_message]; [rewrite V; reflexivity|]. cbn [is_valid].
  assert (R : forall e, (do _ <- msg_repr (VMsg MVerdictReportComputedTask ty ts e1 s1 a); Err e) = (do _ <- msg_repr (VMsg MVerdictReportComputedTask ty ts e2 s2 a); @Err unit e)).
  { intros e. cbn [msg_repr]. destruct (slots _ a) as [|[]]; reflexivity. }
  unfold verdict_valid. rewrite R. reflexivity.
Qed.
