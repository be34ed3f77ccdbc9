(** * Facts about the signed hash, copies, equality, Hello versions and retries *)
From Verif Require Import VersionFacts.
From Verif Require Export HashFacts.

(** ** What the hash binds *)
Lemma enc_int_wf a b : wirewf (VList [VInt a; VInt b]) = true.
Proof. reflexivity. Qed.
Lemma hash_input_inj t1 s1 t2 s2 h1 h2 p1 p2 : dumps (VList [VInt t1; VInt s1]) = Ok h1 -> dumps (VList [VInt t2; VInt s2]) = Ok h2 ->
  h1 ++ p1 = h2 ++ p2 -> t1 = t2 /\ s1 = s2 /\ p1 = p2.
Proof.
  unfold dumps. destruct (enc (VList [VInt t1; VInt s1])) eqn:E1; [|discriminate]. destruct (enc (VList [VInt t2; VInt s2])) eqn:E2; [|discriminate].
  intros H1 H2 H. apply Ok_inj in H1, H2. subst. destruct (enc_prefix_free _ _ _ _ _ _ E1 E2 eq_refl eq_refl H) as (N & _ & P).
  cbn [norm map] in N. inversion N. auto.
Qed.
Lemma payload_inj s1 s2 b : dumps s1 = Ok b -> dumps s2 = Ok b -> wirewf s1 = true -> wirewf s2 = true -> norm s1 = norm s2.
Proof.
  unfold dumps. destruct (enc s1) eqn:E1; [|discriminate]. destruct (enc s2) eqn:E2; [|discriminate].
  intros H1 H2 W1 W2. apply Ok_inj in H1, H2. subst.
  apply (enc_prefix_free _ _ b b [] [] E1 E2 W1 W2 eq_refl).
Qed.
Lemma short_hash_ok E c ty ts enc sig a h : short_hash E (VMsg c ty ts enc sig a) = Ok h ->
  exists s d p, slots c a = Ok s /\ dumps s = Ok p /\ dumps (VList [ty; ts]) = Ok d /\
    (c <> MHello -> h = sha1 (cr E) (d ++ p)) /\
    (c = MHello -> exists v, version_bytes a = Ok v /\ h = sha1 (cr E) (d ++ p) ++ v).
Proof.
  cbn [short_hash]. unfold payload_of. intros H. apply bind_ok in H as (p & Hp & H). apply bind_ok in Hp as (s & Hs & Hp).
  unfold hash_payload in H. apply bind_ok in H as (d & Hd & H). cbv zeta in H.
  exists s, d, p. repeat (split; [assumption|]). split.
  - intros N. destruct c; try (apply Ok_inj in H; congruence). congruence.
  - intros ->. apply bind_ok in H as (v & Hv & H). apply Ok_inj in H. eauto.
Qed.
(** the bytes whose SHA-1 goes into the hash of a message (message/base.py 177-202,
    400-423), and two messages for which SHA-1 maps two different inputs to one value *)
Definition hashed_bytes (m : pyval) (i : bytes) : Prop :=
  exists c ty ts enc sig a d p, m = VMsg c ty ts enc sig a /\ dumps (VList [ty; ts]) = Ok d /\ payload_of c a = Ok p /\ i = d ++ p.
Definition sha1_collision (E : env) (m1 m2 : pyval) : Prop :=
  exists i1 i2, hashed_bytes m1 i1 /\ hashed_bytes m2 i2 /\ i1 <> i2 /\ sha1 (cr E) i1 = sha1 (cr E) i2.
Lemma hash_binds E c1 ts1 e1 g1 a1 c2 ts2 e2 g2 a2 h : crypto_ok (cr E) ->
  short_hash E (VMsg c1 (VInt (type_of c1)) (VInt ts1) e1 g1 a1) = Ok h ->
  short_hash E (VMsg c2 (VInt (type_of c2)) (VInt ts2) e2 g2 a2) = Ok h ->
  exists d1 d2 p1 p2 s1 s2,
    dumps (VList [VInt (type_of c1); VInt ts1]) = Ok d1 /\ slots c1 a1 = Ok s1 /\ dumps s1 = Ok p1 /\
    dumps (VList [VInt (type_of c2); VInt ts2]) = Ok d2 /\ slots c2 a2 = Ok s2 /\ dumps s2 = Ok p2 /\
    sha1 (cr E) (d1 ++ p1) = sha1 (cr E) (d2 ++ p2) /\
    (d1 ++ p1 <> d2 ++ p2 \/
     (c1 = c2 /\ ts1 = ts2 /\ p1 = p2 /\ (c1 = MHello -> version_bytes a1 = version_bytes a2) /\
      (wirewf s1 = true -> wirewf s2 = true -> norm s1 = norm s2))).
Proof.
  intros HC H1 H2. apply short_hash_ok in H1 as (s1 & d1 & p1 & S1 & P1 & D1 & N1 & V1).
  apply short_hash_ok in H2 as (s2 & d2 & p2 & S2 & P2 & D2 & N2 & V2).
  assert (X : exists v1 v2, h = sha1 (cr E) (d1 ++ p1) ++ v1 /\ h = sha1 (cr E) (d2 ++ p2) ++ v2 /\
      (c1 = MHello -> version_bytes a1 = Ok v1) /\ (c2 = MHello -> version_bytes a2 = Ok v2)).
  { assert (G : forall c d p a, (c <> MHello -> h = sha1 (cr E) (d ++ p)) -> (c = MHello -> exists v, version_bytes a = Ok v /\ h = sha1 (cr E) (d ++ p) ++ v) ->
       exists v, h = sha1 (cr E) (d ++ p) ++ v /\ (c = MHello -> version_bytes a = Ok v)).
    { intros c d p a F G. destruct (mcls_eqb c MHello) eqn:Q.
      - apply mcls_eqb_eq in Q. destruct (G Q) as (v & Hv & Hh). eauto.
      - assert (N : c <> MHello) by (intros ->; discriminate Q). exists []. rewrite app_nil_r. split; [auto|congruence]. }
    destruct (G _ _ _ _ N1 V1) as (v1 & ? & ?), (G _ _ _ _ N2 V2) as (v2 & ? & ?). eauto 8. }
  destruct X as (v1 & v2 & Q1 & Q2 & W1 & W2).
  assert (L : sha1 (cr E) (d1 ++ p1) = sha1 (cr E) (d2 ++ p2) /\ v1 = v2).
  { apply app_inj_len; [rewrite !(sha1_len _ HC); reflexivity|congruence]. }
  destruct L as [L ->].
  exists d1, d2, p1, p2, s1, s2. repeat (split; [assumption|]).
  destruct (list_eq_dec Byte.byte_eq_dec (d1 ++ p1) (d2 ++ p2)) as [X|X]; [|left; exact X]. right.
  destruct (hash_input_inj _ _ _ _ _ _ _ _ D1 D2 X) as (T & -> & ->). apply type_of_inj in T. subst c2.
  split; [reflexivity|]. split; [reflexivity|]. split; [congruence|]. split; [intros K; rewrite W1, W2 by exact K; reflexivity|].
  intros F1 F2. eapply payload_inj; eassumption.
Qed.

(** ** Transport encryption and the signature *)
Lemma sig_independent E c ty ts enc sig a key f m1 b1 m2 b2 :
  serialize E (VMsg c ty ts enc sig a) key None = (m1, Ok b1) ->
  serialize E (VMsg c ty ts enc sig a) key (Some f) = (m2, Ok b2) ->
  sig_of m1 = sig_of m2 /\ short_hash E m1 = short_hash E m2 /\ short_hash E m1 = short_hash E (VMsg c ty ts enc sig a) /\
  (forall pub, verify_signature E m1 pub = verify_signature E m2 pub).
Proof.
  intros H1 H2. apply serialize_ok in H1 as (h1 & s1 & y1 & p1 & v1 & -> & _ & _ & P1 & _ & _ & A1 & _ & B1 & C1).
  apply serialize_ok in H2 as (h2 & s2 & y2 & p2 & v2 & -> & _ & _ & P2 & _ & _ & A2 & _ & B2 & C2).
  assert (s1 = s2) as ->.
  { destruct (is_none sig) eqn:N.
    - apply is_none_true in N. destruct (key_given key && signs c) eqn:K.
      + apply andb_true_iff in K as [K1 K2]. destruct key as [k|]; [|discriminate K1].
        destruct (C1 N K2 k eq_refl K1) as (d1 & D1 & S1), (C2 N K2 k eq_refl K1) as (d2 & D2 & S2).
        assert (y1 = y2) by congruence. subst. assert (d1 = d2) by congruence. congruence.
      + rewrite (B1 N eq_refl), (B2 N eq_refl). reflexivity.
    - assert (N' : sig <> VNone) by (intros ->; discriminate N). specialize (A1 N'). specialize (A2 N'). congruence. }
  repeat split.
Qed.

(** ** Signing *)
Lemma sign_verifies E m k m' : crypto_ok (cr E) -> sign_message E m k = Ok m' ->
  exists sk pk c ty ts enc sig sig' a, secret_of (cr E) k = Some sk /\ pub_of (cr E) sk = Some pk /\
    m = VMsg c ty ts enc sig a /\ m' = VMsg c ty ts enc (VBytes sig') a /\ List.length sig' = 65%nat /\
    short_hash E m' = short_hash E m /\ verify_signature E m' (VBytes pk) = Ok tt.
Proof.
  intros HC. destruct m; try discriminate. cbn [sign_message]. intros H. apply bind_ok in H as (h & Hh & H).
  apply bind_ok in H as (s & Hs & H). apply Ok_inj in H. destruct (ecdsa_sign_ok _ _ _ _ HC Hs) as (sk & pk & K1 & K2 & L & V).
  exists sk, pk, c, m1, m2, m3, m4, s, attrs. repeat (split; [assumption || reflexivity || congruence|]). subst m'. split; [reflexivity|].
  cbn [verify_signature]. change (short_hash E (VMsg c m1 m2 m3 (VBytes s) attrs)) with (short_hash E (VMsg c m1 m2 m3 m4 attrs)). rewrite Hh. exact V.
Qed.
(** a signature verifies only for the key it recovers to *)
Lemma verify_unique E m p p' : verify_signature E m (VBytes p) = Ok tt -> verify_signature E m (VBytes p') = Ok tt -> p = p'.
Proof.
  destruct m; try discriminate. cbn [verify_signature]. intros H1 H2. apply bind_ok in H1 as (h & Hh & H1). rewrite Hh in H2. cbn [bind] in H2.
  apply ecdsa_verify_ok in H1 as (_ & s & Q & R), H2 as (_ & s' & Q' & R'). assert (s = s') by congruence. subst. congruence.
Qed.
Lemma copy_and_sign_spec E c ty ts enc sig a k : crypto_ok (cr E) ->
  (sig <> VNone -> copy_and_sign E (VMsg c ty ts enc sig a) k = Ok (VMsg c ty ts enc sig a)) /\
  (forall sk pk h, sig = VNone -> secret_of (cr E) k = Some sk -> pub_of (cr E) sk = Some pk -> short_hash E (VMsg c ty ts enc sig a) = Ok h ->
     exists s, copy_and_sign E (VMsg c ty ts enc sig a) k = Ok (VMsg c ty ts enc (VBytes s) a) /\ List.length s = 65%nat /\
       verify_signature E (VMsg c ty ts enc (VBytes s) a) (VBytes pk) = Ok tt /\
       (forall p, verify_signature E (VMsg c ty ts enc (VBytes s) a) (VBytes p) = Ok tt -> p = pk)).
Proof.
  intros HC. split.
  - intros N. destruct sig; reflexivity || congruence.
  - intros sk pk h -> Hk Hp Hh. cbn [copy_and_sign sign_message]. rewrite Hh. cbn [bind].
    destruct (ecdsa_sign_total _ k h sk HC Hk) as [s Hs]. rewrite Hs. cbn [bind]. exists s. split; [reflexivity|].
    destruct (ecdsa_sign_ok _ _ _ _ HC Hs) as (sk' & pk' & K1 & K2 & L & V). assert (sk' = sk) by congruence. subst. assert (pk' = pk) by congruence. subst.
    split; [exact L|].
    assert (V' : verify_signature E (VMsg c ty ts enc (VBytes s) a) (VBytes pk) = Ok tt).
    { cbn [verify_signature]. change (short_hash E (VMsg c ty ts enc (VBytes s) a)) with (short_hash E (VMsg c ty ts enc VNone a)). rewrite Hh. exact V. }
    split; [exact V'|]. intros p Hp'. eapply verify_unique; eassumption.
Qed.

(** ** Retrying a failed serialization *)
Lemma retry E m k f ma e f' mb bs :
  serialize E m k f = (ma, Err e) -> e <> ESignatureAlreadyExists -> serialize E m k f' = (mb, Ok bs) ->
  snd (serialize E ma None f') = Ok bs /\ fst (serialize E ma None f') = mb /\
  (key_given k = true -> truthy (sig_of ma) = true -> forall f'', serialize E ma k f'' = (ma, Err ESignatureAlreadyExists)).
Proof.
  intros H1 Ne H2. destruct m; try (cbn [serialize] in H2; discriminate (f_equal snd H2)). cbn [serialize] in H1, H2.
  destruct (key_given k && truthy m4) eqn:K; [exfalso; apply (f_equal snd) in H2; cbn [snd] in H2; discriminate H2|].
  destruct (payload_of c attrs) as [payload|] eqn:P; [|exfalso; apply (f_equal snd) in H2; cbn [snd] in H2; discriminate H2].
  match type of H2 with (match ?s with _ => _ end = _) => destruct s as [sig'|] eqn:S end; [|exfalso; apply (f_equal snd) in H2; cbn [snd] in H2; discriminate H2].
  pose proof (f_equal fst H1) as F1. pose proof (f_equal fst H2) as F2. apply (f_equal snd) in H2. cbn [fst snd] in F1, F2, H2. clear H1.
  assert (N : is_none sig' = false).
  { destruct (is_none m4) eqn:Q; [|apply Ok_inj in S; subst; exact Q].
    destruct (key_given k && signs c).
    - apply bind_ok in S as (h & _ & S). apply bind_ok in S as (s & _ & S). apply Ok_inj in S. subst. reflexivity.
    - apply Ok_inj in S. subst. reflexivity. }
  subst ma. split; [|split].
  - cbn [serialize key_given andb]. rewrite P. cbv zeta. rewrite N. cbn [snd]. exact H2.
  - cbn [serialize key_given andb]. rewrite P. cbv zeta. rewrite N. cbn [fst]. exact F2.
  - intros Kk T f''. apply already_signed_refused; assumption.
Qed.

(** every failure: either nothing was signed and nothing is lost, or the signature
    stays and dumping without a key finishes the job *)
Lemma retry_exact E m k f ma e : crypto_ok (cr E) -> serialize E m k f = (ma, Err e) ->
  (sig_of ma = sig_of m /\ forall k' f', snd (serialize E ma k' f') = snd (serialize E m k' f')) \/
  (sig_of m = VNone /\ exists s, List.length s = 65%nat /\ sig_of ma = VBytes s /\
     (forall f', serialize E ma None f' = serialize E m k f') /\
     (key_given k = true -> forall f', serialize E ma k f' = (ma, Err ESignatureAlreadyExists))).
Proof.
  intros HC H. destruct m; try (left; cbn [serialize] in H; injection H as <- <-; split; [reflexivity|intros; reflexivity]).
  assert (Same : forall enc' k' f', snd (serialize E (VMsg c m1 m2 enc' m4 attrs) k' f') = snd (serialize E (VMsg c m1 m2 m3 m4 attrs) k' f')).
  { intros enc' k' f'. cbn [serialize]. destruct (key_given k' && truthy m4); reflexivity. }
  cbn [serialize] in H. destruct (key_given k && truthy m4) eqn:K.
  { injection H as <- <-. left. split; reflexivity. }
  destruct (payload_of c attrs) as [payload|e0] eqn:P.
  2:{ injection H as <- <-. left. split; [reflexivity|]. intros k' f'. apply Same. }
  match type of H with (match ?s with _ => _ end = _) => destruct s as [sig'|e0] eqn:S end.
  2:{ injection H as <- <-. left. split; [reflexivity|]. intros k' f'. apply Same. }
  apply (f_equal fst) in H. cbn [fst] in H. subst ma. destruct (is_none m4) eqn:Q.
  - destruct m4; try discriminate Q. right. split; [reflexivity|].
    assert (X : exists s, sig' = VBytes s /\ List.length s = 65%nat).
    { destruct (key_given k && signs c); [|apply Ok_inj in S; subst; eexists; split; [reflexivity|apply repeat_length]].
      apply bind_ok in S as (h & _ & S). apply bind_ok in S as (s & Hs & S). apply Ok_inj in S. subst sig'. exists s. split; [reflexivity|].
      destruct (ecdsa_sign_ok _ _ _ _ HC Hs) as (_ & _ & _ & _ & L & _). exact L. }
    destruct X as (s & -> & L). exists s. split; [exact L|]. split; [reflexivity|]. split.
    + intros f'. cbn [serialize key_given andb]. rewrite P. cbv zeta. cbn [is_none] in *. rewrite K, S. reflexivity.
    + intros Kk f'. apply already_signed_refused; [exact Kk|]. cbn [truthy sig_of]. destruct s; [discriminate L|reflexivity].
  - apply Ok_inj in S. subst sig'. left. split; [reflexivity|]. intros k' f'. apply Same.
Qed.

(** ** Hello *)
Lemma hello_admitted E ty ts enc data decf pub m : class_load E MHello ty ts enc data decf pub = Ok m ->
  exists v a o t sig, unpack32p (slice_last 32 data) = Ok v /\ m = VMsg MHello (VInt ty) (VInt ts) (VBool enc) (VBytes sig) a /\
    attr_get "_version" a = Some (VStr (ascii_decode v)) /\
    ver_parse (our_version E) = Some o /\ ver_parse (ascii_decode v) = Some t /\
    v_major t = v_major o /\ v_minor t = v_minor o /\ ~ (v_patch t = 0 /\ v_pre t <> []).
Proof.
  intros H. pose proof (class_load_msg _ _ _ _ _ _ _ _ _ H) as (sig & a & ->).
  apply class_load_hello in H as (v & Hv & Hg & H). apply hello_version with (v := ascii_decode v) in H; [|reflexivity].
  apply verify_version_iff in Hg as (o & t & Ho & Ht & A & B & C & _). exists v, a, o, t, sig. auto 12.
Qed.
Lemma hello_refused E ty ts enc data decf pub : 
  (forall v t, unpack32p (slice_last 32 data) = Ok v -> ver_parse (ascii_decode v) = Some t -> False) ->
  class_load E MHello ty ts enc data decf pub = Err EVersionMismatchError.
Proof.
  intros H. cbn [class_load]. unfold VERSION_LENGTH. destruct (unpack32p _) as [v|e] eqn:U; [|apply unpack32p_err in U; subst e; reflexivity]. cbv zeta. unfold verify_version.
  destruct (ver_parse (ascii_decode v)) as [t|] eqn:Q; [exfalso; eauto|]. reflexivity.
Qed.
Lemma ascii_roundtrip v : Forall (fun c => 0 <= c < 128) v -> ascii_decode (ascii_replace v) = v.
Proof.
  unfold ascii_decode, ascii_replace. rewrite map_map. intros F. rewrite <- (map_id v) at 2. apply map_ext_in. intros x Hx.
  rewrite Forall_forall in F. specialize (F x Hx). replace ((0 <=? x) && (x <? 128)) with true by lia. rewrite b2z_z2b_small by lia.
  replace (x <? 128) with true by lia. reflexivity.
Qed.
(** the version field at the end of the frame, as the receiver decodes it *)
Definition wire_version (bs : bytes) : result ustr := do v <- unpack32p (slice_last 32 bs); Ok (ascii_decode v).
Lemma version_on_wire E ty ts enc sig a key encf m' bs v :
  serialize E (VMsg MHello ty ts enc sig a) key encf = (m', Ok bs) -> attr_get "_version" a = Some (VStr v) ->
  wire_version bs = Ok (ascii_decode (firstn 31 (ascii_replace v))).
Proof.
  intros H HA. apply serialize_ok in H as (h & s & payload & p & w & _ & -> & _ & _ & _ & (x & Hx & ->) & _).
  unfold version_bytes in Hx. rewrite HA in Hx. cbn [str_of] in Hx. apply Ok_inj in Hx. subst x.
  unfold wire_version. rewrite !app_assoc. rewrite <- (pack32p_length (ascii_replace v)). rewrite slice_last_app.
  rewrite unpack_pack32p. reflexivity.
Qed.
Lemma version_kept E ty ts enc sig a key encf m' bs v :
  serialize E (VMsg MHello ty ts enc sig a) key encf = (m', Ok bs) -> attr_get "_version" a = Some (VStr v) ->
  (wire_version bs = Ok v <-> Forall (fun c => 0 <= c < 128) v /\ (List.length v <= 31)%nat).
Proof.
  intros H HA. rewrite (version_on_wire _ _ _ _ _ _ _ _ _ _ _ H HA). clear H HA. split.
  - intros Q. apply Ok_inj in Q.
    assert (L : (List.length v <= 31)%nat).
    { apply (f_equal (@List.length Z)) in Q. unfold ascii_decode, ascii_replace in Q. rewrite map_length, firstn_length, map_length in Q. lia. }
    split; [|exact L]. rewrite firstn_all2 in Q by (unfold ascii_replace; rewrite map_length; exact L).
    unfold ascii_decode, ascii_replace in Q. rewrite map_map in Q. rewrite <- (map_id v) in Q at 2.
    apply Forall_forall. intros x Hx. pose proof (ext_in_map Q x Hx) as R. cbv beta in R.
    destruct ((0 <=? x) && (x <? 128)) eqn:W; [lia|]. change (b2z (z2b 63)) with 63 in R. cbv iota in R. change (63 <? 128) with true in R. cbv iota in R. subst x. discriminate W.
  - intros [F L]. rewrite firstn_all2 by (unfold ascii_replace; rewrite map_length; exact L). rewrite ascii_roundtrip; [reflexivity|exact F].
Qed.

(** ** Constructor *)
(** what the subclasses' constructors make of an attribute *)
Definition adjusted (c : mcls) (k : string) (v : pyval) : pyval :=
  if existsb (fun ck => mcls_eqb (fst ck) c && String.eqb (snd ck) k)
       [(MPeers, "peers"); (MTasks, "tasks"); (MResourcePeers, "resource_peers"); (MGossip, "gossip")]%string
  then (if truthy v then v else VList [])
  else if existsb (fun ck => mcls_eqb (fst ck) c && String.eqb (snd ck) k)
       [(MWantToComputeTask, "concent_enabled"); (MTaskToCompute, "concent_enabled")]%string then VBool (truthy v)
  else if mcls_eqb c MWantToComputeTask && String.eqb "num_subtasks" k && is_none v then VInt 1
  else if mcls_eqb c MTaskFailure && String.eqb "reason" k && is_none v then VEnum EnTaskFailure "ComputationError"
  else v.
Lemma upd_get k f a k' : attr_get_or_none k' (upd k f a) = if String.eqb k k' then f (attr_get_or_none k a) else attr_get_or_none k' a.
Proof.
  unfold upd. unfold attr_get_or_none at 1. destruct (String.eqb_spec k k') as [->|N].
  - rewrite attr_get_set_same. reflexivity.
  - rewrite attr_get_set_other by congruence. reflexivity.
Qed.
Lemma post_init_get c a k : attr_get_or_none k (post_init c a) = adjusted c k (attr_get_or_none k a).
Proof.
  unfold adjusted. destruct c; cbn [post_init existsb fst snd mcls_eqb andb orb]; rewrite ?upd_get; rewrite ?orb_false_r; try reflexivity;
    repeat match goal with |- context [String.eqb ?x ?y] => is_var y; destruct (String.eqb_spec x y) as [<-|] end; cbn [andb]; try reflexivity.
Qed.

Lemma set_version_get E c a k : k <> "_version"%string -> attr_get_or_none k (set_version E c a) = attr_get_or_none k a.
Proof.
  intros N. destruct c; try reflexivity. cbn [set_version]. destruct (attr_get "_version" a); [reflexivity|].
  unfold attr_get_or_none. rewrite attr_get_set_other by exact N. reflexivity.
Qed.
Lemma mapM_in_keys {A} (f : string -> result (string * A)) l r k : NoDup l -> mapM f l = Ok r ->
  (forall k x, f k = Ok x -> fst x = k) -> In k l -> exists v, f k = Ok (k, v) /\ In (k, v) r.
Proof.
  intros _ H Hf. revert r H. induction l as [|k0 l IH]; intros r H Hin; [destruct Hin|]. cbn [mapM] in H.
  apply bind_ok in H as ([k1 v] & Hx & H). apply bind_ok in H as (r' & Hr & H). apply Ok_inj in H. subst r.
  pose proof (Hf _ _ Hx) as Q. cbn [fst] in Q. subst k1. destruct Hin as [->|Hin].
  - exists v. split; [exact Hx|left; reflexivity].
  - destruct (IH _ Hr Hin) as (w & Hw & Hi). exists w. split; [exact Hw|right; exact Hi].
Qed.
Lemma load_slots_get rec c s a kvs k : c <> MStartSessionResponse -> load_slots rec c s = Ok a ->
  kvs = match py_dict_of s with Some kvs => kvs | None => [] end -> In k (slot_names c) ->
  match dict_get (skey k) kvs with
  | None => attr_get k a = Some VNone
  | Some v => exists v', deser_slot rec c k v = Ok v' /\ attr_get k a = Some v'
  end.
Proof.
  intros N H -> Hk. pose proof (load_slots_keys _ _ _ _ H) as Hkeys.
  assert (M : mapM (load_slot rec c (match py_dict_of s with Some kvs => kvs | None => [] end)) (slot_names c) = Ok a).
  { unfold load_slots in H. destruct c; try congruence; destruct (mapM _ _) as [r|e] in *; try exact H; exfalso; destruct e; cbn in H; discriminate. }
  assert (Hf : forall k x, load_slot rec c (match py_dict_of s with Some kvs => kvs | None => [] end) k = Ok x -> fst x = k).
  { intros k0 x. unfold load_slot. destruct (dict_get _ _); intros Hx; [apply bind_ok in Hx as (v & _ & Hx)|]; apply Ok_inj in Hx; subst; reflexivity. }
  destruct (mapM_in_keys _ _ _ k (slot_names_NoDup c) M Hf Hk) as (v & Hv & Hin).
  assert (G : attr_get k a = Some v).
  { apply attr_get_nodup; [rewrite Hkeys; apply slot_names_NoDup|exact Hin]. }
  unfold load_slot in Hv. destruct (dict_get _ _) as [w|].
  - apply bind_ok in Hv as (v' & Hv' & Hv). apply Ok_inj in Hv. exists v'. split; [exact Hv'|]. congruence.
  - apply Ok_inj in Hv. congruence.
Qed.

Lemma slot_kw c k : In k (slot_names c) -> kw_ok c k = true.
Proof. intros H. unfold kw_ok. rewrite (proj2 (existsb_exists _ _)); [reflexivity|]. exists k. split; [exact H|apply String.eqb_refl]. Qed.
Lemma constructor_exact E now c header sig s kw m : c <> MStartSessionResponse -> NoDup (map fst kw) -> msg_init E now c header sig s kw = Ok m ->
  exists ty ts enc a, m = VMsg c ty ts enc sig a /\
    (header = None -> ty = VInt (type_of c) /\ ts = VInt now /\ enc = VBool false) /\ (forall h, header = Some h -> h = (ty, ts, enc)) /\
    forall k, In k (slot_names c) ->
      match dict_get (skey k) (match py_dict_of s with Some kvs => kvs | None => [] end) with
      | None => attr_get_or_none k a = adjusted c k (attr_get_or_none k kw)
      | Some v => exists v', deser_slot (load_attrs 7) c k v = Ok v' /\
          attr_get_or_none k a = adjusted c k (match v' with VNone => attr_get_or_none k kw | _ => v' end)
      end.
Proof.
  intros N ND H. unfold msg_init in H. apply bind_ok in H as (a0 & Ha0 & H). apply bind_ok in H as (a1 & Ha1 & H).
  assert (X : exists ty ts enc, m = VMsg c ty ts enc sig (set_version E c (post_init c a1)) /\
    (header = None -> ty = VInt (type_of c) /\ ts = VInt now /\ enc = VBool false) /\ (forall h, header = Some h -> h = (ty, ts, enc))).
  { destruct header as [[[ty ts] enc]|]; apply Ok_inj in H; subst m.
    - exists ty, ts, enc. split; [reflexivity|]. split; [discriminate|]. intros h Q. congruence.
    - do 3 eexists. split; [reflexivity|]. split; [auto|discriminate]. }
  destruct X as (ty & ts & enc & -> & X1 & X2). exists ty, ts, enc, (set_version E c (post_init c a1)).
  split; [reflexivity|]. split; [exact X1|]. split; [exact X2|]. intros k Hk.
  assert (Nv : k <> "_version"%string) by (intros ->; exact (version_not_slot c Hk)).
  rewrite set_version_get, post_init_get, (apply_kwargs_get _ _ _ _ _ k (slot_kw c k Hk) ND Ha1) by exact Nv.
  change FUEL with 8%nat in Ha0. cbn [load_attrs] in Ha0. pose proof (load_slots_get _ _ _ _ _ k N Ha0 eq_refl Hk) as G.
  destruct (dict_get _ _) as [v|].
  - destruct G as (v' & Hv' & G). exists v'. split; [exact Hv'|]. unfold attr_get_or_none at 1 3. rewrite G. destruct v'; reflexivity.
  - unfold attr_get_or_none at 1 3. rewrite G. reflexivity.
Qed.
(** StartSessionResponse takes its slot from the keyword, whatever was received *)
Lemma start_session_exact E now header sig s kw m : NoDup (map fst kw) -> msg_init E now MStartSessionResponse header sig s kw = Ok m ->
  exists ty ts enc, m = VMsg MStartSessionResponse ty ts enc sig [("conn_id"%string, attr_get_or_none "conn_id" kw)].
Proof.
  intros ND H. unfold msg_init in H. change FUEL with 8%nat in H. cbn [load_attrs load_slots bind] in H. apply bind_ok in H as (a & Ha & H).
  assert (G : a = [("conn_id"%string, attr_get_or_none "conn_id" kw)]).
  { clear H. assert (X : forall kw w a, NoDup (map fst kw) -> apply_kwargs (cr E) MStartSessionResponse kw [("conn_id"%string, w)] = Ok a ->
      a = [("conn_id"%string, if is_none w then attr_get_or_none "conn_id" kw else w)]).
    { clear. induction kw as [|[k v] kw IH]; intros w a ND H; cbn [apply_kwargs] in H.
      - apply Ok_inj in H. subst a. destruct w; reflexivity.
      - cbn [map fst] in ND. apply NoDup_cons_iff in ND as [N1 N2]. destruct (String.eqb_spec k "conn_id") as [->|N].
        + rewrite (unset_slot _ MStartSessionResponse) in H by reflexivity. unfold attr_get_or_none in H. cbn [attr_get] in H.
          rewrite String.eqb_refl in H. cbn [bind] in H. destruct (is_none w) eqn:Q.
          * destruct (kw_ok _ _); [|discriminate]. cbn [attr_set] in H. rewrite String.eqb_refl in H. apply IH in H; [|exact N2]. subst a.
            unfold attr_get_or_none. cbn [attr_get]. rewrite String.eqb_refl. destruct v; try reflexivity. cbn [is_none].
            destruct (attr_get "conn_id" kw) eqn:Q2; [|reflexivity]. exfalso. apply N1. apply attr_get_in in Q2. exact (in_map fst _ _ Q2).
          * apply IH in H; [|exact N2]. subst a. rewrite Q. reflexivity.
        + assert (Y : kw_ok MStartSessionResponse k = false).
          { unfold kw_ok. cbn [slot_names slot_table map fst existsb mcls_eqb]. destruct (String.eqb_spec k "conn_id"); [contradiction|]. reflexivity. }
          assert (Z : attr_get_or_none "conn_id" ((k, v) :: kw) = attr_get_or_none "conn_id" kw).
          { unfold attr_get_or_none. cbn [attr_get]. destruct (String.eqb_spec k "conn_id"); [congruence|]. reflexivity. }
          apply bind_ok in H as (n & _ & H). rewrite Y in H. destruct n; [discriminate|]. rewrite Z. exact (IH w a N2 H). }
    apply X in Ha; [|exact ND]. exact Ha. }
  subst a. destruct header as [[[ty ts] enc]|]; apply Ok_inj in H; subst m; eauto.
Qed.

(** ** Keywords *)
Lemma apply_kwargs_app C c kw1 : forall kw2 a, apply_kwargs C c (kw1 ++ kw2) a = bind (apply_kwargs C c kw1 a) (apply_kwargs C c kw2).
Proof.
  induction kw1 as [|[k v] kw1 IH]; intros kw2 a; cbn [app apply_kwargs bind]; [reflexivity|].
  destruct (unset C c a k) as [[]|e]; cbn [bind]; [|apply IH|reflexivity]. destruct (kw_ok c k); [apply IH|reflexivity].
Qed.
(** names that can be set are no names of the class *)
Lemma slot_not_name c k : kw_ok c k = true -> In k (class_names c) -> False.
Proof.
  intros K N. assert (F : forallb (fun c => forallb (fun k => negb (kw_ok c k)) (class_names c)) all_classes = true) by (vm_compute; reflexivity).
  pose proof (for_all_classes _ F c) as X. cbv beta in X. rewrite forallb_forall in X. specialize (X k N). rewrite K in X. discriminate.
Qed.
Lemma unset_name C c a k : In k (class_names c) -> unset C c a k = Ok false.
Proof.
  intros N. unfold unset. destruct (kw_ok c k) eqn:K; [destruct (slot_not_name c k K N)|].
  rewrite (proj2 (existsb_exists _ _)); [reflexivity|]. exists k. split; [exact N|apply String.eqb_refl].
Qed.
(** a keyword naming a method or class attribute changes nothing *)
Lemma name_ignored E now c header sig s kw1 k v kw2 : In k (class_names c) ->
  msg_init E now c header sig s (kw1 ++ (k, v) :: kw2) = msg_init E now c header sig s (kw1 ++ kw2).
Proof.
  intros N. unfold msg_init. destruct (load_attrs FUEL c s) as [a|e]; [|reflexivity]. cbn [bind]. rewrite !apply_kwargs_app.
  destruct (apply_kwargs (cr E) c kw1 a) as [a1|e]; [|reflexivity]. cbn [bind apply_kwargs]. rewrite (unset_name _ _ _ _ N). reflexivity.
Qed.
(** keywords that are not slots never have an effect other than an exception *)
Lemma only_slots_count E now c header sig s kw m : msg_init E now c header sig s kw = Ok m ->
  msg_init E now c header sig s (filter (fun kv => kw_ok c (fst kv)) kw) = Ok m.
Proof.
  unfold msg_init. intros H. apply bind_ok in H as (a & Ha & H). apply bind_ok in H as (a1 & Ha1 & H). rewrite Ha. cbn [bind].
  replace (apply_kwargs (cr E) c (filter (fun kv => kw_ok c (fst kv)) kw) a) with (Ok a1); [exact H|]. symmetry. clear H Ha s.
  revert a Ha1. induction kw as [|[k v] kw IH]; intros a H; [exact H|]. cbn [apply_kwargs] in H. apply bind_ok in H as (n & Hn & H).
  cbn [filter fst]. destruct (kw_ok c k) eqn:K.
  - cbn [apply_kwargs]. rewrite Hn. cbn [bind]. rewrite K. destruct n; apply IH; exact H.
  - destruct n; [discriminate|]. apply IH. exact H.
Qed.
(** ** Equality *)
(** values that equal themselves: no NaN, no opaque object, text keys *)
Fixpoint selfeq (v : pyval) : bool :=
  match v with
  | VFloat b => fl_eqb (fl_of_bits b) (fl_of_bits b)
  | VList l | VTuple l => forallb selfeq l
  | VDict _ kvs => forallb (fun kv => match fst kv with VStr _ => true | _ => false end && selfeq (snd kv)) kvs
                   && nodup_keys (map fst kvs)
  | VTag _ x => selfeq x
  | VObj _ _ | VMask _ | VMsg _ _ _ _ _ _ => false
  | _ => true
  end.
Lemma py_eq_list l l' : py_eq (VList l) (VList l') = list_eqb py_eq l l'.
Proof. cbn [py_eq num_of str_of]. revert l'. induction l as [|x l IH]; destruct l' as [|y l']; try reflexivity. cbn [list_eqb]. rewrite <- IH. reflexivity. Qed.
Lemma py_eq_tuple l l' : py_eq (VTuple l) (VTuple l') = list_eqb py_eq l l'.
Proof. cbn [py_eq num_of str_of]. revert l'. induction l as [|x l IH]; destruct l' as [|y l']; try reflexivity. cbn [list_eqb]. rewrite <- IH. reflexivity. Qed.
Fixpoint find_eq (k v : pyval) (d : list (pyval * pyval)) : bool :=
  match d with [] => false | (k2, v2) :: r => if py_eq k k2 then py_eq v v2 else find_eq k v r end.
Lemma py_eq_dict c d c' d' : py_eq (VDict c d) (VDict c' d') =
  Nat.eqb (List.length d) (List.length d') && forallb (fun kv => find_eq (fst kv) (snd kv) d') d.
Proof.
  cbn [py_eq num_of str_of]. f_equal. induction d as [|[k v] d IH]; [reflexivity|]. cbn [forallb fst snd]. rewrite <- IH. f_equal.
  clear IH. induction d' as [|[k2 v2] d' IH]; [reflexivity|]. cbn [find_eq]. rewrite <- IH. reflexivity.
Qed.
Lemma ustr_eqb_sym a b : ustr_eqb a b = ustr_eqb b a.
Proof.
  destruct (ustr_eqb a b) eqn:Q; symmetry.
  - apply ustr_eqb_eq in Q. subst. apply ustr_eqb_refl.
  - destruct (ustr_eqb b a) eqn:R; [|reflexivity]. apply ustr_eqb_eq in R. subst. rewrite ustr_eqb_refl in Q. discriminate.
Qed.
Lemma find_eq_self d k v : forallb (fun kv => match fst kv with VStr _ => true | _ => false end) d = true -> nodup_keys (map fst d) = true ->
  In (k, v) d -> py_eq v v = true -> find_eq k v d = true.
Proof.
  intros T ND Hin Hv. assert (Hk : exists s, k = VStr s).
  { rewrite forallb_forall in T. specialize (T _ Hin). cbn [fst] in T. destruct k; try discriminate. eauto. }
  destruct Hk as [s ->]. induction d as [|[k2 v2] d IH]; [destruct Hin|]. cbn [find_eq]. cbn [map fst nodup_keys forallb] in ND, T.
  apply andb_true_iff in ND as [N1 N2]. apply andb_true_iff in T as [T1 T2]. destruct Hin as [X|Hin].
  - inversion X; subst. rewrite py_eq_str, ustr_eqb_refl. exact Hv.
  - destruct k2 as [| | | |s2| | | | | | | | |]; try discriminate T1. rewrite forallb_forall in N1.
    assert (Q : py_eq (VStr s2) (VStr s) = false) by (apply negb_true_iff, N1; exact (in_map fst _ _ Hin)).
    rewrite py_eq_str in *. rewrite ustr_eqb_sym, Q. auto.
Qed.
Lemma py_eq_refl v : selfeq v = true -> py_eq v v = true.
Proof.
  induction v as [ |b|z|fb|s|b|l IH|l IH|c kvs IH|e s|c a IH|b|c ty ts en sg a _ _ _ _ IH|n v IH]
    using pyval_ind'; cbn [selfeq]; intros H; try discriminate; try reflexivity.
  - destruct b; reflexivity.
  - cbn [py_eq num_of fl_eqb]. rewrite Z.eqb_refl. reflexivity.
  - exact H.
  - rewrite py_eq_str. apply ustr_eqb_refl.
  - cbn [py_eq num_of str_of]. apply bytes_eqb_refl.
  - rewrite py_eq_list. induction IH as [|x l Hx _ IHl]; [reflexivity|]. cbn [forallb list_eqb] in *. apply andb_true_iff in H as [H1 H2].
    rewrite Hx, IHl by assumption. reflexivity.
  - rewrite py_eq_tuple. induction IH as [|x l Hx _ IHl]; [reflexivity|]. cbn [forallb list_eqb] in *. apply andb_true_iff in H as [H1 H2].
    rewrite Hx, IHl by assumption. reflexivity.
  - rewrite py_eq_dict, Nat.eqb_refl. cbn [andb]. apply andb_true_iff in H as [H1 H2]. apply forallb_forall. intros [k v] Hin. cbn [fst snd].
    rewrite forallb_forall in H1. apply find_eq_self; [|exact H2|exact Hin|].
    + apply forallb_forall. intros x Hx. specialize (H1 x Hx). apply andb_true_iff in H1 as [H1 _]. exact H1.
    + specialize (H1 _ Hin). cbn [fst snd] in H1. apply andb_true_iff in H1 as [_ H1]. rewrite Forall_forall in IH. apply (IH _ Hin), H1.
  - cbn [py_eq num_of]. destruct (str_of (VEnum e s)) eqn:Q; [apply ustr_eqb_refl|].
    apply andb_true_iff. split; [destruct e; reflexivity|apply String.eqb_refl].
  - cbn [py_eq num_of str_of]. rewrite Z.eqb_refl. apply IH, H.
Qed.
Lemma py_eq_int a b : py_eq (VInt a) (VInt b) = (a =? b).
Proof. cbn [py_eq num_of fl_eqb]. rewrite Z.min_id, Z.sub_diag, !Z.mul_1_r. reflexivity. Qed.
Lemma py_eq_bytes a b : py_eq (VBytes a) (VBytes b) = true <-> a = b.
Proof. cbn [py_eq num_of str_of]. apply bytes_eqb_eq. Qed.

Lemma msg_eq_iff c ty ts enc sig a c' ty' ts' enc' sig' a' :
  msg_eq (VMsg c (VInt ty) (VInt ts) enc (VBytes sig) a) (VMsg c' (VInt ty') (VInt ts') enc' (VBytes sig') a') = Ok true <->
  c = c' /\ ty = ty' /\ ts = ts' /\ sig = sig' /\
  (exists s s', slots c a = Ok s /\ slots c' a' = Ok s' /\ py_eq s s' = true) /\
  (c = MHello -> py_eq (attr_get_or_none "_version" a) (attr_get_or_none "_version" a') = true).
Proof.
  set (B := mcls_eqb c c' && py_eq (VInt ty) (VInt ty') && py_eq (VInt ts) (VInt ts') && py_eq (VBytes sig) (VBytes sig')).
  assert (HB : B = true <-> c = c' /\ ty = ty' /\ ts = ts' /\ sig = sig').
  { unfold B. rewrite !andb_true_iff, mcls_eqb_eq, !py_eq_int, !Z.eqb_eq, py_eq_bytes. tauto. }
  assert (G : (if B then do s <- slots c a; do s' <- slots c' a'; Ok (py_eq s s') else Ok false) = Ok true <->
    c = c' /\ ty = ty' /\ ts = ts' /\ sig = sig' /\ exists s s', slots c a = Ok s /\ slots c' a' = Ok s' /\ py_eq s s' = true).
  { destruct B.
    - destruct (proj1 HB eq_refl) as (-> & -> & -> & ->). split.
      + intros H. apply bind_ok in H as (s & Hs & H). apply bind_ok in H as (s' & Hs' & H). apply Ok_inj in H. eauto 10.
      + intros (_ & _ & _ & _ & s & s' & Hs & Hs' & H). rewrite Hs. cbn [bind]. rewrite Hs'. cbn [bind]. rewrite H. reflexivity.
    - split; [discriminate|]. intros (H1 & H2 & H3 & H4 & _). assert (false = true) by (apply HB; auto). discriminate. }
  cbn [msg_eq]. fold B. destruct (mcls_eqb c MHello) eqn:Q.
  - apply mcls_eqb_eq in Q. subst c. cbn [version_of]. cbv iota.
    destruct (py_eq (attr_get_or_none "_version" a) (attr_get_or_none "_version" a')); [rewrite G; tauto|].
    split; [discriminate|]. intros (_ & _ & _ & _ & _ & H). discriminate (H eq_refl).
  - assert (N : c <> MHello) by (intros ->; discriminate Q). transitivity ((if B then do s <- slots c a; do s' <- slots c' a'; Ok (py_eq s s') else Ok false) = Ok true).
    + destruct c; try reflexivity. congruence.
    + rewrite G. tauto.
Qed.
Lemma msg_eq_enc c ty ts e1 sig a m' e2 : msg_eq (VMsg c ty ts e1 sig a) m' = msg_eq (VMsg c ty ts e2 sig a) m' /\
  msg_eq m' (VMsg c ty ts e1 sig a) = msg_eq m' (VMsg c ty ts e2 sig a).
Proof. split; [reflexivity|]. destruct m'; reflexivity. Qed.
Lemma msg_eq_refl c ty ts enc sig a s : slots c a = Ok s -> selfeq s = true -> selfeq ty = true -> selfeq ts = true -> selfeq sig = true ->
  selfeq (attr_get_or_none "_version" a) = true ->
  msg_eq (VMsg c ty ts enc sig a) (VMsg c ty ts enc sig a) = Ok true.
Proof.
  intros Hs S1 S2 S3 S4 S5. cbn [msg_eq]. rewrite (proj2 (mcls_eqb_eq c c) eq_refl), (py_eq_refl ty), (py_eq_refl ts), (py_eq_refl sig), Hs by assumption.
  cbn [andb bind]. rewrite (py_eq_refl s) by assumption. destruct c; try reflexivity. cbn [version_of]. rewrite (py_eq_refl (attr_get_or_none "_version" a)) by assumption. reflexivity.
Qed.

(** the version bytes the receiver adds to the hash *)
Lemma hello_suffix_sent E ty ts enc sig a key encf m' bs v : 
  serialize E (VMsg MHello ty ts enc sig a) key encf = (m', Ok bs) -> attr_get "_version" a = Some (VStr v) ->
  hello_suffix bs = firstn 31 (ascii_replace v).
Proof.
  intros H HA. apply serialize_ok in H as (h & s & payload & p & w & _ & -> & Hh & _ & _ & (x & Hx & ->) & _).
  unfold version_bytes in Hx. rewrite HA in Hx. cbn [str_of] in Hx. apply Ok_inj in Hx. subst x.
  assert (L : List.length h = 11%nat).
  { unfold pack_header in Hh. apply bind_ok in Hh as (t & Ht & Hh). apply bind_ok in Hh as (q & Hq & Hh). apply Ok_inj in Hh. subst h.
    destruct (_ && _) in Ht; [|discriminate]. apply Ok_inj in Ht. subst t. apply pack_u64_ok in Hq as (n & _ & -> & _).
    rewrite !app_length, !be_enc_length. reflexivity. }
  unfold hello_suffix. rewrite skipn_app_exact by exact L. rewrite !app_assoc. rewrite <- (pack32p_length (ascii_replace v)). rewrite slice_last_app.
  rewrite unpack_pack32p. rewrite <- map_id. rewrite <- firstn_map. unfold ascii_replace at 1. rewrite map_map, <- firstn_map.
  unfold ascii_replace. rewrite map_map. f_equal. apply map_ext. intros c. destruct ((0 <=? c) && (c <? 128)) eqn:Q; [|reflexivity].
  rewrite b2z_z2b_small by lia. replace (c <? 128) with true by lia. reflexivity.
Qed.
Lemma empty_sender_key E now msg decf ct : deserialize E now msg decf ct (Some []) = deserialize E now msg decf ct None.
Proof.
  assert (C : forall m p, check_sender E m p (Some []) = check_sender E m p None) by (intros m p; destruct m; reflexivity).
  assert (B : forall c ty ts enc data kw, base_load E c ty ts enc data decf (Some []) kw = base_load E c ty ts enc data decf None kw).
  { intros. unfold base_load. cbv zeta. destruct (decrypted _ _ _); cbn [bind]; [|reflexivity]. destruct (loads _ _); cbn [bind]; [|reflexivity].
    destruct (msg_init _ _ _ _ _ _ _); cbn [bind]; [|reflexivity]. rewrite C. reflexivity. }
  unfold deserialize. destruct (Nat.leb _ _); [reflexivity|]. destruct (deserialize_header _) as [[[ty ts] enc]|]; cbn [bind]; [|reflexivity].
  destruct (if ct then _ else _); cbn [bind]; [|reflexivity]. destruct (getitem library ty) as [c|]; cbn [bind]; [|reflexivity].
  destruct c; cbn [class_load]; rewrite ?B; try reflexivity.
Qed.

(** ** A version too long for Hello's field *)
Lemma print_ascii v : ver_wf v -> Forall (fun c => 0 <= c < 128) (ver_print v).
Proof.
  intros W. rewrite print_core. apply Forall_forall. intros c Hc. apply in_app_or in Hc. destruct Hc as [Hc|Hc].
  - apply core_in in Hc; [|exact W]. unfold ident_char in Hc. lia.
  - apply ids_in in Hc; [|apply W]. unfold ident_char in Hc. lia.
Qed.
Lemma hello_cut E ty ts enc sig a key encf m' bs v :
  serialize E (VMsg MHello ty ts enc sig a) key encf = (m', Ok bs) ->
  ver_wf v -> attr_get "_version" a = Some (VStr (ver_print v)) -> (List.length (core v) <= 31)%nat ->
  exists t, wire_version bs = Ok t /\ forall ours,
   ((forall q, t <> q ++ [43] /\ t <> q ++ [46]) -> verify_version ours t = verify_version ours (ver_print v)) /\
   ((exists q, t = q ++ [43] \/ t = q ++ [46]) -> verify_version ours t = Err EVersionMismatchError).
Proof.
  intros H W HA L. exists (firstn 31 (ver_print v)). split.
  - rewrite (version_on_wire _ _ _ _ _ _ _ _ _ _ _ H HA). f_equal. unfold ascii_replace. rewrite firstn_map.
    apply ascii_roundtrip. pose proof (print_ascii v W) as F. rewrite <- (firstn_skipn 31 (ver_print v)) in F. apply Forall_app in F. tauto.
  - intros ours. apply cut_gate; assumption.
Qed.
