(** * Facts about the signed hash, senders, Hello versions, copies and equality *)
From Verif Require Export FrameFacts.

(** ** The sender's signature *)

(** the part of a frame after the header that holds signature and payload *)
Definition body (c : mcls) (msg : bytes) : bytes :=
  match c with MHello => firstn (List.length msg - 11 - 32) (skipn 11 msg) | _ => skipn 11 msg end.
(** what Hello appends to the hash: its version field, non-ASCII bytes as '?' *)
Definition hello_suffix (msg : bytes) : bytes :=
  match unpack32p (slice_last 32 (skipn 11 msg)) with
  | Ok v => map (fun x => if b2z x <? 128 then x else x3f) v
  | Err _ => []
  end.

Lemma unset_slot C c a k : kw_ok c k = true -> unset C c a k = Ok (is_none (attr_get_or_none k a)).
Proof. intros K. unfold unset. rewrite K. reflexivity. Qed.
Lemma apply_kwargs_get C c kw : forall a a' k, kw_ok c k = true -> NoDup (map fst kw) -> apply_kwargs C c kw a = Ok a' ->
  attr_get_or_none k a' = if is_none (attr_get_or_none k a) then attr_get_or_none k kw else attr_get_or_none k a.
Proof.
  induction kw as [|[k0 v0] kw IH]; intros a a' k K ND H; cbn [apply_kwargs] in H.
  - apply Ok_inj in H. subst. destruct (is_none (attr_get_or_none k a')) eqn:N; [|reflexivity]. apply is_none_true in N. rewrite N. reflexivity.
  - cbn [map] in ND. inversion ND as [|? ? Hni ND']; subst.
    assert (Hk0 : attr_get_or_none k0 kw = VNone).
    { unfold attr_get_or_none. rewrite (proj2 (attr_get_none k0 kw)); [reflexivity|exact Hni]. }
    assert (Hhd : attr_get_or_none k ((k0, v0) :: kw) = if String.eqb k0 k then v0 else attr_get_or_none k kw).
    { unfold attr_get_or_none. cbn [attr_get]. destruct (String.eqb k0 k); reflexivity. }
    rewrite Hhd. destruct (kw_ok c k0) eqn:K0.
    + rewrite (unset_slot _ _ _ _ K0) in H. cbn [bind] in H. destruct (is_none (attr_get_or_none k0 a)) eqn:N0.
      * rewrite (IH _ _ k K ND' H). destruct (String.eqb k0 k) eqn:Q.
        -- apply String.eqb_eq in Q. subst k0. rewrite N0. unfold attr_get_or_none at 1 3. rewrite attr_get_set_same.
           destruct (is_none v0) eqn:Nv; [|reflexivity]. apply is_none_true in Nv. rewrite Hk0. congruence.
        -- apply String.eqb_neq in Q. unfold attr_get_or_none at 1 3. rewrite attr_get_set_other by congruence. reflexivity.
      * rewrite (IH _ _ k K ND' H). destruct (String.eqb k0 k) eqn:Q; [|reflexivity].
        apply String.eqb_eq in Q. subst k0. rewrite N0. reflexivity.
    + apply bind_ok in H as (n & _ & H). destruct n; [discriminate|]. rewrite (IH _ _ k K ND' H).
      destruct (String.eqb_spec k0 k) as [->|]; [congruence|reflexivity].
Qed.

Lemma mapM_keys {A} (f : string -> result (string * A)) l r :
  (forall k x, f k = Ok x -> fst x = k) -> mapM f l = Ok r -> map fst r = l.
Proof.
  intros Hf. revert r. induction l as [|k l IH]; intros r H; cbn [mapM] in H.
  - apply Ok_inj in H. subst. reflexivity.
  - apply bind_ok in H as (x & Hx & H). apply bind_ok in H as (r' & Hr & H). apply Ok_inj in H. subst r.
    cbn [map]. rewrite (Hf _ _ Hx), (IH _ Hr). reflexivity.
Qed.
Lemma load_slots_keys rec c s a : load_slots rec c s = Ok a -> map fst a = slot_names c.
Proof.
  assert (G : forall kvs, (match mapM (load_slot rec c kvs) (slot_names c) with
              | Err EFuel => Err EFuel | Err e => if is_field_error e then Err e else Err EMessageError | Ok a => Ok a end) = Ok a ->
              map fst a = slot_names c).
  { intros kvs H. destruct (mapM _ _) as [r|e] eqn:M.
    - apply Ok_inj in H. subst r. eapply mapM_keys; [|exact M]. intros k x. unfold load_slot.
      destruct (dict_get _ _); intros Hx; [apply bind_ok in Hx as (v & _ & Hx)|]; apply Ok_inj in Hx; subst; reflexivity.
    - exfalso. destruct e; cbn in H; discriminate. }
  unfold load_slots. destruct c; try apply G. intros H. apply Ok_inj in H. subst. reflexivity.
Qed.
Lemma load_attrs_keys n c s a : load_attrs n c s = Ok a -> map fst a = slot_names c.
Proof. destruct n; [discriminate|]. cbn [load_attrs]. apply load_slots_keys. Qed.
Lemma version_not_slot c : ~ In "_version"%string (slot_names c).
Proof.
  intros H. assert (F : forallb (fun c => negb (existsb (String.eqb "_version") (slot_names c))) all_classes = true) by (vm_compute; reflexivity).
  pose proof (for_all_classes _ F c) as K. cbv beta in K. apply negb_true_iff in K.
  rewrite (proj2 (existsb_exists _ _)) in K; [discriminate|]. exists "_version"%string. split; [exact H|apply String.eqb_refl].
Qed.

(** the outcome of [deserialize_with_header] of the base class *)
Lemma base_load_ok E c ty ts enc data decf pub kw m : base_load E c ty ts enc data decf pub kw = Ok m <->
  exists payload s a a', decrypted decf enc (skipn 65 data) = Ok payload /\ loads (cdepth E) payload = Ok s /\
    load_attrs FUEL c s = Ok a /\ apply_kwargs (cr E) c kw a = Ok a' /\
    m = VMsg c (VInt ty) (VInt ts) (VBool enc) (VBytes (firstn 65 data)) (set_version E c (post_init c a')) /\
    check_sender E m payload pub = Ok tt.
Proof.
  unfold base_load, msg_init. cbv zeta. unfold SIG_LEN. split.
  - intros H. apply bind_ok in H as (payload & Hp & H). apply bind_ok in H as (s & Hs & H). apply bind_ok in H as (m' & Hm & H).
    apply bind_ok in H as ([] & Hc & H). apply Ok_inj in H. subst m'.
    apply bind_ok in Hm as (a & Ha & Hm). apply bind_ok in Hm as (a' & Ha' & Hm). apply Ok_inj in Hm. subst m.
    exists payload, s, a, a'. auto 10.
  - intros (payload & s & a & a' & Hp & Hs & Ha & Ha' & Hm & Hc). rewrite Hp. cbn [bind]. rewrite Hs. cbn [bind]. rewrite Ha. cbn [bind].
    rewrite Ha'. cbn [bind]. rewrite <- Hm, Hc. reflexivity.
Qed.
Lemma class_load_msg E c ty ts enc data decf pub m : class_load E c ty ts enc data decf pub = Ok m ->
  exists sig a, m = VMsg c (VInt ty) (VInt ts) (VBool enc) (VBytes sig) a.
Proof.
  assert (G : forall data kw, base_load E c ty ts enc data decf pub kw = Ok m -> exists sig a, m = VMsg c (VInt ty) (VInt ts) (VBool enc) (VBytes sig) a).
  { intros d kw H. apply base_load_ok in H as (? & ? & ? & ? & _ & _ & _ & _ & -> & _). eauto. }
  destruct c; cbn [class_load is_task_message]; try (intros H; apply bind_ok in H as (m' & H & H'); apply Ok_inj in H'; subst m'; eapply G; exact H);
    try (intros H; apply bind_ok in H as (m' & H & H'); apply bind_ok in H' as ([] & _ & H'); try (apply bind_ok in H' as ([] & _ & H'); apply bind_ok in H' as ([] & _ & H'));
         apply Ok_inj in H'; subst m'; eapply G; exact H).
  destruct (unpack32p _) as [|[]]; try discriminate. intros H. apply bind_ok in H as ([] & _ & H). eapply G, H.
Qed.

(** what happens after construction, for everything but Hello *)
Definition vet (E : env) (c : mcls) (m : pyval) : result unit :=
  if is_task_message c then
    do _ <- is_valid m;
    match c with MTaskToCompute => do _ <- verify_ethsig E m; validate_taskid m | _ => Ok tt end
  else Ok tt.
Lemma class_load_split E c ty ts enc data decf pub : c <> MHello ->
  class_load E c ty ts enc data decf pub = do m <- base_load E c ty ts enc data decf pub []; do _ <- vet E c m; Ok m.
Proof.
  intros N. unfold vet. destruct c; try congruence; cbn [class_load is_task_message]; destruct (base_load _ _ _ _ _ _ _ _ _) as [m|e]; cbn [bind];
    try reflexivity; destruct (is_valid m); cbn [bind]; try reflexivity; destruct (verify_ethsig E m); cbn [bind]; reflexivity.
Qed.
Lemma unpack32p_err b e : unpack32p b = Err e -> e = EStructError.
Proof. unfold unpack32p. destruct (negb _); [congruence|]. destruct b; [congruence|discriminate]. Qed.
Lemma class_load_hello E ty ts enc data decf pub m : class_load E MHello ty ts enc data decf pub = Ok m <->
  exists v, unpack32p (slice_last 32 data) = Ok v /\ verify_version (our_version E) (ascii_decode v) = Ok tt /\
    base_load E MHello ty ts enc (firstn (List.length data - 32) data) decf pub [("_version"%string, VStr (ascii_decode v))] = Ok m.
Proof.
  cbn [class_load]. unfold VERSION_LENGTH. split.
  - destruct (unpack32p _) as [v|[]]; try discriminate. intros H. apply bind_ok in H as ([] & Hv & H). eauto.
  - intros (v & -> & Hv & H). rewrite Hv. exact H.
Qed.

Definition body' (c : mcls) (data : bytes) : bytes :=
  match c with MHello => firstn (List.length data - 32) data | _ => data end.
Lemma base_load_sender E c ty ts enc data decf pub kw m : base_load E c ty ts enc data decf pub kw = Ok m <->
  base_load E c ty ts enc data decf None kw = Ok m /\
  exists payload, decrypted decf enc (skipn 65 data) = Ok payload /\ check_sender E m payload pub = Ok tt.
Proof.
  rewrite !base_load_ok. split.
  - intros (payload & s & a & a' & Hp & Hs & Ha & Ha' & Hm & Hc). split; [|eauto].
    exists payload, s, a, a'. repeat (split; [assumption|]). subst m. reflexivity.
  - intros ((payload & s & a & a' & Hp & Hs & Ha & Ha' & Hm & _) & payload' & Hp' & Hc).
    exists payload, s, a, a'. repeat (split; [assumption|]). assert (payload' = payload) by congruence. subst. exact Hc.
Qed.
Lemma class_load_sender E c ty ts enc data decf pub m : class_load E c ty ts enc data decf pub = Ok m <->
  class_load E c ty ts enc data decf None = Ok m /\
  exists payload, decrypted decf enc (skipn 65 (body' c data)) = Ok payload /\ check_sender E m payload pub = Ok tt.
Proof.
  destruct (mcls_eqb c MHello) eqn:Q.
  - apply mcls_eqb_eq in Q. subst c. rewrite !class_load_hello. cbn [body']. split.
    + intros (v & Hv & Hg & H). apply base_load_sender in H as [H1 H2]. eauto 6.
    + intros ((v & Hv & Hg & H) & H2). exists v. split; [exact Hv|]. split; [exact Hg|]. apply base_load_sender. auto.
  - assert (N : c <> MHello) by (intros ->; discriminate Q). rewrite !class_load_split by exact N.
    replace (body' c data) with data by (destruct c; reflexivity || congruence). split.
    + intros H. apply bind_ok in H as (m' & H & H'). apply bind_ok in H' as ([] & Hv & H'). apply Ok_inj in H'. subst m'.
      apply base_load_sender in H as [H1 H2]. split; [|exact H2]. rewrite H1. cbn [bind]. rewrite Hv. reflexivity.
    + intros (H & H2). apply bind_ok in H as (m' & H & H'). apply bind_ok in H' as ([] & Hv & H'). apply Ok_inj in H'. subst m'.
      rewrite (proj2 (base_load_sender E c ty ts enc data decf pub [] m) (conj H H2)). cbn [bind]. rewrite Hv. reflexivity.
Qed.

(** the version a loaded Hello carries *)
Lemma hello_version E ty ts enc data decf pub sig a v kw : kw = [("_version"%string, VStr v)] ->
  base_load E MHello ty ts enc data decf pub kw = Ok (VMsg MHello (VInt ty) (VInt ts) (VBool enc) (VBytes sig) a) ->
  attr_get "_version" a = Some (VStr v).
Proof.
  intros -> H. apply base_load_ok in H as (p & s & a0 & a1 & _ & _ & Ha & Ha1 & Hm & _).
  assert (a = set_version E MHello (post_init MHello a1)) as -> by congruence. cbn [post_init set_version].
  assert (N : attr_get "_version" a0 = None).
  { apply attr_get_none. rewrite (load_attrs_keys _ _ _ _ Ha). apply version_not_slot. }
  cbn [apply_kwargs] in Ha1. rewrite (unset_slot _ MHello) in Ha1 by reflexivity. unfold attr_get_or_none in Ha1. rewrite N in Ha1. cbn [bind is_none] in Ha1.
  change (kw_ok MHello "_version") with true in Ha1. cbv iota in Ha1. apply Ok_inj in Ha1. subst a1.
  rewrite attr_get_set_same. apply attr_get_set_same.
Qed.
Lemma ascii_replace_decode v : ascii_replace (ascii_decode v) = map (fun x => if b2z x <? 128 then x else x3f) v.
Proof.
  unfold ascii_replace, ascii_decode. rewrite map_map. apply map_ext. intros x. pose proof (b2z_range x).
  destruct (b2z x <? 128) eqn:Q.
  - replace ((0 <=? b2z x) && (b2z x <? 128)) with true by lia. apply z2b_b2z.
  - reflexivity.
Qed.

Lemma body_skip c msg : body' c (skipn 11 msg) = body c msg.
Proof. destruct c; try reflexivity. cbn [body' body]. rewrite skipn_length. reflexivity. Qed.

Lemma dumps_ints a b : 0 <= a < 2 ^ 64 -> 0 <= b < 2 ^ 64 -> exists h, dumps (VList [VInt a; VInt b]) = Ok h.
Proof.
  assert (Hi : forall z, 0 <= z < 2 ^ 64 -> exists x, enc (VInt z) = Some x).
  { intros z Hz. cbn [enc]. unfold enc_int, enc_head. replace (0 <=? z) with true by lia.
    replace (z <=? cbor_uint_max) with true by (unfold cbor_uint_max; lia).
    repeat match goal with |- context [if ?b then _ else _] => let Q := fresh "Q" in destruct b eqn:Q end; eauto; exfalso; lia. }
  intros Hx Hy. destruct (Hi a Hx) as [bx Ex], (Hi b Hy) as [b2 E2]. unfold dumps.
  cbn [enc fold_right List.length] in *. rewrite Ex, E2. vm_compute enc_head. cbn [oapp]. eauto.
Qed.
(** *** success with a sender key is success without plus a matching recovery *)
Lemma sender_exact E now msg decf ct k m : k <> [] ->
  deserialize E now msg decf ct (Some k) = Ok m <->
  deserialize E now msg decf ct None = Ok m /\
  exists ty ts enc c payload sig a h,
    m = VMsg c (VInt ty) (VInt ts) (VBool enc) (VBytes sig) a /\
    unpack_header (firstn 11 msg) = Ok (ty, ts, enc) /\ getitem library ty = Ok c /\
    decrypted decf enc (skipn 65 (body c msg)) = Ok payload /\ dumps (VList [VInt ty; VInt ts]) = Ok h /\
    (signs c = true -> List.length k = 64%nat /\
       recover (cr E) (firstn 65 (body c msg))
         (sha3_256 (cr E) (sha1 (cr E) (h ++ payload) ++ match c with MHello => hello_suffix msg | _ => [] end)) = Some (x04 :: k)).
Proof.
  intros Hk.
  assert (Hc : forall ty ts enc c a payload h sig, dumps (VList [VInt ty; VInt ts]) = Ok h ->
     (c = MHello -> version_bytes a = Ok (hello_suffix msg)) ->
     check_sender E (VMsg c (VInt ty) (VInt ts) (VBool enc) (VBytes sig) a) payload (Some k) = Ok tt <->
     (signs c = true -> List.length k = 64%nat /\
       recover (cr E) sig (sha3_256 (cr E) (sha1 (cr E) (h ++ payload) ++ match c with MHello => hello_suffix msg | _ => [] end)) = Some (x04 :: k))).
  { intros ty ts enc c a payload h sig Hh Hv. cbn [check_sender]. destruct k as [|k0 k']; [congruence|]. cbn [key_given andb].
    destruct (signs c); [|split; [discriminate|reflexivity]]. unfold hash_payload. rewrite Hh. cbn [bind]. cbv zeta.
    assert (G : forall d, ecdsa_verify (cr E) (VBytes (k0 :: k')) (VBytes sig) d = Ok tt <->
        (true = true -> List.length (k0 :: k') = 64%nat /\ recover (cr E) sig (sha3_256 (cr E) d) = Some (x04 :: k0 :: k'))).
    { intros d. rewrite ecdsa_verify_ok. split.
      - intros (L & sg & Q & R). inversion Q. subst sg. auto.
      - intros H. destruct (H eq_refl). eauto. }
    destruct c; try (cbn [bind]; rewrite app_nil_r; apply G). rewrite (Hv eq_refl). cbn [bind]. apply G. }
  assert (HV : forall ty ts enc c sig a, class_load E c ty ts enc (skipn 11 msg) decf None = Ok (VMsg c (VInt ty) (VInt ts) (VBool enc) (VBytes sig) a) ->
     sig = firstn 65 (body c msg) /\ (c = MHello -> version_bytes a = Ok (hello_suffix msg))).
  { intros ty ts enc c sig a H. destruct (mcls_eqb c MHello) eqn:Q.
    - apply mcls_eqb_eq in Q. subst c. apply class_load_hello in H as (v & Hv & _ & H).
      pose proof (hello_version _ _ _ _ _ _ _ _ _ _ _ eq_refl H) as HA.
      apply base_load_ok in H as (? & ? & ? & ? & _ & _ & _ & _ & Hm & _). rewrite <- body_skip. cbn [body']. split; [congruence|].
      intros _. unfold version_bytes. rewrite HA. cbn [str_of]. rewrite ascii_replace_decode. unfold hello_suffix. rewrite Hv. reflexivity.
    - assert (N : c <> MHello) by (intros ->; discriminate Q). rewrite class_load_split in H by exact N.
      apply bind_ok in H as (m' & H & H'). apply bind_ok in H' as ([] & _ & H'). apply Ok_inj in H'. subst m'.
      apply base_load_ok in H as (? & ? & ? & ? & _ & _ & _ & _ & Hm & _).
      split; [|congruence]. replace (body c msg) with (skipn 11 msg) by (destruct c; reflexivity || congruence). congruence. }
  split.
  - intros H. apply deserialize_ok in H as (L & ty & ts & enc & c & Hu & T & Hg & Ht & H).
    apply class_load_sender in H as (H & payload & Hp & Hs). rewrite body_skip in Hp.
    split; [apply deserialize_ok; split; [exact L|]; exists ty, ts, enc, c; auto|].
    destruct (class_load_msg _ _ _ _ _ _ _ _ _ H) as (sig & a & ->). apply HV in H as [-> HA].
    destruct (dumps_ints ty ts) as [h Hh].
    { apply registry_number in Hg. subst ty. pose proof (type_of_range c). lia. }
    { lia. }
    exists ty, ts, enc, c, payload, (firstn 65 (body c msg)), a, h. repeat (split; [assumption || reflexivity|]).
    eapply Hc; eassumption.
  - intros (H & ty & ts & enc & c & payload & sig & a & h & Hm & Hu & Hg & Hp & Hh & Hs).
    apply deserialize_ok in H as (L & ty' & ts' & enc' & c' & Hu' & T & Hg' & Ht & H).
    rewrite Hu in Hu'. apply Ok_inj in Hu'. assert (ty' = ty /\ ts' = ts /\ enc' = enc) as (-> & -> & ->) by (repeat split; congruence).
    assert (c' = c) by congruence. subst c'.
    apply deserialize_ok. split; [exact L|]. exists ty, ts, enc, c. repeat (split; [assumption|]).
    apply class_load_sender. split; [exact H|]. exists payload. rewrite body_skip. split; [exact Hp|]. subst m.
    apply HV in H as [-> HA]. eapply Hc; eassumption.
Qed.
(** a key that does not match is refused *)
Lemma sender_mismatch E now msg decf ct k m : k <> [] -> deserialize E now msg decf ct None = Ok m ->
  deserialize E now msg decf ct (Some k) = Ok m \/
  deserialize E now msg decf ct (Some k) = Err EInvalidSignature \/ deserialize E now msg decf ct (Some k) = Err EInvalidKeys.
Proof.
  intros Hk H. destruct (deserialize E now msg decf ct (Some k)) as [m'|e] eqn:D.
  - left. pose proof D as D'. apply sender_exact in D' as [D' _]; [|exact Hk]. congruence.
  - right. apply deserialize_ok in H as (L & ty & ts & enc & c & Hu & T & Hg & Ht & H).
    assert (D' : class_load E c ty ts enc (skipn 11 msg) decf (Some k) = Err e).
    { rewrite <- D. symmetry. rewrite (deserialize_dispatch _ _ _ _ _ _ _ _ _ _ L Hu T Hg).
      destruct ct; cbn [andb]; [|reflexivity]. specialize (Ht eq_refl).
      replace (ts * 1000000 <? now - 600000000) with false by lia. replace (now + 300000000 <? ts * 1000000) with false by lia. reflexivity. }
    assert (B : forall data kw (P : pyval -> Prop), (c = MHello -> exists v, kw = [("_version"%string, VStr v)]) ->
        base_load E c ty ts enc data decf None kw = Ok m ->
        base_load E c ty ts enc data decf (Some k) kw = Ok m \/ base_load E c ty ts enc data decf (Some k) kw = Err EInvalidSignature \/
        base_load E c ty ts enc data decf (Some k) kw = Err EInvalidKeys).
    { intros data kw _ Hkw B. pose proof B as B0. apply base_load_ok in B as (payload & s & a & a' & Hp & Hs & Ha & Ha' & Hm & _).
      unfold base_load, msg_init. cbv zeta. unfold SIG_LEN. rewrite Hp. cbn [bind]. rewrite Hs. cbn [bind]. rewrite Ha. cbn [bind]. rewrite Ha'. cbn [bind].
      rewrite <- Hm. destruct (check_sender E m payload (Some k)) as [[]|e0] eqn:K; cbn [bind]; [auto|]. right.
      rewrite Hm in K. cbn [check_sender] in K. destruct (key_given (Some k) && signs c); [|discriminate].
      destruct (hash_payload _ _ _ _ _ _) as [h|e1] eqn:Hh; cbn [bind] in K.
      - apply ecdsa_verify_err in K as [->| ->]; auto.
      - exfalso. unfold hash_payload in Hh. destruct (dumps_ints ty ts) as [d Hd].
        { apply registry_number in Hg. subst ty. pose proof (type_of_range c). lia. } { lia. }
        rewrite Hd in Hh. cbn [bind] in Hh. cbv zeta in Hh. destruct c; try discriminate Hh.
        destruct (Hkw eq_refl) as [v ->]. rewrite Hm in B0. apply hello_version with (v := v) in B0; [|reflexivity].
        unfold version_bytes in Hh. rewrite B0 in Hh. cbn [str_of bind] in Hh. discriminate. }
    assert (R : Ok m = Err e \/ e = EInvalidSignature \/ e = EInvalidKeys); [|destruct R as [R|[-> | ->]]; [discriminate| |]; auto].
    destruct (mcls_eqb c MHello) eqn:Q.
    + apply mcls_eqb_eq in Q. subst c. apply class_load_hello in H as (v & Hv & Hgt & H). cbn [class_load] in D'. unfold VERSION_LENGTH in D'.
      rewrite Hv in D'. cbv zeta in D'. rewrite Hgt in D'. cbn [bind] in D'.
      destruct (B _ _ (fun _ => True) (fun _ => ex_intro _ _ eq_refl) H) as [X|[X|X]]; rewrite X in D'; [left; exact D'| |]; right; [left|right]; congruence.
    + assert (N : c <> MHello) by (intros ->; discriminate Q). rewrite class_load_split in H, D' by exact N.
      apply bind_ok in H as (m' & H & H'). apply bind_ok in H' as ([] & Hv & H'). apply Ok_inj in H'. subst m'.
      destruct (B _ [] (fun _ => True) (fun F => False_ind _ (N F)) H) as [X|[X|X]]; rewrite X in D'; cbn [bind] in D';
        [rewrite Hv in D'; left; exact D'| |]; right; [left|right]; congruence.
Qed.
