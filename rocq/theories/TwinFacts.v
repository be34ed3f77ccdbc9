(** * The same message written and signed again in other bytes *)
From Verif Require Export ForwardFacts.

Lemma body_hello (msg : bytes) : body MHello msg = firstn (List.length (skipn 11 msg) - 32) (skipn 11 msg).
Proof. cbn [body]. rewrite skipn_length. reflexivity. Qed.
Lemma body_skips c (msg : bytes) : c <> MHello -> body c msg = skipn 11 msg.
Proof. intros N. destruct c; reflexivity || congruence. Qed.
Lemma twin_any E now msg decf ct k s c ty ts f sig a payload p' payload' : crypto_ok (cr E) -> signs c = true ->
  secret_of (cr E) s = Some s -> pub_of (cr E) s = Some k ->
  deserialize E now msg decf ct (Some k) = Ok (VMsg c ty ts (VBool f) sig a) -> decrypted decf f (skipn 65 (body c msg)) = Ok payload ->
  p' <> [] -> decrypted decf f p' = Ok payload' -> loads (cdepth E) payload' = loads (cdepth E) payload ->
  exists sig', List.length sig' = 65%nat /\
    deserialize E now (firstn 11 msg ++ sig' ++ p' ++ tail_of c msg) decf ct (Some k) = Ok (VMsg c ty ts (VBool f) (VBytes sig') a).
Proof.
  intros HC Sg Hs Hk H HB NP HD HL.
  assert (Lk : List.length k = 64%nat) by (eapply pub_len; eassumption).
  apply deserialize_ok in H as (L & ty0 & ts0 & enc0 & c0 & Hu & T & Hg & Ht & H).
  destruct (class_load_msg _ _ _ _ _ _ _ _ _ H) as (sg & a0 & Q).
  assert (c0 = c /\ ty = VInt ty0 /\ ts = VInt ts0 /\ enc0 = f /\ sig = VBytes sg /\ a0 = a) as (-> & -> & -> & -> & -> & ->) by (repeat split; congruence). clear Q.
  assert (L11 : List.length (firstn 11 msg) = 11%nat) by (apply firstn_length_le; lia).
  (* whatever the class, a hash exists for the new payload *)
  assert (HH : exists h, hash_payload E c (VInt ty0) (VInt ts0) a payload' = Ok h).
  { pose proof H as H'. apply class_load_sender in H' as (_ & q & _ & K). cbn [check_sender] in K. rewrite Sg in K.
    destruct k as [|k0 k']; [discriminate Lk|]. cbn [key_given andb] in K. apply bind_ok in K as (h & Hh & _).
    destruct (hash_parts _ _ _ _ _ _ _ Hh) as (d & tl & _ & _ & _ & HA). eexists. apply HA. }
  destruct HH as [h HH].
  destruct (sign_total _ HC s s (sha3_256 (cr E) h) Hs (sha3_len _ HC _)) as [sig' Hsig].
  destruct (sign_recover _ HC _ _ _ _ Hsig Hk) as [R Ls]. exists sig'. split; [exact Ls|].
  assert (CS : check_sender E (VMsg c (VInt ty0) (VInt ts0) (VBool f) (VBytes sig') a) payload' (Some k) = Ok tt).
  { cbn [check_sender]. rewrite Sg, HH. cbn [bind]. destruct k as [|k0 k']; [discriminate Lk|]. cbn [key_given andb]. apply ecdsa_verify_ok. eauto. }
  set (t := tail_of c msg).
  assert (P1 : firstn 11 (firstn 11 msg ++ sig' ++ p' ++ t) = firstn 11 msg) by (apply firstn_app_exact; exact L11).
  assert (P2 : skipn 11 (firstn 11 msg ++ sig' ++ p' ++ t) = sig' ++ p' ++ t) by (apply skipn_app_exact; exact L11).
  apply deserialize_ok. split.
  { rewrite !app_length, L11, Ls. destruct p'; [congruence|]. cbn [List.length]. lia. }
  exists ty0, ts0, f, c. rewrite P1, P2. repeat (split; [assumption|]).
  destruct (mcls_eqb c MHello) eqn:QH.
  - apply mcls_eqb_eq in QH. subst c. apply class_load_hello in H as (v & V1 & V2 & H).
    assert (L43 : List.length (slice_last 32 (skipn 11 msg)) = 32%nat).
    { unfold unpack32p in V1. destruct (Nat.eqb _ 32) eqn:L32; [|discriminate V1]. apply Nat.eqb_eq in L32. exact L32. }
    assert (T0 : t = slice_last 32 (skipn 11 msg)). { unfold t. cbn [tail_of]. symmetry. apply slice_last_skip. unfold slice_last in L43. rewrite !skipn_length in L43. lia. }
    assert (Lt : List.length t = 32%nat) by (rewrite T0; exact L43).
    apply class_load_hello. exists v.
    assert (SL : slice_last 32 (sig' ++ p' ++ t) = slice_last 32 (skipn 11 msg)).
    { rewrite app_assoc. rewrite <- Lt at 1. rewrite slice_last_app. exact T0. }
    rewrite SL. split; [exact V1|]. split; [exact V2|].
    assert (FN : firstn (List.length (sig' ++ p' ++ t) - 32) (sig' ++ p' ++ t) = sig' ++ p').
    { rewrite (app_assoc sig'). apply firstn_app_exact. rewrite (app_length (sig' ++ p')), Lt. lia. }
    rewrite FN. rewrite body_hello in HB.
    apply base_load_ok in H as (q & sl & a1 & a2 & Hp & Hsl & Ha & Ha' & Hm & _). assert (q = payload) by congruence. subst q.
    apply base_load_ok. exists payload', sl, a1, a2. split; [rewrite skipn_app_exact by exact Ls; exact HD|]. split; [congruence|]. split; [exact Ha|]. split; [exact Ha'|].
    split; [rewrite firstn_app_exact by exact Ls; congruence|exact CS].
  - assert (NH : c <> MHello) by (intros ->; discriminate QH).
    assert (t = []) as -> by (unfold t; destruct c; reflexivity || congruence). rewrite app_nil_r. rewrite (body_skips _ _ NH) in HB.
    rewrite class_load_split in H |- * by exact NH. apply bind_ok in H as (m & H & HV). apply bind_ok in HV as ([] & HV & Q). apply Ok_inj in Q. subst m.
    apply base_load_ok in H as (q & sl & a1 & a2 & Hp & Hsl & Ha & Ha' & Hm & _). assert (q = payload) by congruence. subst q.
    assert (B : base_load E c ty0 ts0 f (sig' ++ p') decf (Some k) [] = Ok (VMsg c (VInt ty0) (VInt ts0) (VBool f) (VBytes sig') a)).
    { apply base_load_ok. exists payload', sl, a1, a2. split; [rewrite skipn_app_exact by exact Ls; exact HD|]. split; [congruence|]. split; [exact Ha|]. split; [exact Ha'|].
      split; [rewrite firstn_app_exact by exact Ls; congruence|exact CS]. }
    rewrite B. cbn [bind]. rewrite (vet_sig E c _ _ _ (VBytes sig') (VBytes sg)), HV. reflexivity.
Qed.
(** with anything after the value *)
Lemma twin_any_junk E now msg decf ct k s c ty ts f sig a payload p' junk : crypto_ok (cr E) -> signs c = true ->
  secret_of (cr E) s = Some s -> pub_of (cr E) s = Some k -> junk <> [] ->
  deserialize E now msg decf ct (Some k) = Ok (VMsg c ty ts (VBool f) sig a) -> decrypted decf f (skipn 65 (body c msg)) = Ok payload ->
  payload_of c a = Ok payload -> p' <> [] -> decrypted decf f p' = Ok (payload ++ junk) ->
  exists sig' d tail, deserialize E now (firstn 11 msg ++ sig' ++ p' ++ tail_of c msg) decf ct (Some k) = Ok (VMsg c ty ts (VBool f) (VBytes sig') a) /\
    dumps (VList [ty; ts]) = Ok d /\ hash_tail c a tail /\
    (verify_signature E (VMsg c ty ts (VBool f) (VBytes sig') a) (VBytes k) = Ok tt ->
     broken (cr E) sig' k (d ++ payload ++ junk) (d ++ payload) tail).
Proof.
  intros HC Sg Hs Hk NJ H HB P NP HD.
  assert (LD : loads (cdepth E) (payload ++ junk) = loads (cdepth E) payload).
  { pose proof H as H'. apply deserialize_ok in H' as (_ & ty0 & ts0 & enc0 & c0 & _ & _ & _ & _ & H').
    destruct (class_load_msg _ _ _ _ _ _ _ _ _ H') as (sg & a0 & Q). assert (c0 = c /\ enc0 = f) as [-> ->] by (split; congruence).
    assert (LP : exists sl, loads (cdepth E) payload = Ok sl).
    { destruct (mcls_eqb c MHello) eqn:QH.
      - apply mcls_eqb_eq in QH. subst c. rewrite body_hello in HB. apply class_load_hello in H' as (v & _ & _ & H'). apply base_load_ok in H' as (q & sl & a1 & a2 & Hp & Hsl & _). exists sl. congruence.
      - assert (NH : c <> MHello) by (intros ->; discriminate QH). rewrite (body_skips _ _ NH) in HB. rewrite class_load_split in H' by exact NH. apply bind_ok in H' as (m & H' & _).
        apply base_load_ok in H' as (q & sl & a1 & a2 & Hp & Hsl & _). exists sl. congruence. }
    destruct LP as [sl LP]. rewrite LP. apply loads_junk. exact LP. }
  destruct (twin_any E now msg decf ct k s c ty ts f sig a payload p' (payload ++ junk) HC Sg Hs Hk H HB NP HD LD) as (sig' & Ls & D).
  assert (Nk : k <> []) by (intros ->; pose proof (pub_len _ HC _ _ Hk) as X; discriminate X).
  destruct (later _ _ _ _ _ _ _ _ _ _ _ _ Nk Sg D) as (sg & flag & p & d & tail & Q1 & Q2 & Hp & Hd & TL & _ & B).
  assert (sg = sig' /\ flag = f) as [-> ->] by (split; congruence).
  exists sig', d, tail. split; [exact D|]. split; [exact Hd|]. split; [exact TL|]. intros V.
  assert (L : (76 < List.length msg)%nat) by (apply deserialize_ok in H as [L _]; exact L).
  assert (L11 : List.length (firstn 11 msg) = 11%nat) by (apply firstn_length_le; lia).
  assert (X0 : skipn 65 (body c (firstn 11 msg ++ sig' ++ p' ++ tail_of c msg)) = p').
  { destruct (mcls_eqb c MHello) eqn:QH.
    - apply mcls_eqb_eq in QH. subst c. rewrite body_hello, skipn_app_exact by exact L11. rewrite app_assoc. cbn [tail_of].
      assert (L32 : List.length (slice_last 32 msg) = 32%nat) by (unfold slice_last; rewrite skipn_length; lia).
      rewrite firstn_app_exact by (rewrite (app_length (sig' ++ p')), L32; lia). apply skipn_app_exact. exact Ls.
    - assert (NH : c <> MHello) by (intros ->; discriminate QH). rewrite (body_skips _ _ NH), skipn_app_exact by exact L11. rewrite skipn_app_exact by exact Ls.
      assert (tail_of c msg = []) as -> by (destruct c; reflexivity || congruence). apply app_nil_r. }
  rewrite X0, HD in Hp. apply Ok_inj in Hp. subst p.
  destruct (B V) as (p & Pp & B'). assert (p = payload) by congruence. subst p. destruct B' as [X|B']; [exfalso|exact B'].
  apply (f_equal (@List.length byte)) in X. rewrite app_length in X. destruct junk; [congruence|]. cbn [List.length] in X. lia.
Qed.
