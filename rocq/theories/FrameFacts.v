(** * Facts about frames: header codec, layout, signatures on serialization,
    admission of received frames. *)
From Verif Require Export Wire ContProofs EciesProofs.

(** ** Header codec *)
Lemma pack_u64_ok v z : pack_u64 v = Ok z -> exists n, 0 <= n < 2 ^ 64 /\ z = be_enc 8 n /\
  (v = VInt n \/ exists b, v = VBool b /\ n = if b then 1 else 0).
Proof.
  unfold pack_u64. destruct v; try discriminate.
  - intros H. exists (if b then 1 else 0). destruct b; cbn in H; apply Ok_inj in H; subst; (split; [lia|]); split; eauto.
  - destruct ((0 <=? z0) && (z0 <? 2 ^ 64)) eqn:R; [|discriminate]. intros H. apply Ok_inj in H.
    exists z0. split; [lia|]. auto.
Qed.
Lemma pack_u64_int n : 0 <= n < 2 ^ 64 -> pack_u64 (VInt n) = Ok (be_enc 8 n).
Proof. intros H. unfold pack_u64. replace ((0 <=? n) && (n <? 2 ^ 64)) with true by lia. reflexivity. Qed.

Definition flag (b : bool) : byte := if b then x01 else x00.
Lemma header_layout ty ts b : 0 <= ty < 2 ^ 16 -> 0 <= ts < 2 ^ 64 ->
  pack_header ty (VInt ts) (VBool b) = Ok (be_enc 2 ty ++ be_enc 8 ts ++ [flag b]).
Proof.
  intros H1 H2. unfold pack_header. replace ((0 <=? ty) && (ty <? 2 ^ 16)) with true by lia. cbn [bind].
  rewrite pack_u64_int by lia. reflexivity.
Qed.
Lemma unpack_layout ty ts x : 0 <= ty < 2 ^ 16 -> 0 <= ts < 2 ^ 64 ->
  unpack_header (be_enc 2 ty ++ be_enc 8 ts ++ [x]) = Ok (ty, ts, negb (byte_eqb x x00)).
Proof.
  intros H1 H2. unfold unpack_header.
  assert (L : List.length (be_enc 2 ty ++ be_enc 8 ts ++ [x]) = 11%nat) by (rewrite !app_length, !be_enc_length; reflexivity).
  rewrite L. change (Nat.eqb 11 HDR_LEN) with true. cbv iota.
  rewrite firstn_app_exact by apply be_enc_length. rewrite skipn_app_exact by apply be_enc_length.
  rewrite firstn_app_exact by apply be_enc_length. rewrite app_assoc.
  rewrite skipn_app_exact by (rewrite app_length, !be_enc_length; reflexivity).
  rewrite !be_dec_enc_small by (change (256 ^ Z.of_nat 2) with (2 ^ 16); change (256 ^ Z.of_nat 8) with (2 ^ 64); lia).
  unfold bytes_eqb. cbn [list_eqb]. rewrite andb_true_r. reflexivity.
Qed.
Lemma header_roundtrip ty ts b : 0 <= ty < 2 ^ 16 -> 0 <= ts < 2 ^ 64 ->
  exists h, pack_header ty (VInt ts) (VBool b) = Ok h /\ List.length h = 11%nat /\ unpack_header h = Ok (ty, ts, b).
Proof.
  intros H1 H2. exists (be_enc 2 ty ++ be_enc 8 ts ++ [flag b]). split; [apply header_layout; assumption|].
  split; [rewrite !app_length, !be_enc_length; reflexivity|]. rewrite unpack_layout by assumption. destruct b; reflexivity.
Qed.
Lemma header_out_of_range ty ts b h : pack_header ty (VInt ts) b = Ok h -> 0 <= ty < 2 ^ 16 /\ 0 <= ts < 2 ^ 64.
Proof.
  unfold pack_header. destruct ((0 <=? ty) && (ty <? 2 ^ 16)) eqn:R; cbn [bind]; [|discriminate].
  destruct (pack_u64 (VInt ts)) eqn:P; cbn [bind]; [|discriminate]. intros _.
  apply pack_u64_ok in P as (n & Hn & _ & [E|(b' & E & _)]); [|discriminate]. inversion E. subst. lia.
Qed.
Lemma unpack_exact h : (List.length h = 11%nat -> exists ty ts b, unpack_header h = Ok (ty, ts, b) /\ 0 <= ty < 2 ^ 16 /\ 0 <= ts < 2 ^ 64) /\
  (List.length h <> 11%nat -> unpack_header h = Err EHeaderError).
Proof.
  unfold unpack_header. split; intros L.
  - rewrite L. change (Nat.eqb 11 HDR_LEN) with true. cbv iota. do 3 eexists. split; [reflexivity|].
    pose proof (be_dec_range (firstn 2 h)) as R1. pose proof (be_dec_range (firstn 8 (skipn 2 h))) as R2.
    unfold blen in *. rewrite firstn_length in R1, R2. rewrite skipn_length in R2. rewrite L in *.
    change (256 ^ Z.of_nat (Nat.min 2 11)) with (2 ^ 16) in R1. change (256 ^ Z.of_nat (Nat.min 8 (11 - 2))) with (2 ^ 64) in R2. lia.
  - apply Nat.eqb_neq in L. unfold HDR_LEN. rewrite L. reflexivity.
Qed.
(** repacking an unpacked header gives the bytes back, up to the flag byte *)
Lemma unpack_pack h ty ts b : unpack_header h = Ok (ty, ts, b) ->
  exists x, h = be_enc 2 ty ++ be_enc 8 ts ++ [x] /\ (b = false <-> x = x00).
Proof.
  unfold unpack_header. destruct (Nat.eqb (List.length h) HDR_LEN) eqn:L; [|discriminate]. apply Nat.eqb_eq in L. unfold HDR_LEN in L.
  intros H. apply Ok_inj in H. assert (be_dec (firstn 2 h) = ty /\ be_dec (firstn 8 (skipn 2 h)) = ts /\ negb (bytes_eqb (skipn 10 h) [x00]) = b)
    as (E1 & E2 & E3) by (repeat split; congruence). clear H.
  assert (S : List.length (skipn 10 h) = 1%nat) by (rewrite skipn_length; lia).
  destruct (skipn 10 h) as [|x [|y r]] eqn:K; try discriminate S. exists x. split.
  - rewrite <- E1, <- E2. rewrite !be_enc_dec by (rewrite ?firstn_length, ?skipn_length; lia).
    rewrite <- K. replace (skipn 10 h) with (skipn 8 (skipn 2 h)) by (rewrite skipn_skipn'; reflexivity).
    rewrite firstn_skipn, firstn_skipn. reflexivity.
  - subst b. rewrite negb_false_iff, bytes_eqb_eq. split; [intros F; congruence|intros ->; reflexivity].
Qed.

(** ** Serialization *)
Definition sig_of (m : pyval) : pyval := match m with VMsg _ _ _ _ sig _ => sig | _ => VNone end.
Definition given {A} (o : option A) : bool := match o with Some _ => true | None => false end.

Lemma serialize_ok E c ty ts enc sig a key encf m' bs :
  serialize E (VMsg c ty ts enc sig a) key encf = (m', Ok bs) ->
  exists h s payload p v,
    m' = VMsg c ty ts (VBool (encrypts c && given encf)) (VBytes s) a /\
    bs = h ++ s ++ p ++ v /\
    pack_header (type_of c) ts (VBool (encrypts c && given encf)) = Ok h /\
    payload_of c a = Ok payload /\
    (match encf with Some f => if encrypts c then f payload else Ok payload | None => Ok payload end) = Ok p /\
    (match c with MHello => exists w, version_bytes a = Ok w /\ v = pack32p w | _ => v = [] end) /\
    (sig <> VNone -> sig = VBytes s) /\
    (key_given key = true -> truthy sig = false) /\
    (sig = VNone -> key_given key && signs c = false -> s = zeros 65) /\
    (sig = VNone -> signs c = true -> forall k, key = Some k -> key_given key = true ->
       exists d, hash_payload E c ty ts a payload = Ok d /\ ecdsa_sign (cr E) k d = Ok s).
Proof.
  cbn [serialize]. destruct (key_given key && truthy sig) eqn:K; [intros H; discriminate (f_equal snd H)|].
  destruct (payload_of c a) as [payload|e] eqn:P; [|intros H; discriminate (f_equal snd H)].
  set (enc' := VBool (encrypts c && match encf with Some _ => true | None => false end)).
  match goal with |- (match ?s with _ => _ end = _ -> _) => set (sg := s) end.
  destruct sg as [sig'|e] eqn:S; [|intros H; discriminate (f_equal snd H)]. subst sg. cbv beta iota.
  intros H. pose proof (f_equal fst H) as H1. apply (f_equal snd) in H. cbn [fst snd] in H, H1.
  apply bind_ok in H as (p & Hp & H). apply bind_ok in H as (h & Hh & H). apply bind_ok in H as (s & Hs & H).
  apply bind_ok in H as (v & Hv & H). apply Ok_inj in H.
  destruct sig' as [| | | | |s'| | | | | | | |]; try discriminate Hs. apply Ok_inj in Hs. subst s'.
  exists h, s, payload, p, v. fold (given encf) in enc'. subst enc'.
  split; [symmetry; exact H1|]. split; [symmetry; exact H|]. split; [exact Hh|]. split; [reflexivity|]. split; [exact Hp|].
  split. { destruct c; try (apply Ok_inj in Hv; symmetry; exact Hv). apply bind_ok in Hv as (w & Hw & Hv). apply Ok_inj in Hv. eauto. }
  split. { intros Hn. destruct (is_none sig) eqn:N; [apply is_none_true in N; congruence|]. apply Ok_inj in S. exact S. }
  split. { intros Hk. rewrite Hk in K. exact K. }
  split. { intros -> Hk. cbn [is_none] in S. rewrite Hk in S. apply Ok_inj in S. unfold SIG_LEN in S. congruence. }
  intros -> Hsg k -> Hk. cbn [is_none] in S. rewrite Hk, Hsg in S. cbn [andb] in S.
  apply bind_ok in S as (d & Hd & S). apply bind_ok in S as (s' & Hs' & S). apply Ok_inj in S. exists d. split; [exact Hd|]. congruence.
Qed.

(** ecdsa signatures have 65 bytes and verify under the signer's public key *)
Lemma ecdsa_sign_ok C k d s : crypto_ok C -> ecdsa_sign C k d = Ok s ->
  exists sk pk, secret_of C k = Some sk /\ pub_of C sk = Some pk /\ List.length s = 65%nat /\ ecdsa_verify C (VBytes pk) (VBytes s) d = Ok tt.
Proof.
  intros HC. unfold ecdsa_sign. destruct (secret_of C k) as [sk|] eqn:Ek; [|discriminate].
  destruct (sign_rec C sk (sha3_256 C d)) as [sg|] eqn:Es; [|discriminate]. intros H. apply Ok_inj in H. subst sg.
  destruct (pub_total _ HC _ _ Ek) as [pk Hp]. exists sk, pk. split; [reflexivity|]. split; [exact Hp|].
  destruct (sign_recover _ HC _ _ _ _ Es Hp) as [R L]. split; [exact L|].
  unfold ecdsa_verify. pose proof (pub_len _ HC _ _ Hp) as Lp. unfold blen. rewrite Lp.
  change (Z.of_nat 64 =? 64) with true. cbv iota. rewrite R, bytes_eqb_refl. reflexivity.
Qed.
Lemma ecdsa_sign_total C k d sk : crypto_ok C -> secret_of C k = Some sk -> exists s, ecdsa_sign C k d = Ok s.
Proof.
  intros HC Ek. unfold ecdsa_sign. rewrite Ek. destruct (sign_total _ HC k sk (sha3_256 C d) Ek (sha3_len _ HC _)) as [s Hs].
  rewrite Hs. eauto.
Qed.
Lemma ecdsa_verify_ok C p s d : ecdsa_verify C (VBytes p) s d = Ok tt <->
  List.length p = 64%nat /\ exists sg, s = VBytes sg /\ recover C sg (sha3_256 C d) = Some (x04 :: p).
Proof.
  unfold ecdsa_verify. unfold blen. destruct (Z.of_nat (List.length p) =? 64) eqn:L.
  - destruct s; try (split; [discriminate|intros (_ & sg & E & _); discriminate E]).
    destruct (recover C b (sha3_256 C d)) as [k|] eqn:R.
    + destruct (bytes_eqb k (x04 :: p)) eqn:B.
      * apply bytes_eqb_eq in B. subst k. split; [intros _; split; [lia|eauto]|reflexivity].
      * split; [discriminate|]. intros (_ & sg & E & R'). inversion E; subst sg. rewrite R in R'. apply Some_inj in R'.
        subst k. rewrite bytes_eqb_refl in B. discriminate.
    + split; [discriminate|]. intros (_ & sg & E & R'). inversion E; subst sg. congruence.
  - split; [discriminate|]. intros (L' & _). lia.
Qed.
Lemma ecdsa_verify_err C p s d e : ecdsa_verify C (VBytes p) s d = Err e -> e = EInvalidKeys \/ e = EInvalidSignature.
Proof.
  unfold ecdsa_verify. destruct (blen p =? 64); [|intros H; inversion H; auto].
  destruct s; try (intros H; injection H as <-; auto; fail). destruct (recover _ _ _); [|intros H'; inversion H'; auto].
  destruct (bytes_eqb _ _); [discriminate|]. intros H'; inversion H'; auto.
Qed.

(** *** frame layout *)
Lemma frame_layout E c ty ts enc sig a key encf m' bs : crypto_ok (cr E) ->
  serialize E (VMsg c ty ts enc sig a) key encf = (m', Ok bs) ->
  (forall s, sig = VBytes s -> List.length s = 65%nat) ->
  exists s payload sealed suffix,
    sig_of m' = VBytes s /\ payload_of c a = Ok payload /\
    (if encrypts c then match encf with Some f => f payload | None => Ok payload end else Ok payload) = Ok sealed /\
    (c <> MHello -> suffix = []) /\ (c = MHello -> List.length suffix = 32%nat) /\
    List.length s = 65%nat /\
    (exists n, num_of ts = Some (FFin n 0) /\ unpack_header (firstn 11 bs) = Ok (type_of c, n, encrypts c && given encf)) /\
    firstn 65 (skipn 11 bs) = s /\ skipn 76 bs = sealed ++ suffix /\
    (sig = VNone -> key_given key && signs c = false -> s = repeat x00 65).
Proof.
  intros HC H HL. apply serialize_ok in H as (h & s & payload & p & v & -> & -> & Hh & Hpay & Hp & Hv & Hs1 & Hs2 & Hs3 & Hs4).
  assert (L : List.length s = 65%nat).
  { destruct (is_none sig) eqn:N.
    - apply is_none_true in N. destruct (key_given key && signs c) eqn:K.
      + apply andb_true_iff in K as [K1 K2]. destruct key as [k|]; [|discriminate K1].
        destruct (Hs4 N K2 k eq_refl K1) as (d & _ & Hd). apply ecdsa_sign_ok in Hd as (? & ? & _ & _ & L & _); assumption.
      + rewrite (Hs3 N eq_refl). reflexivity.
    - apply HL, Hs1. intros ->. discriminate N. }
  exists s, payload, p, v. cbn [sig_of]. split; [reflexivity|]. split; [exact Hpay|].
  split; [destruct encf; destruct (encrypts c); exact Hp|].
  split; [intros Hc; destruct c; try exact Hv; congruence|].
  split; [intros ->; destruct Hv as (w & _ & ->); apply pack32p_length|].
  split; [exact L|].
  assert (exists n, num_of ts = Some (FFin n 0) /\ 0 <= n < 2 ^ 64 /\ h = be_enc 2 (type_of c) ++ be_enc 8 n ++ [flag (encrypts c && given encf)])
    as (n & Hn & Rn & ->).
  { unfold pack_header in Hh. apply bind_ok in Hh as (t & Ht & Hh). apply bind_ok in Hh as (q & Hq & Hh). apply Ok_inj in Hh.
    destruct (_ && _) in Ht; [|discriminate]. apply Ok_inj in Ht. apply pack_u64_ok in Hq as (n & Rn & -> & Hn).
    exists n. split; [destruct Hn as [->|(b & -> & ->)]; reflexivity|]. split; [exact Rn|]. subst. reflexivity. }
  set (h := be_enc 2 (type_of c) ++ be_enc 8 n ++ [flag (encrypts c && given encf)]).
  assert (Lh : List.length h = 11%nat) by (unfold h; rewrite !app_length, !be_enc_length; reflexivity).
  split. { exists n. split; [exact Hn|]. rewrite firstn_app_exact by exact Lh. unfold h. rewrite unpack_layout by (auto using type_of_range).
           destruct (encrypts c && given encf); reflexivity. }
  split. { rewrite skipn_app_exact by exact Lh. apply firstn_app_exact, L. }
  split. { rewrite !app_assoc, <- app_assoc, skipn_app_exact by (rewrite app_length; lia). reflexivity. }
  exact Hs3.
Qed.

(** *** the message after serialization *)
Lemma serialize_fst E m key encf : match m with
  | VMsg c ty ts enc sig a => exists enc' sig', fst (serialize E m key encf) = VMsg c ty ts enc' sig' a /\ (sig <> VNone -> sig' = sig)
  | _ => fst (serialize E m key encf) = m end.
Proof.
  destruct m; try reflexivity. cbn [serialize]. destruct (key_given key && truthy m4); [cbn; eauto|].
  destruct (payload_of c attrs); [|cbn; eauto].
  match goal with |- context [match ?x with Ok _ => _ | Err _ => _ end] => destruct x eqn:S end; [|cbn; eauto].
  cbn [fst]. do 2 eexists. split; [reflexivity|]. intros N. destruct (is_none m4) eqn:Q; [apply is_none_true in Q; congruence|].
  apply Ok_inj in S. congruence.
Qed.
Definition run_serialize (E : env) (calls : list (option bytes * option (bytes -> result bytes))) (m : pyval) : pyval :=
  fold_left (fun m call => fst (serialize E m (fst call) (snd call))) calls m.
Lemma run_serialize_keeps E calls : forall c ty ts enc sig a,
  exists enc' sig', run_serialize E calls (VMsg c ty ts enc sig a) = VMsg c ty ts enc' sig' a /\ (sig <> VNone -> sig' = sig).
Proof.
  unfold run_serialize. induction calls as [|[k f] calls IH]; intros c ty ts enc sig a; [exists enc, sig; auto|].
  cbn [fold_left fst snd]. pose proof (serialize_fst E (VMsg c ty ts enc sig a) k f) as (e1 & s1 & -> & H1).
  destruct (IH c ty ts e1 s1 a) as (e2 & s2 & -> & H2). exists e2, s2. split; [reflexivity|].
  intros N. rewrite H2; [apply H1, N|]. rewrite H1; exact N.
Qed.
Lemma already_signed_refused E m key encf : key_given key = true -> truthy (sig_of m) = true ->
  serialize E m key encf = (m, Err ESignatureAlreadyExists).
Proof. intros K T. destruct m; try discriminate T. cbn [sig_of] in T. cbn [serialize]. rewrite K, T. reflexivity. Qed.
(** two successful calls give the same signature bytes *)
Lemma resign_same E c ty ts enc sig a key encf m1 bs1 calls key' encf' m2 bs2 : crypto_ok (cr E) ->
  (forall s, sig = VBytes s -> List.length s = 65%nat) ->
  serialize E (VMsg c ty ts enc sig a) key encf = (m1, Ok bs1) ->
  serialize E (run_serialize E calls m1) key' encf' = (m2, Ok bs2) ->
  firstn 65 (skipn 11 bs2) = firstn 65 (skipn 11 bs1) /\ sig_of m2 = VBytes (firstn 65 (skipn 11 bs1)).
Proof.
  intros HC HL H1 H2. pose proof (frame_layout _ _ _ _ _ _ _ _ _ _ _ HC H1 HL) as (s1 & _ & _ & _ & S1 & _ & _ & _ & _ & L1 & _ & F1 & _).
  apply serialize_ok in H1 as (_ & s & _ & _ & _ & -> & _). cbn [sig_of] in S1.
  destruct (run_serialize_keeps E calls c ty ts (VBool (encrypts c && given encf)) (VBytes s) a) as (e & s' & Er & Hs').
  rewrite Er in H2. rewrite Hs' in H2 by discriminate. assert (s = s1) by congruence. subst s1.
  pose proof (frame_layout _ _ _ _ _ _ _ _ _ _ _ HC H2) as FL.
  destruct FL as (s2 & _ & _ & _ & S2 & _ & _ & _ & _ & _ & _ & F2 & _); [intros x Hx; congruence|].
  apply serialize_ok in H2 as (_ & t & _ & _ & _ & -> & _ & _ & _ & _ & _ & Hk & _). cbn [sig_of] in *.
  assert (VBytes s = VBytes t) as Est by (apply Hk; discriminate). split; congruence.
Qed.

(** ** Reception *)
Lemma short_frame E now msg decf ct pub : (List.length msg <= 76)%nat -> deserialize E now msg decf ct pub = Err EMessageError.
Proof. intros H. unfold deserialize. apply Nat.leb_le in H. change (HDR_LEN + SIG_LEN)%nat with 76%nat. rewrite H. reflexivity. Qed.

Lemma verify_time_exact now ts : utc_ok ts = true ->
  verify_time now ts =
    if ts * 1000000 + 600000000 <? now then Err EMessageTooOldError
    else if now + 300000000 <? ts * 1000000 then Err EMessageFromFutureError else Ok tt.
Proof.
  intros U. unfold verify_time. rewrite U. cbn [negb]. unfold MSG_TTL, FUTURE_TIME_TOLERANCE, US.
  replace (600 * 1000000 <? now - ts * 1000000) with (ts * 1000000 + 600000000 <? now) by lia.
  replace (300 * 1000000 <? ts * 1000000 - now) with (now + 300000000 <? ts * 1000000) by lia. reflexivity.
Qed.
Lemma verify_time_iff now ts : verify_time now ts = Ok tt <->
  -62135596800 <= ts <= 253402300799 /\ now - 600000000 <= ts * 1000000 <= now + 300000000.
Proof.
  destruct (utc_ok ts) eqn:U.
  - rewrite verify_time_exact by exact U. unfold utc_ok in U. apply andb_true_iff in U as [U1 U2].
    destruct (_ <? now) eqn:A; [split; [discriminate|lia]|]. destruct (now + _ <? _) eqn:B; [split; [discriminate|lia]|]. split; [lia|reflexivity].
  - unfold verify_time. rewrite U. split; [discriminate|]. intros [H _]. unfold utc_ok in U. lia.
Qed.
Lemma verify_time_err now ts e : verify_time now ts = Err e ->
  (e = ETimestampError /\ ~ (-62135596800 <= ts <= 253402300799)) \/
  (e = EMessageTooOldError /\ ts * 1000000 < now - 600000000) \/ (e = EMessageFromFutureError /\ now + 300000000 < ts * 1000000).
Proof.
  destruct (utc_ok ts) eqn:U.
  - rewrite verify_time_exact by exact U. destruct (_ <? now) eqn:A; [intros H; inversion H; right; left; split; [reflexivity|lia]|].
    destruct (now + _ <? _) eqn:B; [|discriminate]. intros H; inversion H. right; right. split; [reflexivity|lia].
  - unfold verify_time. rewrite U. intros H; inversion H. left. split; [reflexivity|]. unfold utc_ok in U. lia.
Qed.

Lemma admitted_utc_ok ts : MIN_TIMESTAMP < ts < MAX_TIMESTAMP -> utc_ok ts = true.
Proof. unfold MIN_TIMESTAMP, MAX_TIMESTAMP, utc_ok. lia. Qed.
Lemma deserialize_header_iff data ty ts enc : deserialize_header data = Ok (ty, ts, enc) <->
  unpack_header data = Ok (ty, ts, enc) /\ 1262304000 < ts < 32819212800 /\ exists c, getitem library ty = Ok c.
Proof.
  assert (G : contains library ty = true <-> exists c, getitem library ty = Ok c).
  { unfold contains, getitem. destruct (zget ty _); split; eauto; [discriminate|]. intros [x H]; discriminate. }
  unfold deserialize_header. destruct (unpack_header data) as [[[ty' ts'] enc']|e]; cbn [bind]; [|split; [discriminate|intros [H _]; discriminate]].
  unfold MIN_TIMESTAMP, MAX_TIMESTAMP. split.
  - destruct (negb _) eqn:T; [discriminate|]. destruct (negb (contains library ty')) eqn:K; [discriminate|].
    intros H. apply Ok_inj in H. assert (ty' = ty /\ ts' = ts /\ enc' = enc) as (-> & -> & ->) by (repeat split; congruence).
    split; [reflexivity|]. apply negb_false_iff in T, K. split; [lia|]. apply G, K.
  - intros (H & T & K). apply Ok_inj in H. assert (ty' = ty /\ ts' = ts /\ enc' = enc) as (-> & -> & ->) by (repeat split; congruence).
    apply G in K. rewrite K. replace (negb _) with false by lia. reflexivity.
Qed.
Lemma deserialize_header_err data e : deserialize_header data = Err e -> e = EHeaderError.
Proof.
  unfold deserialize_header, unpack_header. destruct (Nat.eqb _ _); cbn [bind]; [|congruence].
  destruct (negb _); [congruence|]. destruct (negb _); [congruence|discriminate].
Qed.
(** the class-specific part, reached only after admission *)
Lemma deserialize_ok E now msg decf ct pub m : deserialize E now msg decf ct pub = Ok m <->
  (76 < List.length msg)%nat /\ exists ty ts enc c,
    unpack_header (firstn 11 msg) = Ok (ty, ts, enc) /\ 1262304000 < ts < 32819212800 /\ getitem library ty = Ok c /\
    (ct = true -> now - 600000000 <= ts * 1000000 <= now + 300000000) /\
    class_load E c ty ts enc (skipn 11 msg) decf pub = Ok m.
Proof.
  unfold deserialize. change (HDR_LEN + SIG_LEN)%nat with 76%nat. unfold HDR_LEN. split.
  - destruct (Nat.leb _ _) eqn:L; [discriminate|]. apply Nat.leb_gt in L. intros H. split; [exact L|].
    apply bind_ok in H as ([[ty ts] enc] & Hh & H). apply bind_ok in H as ([] & Ht & H). apply bind_ok in H as (c & Hc & H).
    apply deserialize_header_iff in Hh as (Hu & T & _). exists ty, ts, enc, c. repeat (split; [assumption|]). split; [|exact H].
    intros ->. apply verify_time_iff in Ht as [_ Ht]. exact Ht.
  - intros (L & ty & ts & enc & c & Hu & T & Hc & Ht & H). apply Nat.leb_gt in L. rewrite L.
    assert (Hh : deserialize_header (firstn 11 msg) = Ok (ty, ts, enc)) by (apply deserialize_header_iff; eauto).
    rewrite Hh. cbn [bind]. replace (if ct then verify_time now ts else Ok tt) with (@Ok unit tt).
    + cbn [bind]. rewrite Hc. exact H.
    + symmetry. destruct ct; [|reflexivity]. apply verify_time_iff. split; [lia|auto].
Qed.
(** with an admissible header, time checking alone decides between the window errors and dispatch *)
Lemma deserialize_dispatch E now msg decf ct pub ty ts enc c : (76 < List.length msg)%nat ->
  unpack_header (firstn 11 msg) = Ok (ty, ts, enc) -> 1262304000 < ts < 32819212800 -> getitem library ty = Ok c ->
  deserialize E now msg decf ct pub =
    if ct && (ts * 1000000 <? now - 600000000) then Err EMessageTooOldError
    else if ct && (now + 300000000 <? ts * 1000000) then Err EMessageFromFutureError
    else class_load E c ty ts enc (skipn 11 msg) decf pub.
Proof.
  intros L Hu T Hc. unfold deserialize. change (HDR_LEN + SIG_LEN)%nat with 76%nat. unfold HDR_LEN.
  apply Nat.leb_gt in L. rewrite L.
  assert (Hh : deserialize_header (firstn 11 msg) = Ok (ty, ts, enc)) by (apply deserialize_header_iff; eauto).
  rewrite Hh. cbn [bind]. destruct ct; cbn [andb].
  - rewrite verify_time_exact by (apply admitted_utc_ok; exact T).
    replace (ts * 1000000 + 600000000 <? now) with (ts * 1000000 <? now - 600000000) by lia.
    destruct (_ <? now - _); [reflexivity|]. destruct (now + _ <? _); [reflexivity|]. cbn [bind]. rewrite Hc. reflexivity.
  - cbn [bind]. rewrite Hc. reflexivity.
Qed.
Lemma bad_header E now msg decf ct pub : (76 < List.length msg)%nat ->
  (forall ty ts enc c, unpack_header (firstn 11 msg) = Ok (ty, ts, enc) -> 1262304000 < ts < 32819212800 -> getitem library ty = Ok c -> False) ->
  deserialize E now msg decf ct pub = Err EHeaderError.
Proof.
  intros L H. unfold deserialize. change (HDR_LEN + SIG_LEN)%nat with 76%nat. unfold HDR_LEN. apply Nat.leb_gt in L. rewrite L.
  destruct (deserialize_header (firstn 11 msg)) as [[[ty ts] enc]|e] eqn:D.
  - apply deserialize_header_iff in D as (Hu & T & c & Hc). exfalso. eapply H; eassumption.
  - apply deserialize_header_err in D. subst. reflexivity.
Qed.
