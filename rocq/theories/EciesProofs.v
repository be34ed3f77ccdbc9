(** * Proofs about ECIES *)
From Verif Require Export Ecies.

Lemma key2b_eq a b : key2b a b = true <-> a = b.
Proof.
  unfold key2b. rewrite andb_true_iff, !bytes_eqb_eq. destruct a, b; cbn. split; [intros [-> ->]|intros [= -> ->]]; auto.
Qed.
Lemma keynb_eq a b : keynb a b = true <-> a = b.
Proof.
  unfold keynb. rewrite andb_true_iff, Nat.eqb_eq, bytes_eqb_eq. destruct a, b; cbn. split; [intros [-> ->]|intros [= -> ->]]; auto.
Qed.

Lemma skipn_skipn' {A} a b (l : list A) : skipn a (skipn b l) = skipn (b + a) l.
Proof. revert l; induction b as [|b IH]; intros l; [reflexivity|]. destruct l; cbn [skipn Nat.add]; [apply skipn_nil|apply IH]. Qed.

Section LruFacts.
Context {K V : Type} (keqb : K -> K -> bool) (keqb_eq : forall a b, keqb a b = true <-> a = b).
Lemma lru_find_in k v (c : list (K * V)) : lru_find keqb k c = Some v -> In (k, v) c.
Proof.
  induction c as [|[k' v'] c IH]; cbn; [discriminate|]. destruct (keqb k' k) eqn:E; [|auto].
  apply keqb_eq in E. intros [= ->]. subst. auto.
Qed.
Lemma lru_remove_incl k (c : list (K * V)) x : In x (lru_remove keqb k c) -> In x c.
Proof.
  induction c as [|[k' v'] c IH]; cbn; [auto|]. destruct (keqb k' k); cbn; tauto.
Qed.
Lemma lru_remove_length k v (c : list (K * V)) :
  lru_find keqb k c = Some v -> S (List.length (lru_remove keqb k c)) = List.length c.
Proof.
  induction c as [|[k' v'] c IH]; cbn; [discriminate|]. destruct (keqb k' k); [auto|].
  intros H. cbn. rewrite (IH H). reflexivity.
Qed.
Lemma firstn_incl {A} n (l : list A) x : In x (firstn n l) -> In x l.
Proof. intros H. rewrite <- (firstn_skipn n l). apply in_or_app. auto. Qed.

(** a cache is good: at most [MAXSIZE] entries, all satisfying [P] *)
Definition good (P : K -> V -> Prop) (c : list (K * V)) : Prop :=
  (List.length c <= MAXSIZE)%nat /\ forall k v, In (k, v) c -> P k v.
Lemma good_nil P : good P [].
Proof. clear keqb_eq keqb. split; [unfold MAXSIZE; cbn; lia|intros k v []]. Qed.
Lemma good_hit P k v c : good P c -> lru_find keqb k c = Some v -> good P (lru_hit keqb k v c) /\ P k v.
Proof.
  intros [H1 H2] F. pose proof (lru_find_in _ _ _ F) as Hin. split; [split|auto].
  - unfold lru_hit. cbn [List.length]. rewrite (lru_remove_length _ _ _ F). exact H1.
  - intros k' v' [[= <- <-]|H]; [auto|]. apply H2. eapply lru_remove_incl, H.
Qed.
Lemma good_add P k v c : good P c -> P k v -> good P (lru_add MAXSIZE k v c).
Proof.
  clear keqb_eq keqb. intros [H1 H2] Hp. unfold lru_add. split.
  - cbn [List.length]. rewrite firstn_length. unfold MAXSIZE. lia.
  - intros k' v' [[= <- <-]|H]; [auto|]. apply H2. eapply firstn_incl, H.
Qed.
End LruFacts.

Section Facts.
Context (C : crypto) (HC : crypto_ok C) (timeout : nat -> Z).
Local Notation ecdh := (ecdh C).
Local Notation get_derived_keys := (get_derived_keys C).
Local Notation get_ephem_key := (get_ephem_key C timeout).
Local Notation make_ephem_key := (make_ephem_key C timeout).
Local Notation encrypt := (encrypt C timeout).
Local Notation decrypt := (decrypt C).

Definition spec_keys (km : bytes) : bytes * bytes :=
  let key := sha256 C (be_enc 4 1 ++ km) in (firstn 16 key, sha256 C (skipn 16 key)).

Lemma ckdf_32 km : ckdf C km 32 = sha256 C (be_enc 4 1 ++ km).
Proof.
  unfold ckdf. change (S ((32 + 7) / 64)) with 1%nat. cbn [seq flat_map]. rewrite app_nil_r.
  change (Z.of_nat 1) with 1. pose proof (sha256_len _ HC (be_enc 4 1 ++ km)) as L.
  rewrite <- L at 1. apply firstn_all.
Qed.
Lemma derive_ok km : derive C km = Ok (spec_keys km).
Proof.
  unfold derive. cbv zeta. rewrite ckdf_32. rewrite !(sha256_len _ HC). reflexivity.
Qed.

Definition P_ecdh (k : bytes * bytes) (v : bytes) : Prop := ecdh_raw C (fst k) (snd k) = Some v.
Definition P_derived (k : nat * bytes) (v : bytes * bytes) : Prop := v = spec_keys (snd k).
Definition P_ephem (k : nat * bytes) (v : bytes * bytes * bytes) : Prop :=
  exists s p c km, secret_of C s = Some s /\ pub_of C s = Some p /\ compress C (x04 :: snd k) = Some c /\
    ecdh_raw C s c = Some km /\ List.length km = 32%nat /\
    v = (fst (spec_keys km), snd (spec_keys km), x04 :: p).
Definition einv (st : kstate) : Prop :=
  good P_ecdh (c_ecdh st) /\ good P_derived (c_derived st) /\ good P_ephem (c_ephem st).

Lemma einv_init created : einv (init_state created).
Proof. split; [apply good_nil|]. split; apply good_nil. Qed.

Lemma ecdh_spec st s p :
  einv st ->
  exists st', ecdh st s p = (match ecdh_raw C s p with Some v => Ok v | None => Err EValueError end, st')
    /\ einv st'.
Proof.
  intros (I1 & I2 & I3). unfold Ecies.ecdh. destruct (lru_find key2b (s, p) (c_ecdh st)) as [v|] eqn:F.
  - destruct (good_hit key2b key2b_eq _ _ _ _ I1 F) as [G P]. unfold P_ecdh in P. cbn [fst snd] in P. rewrite P.
    eexists. split; [reflexivity|]. split; [exact G|]. split; assumption.
  - destruct (ecdh_raw C s p) as [v|] eqn:E.
    + eexists. split; [reflexivity|]. split; [|split; assumption].
      apply good_add; [exact I1|exact E].
    + eexists. split; [reflexivity|]. repeat (split; try assumption); apply I1 || apply I2 || apply I3.
Qed.

Lemma derived_spec st m km :
  einv st -> exists st', get_derived_keys st m km = (Ok (spec_keys km), st') /\ einv st'.
Proof.
  intros (I1 & I2 & I3). unfold Ecies.get_derived_keys.
  destruct (lru_find keynb (m, km) (c_derived st)) as [v|] eqn:F.
  - destruct (good_hit keynb keynb_eq _ _ _ _ I2 F) as [G P]. unfold P_derived in P. cbn [snd] in P. rewrite P.
    eexists. split; [reflexivity|]. split; [exact I1|]. split; [|exact I3]. rewrite P in G. exact G.
  - rewrite derive_ok. eexists. split; [reflexivity|]. split; [exact I1|]. split; [|exact I3].
    apply good_add; [exact I2|reflexivity].
Qed.

(** inputs drawn by the library: a valid secret and a 16-byte IV *)
Definition rnd_ok (r : rnd) : Prop :=
  secret_of C (r_ephem r) = Some (r_ephem r) /\ List.length (r_iv r) = 16%nat.

Lemma make_ephem_spec st m raw r :
  einv st -> rnd_ok r ->
  exists st', einv st' /\
    (exists e, make_ephem_key st m raw r = (Err e, st')) \/
    (exists v st', make_ephem_key st m raw r = (Ok v, st') /\ einv st' /\ P_ephem (m, raw) v).
Proof.
  intros I [Hr _]. unfold Ecies.make_ephem_key.
  set (st0 := if last_cleanup st m <? r_now1 r - timeout m then _ else st).
  assert (I0 : einv st0).
  { unfold st0. destruct (_ <? _); [|exact I]. destruct I as (I1 & I2 & I3).
    split; [exact I1|]. split; [exact I2|]. apply good_nil. }
  clearbody st0. cbv zeta.
  destruct (pub_total _ HC _ _ Hr) as [p Hp]. rewrite Hp.
  destruct (compress C (x04 :: raw)) as [c|] eqn:Ec.
  2:{ exists st0. left. split; [exact I0|]. eauto. }
  destruct (ecdh_spec st0 (r_ephem r) c I0) as (st1 & E1 & I1). rewrite E1.
  destruct (ecdh_raw C (r_ephem r) c) as [km|] eqn:Ek.
  2:{ exists st1. left. split; [exact I1|]. eauto. }
  destruct (Nat.eqb (List.length km) 32) eqn:El; cbn [negb].
  2:{ exists st1. left. split; [exact I1|]. eauto. }
  destruct (derived_spec st1 m km I1) as (st2 & E2 & I2). rewrite E2.
  exists st2. right. destruct (spec_keys km) as [ek mk] eqn:Es. exists (ek, mk, x04 :: p), st2.
  split; [reflexivity|]. split; [exact I2|].
  exists (r_ephem r), p, c, km. apply Nat.eqb_eq in El. rewrite Es. cbn [fst snd]. auto 10.
Qed.

Lemma ephem_spec st m raw r :
  einv st -> rnd_ok r ->
  exists res st', get_ephem_key st m raw r = (res, st') /\ einv st' /\
    forall v, res = Ok v -> P_ephem (m, raw) v.
Proof.
  intros I Hr. unfold Ecies.get_ephem_key.
  destruct (lru_find keynb (m, raw) (c_ephem st)) as [v|] eqn:F.
  - destruct I as (I1 & I2 & I3). destruct (good_hit keynb keynb_eq _ _ _ _ I3 F) as [G P].
    eexists. eexists. split; [reflexivity|]. split; [split; [exact I1|split; [exact I2|exact G]]|].
    intros v' [= <-]. exact P.
  - destruct (make_ephem_spec st m raw r I Hr) as (st' & [[I' [e E]]|(v & st'' & E & I' & P)]); rewrite E.
    + exists (Err e), st'. split; [reflexivity|]. split; [exact I'|]. intros v H; discriminate H.
    + exists (Ok v). eexists. split; [reflexivity|]. split.
      * destruct I' as (I1 & I2 & I3). split; [exact I1|]. split; [exact I2|]. apply good_add; assumption.
      * intros v' [= <-]. exact P.
Qed.

Lemma encrypt_spec st m d raw sh r :
  einv st -> rnd_ok r ->
  exists res st', encrypt st m d raw sh r = (res, st') /\ einv st' /\
    forall ct, res = Ok ct ->
      exists s p c km, secret_of C s = Some s /\ pub_of C s = Some p /\ compress C (x04 :: raw) = Some c /\
        ecdh_raw C s c = Some km /\ List.length km = 32%nat /\
        let body := r_iv r ++ aes_ctr C (fst (spec_keys km)) (r_iv r) d in
        ct = (x04 :: p) ++ body ++ hmac_sha256 C (snd (spec_keys km)) (body ++ sh).
Proof.
  intros I Hr. unfold Ecies.encrypt.
  destruct (ephem_spec st m raw r I Hr) as (res & st' & E & I' & P). rewrite E.
  destruct res as [v|e].
  - destruct (P _ eq_refl) as (s & p & c & km & Hs & Hp & Hc & Hk & Hl & Hv). subst v.
    eexists. exists st'. split; [reflexivity|]. split; [exact I'|]. intros ct.
    destruct Hr as [_ Hiv]. rewrite Hiv. cbn [Nat.eqb negb].
    rewrite (aes_len _ HC), Nat.eqb_refl. cbn [negb].
    rewrite (hmac_len _ HC). cbn [Nat.eqb negb].
    pose proof (pub_len _ HC _ _ Hp) as Lp.
    assert (S : skipn (1 + 64) ((x04 :: p) ++ r_iv r ++ aes_ctr C (fst (spec_keys km)) (r_iv r) d)
                = r_iv r ++ aes_ctr C (fst (spec_keys km)) (r_iv r) d)
      by (apply skipn_app_exact; cbn [List.length]; lia).
    rewrite S. destruct (negb _); [discriminate|]. intros [= <-].
    exists s, p, c, km. repeat (split; [assumption|]).
    cbv zeta. rewrite <- !app_assoc. reflexivity.
  - exists (Err e), st'. split; [reflexivity|]. split; [exact I'|]. intros ct H; discriminate H.
Qed.

(** encryption to any valid public key succeeds, whatever the state *)
Lemma encrypt_total st m d k s pk sh r :
  einv st -> rnd_ok r -> secret_of C k = Some s -> pub_of C s = Some pk ->
  exists ct, fst (encrypt st m d pk sh r) = Ok ct /\ List.length ct = (113 + List.length d)%nat.
Proof.
  intros I Hr Hs Hpk. unfold Ecies.encrypt.
  destruct (ephem_spec st m pk r I Hr) as (res & st' & E & I' & P). rewrite E.
  assert (R : exists v, res = Ok v).
  { revert E. unfold Ecies.get_ephem_key. destruct (lru_find keynb (m, pk) (c_ephem st)); [intros [= <- _]; eauto|].
    destruct Hr as [Hr _]. destruct (pub_total _ HC _ _ Hr) as [p Hp].
    pose proof (secret_idem _ HC _ _ Hs) as Hs'.
    destruct (dh _ HC s pk (r_ephem r) p Hs' Hpk Hr Hp) as (c & km & Dc & D1 & D2 & Dl).
    unfold Ecies.make_ephem_key. set (st0 := if last_cleanup st m <? r_now1 r - timeout m then _ else st).
    assert (I0 : einv st0).
    { unfold st0. destruct (_ <? _); [|exact I]. destruct I as (I1 & I2 & I3).
      split; [exact I1|]. split; [exact I2|]. apply good_nil. }
    clearbody st0. cbv zeta. rewrite Hp, Dc.
    destruct (ecdh_spec st0 (r_ephem r) c I0) as (st1 & E1 & I1). rewrite E1, D1, Dl. cbn [Nat.eqb negb].
    destruct (derived_spec st1 m km I1) as (st2 & E2 & I2). rewrite E2.
    destruct (spec_keys km). intros [= <- _]. eauto. }
  destruct R as [v ->]. destruct (P _ eq_refl) as (s' & p & c & km & Hs' & Hp & Hc & Hk & Hl & Hv). subst v.
  destruct Hr as [_ Hiv]. rewrite Hiv. cbn [Nat.eqb negb fst].
  rewrite (aes_len _ HC), Nat.eqb_refl. cbn [negb]. rewrite (hmac_len _ HC). cbn [Nat.eqb negb].
  pose proof (pub_len _ HC _ _ Hp) as Lp.
  match goal with |- context [Nat.eqb (List.length ?x) (OVERHEAD + _)] => assert (L : List.length x = (OVERHEAD + List.length d)%nat) end.
  { rewrite !app_length, (hmac_len _ HC), (aes_len _ HC), Hiv. cbn [List.length]. unfold OVERHEAD. lia. }
  rewrite L, Nat.eqb_refl. cbn [negb]. eexists. split; [reflexivity|]. exact L.
Qed.

(** the exact acceptance condition of decryption, stated without caches *)
Definition accepts (data k sh d : bytes) : Prop :=
  (113 <= List.length data)%nat /\ firstn 1 data = [x04] /\
  exists s km, secret_of C k = Some s /\ ecdh_raw C s (firstn 65 data) = Some km /\ List.length km = 32%nat /\
    let body := firstn (List.length data - 97) (skipn 65 data) in
    skipn (List.length data - 32) data = hmac_sha256 C (snd (spec_keys km)) (body ++ sh) /\
    d = aes_ctr C (fst (spec_keys km)) (firstn 16 body) (skipn 16 body).

Lemma decrypt_spec st m data k sh :
  einv st ->
  exists res st', decrypt st m data k sh = (res, st') /\ einv st' /\
    forall d, res = Ok d <-> accepts data k sh d.
Proof.
  intros I. unfold Ecies.decrypt.
  destruct (bytes_eqb (firstn 1 data) [x04]) eqn:E4; cbn [negb].
  2:{ exists (Err EDecryptionError), st. split; [reflexivity|]. split; [exact I|]. intros d.
      split; [discriminate|]. intros (_ & H & _). apply bytes_eqb_eq in H. congruence. }
  apply bytes_eqb_eq in E4. cbv zeta. change (1 + 64)%nat with 65%nat.
  destruct (secret_of C k) as [s|] eqn:Es.
  2:{ exists (Err EValueError), st. split; [reflexivity|]. split; [exact I|]. intros d.
      split; [discriminate|]. intros (_ & _ & s & km & H & _). congruence. }
  destruct (ecdh_spec st s (firstn 65 data) I) as (st1 & E1 & I1). rewrite E1.
  destruct (ecdh_raw C s (firstn 65 data)) as [km|] eqn:Ek.
  2:{ exists (Err EValueError), st1. split; [reflexivity|]. split; [exact I1|]. intros d.
      split; [discriminate|]. intros (_ & _ & s' & km & H & H2 & _). congruence. }
  destruct (Nat.eqb (List.length km) 32) eqn:El; cbn [negb].
  2:{ exists (Err EAssertionError), st1. split; [reflexivity|]. split; [exact I1|]. intros d.
      split; [discriminate|]. intros (_ & _ & s' & km' & H & H2 & H3 & _).
      assert (km' = km) by congruence. subst. apply Nat.eqb_neq in El. contradiction. }
  apply Nat.eqb_eq in El.
  destruct (derived_spec st1 m km I1) as (st2 & E2 & I2). rewrite E2.
  destruct (spec_keys km) as [ek mk] eqn:Ekeys.
  eexists. exists st2. split; [reflexivity|]. split; [exact I2|]. intros d.
  assert (Hbody : slice_mid 65 data = firstn (List.length data - 97) (skipn 65 data)).
  { unfold slice_mid. f_equal. lia. }
  assert (Acc : accepts data k sh d <->
     (113 <= List.length data)%nat /\
     slice_last 32 data = hmac_sha256 C mk (slice_mid 65 data ++ sh) /\
     d = aes_ctr C ek (firstn 16 (slice_mid 65 data)) (skipn 16 (slice_mid 65 data))).
  { unfold accepts. rewrite Hbody. unfold slice_last. split.
    - intros (H1 & _ & s' & km' & Hs' & Hk' & Hl' & H).
      assert (s' = s) by congruence. subst s'. assert (km' = km) by congruence. subst km'.
      cbv zeta in H. rewrite Ekeys in H. cbn [fst snd] in H. tauto.
    - intros (H1 & H2). split; [exact H1|]. split; [exact E4|]. exists s, km.
      split; [exact Es|]. split; [exact Ek|]. split; [exact El|]. cbv zeta. rewrite Ekeys. exact H2. }
  rewrite Acc. clear Acc.
  unfold slice_last. rewrite skipn_length.
  destruct (Nat.leb_spec 113 (List.length data)) as [Hlen|Hlen].
  - replace (List.length data - (List.length data - 32))%nat with 32%nat by lia. cbn [Nat.eqb negb].
    destruct (bytes_eqb (hmac_sha256 C mk (slice_mid 65 data ++ sh)) (skipn (List.length data - 32) data)) eqn:Et; cbn [negb].
    + apply bytes_eqb_eq in Et.
      assert (Liv : List.length (firstn BLOCK_SIZE (skipn 65 data)) = 16%nat)
        by (rewrite firstn_length, skipn_length; unfold BLOCK_SIZE; lia).
      rewrite Liv. cbn [Nat.eqb negb].
      assert (Lc : List.length (slice_mid (65 + BLOCK_SIZE) data) = (List.length data - 113)%nat).
      { unfold slice_mid, BLOCK_SIZE. rewrite firstn_length, skipn_length. lia. }
      rewrite (aes_len _ HC), Nat.eqb_refl. cbn [negb]. rewrite Lc.
      rewrite firstn_length.
      replace (Nat.min 65 (List.length data) + 16 + (List.length data - 113) + 32 =? List.length data)%nat with true
        by (symmetry; apply Nat.eqb_eq; lia). cbn [negb].
      assert (F1 : firstn 16 (slice_mid 65 data) = firstn BLOCK_SIZE (skipn 65 data)).
      { unfold slice_mid, BLOCK_SIZE. rewrite firstn_firstn. f_equal. lia. }
      assert (F2 : skipn 16 (slice_mid 65 data) = slice_mid (65 + BLOCK_SIZE) data).
      { unfold slice_mid, BLOCK_SIZE. rewrite skipn_firstn_comm, skipn_skipn'.
        f_equal. lia. }
      rewrite F1, F2. split.
      * intros [= <-]. auto.
      * intros (_ & _ & ->). reflexivity.
    + split; [discriminate|]. intros (_ & H & _). rewrite H in Et. rewrite bytes_eqb_refl in Et. discriminate.
  - split; [|intros (H & _); lia].
    destruct (negb _); [discriminate|]. destruct (negb _); [discriminate|].
    destruct (List.length (firstn BLOCK_SIZE (skipn 65 data)) =? 16)%nat eqn:L1; cbn [negb]; [|discriminate].
    destruct ((_ =? List.length data)%nat) eqn:L2; cbn [negb]; [|discriminate]. exfalso.
    apply Nat.eqb_eq in L1, L2. unfold slice_mid, BLOCK_SIZE in *.
    rewrite !firstn_length, !skipn_length in *. lia.
Qed.

(** ** Histories *)
Definition eop_ok (o : eop) : Prop :=
  match o with OpEncrypt _ _ _ _ r => rnd_ok r | OpDecrypt _ _ _ _ => True end.
Lemma estep_inv st o : einv st -> eop_ok o -> einv (estep C timeout st o).
Proof.
  intros I H. destruct o as [m d p sh r|m d k sh]; cbn [estep].
  - destruct (encrypt_spec st m d p sh r I H) as (res & st' & E & I' & _). rewrite E. exact I'.
  - destruct (decrypt_spec st m d k sh I) as (res & st' & E & I' & _). rewrite E. exact I'.
Qed.
Lemma erun_inv ops : forall st, einv st -> Forall eop_ok ops -> einv (erun C timeout ops st).
Proof.
  induction ops as [|o ops IH]; intros st I H; [exact I|]. inversion H; subst.
  cbn [erun fold_left]. apply IH; [apply estep_inv; assumption|assumption].
Qed.

Lemma roundtrip st1 st2 m1 m2 d k s pk sh r ct :
  einv st1 -> einv st2 -> rnd_ok r ->
  secret_of C k = Some s -> pub_of C s = Some pk ->
  fst (encrypt st1 m1 d pk sh r) = Ok ct ->
  fst (decrypt st2 m2 ct k sh) = Ok d.
Proof.
  intros I1 I2 Hr Hs Hpk E.
  destruct (encrypt_spec st1 m1 d pk sh r I1 Hr) as (res & st' & E1 & _ & P). rewrite E1 in E. cbn [fst] in E. subst res.
  destruct (P ct eq_refl) as (es & ep & c & km & Hes & Hep & Hc & Hk & Hl & Hct). cbv zeta in Hct.
  destruct (decrypt_spec st2 m2 ct k sh I2) as (res2 & st2' & E2 & _ & Q). rewrite E2. cbn [fst]. apply Q.
  pose proof (secret_idem _ HC _ _ Hs) as Hs'.
  destruct (dh _ HC s pk es ep Hs' Hpk Hes Hep) as (c' & km' & D1 & D2 & D3 & D4).
  assert (c' = c) by congruence. subst c'. assert (km' = km) by congruence. subst km'.
  set (ek := fst (spec_keys km)) in *. set (mk := snd (spec_keys km)) in *.
  set (body := r_iv r ++ aes_ctr C ek (r_iv r) d) in *.
  set (tag := hmac_sha256 C mk (body ++ sh)) in *.
  pose proof (pub_len _ HC _ _ Hep) as Lp. destruct Hr as [_ Hiv].
  assert (Lb : List.length body = (16 + List.length d)%nat) by (unfold body; rewrite app_length, (aes_len _ HC); lia).
  assert (Lt : List.length tag = 32%nat) by (apply (hmac_len _ HC)).
  assert (Lct : List.length ct = (113 + List.length d)%nat).
  { rewrite Hct, !app_length. cbn [List.length]. lia. }
  unfold accepts. split; [lia|].
  assert (F65 : firstn 65 ct = x04 :: ep) by (rewrite Hct; apply firstn_app_exact; cbn [List.length]; lia).
  split. { rewrite Hct. reflexivity. }
  exists s, km. rewrite F65. split; [exact Hs|]. split; [exact D3|]. split; [exact D4|]. cbv zeta.
  assert (S65 : skipn 65 ct = body ++ tag) by (rewrite Hct; apply skipn_app_exact; cbn [List.length]; lia).
  rewrite S65. replace (List.length ct - 97)%nat with (List.length body) by lia.
  rewrite firstn_app_exact by reflexivity.
  assert (St : skipn (List.length ct - 32) ct = tag).
  { replace (List.length ct - 32)%nat with (List.length ((x04 :: ep) ++ body)) by (rewrite app_length; cbn [List.length]; lia).
    rewrite Hct, app_assoc. apply skipn_app_exact. reflexivity. }
  rewrite St. split; [reflexivity|]. fold ek. unfold body.
  rewrite firstn_app_exact, skipn_app_exact by exact Hiv. rewrite (aes_inv _ HC). reflexivity.
Qed.
End Facts.

Section MoreFacts.
Context (C : crypto) (HC : crypto_ok C) (timeout : nat -> Z).

Lemma roundtrip_history created ops1 ops2 m1 m2 d k s pk sh r :
  Forall (eop_ok C) ops1 -> Forall (eop_ok C) ops2 -> rnd_ok C r ->
  secret_of C k = Some s -> pub_of C s = Some pk ->
  let st := erun C timeout ops1 (init_state created) in
  exists ct, fst (encrypt C timeout st m1 d pk sh r) = Ok ct /\
    List.length ct = (113 + List.length d)%nat /\
    fst (decrypt C (erun C timeout ops2 (snd (encrypt C timeout st m1 d pk sh r))) m2 ct k sh) = Ok d.
Proof.
  intros H1 H2 Hr Hs Hp st.
  assert (I : einv C st) by (apply erun_inv; auto using einv_init).
  destruct (encrypt_total C HC timeout st m1 d k s pk sh r I Hr Hs Hp) as (ct & E & L).
  exists ct. split; [exact E|]. split; [exact L|].
  eapply roundtrip with (st1 := st); eauto. apply erun_inv; auto.
  destruct (encrypt_spec C HC timeout st m1 d pk sh r I Hr) as (res & st' & E' & I' & _). rewrite E'. exact I'.
Qed.

Lemma decrypt_exact created ops m data k sh d :
  Forall (eop_ok C) ops ->
  fst (decrypt C (erun C timeout ops (init_state created)) m data k sh) = Ok d <-> accepts C data k sh d.
Proof.
  intros H. assert (I : einv C (erun C timeout ops (init_state created))) by (apply erun_inv; auto using einv_init).
  destruct (decrypt_spec C HC timeout _ m data k sh I) as (res & st' & E & _ & Q). rewrite E. apply Q.
Qed.

Lemma tag_altered created ops m data data' k sh d :
  Forall (eop_ok C) ops ->
  fst (decrypt C (erun C timeout ops (init_state created)) m data k sh) = Ok d ->
  List.length data' = List.length data ->
  firstn (List.length data - 32) data' = firstn (List.length data - 32) data -> data' <> data ->
  exists e, fst (decrypt C (erun C timeout ops (init_state created)) m data' k sh) = Err e.
Proof.
  intros H D L F N.
  destruct (fst (decrypt C (erun C timeout ops (init_state created)) m data' k sh)) as [d'|e] eqn:E; [exfalso|eauto].
  apply decrypt_exact in D; [|exact H]. apply decrypt_exact in E; [|exact H].
  destruct D as (A1 & A2 & s & km & A3 & A4 & A5 & A6). destruct E as (B1 & B2 & s' & km' & B3 & B4 & B5 & B6).
  cbv zeta in *. rewrite L in *.
  assert (F65 : firstn 65 data' = firstn 65 data).
  { replace (firstn 65 data') with (firstn 65 (firstn (List.length data - 32) data'))
      by (rewrite firstn_firstn; f_equal; lia).
    rewrite F, firstn_firstn. f_equal. lia. }
  assert (Fb : firstn (List.length data - 97) (skipn 65 data') = firstn (List.length data - 97) (skipn 65 data)).
  { replace (List.length data - 97)%nat with (List.length data - 32 - 65)%nat by lia.
    rewrite <- !skipn_firstn_comm. rewrite F. reflexivity. }
  rewrite F65 in B4. assert (s' = s) by congruence. subst s'. assert (km' = km) by congruence. subst km'.
  rewrite Fb in B6. destruct A6 as [A6 _], B6 as [B6 _]. apply N.
  rewrite <- (firstn_skipn (List.length data - 32) data), <- (firstn_skipn (List.length data - 32) data').
  rewrite F, A6, B6. reflexivity.
Qed.

Lemma caches_bounded created ops :
  Forall (eop_ok C) ops ->
  let st := erun C timeout ops (init_state created) in
  (List.length (c_ecdh st) <= 1024)%nat /\ (List.length (c_derived st) <= 1024)%nat /\
  (List.length (c_ephem st) <= 1024)%nat.
Proof.
  intros H st. assert (I : einv C st) by (apply erun_inv; auto using einv_init).
  destruct I as ((A & _) & (B & _) & (D & _)). unfold MAXSIZE in *. auto.
Qed.

Lemma memo_faithful created ops :
  Forall (eop_ok C) ops ->
  let st := erun C timeout ops (init_state created) in
  (forall s p, fst (ecdh C st s p) = match ecdh_raw C s p with Some v => Ok v | None => Err EValueError end) /\
  (forall m km, fst (get_derived_keys C st m km) =
     Ok (firstn 16 (sha256 C (be_enc 4 1 ++ km)), sha256 C (skipn 16 (sha256 C (be_enc 4 1 ++ km))))).
Proof.
  intros H st. assert (I : einv C st) by (apply erun_inv; auto using einv_init). split.
  - intros s p. destruct (ecdh_spec C st s p I) as (st' & E & _). rewrite E. reflexivity.
  - intros m km. destruct (derived_spec C HC st m km I) as (st' & E & _). rewrite E. reflexivity.
Qed.

Lemma find_hit {K V} (eqb : K -> K -> bool) k (v : V) c : eqb k k = true -> lru_find eqb k (lru_hit eqb k v c) = Some v.
Proof. intros H. unfold lru_hit. cbn [lru_find]. rewrite H. reflexivity. Qed.
Lemma keynb_refl k : keynb k k = true.
Proof. apply keynb_eq. reflexivity. Qed.

Lemma ephem_again st m pk r v st' r2 :
  get_ephem_key C timeout st m pk r = (Ok v, st') -> fst (get_ephem_key C timeout st' m pk r2) = Ok v.
Proof.
  unfold get_ephem_key at 1. destruct (lru_find keynb (m, pk) (c_ephem st)) as [w|] eqn:F.
  - intros [= -> <-]. unfold get_ephem_key. cbn [c_ephem]. rewrite find_hit by apply keynb_refl. reflexivity.
  - destruct (make_ephem_key C timeout st m pk r) as [[w|e] st1]; [|discriminate]. intros [= -> <-].
    unfold get_ephem_key. cbn [c_ephem lru_find lru_add]. rewrite keynb_refl. reflexivity.
Qed.

Lemma reused created ops m pk d1 d2 sh1 sh2 r1 r2 ct1 ct2 :
  Forall (eop_ok C) ops -> rnd_ok C r1 -> rnd_ok C r2 ->
  let st := erun C timeout ops (init_state created) in
  fst (encrypt C timeout st m d1 pk sh1 r1) = Ok ct1 ->
  fst (encrypt C timeout (snd (encrypt C timeout st m d1 pk sh1 r1)) m d2 pk sh2 r2) = Ok ct2 ->
  firstn 65 ct1 = firstn 65 ct2.
Proof.
  intros H R1 R2 st E1 E2.
  assert (I : einv C st) by (apply erun_inv; auto using einv_init).
  destruct (ephem_spec C HC timeout st m pk r1 I R1) as (res & st1 & G1 & I1 & P1).
  unfold encrypt in E1. rewrite G1 in E1. destruct res as [v|e]; [|discriminate].
  pose proof (ephem_again _ _ _ _ _ _ r2 G1) as G2.
  unfold encrypt in E2. rewrite G1 in E2.
  destruct (P1 _ eq_refl) as (s & p & c & km & Hs & Hp & Hc & Hk & Hl & Hv).
  pose proof (pub_len _ HC _ _ Hp) as Lp.
  rewrite Hv in *. cbn [snd fst] in E1, E2.
  destruct (get_ephem_key C timeout st1 m pk r2) as [res2 st2]. cbn [fst] in G2. subst res2. cbn [fst] in E2.
  revert E1 E2. cbv zeta.
  repeat match goal with |- context [if negb ?b then _ else _] => destruct b; cbn [negb]; [|discriminate] end.
  intros [= <-].
  repeat match goal with |- context [if negb ?b then _ else _] => destruct b; cbn [negb]; [|discriminate] end.
  intros [= <-]. rewrite !app_comm_cons, <- !app_assoc.
  rewrite !firstn_app_exact by (cbn [List.length]; lia). reflexivity.
Qed.

Lemma cleanup_on_miss st m pk r v st' :
  lru_find keynb (m, pk) (c_ephem st) = None ->
  last_cleanup st m < r_now1 r - timeout m ->
  get_ephem_key C timeout st m pk r = (Ok v, st') ->
  c_ephem st' = [((m, pk), v)] /\ last_cleanup st' m = r_now2 r.
Proof.
  intros F T. unfold get_ephem_key. rewrite F. unfold make_ephem_key.
  replace (last_cleanup st m <? r_now1 r - timeout m) with true by (symmetry; apply Z.ltb_lt; exact T).
  cbv zeta. destruct (pub_of C (r_ephem r)); [|discriminate]. destruct (compress C (x04 :: pk)); [|discriminate].
  set (st0 := {| c_ecdh := _; c_derived := _; c_ephem := []; last_cleanup := _ |}).
  assert (A : forall s p km st1, ecdh C st0 s p = (Ok km, st1) -> c_ephem st1 = [] /\ last_cleanup st1 m = r_now2 r).
  { intros s p km st1. unfold ecdh.
    assert (E : c_ephem st0 = [] /\ last_cleanup st0 m = r_now2 r)
      by (unfold st0, set_last; cbn [c_ephem last_cleanup]; rewrite Nat.eqb_refl; auto).
    destruct (lru_find key2b _ _); [injection 1 as _ <-; exact E|].
    destruct (ecdh_raw C s p); [|discriminate]. injection 1 as _ <-; exact E. }
  clearbody st0. destruct (ecdh C st0 (r_ephem r) b0) as [[km|e] st1] eqn:E1; [|discriminate].
  destruct (negb _); [discriminate|].
  destruct (A _ _ _ _ E1) as [A1 A2].
  destruct (get_derived_keys C st1 m km) as [[[ek mk]|e] st2] eqn:E2; [|discriminate].
  assert (B : c_ephem st2 = c_ephem st1 /\ last_cleanup st2 = last_cleanup st1).
  { revert E2. unfold get_derived_keys. destruct (lru_find keynb (m, km) (c_derived st1)); [injection 1 as _ <-; auto|].
    destruct (derive C km); [|discriminate]. injection 1 as _ <-; auto. }
  intros [= <- <-]. destruct B as [B1 B2]. cbn [c_ephem last_cleanup]. rewrite B1, B2, A1, A2.
  unfold lru_add. rewrite firstn_nil. auto.
Qed.

Lemma ckdf_length km n : List.length (ckdf C km n) = Nat.min n (32 * S ((n + 7) / 64)).
Proof.
  clear timeout. unfold ckdf. rewrite firstn_length. f_equal.
  rewrite flat_map_concat_map.
  assert (G : forall l, List.length (List.concat (map (fun c => sha256 C (be_enc 4 (Z.of_nat c) ++ km)) l)) = (32 * List.length l)%nat).
  { induction l as [|x l IH]; [reflexivity|]. cbn [map List.concat]. rewrite app_length, IH, (sha256_len _ HC). cbn [List.length]. lia. }
  rewrite G, seq_length. reflexivity.
Qed.
End MoreFacts.
