(** * Two frames with one signature *)
From Verif Require Export FlagFacts.

(** what is hashed of a frame: type, time and payload, [x], and after the digest the
    version field of a Hello, [tail] (message/base.py 193-210, 481-484, 687-689) *)
Definition hashed_of (decf : bytes -> result bytes) (msg x tail : bytes) : Prop :=
  exists c ty ts enc payload d, unpack_header (firstn 11 msg) = Ok (ty, ts, enc) /\ getitem library ty = Ok c /\
    decrypted decf enc (skipn 65 (body c msg)) = Ok payload /\ dumps (VList [VInt ty; VInt ts]) = Ok d /\
    x = d ++ payload /\ tail = match c with MHello => hello_suffix msg | _ => [] end.
(** one signature is good for two contents: SHA-1 has one value for [x] and [y], or SHA-3 for
    the two different hashes, or the signature recovers the key [k] from two digests *)
Definition one_for_two (C : crypto) (sig k x tail y tail' : bytes) : Prop :=
  (x <> y /\ sha1 C x = sha1 C y) \/
  (sha1 C x ++ tail <> sha1 C y ++ tail' /\ sha3_256 C (sha1 C x ++ tail) = sha3_256 C (sha1 C y ++ tail')) \/
  (sha3_256 C (sha1 C x ++ tail) <> sha3_256 C (sha1 C y ++ tail') /\
   recover C sig (sha3_256 C (sha1 C x ++ tail)) = Some (x04 :: k) /\ recover C sig (sha3_256 C (sha1 C y ++ tail')) = Some (x04 :: k)).

Lemma one_or_same C sig k x tail y tail' : crypto_ok C ->
  recover C sig (sha3_256 C (sha1 C x ++ tail)) = Some (x04 :: k) -> recover C sig (sha3_256 C (sha1 C y ++ tail')) = Some (x04 :: k) ->
  (x = y /\ tail = tail') \/ one_for_two C sig k x tail y tail'.
Proof.
  intros HC R R'. destruct (list_eq_dec Byte.byte_eq_dec (sha3_256 C (sha1 C x ++ tail)) (sha3_256 C (sha1 C y ++ tail'))) as [Q3|Q3].
  - destruct (list_eq_dec Byte.byte_eq_dec (sha1 C x ++ tail) (sha1 C y ++ tail')) as [Q1|Q1].
    + apply app_inj_len in Q1 as [Q1 Qt]; [|rewrite !(sha1_len _ HC); reflexivity].
      destruct (list_eq_dec Byte.byte_eq_dec x y) as [Qx|Qx]; [left; auto|]. right. left. auto.
    + right. right. left. auto.
  - right. right. right. auto.
Qed.

(** ** the characters of an accepted version *)
Lemma version_chars s v c : ver_parse s = Some v -> In c s -> c <> 65533 /\ c <> 63.
Proof.
  intros H I. apply ver_parse_iff in H as (W & k & e & (x & y & z & Nx & Ny & Nz & ->) & He & ->).
  assert (D : forall t n, spells_num t n -> In c t -> c <> 65533 /\ c <> 63).
  { intros t n (_ & _ & ds & F & _) It. clear -F It. induction F as [|a d t ds A F IH]; [destruct It|]. destruct It as [->|It]; [|auto].
    destruct A as (z0 & Iz & B & ->).
    assert (G : forallb (fun z => (65533 <? z) || (z + 9 <? 63) || ((63 <? z) && (z + 9 <? 65533))) (48 :: digit_zeros) = true) by (vm_compute; reflexivity).
    rewrite forallb_forall in G. specialize (G _ Iz). lia. }
  assert (J : forall l, Forall ident l -> In c (join 46 l) -> c <> 65533 /\ c <> 63).
  { intros l F Il. induction F as [|t l [_ Ft] F IH]; [destruct Il|].
    assert (T : In c t -> c <> 65533 /\ c <> 63) by (intros It; specialize (Ft _ It); unfold ident_char in Ft; lia).
    destruct l as [|t' l]; [auto|]. change (join 46 (t :: t' :: l)) with (t ++ 46 :: join 46 (t' :: l)) in Il.
    apply in_app_or in Il as [Il|[<-|Il]]; [auto|lia|auto]. }
  assert (K : forall p l, p = 45 \/ p = 43 -> Forall ident l -> In c (ver_ids p l) -> c <> 65533 /\ c <> 63).
  { intros p l Hp F Il. destruct l as [|t l]; [destruct Il|]. destruct Il as [<-|Il]; [lia|]. exact (J _ F Il). }
  destruct W as (_ & _ & _ & Wp & Wb).
  assert (Wp' : Forall ident (v_pre v)) by (eapply Forall_impl; [|exact Wp]; cbv beta; tauto).
  apply in_app_or in I as [I|I].
  - apply in_app_or in I as [I|[<-|I]]; [eauto|lia|]. apply in_app_or in I as [I|[<-|I]]; [eauto|lia|].
    apply in_app_or in I as [I|I]; [eauto|]. exact (K 45 _ (or_introl eq_refl) Wp' I).
  - apply in_app_or in I as [I|I]; [exact (K 43 _ (or_intror eq_refl) Wb I)|]. destruct He as [-> | ->]; [destruct I|destruct I as [<-|[]]; lia].
Qed.
(** so the version that is hashed is the version *)
Lemma version_hashed v v' t t' : ver_parse (ascii_decode v) = Some t -> ver_parse (ascii_decode v') = Some t' ->
  map (fun x => if b2z x <? 128 then x else x3f) v = map (fun x => if b2z x <? 128 then x else x3f) v' -> v = v'.
Proof.
  intros P P' M.
  assert (G : forall w u, ver_parse (ascii_decode w) = Some u -> map (fun x => if b2z x <? 128 then x else x3f) w = w).
  { intros w u H. rewrite <- (map_id w) at 2. apply map_ext_in. intros x I. destruct (b2z x <? 128) eqn:Q; [reflexivity|]. exfalso.
    destruct (version_chars _ _ 65533 H) as [N _]; [|congruence]. unfold ascii_decode. apply in_map_iff. exists x. rewrite Q. auto. }
  rewrite (G _ _ P), (G _ _ P') in M. exact M.
Qed.

(** ** The theorem *)
Lemma sig_bytes E n m0 df t0 c2 y2 z2 f2 s2 b2 : deserialize E n m0 df t0 None = Ok (VMsg c2 y2 z2 (VBool f2) (VBytes s2) b2) -> s2 = firstn 65 (body c2 m0).
Proof.
  intros H. apply deserialize_ok in H as (_ & y & z & e & c & _ & _ & _ & _ & H). pose proof H as H1.
  apply class_load_msg in H1 as (s & b & Q). assert (c = c2 /\ s = s2) as [-> ->] by (split; congruence). rewrite <- body_skip.
  destruct (mcls_eqb c2 MHello) eqn:QH.
  - apply mcls_eqb_eq in QH. subst c2. apply class_load_hello in H as (v & _ & _ & H). apply base_load_ok in H as (? & ? & ? & ? & _ & _ & _ & _ & Hm & _).
    cbn [body']. congruence.
  - assert (N : c2 <> MHello) by (intros ->; discriminate QH). rewrite class_load_split in H by exact N. apply bind_ok in H as (m' & H & H'). apply bind_ok in H' as ([] & _ & H'). apply Ok_inj in H'. subst m'.
    apply base_load_ok in H as (? & ? & ? & ? & _ & _ & _ & _ & Hm & _). replace (body' c2 (skipn 11 m0)) with (skipn 11 m0) by (destruct c2; reflexivity || congruence). congruence.
Qed.
Lemma same_signature E now now' msg msg' decf decf' ct ct' k c ty ts f sg a c' ty' ts' f' a' :
  crypto_ok (cr E) -> k <> [] -> signs c = true -> signs c' = true ->
  deserialize E now msg decf ct (Some k) = Ok (VMsg c ty ts (VBool f) (VBytes sg) a) ->
  deserialize E now' msg' decf' ct' (Some k) = Ok (VMsg c' ty' ts' (VBool f') (VBytes sg) a') ->
  exists x tail y tail', hashed_of decf msg x tail /\ hashed_of decf' msg' y tail' /\
  ((c' = c /\ ty' = ty /\ ts' = ts /\ a' = a /\ y = x /\ tail' = tail) \/ one_for_two (cr E) sg k x tail y tail').
Proof.
  intros HC Nk S S' H H'.
  pose proof H as A. apply (sender_exact _ _ _ _ _ _ _ Nk) in A as (D & ty0 & ts0 & e0 & c0 & p & g & a0 & d & Q & U & G & P & Hd & V).
  assert (c0 = c /\ ty = VInt ty0 /\ ts = VInt ts0 /\ e0 = f /\ g = sg /\ a0 = a) as (-> & -> & -> & -> & -> & ->) by (repeat split; congruence). clear Q.
  pose proof H' as A'. apply (sender_exact _ _ _ _ _ _ _ Nk) in A' as (D' & ty1 & ts1 & e1 & c1 & p' & g' & a1 & d' & Q & U' & G' & P' & Hd' & V').
  assert (c1 = c' /\ ty' = VInt ty1 /\ ts' = VInt ts1 /\ e1 = f' /\ g' = sg /\ a1 = a') as (-> & -> & -> & -> & -> & ->) by (repeat split; congruence). clear Q.
  destruct (V S) as [_ R]. destruct (V' S') as [_ R'].
  pose proof (sig_bytes _ _ _ _ _ _ _ _ _ _ _ D) as E1. pose proof (sig_bytes _ _ _ _ _ _ _ _ _ _ _ D') as E2. rewrite <- E1 in R. rewrite <- E2 in R'.
  exists (d ++ p), (match c with MHello => hello_suffix msg | _ => [] end), (d' ++ p'), (match c' with MHello => hello_suffix msg' | _ => [] end).
  split; [exists c, ty0, ts0, f, p, d; auto 10|]. split; [exists c', ty1, ts1, f', p', d'; auto 10|].
  destruct (one_or_same (cr E) sg k _ _ _ _ HC R R') as [[QX QT]|B]; [left|right; exact B].
  destruct (hash_input_inj _ _ _ _ _ _ _ _ Hd Hd' QX) as (<- & <- & <-). assert (c' = c) by congruence. subst c'. assert (d' = d) by congruence. subst d'.
  split; [reflexivity|]. split; [reflexivity|]. split; [reflexivity|]. split; [|auto].
  apply deserialize_ok in H as (_ & y & z & e & c1 & U1 & _ & G1 & _ & H). assert (y = ty0 /\ z = ts0 /\ e = f /\ c1 = c) as (-> & -> & -> & ->) by (repeat split; congruence).
  apply deserialize_ok in H' as (_ & y & z & e & c1 & U1' & _ & G1' & _ & H'). assert (y = ty0 /\ z = ts0 /\ e = f' /\ c1 = c) as (-> & -> & -> & ->) by (repeat split; congruence).
  rewrite <- !body_skip in *.
  assert (J : forall b b' (x x' : pyval) y z e s, Ok (VMsg c y z e s b) = Ok (VMsg c y z e s b') -> b' = b) by (intros b b' _ _ y z e s Q; injection Q as ->; reflexivity).
  destruct (mcls_eqb c MHello) eqn:QH.
  - apply mcls_eqb_eq in QH. subst c. apply class_load_hello in H as (v & Hv & Vv & H). apply class_load_hello in H' as (v' & Hv' & Vv' & H').
    unfold hello_suffix in QT. rewrite Hv, Hv' in QT.
    apply verify_version_iff in Vv as (o & t & _ & Pt & _). apply verify_version_iff in Vv' as (o' & t' & _ & Pt' & _).
    pose proof (version_hashed _ _ _ _ Pt Pt' QT). subst v'. cbn [body'] in *.
    rewrite (base_flag _ _ _ _ _ f' _ (firstn (List.length (skipn 11 msg') - 32) (skipn 11 msg')) _ decf' _ _ _ _ H) in H'; [|congruence|congruence]. apply (J _ _ VNone VNone) in H'. exact H'.
  - assert (NH : c <> MHello) by (intros ->; discriminate QH). rewrite class_load_split in H, H' by exact NH.
    apply bind_ok in H as (m & H & HV). apply bind_ok in HV as ([] & HV & Q). apply Ok_inj in Q. subst m.
    apply bind_ok in H' as (m & H' & HV'). apply bind_ok in HV' as ([] & HV' & Q). apply Ok_inj in Q. subst m.
    replace (body' c (skipn 11 msg')) with (skipn 11 msg') in * by (destruct c; reflexivity || congruence).
    replace (body' c (skipn 11 msg)) with (skipn 11 msg) in * by (destruct c; reflexivity || congruence).
    rewrite (base_flag _ _ _ _ _ f' _ (skipn 11 msg') _ decf' _ _ _ _ H) in H'; [|congruence|congruence]. apply (J _ _ VNone VNone) in H'. exact H'.
Qed.

(** ** Plain frames *)
Lemma body_plain c msg : c <> MHello -> body c msg = skipn 11 msg.
Proof. intros N. rewrite <- body_skip. destruct c; reflexivity || congruence. Qed.
Lemma same_bytes E now now' msg msg' decf decf' ct ct' k m m' :
  crypto_ok (cr E) -> k <> [] ->
  ~ In (be_dec (firstn 2 msg)) (0 :: unsigned_types) -> ~ In (be_dec (firstn 2 msg')) (0 :: unsigned_types) ->
  nth_error msg 10 = Some x00 -> nth_error msg' 10 = Some x00 -> firstn 65 (skipn 11 msg') = firstn 65 (skipn 11 msg) ->
  deserialize E now msg decf ct (Some k) = Ok m -> deserialize E now' msg' decf' ct' (Some k) = Ok m' ->
  msg' = msg \/
  exists d d', dumps (VList [VInt (be_dec (firstn 2 msg)); VInt (be_dec (firstn 8 (skipn 2 msg)))]) = Ok d /\
    dumps (VList [VInt (be_dec (firstn 2 msg')); VInt (be_dec (firstn 8 (skipn 2 msg')))]) = Ok d' /\
    one_for_two (cr E) (firstn 65 (skipn 11 msg)) k (d ++ skipn 76 msg) [] (d' ++ skipn 76 msg') [].
Proof.
  intros HC Nk U U' F F' QS H H'.
  assert (P : forall n w df t r, deserialize E n w df t (Some k) = Ok r -> ~ In (be_dec (firstn 2 w)) (0 :: unsigned_types) -> nth_error w 10 = Some x00 ->
     exists d, dumps (VList [VInt (be_dec (firstn 2 w)); VInt (be_dec (firstn 8 (skipn 2 w)))]) = Ok d /\
       recover (cr E) (firstn 65 (skipn 11 w)) (sha3_256 (cr E) (sha1 (cr E) (d ++ skipn 76 w) ++ [])) = Some (x04 :: k) /\
       w = be_enc 2 (be_dec (firstn 2 w)) ++ be_enc 8 (be_dec (firstn 8 (skipn 2 w))) ++ [x00] ++ firstn 65 (skipn 11 w) ++ skipn 76 w).
  { clear - Nk. intros n w df t r H NU F. apply (sender_exact _ _ _ _ _ _ _ Nk) in H as (D & ty & ts & e & c & p & sg & a & d & -> & U & G & P & Hd & V).
    pose proof (registry_number _ _ G) as T.
    destruct (unpack_pack _ _ _ _ U) as (x & B & Bx).
    assert (L : (11 <= List.length w)%nat).
    { apply (f_equal (@List.length _)) in B. rewrite firstn_length, !app_length, !be_enc_length in B. cbn [List.length Nat.add] in B. lia. }
    assert (X : x = x00).
    { assert (N : nth_error (firstn 11 w) 10 = Some x00).
      { rewrite <- F. rewrite <- (firstn_skipn 11 w) at 2. rewrite nth_error_app1; [reflexivity|]. rewrite firstn_length. lia. }
      rewrite B in N. rewrite nth_error_app2 in N by (rewrite be_enc_length; lia). rewrite nth_error_app2 in N by (rewrite !be_enc_length; lia).
      rewrite !be_enc_length in N. cbn in N. congruence. }
    assert (e = false) by (apply Bx; exact X). subst x e.
    assert (T1 : be_dec (firstn 2 w) = ty).
    { pose proof (unpack_type _ _ _ _ U) as Q. rewrite firstn_firstn in Q. exact Q. }
    assert (T2 : be_dec (firstn 8 (skipn 2 w)) = ts).
    { assert (Q : firstn 8 (skipn 2 (firstn 11 w)) = firstn 8 (skipn 2 w)) by (rewrite !firstn_skipn_comm, firstn_firstn; reflexivity).
      unfold unpack_header in U. destruct (Nat.eqb _ _); [|discriminate U]. rewrite Q in U. congruence. }
    rewrite T1 in NU. assert (S : signs c = true).
    { destruct (signs c) eqn:S; [reflexivity|]. exfalso. apply NU. right. rewrite T. apply unsigned_rows. exact S. }
    assert (NH : c <> MHello) by (intros ->; apply NU; left; rewrite T; reflexivity).
    destruct (V S) as [_ R]. rewrite body_plain in R, P by exact NH. cbn [decrypted] in P. apply Ok_inj in P. rewrite skipn_skipn' in P. change (11 + 65)%nat with 76%nat in P. subst p.
    rewrite T1, T2. exists d. split; [exact Hd|]. split; [destruct c; try exact R; congruence|].
    rewrite <- (firstn_skipn 11 w) at 1. rewrite B, <- !app_assoc. do 3 f_equal. rewrite <- (firstn_skipn 65 (skipn 11 w)) at 1. rewrite skipn_skipn'. reflexivity. }
  destruct (P _ _ _ _ _ H U F) as (d & Hd & R & B). destruct (P _ _ _ _ _ H' U' F') as (d' & Hd' & R' & B'). clear P. rewrite QS in R'.
  destruct (one_or_same _ _ _ _ _ _ _ HC R R') as [[QX _]|O]; [left|right; exists d, d'; auto].
  destruct (hash_input_inj _ _ _ _ _ _ _ _ Hd Hd' QX) as (Q1 & Q2 & Q3). rewrite B, B'. rewrite <- Q1, <- Q2, <- Q3, QS. reflexivity.
Qed.

(** ** The two bytes of the type *)
(** a message of class [x] none of whose slots were sent *)
Definition blank (x : mcls) : attrs_t :=
  map (fun k => (k, match x with MPeers | MResourcePeers | MGossip => VList [] | _ => VNone end)) (slot_names x).
Lemma blank_loaded E x s : signs x = false -> (forall kvs, py_dict_of s = Some kvs -> forall k, In k (slot_names x) -> dict_get (skey k) kvs = None) ->
  exists a0 a1, load_attrs FUEL x s = Ok a0 /\ apply_kwargs (cr E) x [] a0 = Ok a1 /\ set_version E x (post_init x a1) = blank x.
Proof.
  intros Sx N.
  assert (L : mapM (load_slot (load_attrs 7) x (match py_dict_of s with Some kvs => kvs | None => [] end)) (slot_names x) = Ok (map (fun k => (k, VNone)) (slot_names x))).
  { assert (G : forall l, incl l (slot_names x) -> mapM (load_slot (load_attrs 7) x (match py_dict_of s with Some kvs => kvs | None => [] end)) l = Ok (map (fun k => (k, VNone)) l)).
    { induction l as [|k l IH]; intros I; [reflexivity|]. cbn [mapM map]. unfold load_slot at 1.
      assert (Q : dict_get (skey k) (match py_dict_of s with Some kvs => kvs | None => [] end) = None).
      { destruct (py_dict_of s) as [kvs|] eqn:P; [|reflexivity]. apply (N kvs eq_refl). apply I. left. reflexivity. }
      rewrite Q. cbn [bind]. rewrite IH by (intros z Hz; apply I; right; exact Hz). reflexivity. }
    apply G, incl_refl. }
  exists (map (fun k => (k, VNone)) (slot_names x)), (map (fun k => (k, VNone)) (slot_names x)). split; [|split; [reflexivity|]].
  - change (load_attrs FUEL x s) with (load_slots (load_attrs 7) x s). unfold load_slots. cbv zeta. rewrite L. destruct x; try discriminate Sx; reflexivity.
  - destruct x; try discriminate Sx; reflexivity.
Qed.
Lemma payload_whole E now msg decf ct k c ty ts e sg a : deserialize E now msg decf ct k = Ok (VMsg c ty ts e sg a) -> c <> MHello \/ e = VBool false ->
  exists f p v, e = VBool f /\ decrypted decf f (skipn 76 msg) = Ok p /\ loads (cdepth E) p = Ok v /\ sg = VBytes (firstn 65 (skipn 11 msg)).
Proof.
  intros H N. apply deserialize_ok in H as (L & y & z & f & c1 & U & T & G & W & H). pose proof H as H1.
  apply class_load_msg in H1 as (s & b & Q). assert (c1 = c /\ e = VBool f /\ sg = VBytes s) as (-> & -> & ->) by (repeat split; congruence).
  exists f. change 76%nat with (11 + 65)%nat. rewrite <- skipn_skipn'. destruct (mcls_eqb c MHello) eqn:QH.
  - apply mcls_eqb_eq in QH. subst c. destruct N as [N|N]; [congruence|]. assert (f = false) by congruence. subst f.
    apply class_load_hello in H as (w & _ & _ & H). apply base_load_ok in H as (p & v & a0 & a1 & P & Lp & _ & _ & Hm & _).
    cbn [decrypted] in P |- *. apply Ok_inj in P. set (d := skipn 11 msg) in *. set (n := (List.length d - 32)%nat) in *.
    assert (Ld : (65 < n)%nat).
    { destruct (Nat.ltb_spec 65 n) as [X|X]; [exact X|]. exfalso. rewrite skipn_all2 in P by (rewrite firstn_length; lia). subst p.
      unfold loads in Lp. destruct (cdepth E); discriminate Lp. }
    exists (skipn 65 d), v. split; [reflexivity|]. split; [reflexivity|]. split.
    + rewrite <- (firstn_skipn n d), skipn_app. replace (65 - List.length (firstn n d))%nat with 0%nat by (rewrite firstn_length; lia).
      change (skipn 0 (skipn n d)) with (skipn n d). apply loads_junk. rewrite P. exact Lp.
    + assert (s = firstn 65 (firstn n d)) by congruence. subst s. rewrite firstn_firstn. do 2 f_equal. lia.
  - assert (NH : c <> MHello) by (intros ->; discriminate QH). rewrite class_load_split in H by exact NH.
    apply bind_ok in H as (m & H & HV). apply bind_ok in HV as ([] & _ & HV). apply Ok_inj in HV. subst m.
    apply base_load_ok in H as (p & v & a0 & a1 & P & Lp & _ & _ & Hm & _). exists p, v. split; [reflexivity|]. split; [exact P|]. split; [exact Lp|congruence].
Qed.
Lemma retyped E now msg decf ct k c ty ts f sg a x p v : deserialize E now msg decf ct k = Ok (VMsg c ty ts (VBool f) sg a) -> c <> MHello \/ f = false ->
  signs x = false -> decrypted decf f (skipn 76 msg) = Ok p -> loads (cdepth E) p = Ok v ->
  (forall kvs, py_dict_of v = Some kvs -> forall k, In k (slot_names x) -> dict_get (skey k) kvs = None) ->
  forall k', deserialize E now (be_enc 2 (type_of x) ++ skipn 2 msg) decf ct k' = Ok (VMsg x (VInt (type_of x)) ts (VBool f) sg (blank x)).
Proof.
  intros H N Sx P Lp Hk k'. destruct (payload_whole _ _ _ _ _ _ _ _ _ _ _ _ H) as (f' & p' & v' & Q & _ & _ & Es); [destruct N as [N| ->]; [left; exact N|right; reflexivity]|]. clear Q p' v' f'.
  pose proof H as H0. apply deserialize_ok in H as (L & y & z & f0 & c1 & U & T & G & W & H). pose proof H as H1.
  apply class_load_msg in H1 as (s & b & Q). assert (c1 = c /\ ts = VInt z /\ f0 = f) as (-> & -> & ->) by (repeat split; congruence). clear Q b s. subst sg.
  assert (NX : x <> MHello) by (intros ->; discriminate Sx).
  assert (TX : 0 <= type_of x < 65536 /\ getitem library (type_of x) = Ok x) by (destruct x; try discriminate Sx; vm_compute; repeat split; discriminate).
  destruct TX as [TX GX].
  destruct (unpack_pack _ _ _ _ U) as (w & B & Bx).
  assert (L11 : (11 <= List.length msg)%nat) by lia.
  assert (K2 : skipn 11 (be_enc 2 (type_of x) ++ skipn 2 msg) = skipn 11 msg).
  { rewrite skipn_app, be_enc_length, skipn_all2 by (rewrite be_enc_length; lia). cbn [app]. rewrite skipn_skipn'. reflexivity. }
  assert (K1 : firstn 11 (be_enc 2 (type_of x) ++ skipn 2 msg) = be_enc 2 (type_of x) ++ be_enc 8 z ++ [w]).
  { rewrite firstn_app, be_enc_length, firstn_all2 by (rewrite be_enc_length; lia). f_equal. change (11 - 2)%nat with 9%nat.
    rewrite firstn_skipn_comm. change (2 + 9)%nat with 11%nat. rewrite B. rewrite skipn_app, be_enc_length, skipn_all2 by (rewrite be_enc_length; lia). reflexivity. }
  rewrite (deserialize_dispatch _ _ _ _ _ _ (type_of x) z f x); [| | |exact T|exact GX].
  - pose proof H0 as D. rewrite (deserialize_dispatch _ _ _ _ _ _ _ _ _ _ L U T G) in D. destruct (ct && (z * 1000000 <? now - 600000000)); [discriminate D|].
    destruct (ct && (now + 300000000 <? z * 1000000)); [discriminate D|]. clear D. rewrite K2, class_load_split by exact NX.
    destruct (blank_loaded E x v Sx Hk) as (a0 & a1 & A0 & A1 & A2).
    assert (BL : base_load E x (type_of x) z f (skipn 11 msg) decf k' [] = Ok (VMsg x (VInt (type_of x)) (VInt z) (VBool f) (VBytes (firstn 65 (skipn 11 msg))) (blank x))).
    { apply base_load_ok. exists p, v, a0, a1. rewrite skipn_skipn'. split; [exact P|]. split; [exact Lp|]. split; [exact A0|]. split; [exact A1|]. rewrite <- A2. split; [reflexivity|].
      unfold check_sender. rewrite Sx, ?andb_false_r. reflexivity. }
    rewrite BL. cbn [bind]. destruct x; try discriminate Sx; reflexivity.
  - rewrite app_length, be_enc_length, skipn_length. lia.
  - rewrite K1, unpack_layout by lia. destruct f.
    + destruct (byte_eqb w x00) eqn:Qx; [|reflexivity]. exfalso. apply byte_eqb_eq in Qx. apply Bx in Qx. discriminate Qx.
    + assert (w = x00) by (apply Bx; reflexivity). subst w. reflexivity.
Qed.
Lemma made_ping E now msg decf ct k c ty ts e sg a : deserialize E now msg decf ct k = Ok (VMsg c ty ts e sg a) -> c <> MHello \/ e = VBool false ->
  forall k', deserialize E now (be_enc 2 1001 ++ skipn 2 msg) decf ct k' = Ok (VMsg MPing (VInt 1001) ts e sg []).
Proof.
  intros H N k'. destruct (payload_whole _ _ _ _ _ _ _ _ _ _ _ _ H N) as (f & p & v & -> & P & Lp & _).
  apply (retyped E now msg decf ct k c ty ts f sg a MPing p v H); [|reflexivity|exact P|exact Lp|intros kvs _ j []].
  destruct N as [N|N]; [left; exact N|right; congruence].
Qed.
