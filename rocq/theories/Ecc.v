(** * cryptography.py 131-202: [ECCx], key pairs for signing.
    pyelliptic and OpenSSL are parameters: a check whether a private key and the two
    coordinates of a public key belong together, and the key pairs that are generated
    one after the other. *)
From Verif Require Export Data.

(** the attributes [privkey], [pubkey_x] and [pubkey_y] *)
Record ecc := { e_priv : bytes; e_x : bytes; e_y : bytes }.

Section Ecc.
Context (C : crypto).
(** pyelliptic [raw_check_key(privkey, x, y)]: whether it returns 0 (otherwise it
    returns another number or raises) *)
Context (check : bytes -> bytes -> bytes -> bool).
(** what pyelliptic generates in each round *)
Context (gen : nat -> ecc).

(** cryptography.py 76-78 *)
Definition verify_pubkey (key : bytes) : result unit := if is_len 64 key then Ok tt else Err EInvalidKeys.
(** cryptography.py 81-86; coincurve raises ValueError for a bad key *)
Definition privtopub (raw : bytes) : result bytes :=
  match secret_of C raw with
  | None => Err EValueError
  | Some s => match pub_of C s with None => Err EValueError | Some p => do _ <- verify_pubkey p; Ok p end
  end.
(** cryptography.py 163-168 *)
Definition decode_pubkey (raw : bytes) : result (bytes * bytes) :=
  do _ <- verify_pubkey raw; Ok (firstn 32 raw, skipn 32 raw).
(** cryptography.py 157-161: [str_to_bytes] of bytes is the identity *)
Definition raw_pubkey (e : ecc) : bytes := e_x e ++ e_y e.
(** bitcoin [get_privkey_format]: by length; the base58 formats tried last are left
    out (no key that gets here is one, see [construct]) *)
Definition privkey_format (k : bytes) : bool := is_len 32 k || is_len 33 k || is_len 64 k || is_len 66 k.
(** cryptography.py 176-192: every exception means False *)
Definition has_valid_keys (e : ecc) : bool :=
  privkey_format (e_priv e) &&
  match decode_pubkey (raw_pubkey e) with Ok (x, y) => check (e_priv e) x y | Err _ => false end.
(** pyelliptic [ECC.__init__]: coordinates that are given are checked against the
    private key and kept (its bare Exception is modelled as RuntimeError), else the
    round's pair is generated *)
Definition super_init (round : nat) (given : option ecc) : result ecc :=
  match given with
  | Some e => if check (e_priv e) (e_x e) (e_y e) then Ok e else Err ERuntimeError
  | None => Ok (gen round)
  end.
(** cryptography.py 146-155, at most [n] rounds starting with [round]; [None]: the
    loop is still running *)
Fixpoint rounds (n round : nat) (given : option ecc) : option (result ecc) :=
  match n with
  | O => None
  | S n' =>
      match super_init round given with
      | Err e => Some (Err e)
      | Ok e =>
          if negb (match e_priv e with [] => true | _ => false end) && negb (is_len 32 (e_priv e))
          then rounds n' (S round) given
          else if has_valid_keys e then Some (Ok e) else Some (Err ECryptoError)
      end
  end.
(** cryptography.py 139-155: [ECCx(raw_privkey)] within [n] rounds *)
Definition construct (n : nat) (raw : option bytes) : option (result ecc) :=
  match raw with
  | Some k =>
      match (do p <- privtopub k; do _ <- verify_pubkey p; decode_pubkey p) with
      | Err e => Some (Err e)
      | Ok (x, y) => rounds n 0 (Some {| e_priv := k; e_x := x; e_y := y |})
      end
  | None => rounds n 0 None
  end.
(** cryptography.py 194-197 *)
Definition ecc_sign (e : ecc) (input : bytes) : result bytes :=
  do s <- ecdsa_sign C (e_priv e) input; if is_len 65 s then Ok s else Err EAssertionError.
(** cryptography.py 199-202 *)
Definition ecc_verify (e : ecc) (sig input : bytes) : result unit :=
  if is_len 65 sig then ecdsa_verify C (VBytes (raw_pubkey e)) (VBytes sig) input else Err EInvalidSignature.

(** ** Facts *)
(** what is assumed of OpenSSL's check *)
Definition check_ok : Prop := forall k x y, List.length x = 32%nat -> List.length y = 32%nat ->
  (check k x y = true <-> exists s, secret_of C k = Some s /\ pub_of C s = Some (x ++ y)).

Lemma split64 (p : bytes) : List.length p = 64%nat -> List.length (firstn 32 p) = 32%nat /\ List.length (skipn 32 p) = 32%nat.
Proof. intros H. rewrite firstn_length, skipn_length, H. split; reflexivity. Qed.

Lemma privtopub_ok (HC : crypto_ok C) k s p : secret_of C k = Some s -> pub_of C s = Some p ->
  privtopub k = Ok p /\ decode_pubkey p = Ok (firstn 32 p, skipn 32 p).
Proof.
  intros S P. pose proof (pub_len _ HC _ _ P) as L. apply is_len_true in L. unfold privtopub, decode_pubkey, verify_pubkey.
  rewrite S, P, L. split; reflexivity.
Qed.
Lemma has_valid_exact e : check_ok -> has_valid_keys e = true <->
  (privkey_format (e_priv e) = true /\ List.length (raw_pubkey e) = 64%nat /\
   exists s, secret_of C (e_priv e) = Some s /\ pub_of C s = Some (raw_pubkey e)).
Proof.
  intros HK. unfold has_valid_keys, decode_pubkey, verify_pubkey. rewrite andb_true_iff. destruct (is_len 64 (raw_pubkey e)) eqn:L; cbn [bind].
  - apply is_len_true in L. destruct (split64 _ L) as [L1 L2]. rewrite (HK _ _ _ L1 L2), firstn_skipn. tauto.
  - split; [intros [_ H]; discriminate H|]. intros (_ & H & _). apply is_len_true in H. congruence.
Qed.

(** a given key *)
Lemma construct_given n k s p : crypto_ok C -> check_ok -> secret_of C k = Some s -> pub_of C s = Some p ->
  (List.length k = 32%nat -> construct (S n) (Some k) = Some (Ok {| e_priv := k; e_x := firstn 32 p; e_y := skipn 32 p |})) /\
  (k <> [] -> List.length k <> 32%nat -> construct n (Some k) = None).
Proof.
  intros HC HK S P. pose proof (pub_len _ HC _ _ P) as L. destruct (privtopub_ok HC _ _ _ S P) as [Q1 Q2].
  destruct (split64 _ L) as [L1 L2].
  assert (K : check k (firstn 32 p) (skipn 32 p) = true) by (apply HK; [assumption|assumption|rewrite firstn_skipn; eauto]).
  assert (Q3 : verify_pubkey p = Ok tt) by (unfold verify_pubkey; apply is_len_true in L; rewrite L; reflexivity).
  set (e := {| e_priv := k; e_x := firstn 32 p; e_y := skipn 32 p |}).
  split.
  - intros Lk. unfold construct. rewrite Q1. cbn [bind]. rewrite Q3. cbn [bind]. rewrite Q2. fold e. cbn [rounds super_init]. unfold e at 1 2 3. cbn [e_priv e_x e_y].
    rewrite K. cbn [e_priv]. apply is_len_true in Lk. fold e.
    change (e_priv e) with k. rewrite Lk. cbn [negb]. rewrite andb_false_r.
    assert (V : has_valid_keys e = true).
    { apply has_valid_exact; [assumption|]. unfold raw_pubkey, e. cbn [e_priv e_x e_y]. rewrite firstn_skipn. unfold privkey_format. rewrite Lk.
      split; [reflexivity|]. split; [assumption|]. eauto. }
    rewrite V. reflexivity.
  - intros Ne Lk. unfold construct. rewrite Q1. cbn [bind]. rewrite Q3. cbn [bind]. rewrite Q2. fold e. generalize 0%nat. induction n as [|n IH]; intros r; [reflexivity|].
    cbn [rounds super_init]. unfold e at 1 2 3. cbn [e_priv e_x e_y]. rewrite K. fold e. change (e_priv e) with k.
    assert (F : is_len 32 k = false) by (destruct (is_len 32 k) eqn:Q; [apply is_len_true in Q; contradiction|reflexivity]).
    rewrite F. destruct k as [|b k']; [congruence|]. cbn [negb andb]. apply IH.
Qed.
Lemma construct_refused n k : secret_of C k = None -> construct n (Some k) = Some (Err EValueError).
Proof. intros S. unfold construct, privtopub. rewrite S. reflexivity. Qed.

(** generated keys *)
Definition retried (e : ecc) : Prop := e_priv e <> [] /\ List.length (e_priv e) <> 32%nat.
Lemma rounds_generated n i r : rounds n i None = Some r <->
  exists j, (i <= j < i + n)%nat /\ (forall k, (i <= k < j)%nat -> retried (gen k)) /\ ~ retried (gen j) /\
    r = if has_valid_keys (gen j) then Ok (gen j) else Err ECryptoError.
Proof.
  assert (D : forall e, negb (match e_priv e with [] => true | _ => false end) && negb (is_len 32 (e_priv e)) = true <-> retried e).
  { intros e. unfold retried. rewrite andb_true_iff, !negb_true_iff. destruct (e_priv e) as [|b q] eqn:Q; [split; [intros [H _]; discriminate H|intros [H _]; congruence]|].
    pose proof (is_len_true 32 (b :: q)) as L. destruct (is_len 32 (b :: q)).
    - split; [intros [_ H]; discriminate H|intros [_ H]; exfalso; apply H, L; reflexivity].
    - split; [intros _; split; [discriminate|intros H; apply L in H; discriminate H]|intros _; split; reflexivity]. }
  revert i. induction n as [|n IH]; intros i; cbn [rounds super_init].
  - split; [discriminate|]. intros (j & Hj & _). lia.
  - destruct (negb _ && negb _) eqn:Q.
    + apply D in Q. rewrite IH. split; intros (j & Hj & Hb & Hn & Hr).
      * exists j. split; [lia|]. split; [|auto]. intros k Hk. destruct (Nat.eq_dec k i) as [->|N]; [exact Q|]. apply Hb. lia.
      * destruct (Nat.eq_dec j i) as [->|N]; [contradiction|]. exists j. split; [lia|]. split; [|auto]. intros k Hk. apply Hb. lia.
    + assert (NR : ~ retried (gen i)) by (intros H; apply D in H; congruence). split.
      * intros H. exists i. split; [lia|]. split; [intros k Hk; lia|]. split; [exact NR|]. destruct (has_valid_keys (gen i)); congruence.
      * intros (j & Hj & Hb & Hn & Hr). destruct (Nat.eq_dec j i) as [->|N]; [rewrite Hr; destruct (has_valid_keys (gen i)); reflexivity|].
        exfalso. apply NR, Hb. lia.
Qed.
Lemma construct_generated n r : construct n None = Some r <->
  exists j, (j < n)%nat /\ (forall k, (k < j)%nat -> retried (gen k)) /\ ~ retried (gen j) /\
    r = if has_valid_keys (gen j) then Ok (gen j) else Err ECryptoError.
Proof.
  unfold construct. rewrite rounds_generated. split; intros (j & Hj & Hb & Hn & Hr); exists j; (split; [lia|]; split; [|auto]); intros k Hk; apply Hb; lia.
Qed.

Lemma short_coordinate n i : (forall j, (j < i)%nat -> retried (gen j)) -> List.length (e_priv (gen i)) = 32%nat ->
  List.length (raw_pubkey (gen i)) <> 64%nat -> (i < n)%nat -> construct n None = Some (Err ECryptoError).
Proof.
  intros Hj L N Hn. apply construct_generated. exists i. split; [exact Hn|]. split; [exact Hj|]. split; [intros [_ H]; contradiction|].
  unfold has_valid_keys, decode_pubkey, verify_pubkey. destruct (is_len 64 (raw_pubkey (gen i))) eqn:Q; [apply is_len_true in Q; contradiction|].
  rewrite andb_false_r. reflexivity.
Qed.

(** whatever is constructed *)
Lemma rounds_valid n i g e : rounds n i g = Some (Ok e) -> has_valid_keys e = true /\ ~ retried e.
Proof.
  revert i. induction n as [|n IH]; intros i; cbn [rounds]; [discriminate|]. destruct (super_init i g) as [e0|x]; [|discriminate].
  destruct (negb _ && negb _) eqn:Q; [apply IH|]. destruct (has_valid_keys e0) eqn:V; [|discriminate]. intros [= <-]. split; [exact V|].
  intros [R1 R2]. destruct (e_priv e0) as [|b q]; [congruence|]. cbn [negb andb] in Q. apply negb_false_iff, is_len_true in Q. contradiction.
Qed.
Lemma constructed n raw e : check_ok -> construct n raw = Some (Ok e) ->
  List.length (e_priv e) = 32%nat /\ List.length (raw_pubkey e) = 64%nat /\ privtopub (e_priv e) = Ok (raw_pubkey e) /\
  (forall k, raw = Some k -> e_priv e = k).
Proof.
  intros HK H.
  assert (G : exists g i, rounds n i g = Some (Ok e) /\ (forall k, raw = Some k -> exists x y, g = Some {| e_priv := k; e_x := x; e_y := y |})).
  { unfold construct in H. destruct raw as [k|].
    - destruct (bind _ _) as [[x y]|]; [|discriminate H]. exists (Some {| e_priv := k; e_x := x; e_y := y |}), 0%nat. split; [exact H|]. intros k' [= <-]. eauto.
    - exists None, 0%nat. split; [exact H|]. discriminate. }
  destruct G as (g & i & G & Hg). destruct (rounds_valid _ _ _ _ G) as [V NR]. apply (has_valid_exact e HK) in V as (F & L & s & S & P).
  assert (L32 : List.length (e_priv e) = 32%nat).
  { destruct (Nat.eq_dec (List.length (e_priv e)) 32) as [Q|Q]; [exact Q|]. exfalso. apply NR. split; [|exact Q].
    intros E0. rewrite E0 in F. discriminate F. }
  split; [exact L32|]. split; [exact L|]. split.
  - unfold privtopub. rewrite S, P. unfold verify_pubkey. apply is_len_true in L. rewrite L. reflexivity.
  - intros k Hk. destruct (Hg _ Hk) as (x & y & ->). clear -G. revert i G. induction n as [|n IH]; intros i; cbn [rounds super_init]; [discriminate|].
    destruct (check _ _ _); [|discriminate]. destruct (negb _ && negb _); [apply IH|]. destruct (has_valid_keys _); [|discriminate]. intros [= <-]. reflexivity.
Qed.

(** signatures *)
Lemma ecc_verify_exact e sig m : List.length (raw_pubkey e) = 64%nat ->
  (ecc_verify e sig m = Ok tt <-> List.length sig = 65%nat /\ recover C sig (sha3_256 C m) = Some (x04 :: raw_pubkey e)) /\
  (ecc_verify e sig m <> Ok tt -> ecc_verify e sig m = Err EInvalidSignature).
Proof using C.
  clear check gen.
  intros L. unfold ecc_verify, ecdsa_verify. unfold blen. rewrite L.
  change (Z.of_nat 64 =? 64) with true. cbv beta iota.
  destruct (is_len 65 sig) eqn:S; [apply is_len_true in S|split; [split; [discriminate|intros [Q _]; apply is_len_true in Q; congruence]|auto]].
  destruct (recover C sig (sha3_256 C m)) as [k|] eqn:R; [|split; [split; [discriminate|intros [_ Q]; discriminate Q]|auto]].
  destruct (bytes_eqb k (x04 :: raw_pubkey e)) eqn:B.
  - apply bytes_eqb_eq in B. subst k. split; [tauto|congruence].
  - split; [split; [discriminate|]|auto]. intros [_ Q]. injection Q as ->. rewrite bytes_eqb_refl in B. discriminate B.
Qed.
Lemma ecc_signed e1 e2 m : crypto_ok C -> privtopub (e_priv e1) = Ok (raw_pubkey e1) -> List.length (raw_pubkey e2) = 64%nat ->
  exists sig, ecc_sign e1 m = Ok sig /\ List.length sig = 65%nat /\
    ecc_verify e2 sig m = if bytes_eqb (raw_pubkey e1) (raw_pubkey e2) then Ok tt else Err EInvalidSignature.
Proof using C.
  clear check gen.
  intros HC P L. unfold privtopub in P. destruct (secret_of C (e_priv e1)) as [s|] eqn:S; [|discriminate P].
  destruct (pub_of C s) as [p|] eqn:Q; [|discriminate P]. unfold verify_pubkey in P. destruct (is_len 64 p); [|discriminate P]. injection P as P.
  destruct (sign_total _ HC _ _ (sha3_256 C m) S (sha3_len _ HC _)) as (sig & Hs). destruct (sign_recover _ HC _ _ _ _ Hs Q) as [R L65].
  exists sig. split; [|split; [exact L65|]].
  - unfold ecc_sign, ecdsa_sign. rewrite S, Hs. cbn [bind]. apply is_len_true in L65. rewrite L65. reflexivity.
  - destruct (ecc_verify_exact e2 sig m L) as [V1 V2]. destruct (bytes_eqb _ _) eqn:B.
    + apply bytes_eqb_eq in B. apply V1. split; [exact L65|]. rewrite <- B. congruence.
    + apply V2. intros V. apply V1 in V as [_ V]. assert (E0 : p = raw_pubkey e2) by congruence. rewrite <- P, E0, bytes_eqb_refl in B. discriminate B.
Qed.
End Ecc.

(** ** Instances *)
(** OpenSSL's check for the toy scheme *)
Definition toy_check (k x y : bytes) : bool := is_len 32 k && bytes_eqb (x ++ y) (k ++ k).
Lemma toy_check_ok : check_ok toy toy_check.
Proof.
  intros k x y Lx Ly. unfold toy_check. cbn [toy secret_of pub_of]. rewrite andb_true_iff. split.
  - intros [L B]. apply bytes_eqb_eq in B. exists k. rewrite L, B. auto.
  - intros (s & S & P). destruct (is_len 32 k) eqn:L; [|discriminate S]. injection S as <-. rewrite L in P. injection P as P. rewrite P. split; [reflexivity|apply bytes_eqb_refl].
Qed.
(** coincurve pads short private keys; so does this variant of the toy scheme *)
Definition padded (k : bytes) : option bytes :=
  match k with [] => None | _ => if (List.length k <=? 32)%nat then Some (zeros (32 - List.length k) ++ k) else None end.
Definition toy_pad : crypto := {|
  sha1 := sha1 toy; sha256 := sha256 toy; sha3_256 := sha3_256 toy; keccak := keccak toy;
  secret_of := padded; pub_of := pub_of toy; sign_rec := sign_rec toy; recover := recover toy; compress := compress toy;
  ecdh_raw := ecdh_raw toy; aes_ctr := aes_ctr toy; hmac_sha256 := hmac_sha256 toy; eth_sign := eth_sign toy;
  eth_recover := eth_recover toy; eth_address := eth_address toy |}.
Definition pad_check (k x y : bytes) : bool := match padded k with Some s => bytes_eqb (x ++ y) (s ++ s) | None => false end.
Lemma padded_len k s : padded k = Some s -> List.length s = 32%nat.
Proof.
  intros H. unfold padded in H. assert (Q : (if (List.length k <=? 32)%nat then Some (zeros (32 - List.length k) ++ k) else None) = Some s).
  { destruct k as [|b k]; [discriminate H|exact H]. }
  clear H. destruct (List.length k <=? 32)%nat eqn:L; [|discriminate Q]. assert (Q' : zeros (32 - List.length k) ++ k = s) by congruence.
  rewrite <- Q'. apply Nat.leb_le in L. rewrite app_length, zeros_length. lia.
Qed.
Lemma padded_32 s : List.length s = 32%nat -> padded s = Some s.
Proof.
  intros L. unfold padded. destruct s as [|b s]; [discriminate L|]. rewrite L. reflexivity.
Qed.
Lemma toy_pad_ok : crypto_ok toy_pad.
Proof.
  pose proof toy_ok as T. split; cbn [toy_pad sha1 sha256 sha3_256 keccak secret_of pub_of sign_rec recover compress ecdh_raw
              aes_ctr hmac_sha256 eth_sign eth_recover eth_address].
  - apply (sha1_len _ T).
  - apply (sha256_len _ T).
  - apply (sha3_len _ T).
  - intros k s H. apply padded_32. eapply padded_len; exact H.
  - apply (pub_len _ T).
  - intros k s H. apply padded_len in H. apply is_len_true in H. cbn [toy pub_of]. rewrite H. eauto.
  - intros k s h H Lh. apply padded_len in H. apply is_len_true in H, Lh. cbn [toy sign_rec]. rewrite H, Lh. cbn [andb]. eauto.
  - apply (sign_recover _ T).
  - intros s1 p1 s2 p2 H1 P1 H2 P2. apply (dh _ T); [|exact P1| |exact P2]; cbn [toy secret_of];
      [apply padded_len, is_len_true in H1; rewrite H1|apply padded_len, is_len_true in H2; rewrite H2]; reflexivity.
  - apply (aes_inv _ T).
  - apply (aes_len _ T).
  - apply (hmac_len _ T).
  - apply (eth_sign_ok _ T).
  - intros k a H. cbn [toy eth_address] in H. destruct (is_len 32 k) eqn:L; [|discriminate H]. injection H as <-. apply is_len_true in L.
    exists k, (k ++ k). rewrite (padded_32 _ L). cbn [toy pub_of keccak]. apply is_len_true in L. rewrite L. auto.
  - apply (keccak_len _ T).
Qed.
Lemma pad_check_ok : check_ok toy_pad pad_check.
Proof.
  intros k x y Lx Ly. unfold pad_check. cbn [toy_pad secret_of pub_of toy]. split.
  - destruct (padded k) as [s|] eqn:P; [|discriminate]. intros B. apply bytes_eqb_eq in B. exists s. split; [reflexivity|].
    apply padded_len, is_len_true in P. rewrite P, B. reflexivity.
  - intros (s & -> & P). destruct (is_len 32 s); [|discriminate P]. injection P as P. rewrite P. apply bytes_eqb_refl.
Qed.
