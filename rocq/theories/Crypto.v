(** * Cryptographic primitives: an explicit record of functions and the laws that
    theorems assume about it.  Nothing here is an axiom: the record is an argument
    of the model and [crypto_ok] a hypothesis of the theorems that need it, and
    [toy_ok] exhibits an instance satisfying it. *)
From Verif Require Export Text.

Record crypto := {
  (** hash functions: hashlib.sha1/sha256, _pysha3.sha3_256, eth_utils.keccak *)
  sha1 : bytes -> bytes;
  sha256 : bytes -> bytes;
  sha3_256 : bytes -> bytes;
  keccak : bytes -> bytes;
  (** coincurve [PrivateKey(raw).secret]: [None] = ValueError *)
  secret_of : bytes -> option bytes;
  (** cryptography.py 81-86 [privtopub] (of a secret), 64 bytes *)
  pub_of : bytes -> option bytes;
  (** coincurve [sign_recoverable(hash, hasher=None)] *)
  sign_rec : bytes -> bytes -> option bytes;
  (** coincurve [PublicKey.from_signature_and_message(sig, hash, hasher=None)
      .format(compressed=False)]; [None] = any exception *)
  recover : bytes -> bytes -> option bytes;
  (** coincurve [PublicKey(data).format()] (33 bytes); [None] = ValueError *)
  compress : bytes -> option bytes;
  (** coincurve [PrivateKey.ecdh(public_key)]; [None] = exception *)
  ecdh_raw : bytes -> bytes -> option bytes;
  (** AES-128-CTR (pyelliptic.Cipher, both directions) and HMAC-SHA256 *)
  aes_ctr : bytes -> bytes -> bytes -> bytes;
  hmac_sha256 : bytes -> bytes -> bytes;
  (** eth_account [signHash(hash, key)] and [recoverHash(hash, vrs)] *)
  eth_sign : bytes -> bytes -> option (Z * Z * Z);
  eth_recover : bytes -> Z * bytes * bytes -> option ustr;
  (** the checksummed address of a private key's account *)
  eth_address : bytes -> option ustr;
}.

(** eth_utils.to_checksum_address of 20 raw bytes: hex digits of the address, the
    letters upper-cased where the keccak of the lower-case text has a digit >= 8 *)
Definition checksum_digit (d h : Z) : Z := if (97 <=? d) && negb ((48 <=? h) && (h <=? 55)) then d - 32 else d.
Fixpoint checksum_digits (ds hs : ustr) : ustr :=
  match ds, hs with
  | d :: ds', h :: hs' => checksum_digit d h :: checksum_digits ds' hs'
  | _, _ => []
  end.
Definition checksum_address (kc : bytes -> bytes) (b : bytes) : ustr :=
  let s := hexlify b in u "0x" ++ checksum_digits s (hexlify (kc (map z2b s))).
(** the address of a 64-byte public key: the last 20 bytes of its hash *)
Definition address_of (kc : bytes -> bytes) (p : bytes) : ustr := checksum_address kc (skipn 12 (kc p)).

Record crypto_ok (C : crypto) : Prop := {
  sha1_len : forall b, List.length (sha1 C b) = 20%nat;
  sha256_len : forall b, List.length (sha256 C b) = 32%nat;
  sha3_len : forall b, List.length (sha3_256 C b) = 32%nat;
  secret_idem : forall k s, secret_of C k = Some s -> secret_of C s = Some s;
  pub_len : forall k p, pub_of C k = Some p -> List.length p = 64%nat;
  pub_total : forall k s, secret_of C k = Some s -> exists p, pub_of C s = Some p;
  (** a produced signature has 65 bytes and recovers to the signer's public key *)
  sign_total : forall k s h, secret_of C k = Some s -> List.length h = 32%nat ->
     exists sig, sign_rec C s h = Some sig;
  sign_recover : forall s h sig p, sign_rec C s h = Some sig -> pub_of C s = Some p ->
     recover C sig h = Some (x04 :: p) /\ List.length sig = 65%nat;
  (** Diffie-Hellman *)
  dh : forall s1 p1 s2 p2,
     secret_of C s1 = Some s1 -> pub_of C s1 = Some p1 ->
     secret_of C s2 = Some s2 -> pub_of C s2 = Some p2 ->
     exists c km, compress C (x04 :: p1) = Some c /\ ecdh_raw C s2 c = Some km
       /\ ecdh_raw C s1 (x04 :: p2) = Some km /\ List.length km = 32%nat;
  aes_inv : forall k iv d, aes_ctr C k iv (aes_ctr C k iv d) = d;
  aes_len : forall k iv d, List.length (aes_ctr C k iv d) = List.length d;
  hmac_len : forall k d, List.length (hmac_sha256 C k d) = 32%nat;
  (** ethereum accounts *)
  eth_sign_ok : forall k a h, eth_address C k = Some a -> List.length h = 32%nat ->
     exists v r s, eth_sign C k h = Some (v, r, s) /\ 0 <= r < 2 ^ 256 /\ 0 <= s < 2 ^ 256
       /\ eth_recover C h (v, be_enc 32 r, be_enc 32 s) = Some a;
  (** an account's address is that of the private key's public key *)
  eth_account : forall k a, eth_address C k = Some a ->
     exists s p, secret_of C k = Some s /\ pub_of C s = Some p /\ a = address_of (keccak C) p;
  keccak_len : forall b, List.length (keccak C b) = 32%nat;
}.

(** ** A concrete instance (insecure, used only to show that the laws are
    satisfiable): a public key is the 32-byte secret twice. *)
Definition pad_to (n : nat) (b : bytes) : bytes := firstn n (b ++ zeros n).
Lemma pad_to_length n b : List.length (pad_to n b) = n.
Proof. unfold pad_to. rewrite firstn_length, app_length, zeros_length. lia. Qed.
Definition bxor (a b : byte) : byte := z2b (Z.lxor (b2z a) (b2z b)).
Fixpoint xor_bytes (a b : bytes) : bytes :=
  match a, b with
  | x :: a', y :: b' => bxor x y :: xor_bytes a' b'
  | _, _ => []
  end.
Lemma bxor_comm a b : bxor a b = bxor b a.
Proof. unfold bxor. rewrite Z.lxor_comm. reflexivity. Qed.
Lemma xor_bytes_comm a b : xor_bytes a b = xor_bytes b a.
Proof. revert b; induction a as [|x a IH]; destruct b; cbn; auto. rewrite bxor_comm, IH. reflexivity. Qed.
Lemma xor_bytes_length a b : List.length (xor_bytes a b) = Nat.min (List.length a) (List.length b).
Proof. revert b; induction a as [|x a IH]; destruct b; cbn; auto. Qed.

Definition is_len (n : nat) (b : bytes) : bool := Nat.eqb (List.length b) n.
(** the secret inside a toy public key, compressed (02 k) or not (04 k k) *)
Definition toy_point (p : bytes) : option bytes :=
  match p with
  | x :: r =>
      if byte_eqb x x02 && is_len 32 r then Some r
      else if byte_eqb x x04 && is_len 64 r && bytes_eqb (firstn 32 r) (skipn 32 r) then Some (firstn 32 r)
      else None
  | [] => None
  end.
(** a Fletcher checksum: the sum of the bytes and the sum of the running sums *)
Definition toy_sum (b : bytes) : Z :=
  let '(s, t) := fold_left (fun st x => let '(s, t) := st in (s + b2z x + 1, t + (s + b2z x + 1))) b (0, 0) in t * 4294967296 + s.
Definition toy : crypto := {|
  sha1 := fun b => be_enc 20 (toy_sum b);
  sha256 := fun b => pad_to 32 (rev b);
  sha3_256 := fun b => pad_to 32 b;
  keccak := fun b => pad_to 32 b;
  secret_of := fun k => if is_len 32 k then Some k else None;
  pub_of := fun k => if is_len 32 k then Some (k ++ k) else None;
  sign_rec := fun k h => if is_len 32 k && is_len 32 h then Some (k ++ h ++ [x00]) else None;
  recover := fun s h => if is_len 65 s && is_len 32 h && bytes_eqb (skipn 32 s) (h ++ [x00])
                        then Some (x04 :: firstn 32 s ++ firstn 32 s) else None;
  compress := fun p => match toy_point p with Some k => Some (x02 :: k) | None => None end;
  ecdh_raw := fun s p => match toy_point p with
                         | Some k => if is_len 32 s then Some (xor_bytes s k) else None
                         | None => None end;
  aes_ctr := fun k iv d => d;
  hmac_sha256 := fun k d => pad_to 32 (k ++ d);
  eth_sign := fun k h => if is_len 32 k then Some (27, be_dec k, be_dec h) else None;
  eth_recover := fun h vrs => let '(v, r, s) := vrs in
      if is_len 32 r && bytes_eqb s h then Some (address_of (pad_to 32) (r ++ r)) else None;
  eth_address := fun k => if is_len 32 k then Some (address_of (pad_to 32) (k ++ k)) else None;
|}.

Lemma is_len_true n b : is_len n b = true <-> List.length b = n.
Proof. unfold is_len. apply Nat.eqb_eq. Qed.

Lemma toy_point_unc k : List.length k = 32%nat -> toy_point (x04 :: k ++ k) = Some k.
Proof.
  intros H. unfold toy_point. change (byte_eqb x04 x02) with false. change (byte_eqb x04 x04) with true.
  assert (E : is_len 64 (k ++ k) = true) by (apply is_len_true; rewrite app_length; lia).
  rewrite E, firstn_app_exact, skipn_app_exact by exact H. rewrite bytes_eqb_refl. reflexivity.
Qed.
Lemma toy_point_c k : List.length k = 32%nat -> toy_point (x02 :: k) = Some k.
Proof.
  intros H. unfold toy_point. change (byte_eqb x02 x02) with true.
  apply is_len_true in H. rewrite H. reflexivity.
Qed.

Lemma toy_ok : crypto_ok toy.
Proof.
  split; cbn [toy sha1 sha256 sha3_256 keccak secret_of pub_of sign_rec recover compress ecdh_raw
              aes_ctr hmac_sha256 eth_sign eth_recover eth_address].
  - intros; apply be_enc_length.
  - intros; apply pad_to_length.
  - intros; apply pad_to_length.
  - intros k s. destruct (is_len 32 k) eqn:E; [|discriminate]. intros [= <-]. rewrite E. reflexivity.
  - intros k p. destruct (is_len 32 k) eqn:E; [|discriminate]. intros [= <-].
    apply is_len_true in E. rewrite app_length. lia.
  - intros k s. destruct (is_len 32 k) eqn:E; [|discriminate]. intros [= <-]. rewrite E. eauto.
  - intros k s h. destruct (is_len 32 k) eqn:E; [|discriminate]. intros [= <-] H.
    apply is_len_true in H. rewrite E, H. cbn [andb]. eauto.
  - intros s h sig p. destruct (is_len 32 s) eqn:E; [|discriminate].
    destruct (is_len 32 h) eqn:F; [|discriminate]. cbn [andb]. intros [= <-] [= <-].
    apply is_len_true in E, F.
    assert (L : List.length (s ++ h ++ [x00]) = 65%nat) by (rewrite !app_length; cbn [List.length]; lia).
    split; [|exact L]. apply is_len_true in L. rewrite L.
    rewrite skipn_app_exact by exact E. rewrite firstn_app_exact by exact E.
    rewrite bytes_eqb_refl. reflexivity.
  - intros s1 p1 s2 p2. destruct (is_len 32 s1) eqn:E1; [|discriminate]. intros _ [= <-].
    destruct (is_len 32 s2) eqn:E2; [|discriminate]. intros _ [= <-].
    pose proof (proj1 (is_len_true _ _) E1). pose proof (proj1 (is_len_true _ _) E2).
    exists (x02 :: s1), (xor_bytes s2 s1). rewrite !toy_point_unc, toy_point_c by assumption.
    repeat split; [rewrite xor_bytes_comm; reflexivity|]. rewrite xor_bytes_length. lia.
  - reflexivity.
  - reflexivity.
  - intros; apply pad_to_length.
  - intros k a h. destruct (is_len 32 k) eqn:E; [|discriminate]. intros [= <-] H.
    apply is_len_true in E. pose proof (be_dec_range k) as R1. pose proof (be_dec_range h) as R2.
    unfold blen in *. rewrite E in R1. rewrite H in R2. change (256 ^ Z.of_nat 32) with (2 ^ 256) in *.
    exists 27, (be_dec k), (be_dec h).
    split; [reflexivity|]. split; [exact R1|]. split; [exact R2|].
    rewrite !be_enc_dec by assumption. rewrite bytes_eqb_refl.
    apply is_len_true in E. rewrite E. reflexivity.
  - intros k a. destruct (is_len 32 k) eqn:E; [|discriminate]. intros [= <-]. exists k, (k ++ k). rewrite E. auto.
  - intros; apply pad_to_length.
Qed.
