(** * cryptography.py 89-128: hashing, signing and making keys from text or bytes.
    Elsewhere the model hashes bytes only, as the library itself does; here the
    argument is any value. *)
From Verif Require Export Ecc.
From Verif Require Import CborSpec.

(** the bytes that get hashed.  cryptography.py 94-96: text (an enum deriving from
    [str] included) is encoded, and whatever is neither text nor bytes is refused by
    pysha3 with TypeError.  106-107: rlp's [str_to_bytes] of bytes is the identity
    and of anything else is [bytes(x, 'utf-8')], which refuses the same values with
    the same exceptions.  bytearray and memoryview are not values of the model. *)
Definition hashed (v : pyval) : result bytes :=
  match str_of v with
  | Some s => match utf8_enc s with Some b => Ok b | None => Err EUnicodeError end
  | None => match v with VBytes b => Ok b | _ => Err ETypeError end
  end.

Section Seeds.
Context (C : crypto).
(** cryptography.py 89-96 *)
Definition sha3 (seed : pyval) : result bytes := do b <- hashed seed; Ok (sha3_256 C b).
(** cryptography.py 99-108 *)
Definition mk_privkey (seed : pyval) : result bytes := do b <- hashed seed; Ok (keccak C b).
(** cryptography.py 111-114 *)
Definition sign_any (priv : bytes) (msg : pyval) : result bytes :=
  match secret_of C priv with
  | None => Err EValueError
  | Some s => do h <- sha3 msg; match sign_rec C s h with Some sig => Ok sig | None => Err EValueError end
  end.
(** cryptography.py 117-128, for a key and a signature that are bytes *)
Definition verify_any (pub sig : bytes) (msg : pyval) : result unit :=
  do _ <- verify_pubkey pub;
  do h <- sha3 msg;
  match recover C sig h with
  | Some k => if bytes_eqb k (x04 :: pub) then Ok tt else Err EInvalidSignature
  | None => Err EInvalidSignature
  end.

(** ** Facts *)
Lemma hashed_ok v b : hashed v = Ok b <-> v = VBytes b \/ (exists s, str_of v = Some s /\ utf8_dec b = Some s).
Proof.
  unfold hashed. destruct (str_of v) as [s|] eqn:S.
  - destruct (utf8_enc s) as [b'|] eqn:U; split.
    + intros [= <-]. right. exists s. split; [reflexivity|]. apply utf8_iff. exact U.
    + intros [->|(s' & [= <-] & D)]; [discriminate S|]. apply utf8_iff in D. congruence.
    + discriminate.
    + intros [->|(s' & [= <-] & D)]; [discriminate S|]. apply utf8_iff in D. congruence.
  - split.
    + destruct v; try discriminate. intros [= <-]. left. reflexivity.
    + intros [->|(s' & Q & _)]; [reflexivity|discriminate Q].
Qed.
Lemma no_utf8 s : utf8_enc s = None <-> exists c, In c s /\ scalar c = false.
Proof.
  unfold utf8_enc. destruct (forallb scalar s) eqn:F.
  - split; [discriminate|]. intros (c & I & N). rewrite forallb_forall in F. rewrite (F c I) in N. discriminate.
  - split; [intros _|reflexivity]. induction s as [|c s IH]; cbn [forallb] in F; [discriminate|].
    destruct (scalar c) eqn:Sc.
    + destruct (IH F) as (d & I & N). exists d. split; [right; exact I|exact N].
    + exists c. split; [left; reflexivity|exact Sc].
Qed.
Lemma hashed_err v e : hashed v = Err e <->
  (e = EUnicodeError /\ exists s c, str_of v = Some s /\ In c s /\ scalar c = false) \/
  (e = ETypeError /\ str_of v = None /\ forall b, v <> VBytes b).
Proof.
  unfold hashed. destruct (str_of v) as [s|] eqn:S.
  - destruct (utf8_enc s) as [b|] eqn:U; split.
    + discriminate.
    + intros [(_ & s' & c & [= <-] & I & N)|(_ & Q & _)]; [|discriminate Q].
      assert (utf8_enc s = None) by (apply no_utf8; eauto). congruence.
    + intros [= <-]. left. split; [reflexivity|]. apply no_utf8 in U as (c & I & N). eauto.
    + intros [(-> & _)|(_ & Q & _)]; [reflexivity|discriminate Q].
  - split.
    + intros H. right. destruct v; try discriminate H; injection H as <-; (split; [reflexivity|split; [reflexivity|discriminate]]).
    + intros [(_ & s & c & Q & _)|(-> & _ & N)]; [discriminate Q|].
      destruct v; try reflexivity. exfalso. eapply N. reflexivity.
Qed.
Lemma same_bytes v w : hashed v = hashed w ->
  sha3 v = sha3 w /\ mk_privkey v = mk_privkey w /\
  (forall k, sign_any k v = sign_any k w) /\ (forall pub sig, verify_any pub sig v = verify_any pub sig w).
Proof. intros H. unfold sign_any, verify_any, sha3, mk_privkey. rewrite H. repeat split. Qed.
Lemma text_hashed v s b : str_of v = Some s -> utf8_dec b = Some s -> hashed v = hashed (VBytes b).
Proof. intros S D. change (hashed (VBytes b)) with (Ok b). apply hashed_ok. eauto. Qed.
Lemma text_as_bytes v s b : str_of v = Some s -> utf8_dec b = Some s ->
  sha3 v = sha3 (VBytes b) /\ mk_privkey v = mk_privkey (VBytes b) /\
  (forall k, sign_any k v = sign_any k (VBytes b)) /\
  (forall pub sig, verify_any pub sig v = verify_any pub sig (VBytes b)).
Proof. intros S D. apply same_bytes. exact (text_hashed _ _ _ S D). Qed.
Lemma bytes_as_before k pub sig b :
  sign_any k (VBytes b) = ecdsa_sign C k b /\
  verify_any pub sig (VBytes b) = ecdsa_verify C (VBytes pub) (VBytes sig) b.
Proof.
  split; [reflexivity|]. unfold verify_any, ecdsa_verify, verify_pubkey, is_len, blen.
  destruct (Nat.eqb_spec (List.length pub) 64) as [->|N]; [reflexivity|].
  destruct (Z.eqb_spec (Z.of_nat (List.length pub)) 64) as [Q|_]; [lia|reflexivity].
Qed.
(** two texts are hashed alike only if they are the same text *)
Lemma text_inj v w s t b : str_of v = Some s -> str_of w = Some t -> hashed v = Ok b -> hashed w = Ok b -> s = t.
Proof.
  intros S T. rewrite !hashed_ok. intros [->|(s' & S' & D)]; [discriminate S|].
  intros [->|(t' & T' & D')]; [discriminate T|]. congruence.
Qed.
Lemma refused v e : (sha3 v = Err e <-> hashed v = Err e) /\ (mk_privkey v = Err e <-> hashed v = Err e).
Proof. unfold sha3, mk_privkey. destruct (hashed v); cbn [bind]; split; split; congruence. Qed.
Lemma sign_fails (HC : crypto_ok C) k v e : sign_any k v = Err e <->
  (secret_of C k = None /\ e = EValueError) \/ ((exists s, secret_of C k = Some s) /\ hashed v = Err e).
Proof.
  unfold sign_any, sha3. destruct (secret_of C k) as [s|] eqn:S.
  - destruct (hashed v) as [b|e'] eqn:H; cbn [bind].
    + destruct (sign_total _ HC k s (sha3_256 C b) S (sha3_len _ HC b)) as (sig & ->).
      split; [discriminate|]. intros [(Q & _)|(_ & Q)]; discriminate Q.
    + split; [intros [= <-]; right; eauto|]. intros [(Q & _)|(_ & Q)]; [discriminate Q|exact Q].
  - split; [intros [= <-]; left; auto|]. intros [(_ & ->)|((s & Q) & _)]; [reflexivity|discriminate Q].
Qed.
Lemma signed_any (HC : crypto_ok C) k p q v w b : privtopub C k = Ok p -> List.length q = 64%nat ->
  hashed v = Ok b -> hashed w = Ok b ->
  exists sig, sign_any k v = Ok sig /\ List.length sig = 65%nat /\
    verify_any q sig w = if bytes_eqb p q then Ok tt else Err EInvalidSignature.
Proof.
  unfold privtopub. intros P L V W. destruct (secret_of C k) as [s|] eqn:S; [|discriminate P].
  destruct (pub_of C s) as [p'|] eqn:Q; [|discriminate P]. destruct (verify_pubkey p'); [|discriminate P].
  injection P as ->. destruct (sign_total _ HC k s (sha3_256 C b) S (sha3_len _ HC b)) as (sig & G).
  exists sig. destruct (sign_recover _ HC _ _ _ _ G Q) as [R L65].
  unfold sign_any, verify_any, sha3. rewrite S, V, W. cbn [bind]. rewrite G. split; [reflexivity|]. split; [exact L65|].
  unfold verify_pubkey. apply is_len_true in L. rewrite L. cbn [bind]. rewrite R.
  destruct (bytes_eqb p q) eqn:B.
  - apply bytes_eqb_eq in B. subst. rewrite (proj2 (bytes_eqb_eq (x04 :: q) (x04 :: q)) eq_refl). reflexivity.
  - destruct (bytes_eqb (x04 :: p) (x04 :: q)) eqn:B'; [|reflexivity]. apply bytes_eqb_eq in B'. injection B' as ->.
    rewrite (proj2 (bytes_eqb_eq q q) eq_refl) in B. discriminate B.
Qed.
Lemma verify_any_ok pub sig v : verify_any pub sig v = Ok tt <->
  List.length pub = 64%nat /\ exists b, hashed v = Ok b /\ recover C sig (sha3_256 C b) = Some (x04 :: pub).
Proof.
  unfold verify_any, verify_pubkey, sha3. destruct (is_len 64 pub) eqn:L; cbn [bind].
  - apply is_len_true in L. destruct (hashed v) as [b|e] eqn:H; cbn [bind].
    + destruct (recover C sig (sha3_256 C b)) as [k|] eqn:R.
      * destruct (bytes_eqb k (x04 :: pub)) eqn:B.
        -- apply bytes_eqb_eq in B. subst k. split; [intros _; eauto|reflexivity].
        -- split; [discriminate|]. intros (_ & b' & [= <-] & Q). rewrite R in Q. injection Q as ->.
           rewrite (proj2 (bytes_eqb_eq (x04 :: pub) (x04 :: pub)) eq_refl) in B. discriminate B.
      * split; [discriminate|]. intros (_ & b' & [= <-] & Q). congruence.
    + split; [discriminate|]. intros (_ & b' & Q & _). discriminate Q.
  - split; [discriminate|]. intros (Q & _). apply is_len_true in Q. congruence.
Qed.
Lemma verify_any_err pub sig v e : verify_any pub sig v = Err e <->
  (List.length pub <> 64%nat /\ e = EInvalidKeys) \/
  (List.length pub = 64%nat /\ hashed v = Err e) \/
  (List.length pub = 64%nat /\ e = EInvalidSignature /\
   exists b, hashed v = Ok b /\ recover C sig (sha3_256 C b) <> Some (x04 :: pub)).
Proof.
  destruct (Nat.eq_dec (List.length pub) 64) as [L|L].
  - pose proof (verify_any_ok pub sig v) as K. unfold verify_any, verify_pubkey, sha3 in *.
    rewrite (proj2 (is_len_true 64 pub) L) in *. cbn [bind] in *.
    destruct (hashed v) as [b|e'] eqn:H; cbn [bind] in *.
    + assert (D : forall r, r = Ok tt \/ r = Err EInvalidSignature ->
        (r = Ok tt <-> List.length pub = 64%nat /\ exists b0, Ok b = Ok b0 /\ recover C sig (sha3_256 C b0) = Some (x04 :: pub)) ->
        (r = Err e <-> (List.length pub <> 64%nat /\ e = EInvalidKeys) \/ (List.length pub = 64%nat /\ @Ok bytes b = Err e) \/
          (List.length pub = 64%nat /\ e = EInvalidSignature /\
           exists b0, Ok b = Ok b0 /\ recover C sig (sha3_256 C b0) <> Some (x04 :: pub)))).
      { clear K. intros r [->| ->] K.
        - split; [discriminate|]. intros [(Q & _)|[(_ & Q)|(_ & _ & b0 & [= <-] & Q)]]; [contradiction|discriminate Q|].
          exfalso. destruct (proj1 K eq_refl) as (_ & b1 & [= <-] & R). contradiction.
        - split.
          + intros [= <-]. right. right. split; [exact L|]. split; [reflexivity|]. exists b. split; [reflexivity|].
            intros R. assert (Q : @Err unit EInvalidSignature = Ok tt) by (apply K; eauto). discriminate Q.
          + intros [(Q & _)|[(_ & Q)|(_ & -> & _)]]; [contradiction|discriminate Q|reflexivity]. }
      apply D; [|exact K]. destruct (recover C sig (sha3_256 C b)) as [k|]; [destruct (bytes_eqb _ _)|]; auto.
    + split; [intros [= <-]; right; left; auto|].
      intros [(Q & _)|[(_ & Q)|(_ & _ & b0 & Q & _)]]; [contradiction| |discriminate Q]. injection Q as ->. reflexivity.
  - unfold verify_any, verify_pubkey. destruct (is_len 64 pub) eqn:B; [apply is_len_true in B; contradiction|]. cbn [bind].
    split; [intros [= <-]; left; auto|]. intros [(_ & ->)|[(Q & _)|(Q & _)]]; [reflexivity|contradiction|contradiction].
Qed.
(** a made key has 32 bytes; a key pair object takes it in the first round, or
    refuses it with ValueError *)
Lemma made (HC : crypto_ok C) check gen n seed k : check_ok C check -> mk_privkey seed = Ok k ->
  List.length k = 32%nat /\
  ((exists s p, secret_of C k = Some s /\ pub_of C s = Some p /\
      construct C check gen (S n) (Some k) = Some (Ok {| e_priv := k; e_x := firstn 32 p; e_y := skipn 32 p |})) \/
   (secret_of C k = None /\ construct C check gen (S n) (Some k) = Some (Err EValueError))).
Proof.
  intros HK M. assert (L : List.length k = 32%nat).
  { unfold mk_privkey in M. destruct (hashed seed); [|discriminate M]. injection M as <-. apply (keccak_len _ HC). }
  split; [exact L|]. destruct (secret_of C k) as [s|] eqn:S.
  - left. destruct (pub_total _ HC _ _ S) as (p & P). exists s, p. split; [reflexivity|]. split; [exact P|].
    exact (proj1 (construct_given C check gen n k s p HC HK S P) L).
  - right. split; [reflexivity|]. apply construct_refused. exact S.
Qed.
End Seeds.
