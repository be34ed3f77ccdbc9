(** * The signature checked on arrival and the same signature afterwards *)
From Verif Require Export HonestFacts CborSpec.

(** [x] and [y] are different bytes, hashed before [tail] is appended, and one
    signature is good for both: a SHA-1 collision, a SHA-3 collision, or a signature that
    recovers the key [k] from two hashes *)
Definition broken (C : crypto) (sig k x y tail : bytes) : Prop :=
  x <> y /\
  (sha1 C x = sha1 C y \/
   (sha1 C x <> sha1 C y /\ sha3_256 C (sha1 C x ++ tail) = sha3_256 C (sha1 C y ++ tail)) \/
   (sha3_256 C (sha1 C x ++ tail) <> sha3_256 C (sha1 C y ++ tail) /\
    recover C sig (sha3_256 C (sha1 C x ++ tail)) = Some (x04 :: k) /\ recover C sig (sha3_256 C (sha1 C y ++ tail)) = Some (x04 :: k))).
(** what the hash of a message has after the digest: the version, in a Hello *)
Definition hash_tail (c : mcls) (a : attrs_t) (tail : bytes) : Prop :=
  (c = MHello /\ version_bytes a = Ok tail) \/ (c <> MHello /\ tail = []).
Lemma hash_parts E c ty ts a payload h : hash_payload E c ty ts a payload = Ok h ->
  exists d tail, dumps (VList [ty; ts]) = Ok d /\ hash_tail c a tail /\ h = sha1 (cr E) (d ++ payload) ++ tail /\
  forall p, hash_payload E c ty ts a p = Ok (sha1 (cr E) (d ++ p) ++ tail).
Proof.
  unfold hash_payload. intros H. apply bind_ok in H as (d & D & H). cbv zeta in H. exists d. rewrite D. cbn [bind].
  destruct (mcls_eqb c MHello) eqn:Q.
  - apply mcls_eqb_eq in Q. subst c. apply bind_ok in H as (v & V & H). apply Ok_inj in H. exists v. split; [reflexivity|].
    split; [left; auto|]. split; [auto|]. intros p. rewrite V. reflexivity.
  - assert (N : c <> MHello) by (intros ->; discriminate Q). exists []. split; [reflexivity|]. split; [right; auto|].
    split; [rewrite app_nil_r; destruct c; congruence|]. intros p. rewrite app_nil_r. destruct c; reflexivity || congruence.
Qed.

Lemma later E now msg decf ct k c ty ts enc sig a : k <> [] -> signs c = true ->
  deserialize E now msg decf ct (Some k) = Ok (VMsg c ty ts enc sig a) ->
  exists sg flag payload d tail, sig = VBytes sg /\ enc = VBool flag /\ decrypted decf flag (skipn 65 (body c msg)) = Ok payload /\
    dumps (VList [ty; ts]) = Ok d /\ hash_tail c a tail /\
    (payload_of c a = Ok payload -> verify_signature E (VMsg c ty ts enc sig a) (VBytes k) = Ok tt) /\
    (verify_signature E (VMsg c ty ts enc sig a) (VBytes k) = Ok tt ->
     exists p, payload_of c a = Ok p /\ (p = payload \/ broken (cr E) sg k (d ++ payload) (d ++ p) tail)).
Proof.
  intros Nk Sg H. apply deserialize_ok in H as (L & ty0 & ts0 & enc0 & c0 & Hu & T & Hg & Ht & H).
  pose proof H as H'. apply class_load_sender in H' as (_ & payload & Hp & K). rewrite body_skip in Hp.
  destruct (class_load_msg _ _ _ _ _ _ _ _ _ H) as (sg & a' & Q).
  assert (c0 = c /\ ty = VInt ty0 /\ ts = VInt ts0 /\ enc = VBool enc0 /\ sig = VBytes sg /\ a' = a) as (-> & -> & -> & -> & -> & ->) by (repeat split; congruence). clear Q.
  cbn [check_sender] in K. rewrite Sg in K. destruct k as [|k0 k']; [congruence|]. cbn [key_given andb] in K.
  apply bind_ok in K as (h & Hh & K). destruct (hash_parts _ _ _ _ _ _ _ Hh) as (d & tail & D & TL & -> & HA).
  exists sg, enc0, payload, d, tail. split; [reflexivity|]. split; [reflexivity|]. split; [exact Hp|]. split; [exact D|]. split; [exact TL|]. split.
  - intros P. cbn [verify_signature short_hash]. rewrite P. cbn [bind]. rewrite Hh. cbn [bind]. exact K.
  - cbn [verify_signature short_hash]. intros V. apply bind_ok in V as (h' & V1 & V). apply bind_ok in V1 as (p & Pp & V1).
    apply ecdsa_verify_ok in K as (_ & g1 & Q1 & R1). apply ecdsa_verify_ok in V as (_ & g2 & Q2 & R2).
    assert (g1 = sg /\ g2 = sg) as [-> ->] by (split; congruence). clear Q1 Q2. rewrite HA in V1. apply Ok_inj in V1. subst h'.
    exists p. split; [exact Pp|].
    destruct (bytes_eqb p payload) eqn:B; [apply bytes_eqb_eq in B; left; exact B|]. right.
    assert (NB : p <> payload) by (intros ->; rewrite bytes_eqb_refl in B; discriminate). split; [intros Y; apply app_inv_head in Y; congruence|].
    destruct (bytes_eqb (sha1 (cr E) (d ++ payload)) (sha1 (cr E) (d ++ p))) eqn:B1; [left; apply bytes_eqb_eq; exact B1|]. right.
    destruct (bytes_eqb (sha3_256 (cr E) (sha1 (cr E) (d ++ payload) ++ tail)) (sha3_256 (cr E) (sha1 (cr E) (d ++ p) ++ tail))) eqn:B2.
    + left. split; [intros Y; rewrite Y, bytes_eqb_refl in B1; discriminate|apply bytes_eqb_eq; exact B2].
    + right. split; [intros Y; rewrite Y, bytes_eqb_refl in B2; discriminate|]. auto.
Qed.

(** the checks of task messages do not look at the signature *)
Lemma vet_sig E c ty ts enc s1 s2 a : vet E c (VMsg c ty ts enc s1 a) = vet E c (VMsg c ty ts enc s2 a).
Proof.
  destruct c; try reflexivity. unfold vet. cbn [is_task_message is_valid]. unfold verdict_valid.
  change (getattr "ack_report_computed_task" (VMsg MVerdictReportComputedTask ty ts enc s1 a)) with (getattr "ack_report_computed_task" (VMsg MVerdictReportComputedTask ty ts enc s2 a)).
  change (getattr "force_report_computed_task" (VMsg MVerdictReportComputedTask ty ts enc s1 a)) with (getattr "force_report_computed_task" (VMsg MVerdictReportComputedTask ty ts enc s2 a)).
  destruct (getattr "ack_report_computed_task" _) as [x|]; [|reflexivity]. cbn [bind]. destruct (getattr _ x) as [y|]; [|reflexivity]. cbn [bind]. destruct (getattr _ y) as [z|]; [|reflexivity]. cbn [bind].
  destruct (getattr "force_report_computed_task" _) as [x'|]; [|reflexivity]. cbn [bind]. destruct (getattr _ x') as [y'|]; [|reflexivity]. cbn [bind]. destruct (getattr _ y') as [z'|]; [|reflexivity]. cbn [bind].
  destruct (val_eq z' z) as [[]|]; try reflexivity. cbn [bind msg_repr]. destruct (slots _ a) as [|[]]; reflexivity.
Qed.
(** bytes after the value make no difference to loading *)
Lemma loads_junk d bs v junk : loads d bs = Ok v -> loads d (bs ++ junk) = Ok v.
Proof. intros H. apply loads_exact in H as (e & r & -> & S). apply loads_exact. exists e, (r ++ junk). rewrite app_assoc. auto. Qed.
(** what this library wrote verifies after loading as it did before *)
Lemma sent_verifies E E' now c t enc0 sig v a key encf m' bs ct decf pub m2 :
  cr E' = cr E -> crypto_ok (cr E) -> (forall s, sig = VBytes s -> List.length s = 65%nat) ->
  1262304000 < t < 32819212800 -> mok c a -> hello_ok E' c v ->
  (forall s, slots c a = Ok s -> wirewf s = true /\ (vdepth s < cdepth E')%nat) ->
  (forall p, payload_of c a = Ok p -> undoes encf decf c p) ->
  serialize E (VMsg c (VInt (type_of c)) (VInt t) enc0 sig (full c v a)) key encf = (m', Ok bs) ->
  deserialize E' now bs decf ct pub = Ok m2 ->
  forall k, verify_signature E' m2 k = verify_signature E m' k.
Proof.
  intros HE HC HL HT M HH W U H HD k. pose proof (serialize_msg _ _ _ _ _ _ _ _ _ _ _ H) as Em.
  assert (D0 : deserialize E' now bs decf false None = Ok m2).
  { assert (D1 : deserialize E' now bs decf ct None = Ok m2).
    { destruct pub as [[|b k']|]; [rewrite empty_sender_key in HD|apply sender_exact in HD as [HD _]; [|discriminate]|]; exact HD. }
    apply deserialize_ok in D1 as (Q1 & ty & ts & enc & c0 & Q2 & Q3 & Q4 & Q5 & Q6). apply deserialize_ok. split; [exact Q1|].
    exists ty, ts, enc, c0. split; [exact Q2|]. split; [exact Q3|]. split; [exact Q4|]. split; [discriminate|]. exact Q6. }
  destruct (frame_rt E E' now c t enc0 sig v a key encf m' bs false decf None HE HC HL HT ltac:(discriminate) M HH W U H ltac:(discriminate)) as (a' & AR & M' & _ & D).
  cbv zeta in D. pose proof (eq_trans (eq_sym D) D0) as D1. clear D. apply bind_ok in D1 as (_ & _ & D1). apply Ok_inj in D1.
  rewrite <- D1, Em. apply outer_verify; assumption.
Qed.
