(** * C89: hashing, signing and making keys from text or bytes *)
From Verif Require Import Seeds.

(** the bytes a value stands for: its own, or the UTF-8 encoding of its text *)
Definition stands_for (v : pyval) (b : bytes) : Prop :=
  v = VBytes b \/ exists s, str_of v = Some s /\ utf8_dec b = Some s.

(** text is treated as its UTF-8 encoding everywhere *)
Theorem C89_text :
  forall C v s b, str_of v = Some s -> utf8_dec b = Some s ->
  sha3 C v = sha3 C (VBytes b) /\ mk_privkey C v = mk_privkey C (VBytes b) /\
  (forall k, sign_any C k v = sign_any C k (VBytes b)) /\
  (forall pub sig, verify_any C pub sig v = verify_any C pub sig (VBytes b)).
Proof. exact text_as_bytes. Qed.
Print Assumptions C89_text.
(** and bytes as the functions on bytes used in the rest of the model do *)
Theorem C89_bytes :
  forall C b, sha3 C (VBytes b) = Ok (sha3_256 C b) /\ mk_privkey C (VBytes b) = Ok (keccak C b) /\
  (forall k, sign_any C k (VBytes b) = ecdsa_sign C k b) /\
  (forall pub sig, verify_any C pub sig (VBytes b) = ecdsa_verify C (VBytes pub) (VBytes sig) b).
Proof.
  intros C b. split; [reflexivity|]. split; [reflexivity|].
  split; intros; [exact (proj1 (bytes_as_before C k [] [] b))|exact (proj2 (bytes_as_before C [] pub sig b))].
Qed.
Print Assumptions C89_bytes.
(** two texts standing for the same bytes are the same text *)
Theorem C89_injective :
  forall v w s t b, str_of v = Some s -> str_of w = Some t -> stands_for v b -> stands_for w b -> s = t.
Proof.
  intros v w s t b S T V W. apply (text_inj v w s t b S T); apply hashed_ok; assumption.
Qed.
Print Assumptions C89_injective.
(** exactly what is refused, and how: text with a lone surrogate, and what is neither
    text nor bytes *)
Definition refused_as (v : pyval) (e : exn) : Prop :=
  (e = EUnicodeError /\ exists s c, str_of v = Some s /\ In c s /\ scalar c = false) \/
  (e = ETypeError /\ str_of v = None /\ forall b, v <> VBytes b).
Theorem C89_refused :
  forall C v e, (sha3 C v = Err e <-> refused_as v e) /\ (mk_privkey C v = Err e <-> refused_as v e).
Proof.
  intros C v e. destruct (refused C v e) as [A B]. rewrite A, B. split; apply hashed_err.
Qed.
Print Assumptions C89_refused.
(** signing: a bad key is blamed before the message *)
Theorem C89_sign_fails :
  forall C k v e, crypto_ok C -> (sign_any C k v = Err e <->
  (secret_of C k = None /\ e = EValueError) \/ ((exists s, secret_of C k = Some s) /\ refused_as v e)).
Proof. intros C k v e HC. rewrite (sign_fails C HC). rewrite (hashed_err v e). reflexivity. Qed.
Print Assumptions C89_sign_fails.
(** verifying: accepted exactly when the key recovered for the bytes is the given one,
    and a key of the wrong size is blamed before the message, the message before the
    signature *)
Theorem C89_verify_exact :
  forall C pub sig v, verify_any C pub sig v = Ok tt <->
  List.length pub = 64%nat /\ exists b, stands_for v b /\ recover C sig (sha3_256 C b) = Some (x04 :: pub).
Proof.
  intros C pub sig v. rewrite verify_any_ok. split; intros (L & b & H & R); (split; [exact L|]; exists b; split; [apply hashed_ok; exact H|exact R]).
Qed.
Print Assumptions C89_verify_exact.
Theorem C89_verify_fails :
  forall C pub sig v e, verify_any C pub sig v = Err e <->
  (List.length pub <> 64%nat /\ e = EInvalidKeys) \/
  (List.length pub = 64%nat /\ refused_as v e) \/
  (List.length pub = 64%nat /\ e = EInvalidSignature /\
   exists b, stands_for v b /\ recover C sig (sha3_256 C b) <> Some (x04 :: pub)).
Proof.
  intros C pub sig v e. rewrite verify_any_err, (hashed_err v e).
  assert (X : (exists b, hashed v = Ok b /\ recover C sig (sha3_256 C b) <> Some (x04 :: pub)) <->
              (exists b, stands_for v b /\ recover C sig (sha3_256 C b) <> Some (x04 :: pub))).
  { split; intros (b & H & R); exists b; (split; [apply hashed_ok; exact H|exact R]). }
  rewrite X. reflexivity.
Qed.
Print Assumptions C89_verify_fails.
(** what is signed as text verifies as bytes and the other way round, for the signer's
    key and no other *)
Theorem C89_round_trip :
  forall C k p q v w b, crypto_ok C -> privtopub C k = Ok p -> List.length q = 64%nat -> stands_for v b -> stands_for w b ->
  exists sig, sign_any C k v = Ok sig /\ List.length sig = 65%nat /\
    verify_any C q sig w = if bytes_eqb p q then Ok tt else Err EInvalidSignature.
Proof.
  intros C k p q v w b HC P L V W. apply (signed_any C HC k p q v w b P L); apply hashed_ok; assumption.
Qed.
Print Assumptions C89_round_trip.
(** so a signature does not tell text from bytes *)
Theorem C89_type_refuted :
  exists C k p sig v w, crypto_ok C /\ privtopub C k = Ok p /\ v <> w /\ sign_any C k v = Ok sig /\ verify_any C p sig w = Ok tt.
Proof.
  destruct (privtopub toy (repeat x07 32)) as [p|] eqn:P; [|vm_compute in P; discriminate P].
  assert (L : List.length p = 64%nat) by (vm_compute in P; injection P as <-; reflexivity).
  destruct (C89_round_trip toy (repeat x07 32) p p (VStr (u "golem")) (VBytes [x67; x6f; x6c; x65; x6d]) [x67; x6f; x6c; x65; x6d] toy_ok P L) as (sig & S & _ & V).
  - right. exists (u "golem"). split; reflexivity.
  - left. reflexivity.
  - exists toy, (repeat x07 32), p, sig, (VStr (u "golem")), (VBytes [x67; x6f; x6c; x65; x6d]).
    split; [exact toy_ok|]. split; [exact P|]. split; [discriminate|]. split; [exact S|].
    rewrite V, (proj2 (bytes_eqb_eq p p) eq_refl). reflexivity.
Qed.
Print Assumptions C89_type_refuted.
(** a made key has 32 bytes, and a key pair object of it keeps it in the first round
    or, if it is no secret, raises ValueError: never an endless loop *)
Theorem C89_made :
  forall C check gen n seed k, crypto_ok C -> check_ok C check -> mk_privkey C seed = Ok k ->
  List.length k = 32%nat /\
  ((exists s p, secret_of C k = Some s /\ pub_of C s = Some p /\
      construct C check gen (S n) (Some k) = Some (Ok {| e_priv := k; e_x := firstn 32 p; e_y := skipn 32 p |})) \/
   (secret_of C k = None /\ construct C check gen (S n) (Some k) = Some (Err EValueError))).
Proof. intros C check gen n seed k HC. exact (made C HC check gen n seed k). Qed.
Print Assumptions C89_made.

Example C89_ex_text : stands_for (VStr [233; 8364]) [xc3; xa9; xe2; x82; xac] /\ stands_for (VEnum EnOwner "provider") (map z2b (u "provider")).
Proof. split; right; eexists; split; vm_compute; reflexivity. Qed.
Example C89_ex_refused : refused_as (VStr [97; 55296]) EUnicodeError /\ refused_as (VInt 7) ETypeError /\
  sha3 toy (VStr [97; 55296]) = Err EUnicodeError /\ mk_privkey toy VNone = Err ETypeError.
Proof.
  split; [left; split; [reflexivity|]; exists [97; 55296], 55296; repeat split; right; left; reflexivity|].
  split; [right; repeat split; discriminate|]. split; vm_compute; reflexivity.
Qed.
Example C89_ex_made : exists k e, mk_privkey toy_pad (VStr (u "seed")) = Ok k /\ check_ok toy_pad pad_check /\
  construct toy_pad pad_check (fun _ => e) 1 (Some k) = Some (Ok e) /\ e_priv e = k.
Proof.
  destruct (mk_privkey toy_pad (VStr (u "seed"))) as [k|] eqn:M; [|vm_compute in M; discriminate M].
  exists k. eexists. split; [reflexivity|]. split; [exact pad_check_ok|]. split; [vm_compute in M; injection M as <-; vm_compute; reflexivity|].
  vm_compute in M. injection M as <-. reflexivity.
Qed.
