(** * Signing and verifying with a hash given by the caller *)
From Verif Require Import FrameFacts HashFacts TaskLogic Wire Samples.

(** [msg_hash or self.get_short_hash()], message/base.py 538 and 573: an empty hash
    counts as none (simplification: a given hash is bytes) *)
Definition hash_or (E : env) (m : pyval) (h : option bytes) : result bytes :=
  match h with Some (x :: r) => Ok (x :: r) | _ => short_hash E m end.
(** [m._get_signature(priv, h)], message/base.py 560-574 *)
Definition signature_with (E : env) (m : pyval) (priv : bytes) (h : option bytes) : result bytes :=
  match m with
  | VMsg _ _ _ _ _ _ => do d <- hash_or E m h; ecdsa_sign (cr E) priv d
  | _ => Err EAttributeError
  end.
(** [m._verify_signature(sig, pub, h)], message/base.py 522-539 *)
Definition verifies_with (E : env) (m sig pub : pyval) (h : option bytes) : result unit :=
  match m with
  | VMsg _ _ _ _ _ _ => do d <- hash_or E m h; ecdsa_verify (cr E) pub sig d
  | _ => Err EAttributeError
  end.
(** [m.sign_message(priv, h)], message/base.py 576-588 *)
Definition sign_with (E : env) (m : pyval) (priv : bytes) (h : option bytes) : result pyval :=
  do s <- signature_with E m priv h;
  match m with VMsg c ty ts enc _ a => Ok (VMsg c ty ts enc (VBytes s) a) | _ => Err EAttributeError end.
(** [m.verify_signature(pub, h)], message/base.py 541-558 *)
Definition verify_with (E : env) (m pub : pyval) (h : option bytes) : result unit :=
  match m with VMsg _ _ _ _ sig _ => verifies_with E m sig pub h | _ => Err EAttributeError end.
(** [m.generate_ethsig(priv, h)], message/tasks.py 386-409 *)
Definition ethsig_with (E : env) (m : pyval) (priv : bytes) (h : option bytes) : result pyval :=
  match m with
  | VMsg c ty ts enc sig a =>
      do k <- getattr "requestor_ethereum_public_key" m;
      if negb (truthy k) then Err (EFieldError (u "requestor_ethereum_public_key"))
      else
        do w <- getattr "want_to_compute_task" m;
        do s <- signature_with E w priv h;
        Ok (VMsg c ty ts enc sig (attr_set "ethsig" (VBytes s) a))
  | _ => Err EAttributeError
  end.
(** [m.verify_ethsig(h)], message/tasks.py 411-428 *)
Definition check_ethsig_with (E : env) (m : pyval) (h : option bytes) : result unit :=
  do w <- getattr "want_to_compute_task" m;
  match w with
  | VMsg _ _ _ _ _ _ =>
      do sg <- getattr "ethsig" m;
      do k <- getattr "requestor_ethereum_public_key" m;
      do k <- decode_hex k;
      verifies_with E w sg (VBytes k) h
  | _ => Err EAttributeError
  end.

(** ** Without a hash, or with the message's own, these are the usual operations *)
Definition no_hash (h : option bytes) : Prop := h = None \/ h = Some [].
Lemma hash_or_none E m h : no_hash h -> hash_or E m h = short_hash E m.
Proof. intros [-> | ->]; reflexivity. Qed.
Lemma hash_or_own E m h : short_hash E m = Ok h -> hash_or E m (Some h) = short_hash E m.
Proof. intros H. unfold hash_or. destruct h; [reflexivity|rewrite H; reflexivity]. Qed.
Lemma hash_or_given E m h : h <> [] -> hash_or E m (Some h) = Ok h.
Proof. destruct h; [congruence|reflexivity]. Qed.
Lemma usual_sign E m priv h : hash_or E m h = short_hash E m -> sign_with E m priv h = sign_message E m priv.
Proof.
  intros H. unfold sign_with, signature_with, sign_message. destruct m; try reflexivity. rewrite H.
  destruct (short_hash E _); [|reflexivity]. cbn [bind]. destruct (ecdsa_sign _ _ _); reflexivity.
Qed.
Lemma usual_verify E m pub h : hash_or E m h = short_hash E m -> verify_with E m pub h = verify_signature E m pub.
Proof. intros H. unfold verify_with, verifies_with, verify_signature. destruct m; try reflexivity. rewrite H. reflexivity. Qed.
Lemma usual_ethsig E m priv h : (forall w, getattr "want_to_compute_task" m = Ok w -> hash_or E w h = short_hash E w) ->
  ethsig_with E m priv h = generate_ethsig E m priv.
Proof.
  intros H. unfold ethsig_with, generate_ethsig. destruct m as [| | | | | | | | | | | |c ty ts enc sig a|]; try reflexivity.
  destruct (getattr "requestor_ethereum_public_key" _) as [k|]; [|reflexivity]. cbn [bind]. destruct (negb _); [reflexivity|].
  destruct (getattr "want_to_compute_task" _) as [w|]; [|reflexivity]. cbn [bind]. specialize (H w eq_refl).
  unfold signature_with. destruct w; try reflexivity. rewrite H. destruct (short_hash E _); reflexivity.
Qed.
Lemma usual_check E m h : (forall w, getattr "want_to_compute_task" m = Ok w -> hash_or E w h = short_hash E w) ->
  check_ethsig_with E m h = verify_ethsig E m.
Proof.
  intros H. unfold check_ethsig_with, verify_ethsig. destruct (getattr "want_to_compute_task" m) as [w|]; [|reflexivity]. cbn [bind]. specialize (H w eq_refl).
  destruct w; try reflexivity. unfold verifies_with. rewrite H. reflexivity.
Qed.

(** ** With another hash the content plays no part *)
Lemma given_sign E c ty ts enc sig a priv h : h <> [] ->
  sign_with E (VMsg c ty ts enc sig a) priv (Some h) = do s <- ecdsa_sign (cr E) priv h; Ok (VMsg c ty ts enc (VBytes s) a).
Proof. intros H. unfold sign_with, signature_with. rewrite (hash_or_given _ _ _ H). reflexivity. Qed.
Lemma given_verify E c ty ts enc sig a pub h : h <> [] ->
  verify_with E (VMsg c ty ts enc sig a) pub (Some h) = ecdsa_verify (cr E) pub sig h.
Proof. intros H. unfold verify_with, verifies_with. rewrite (hash_or_given _ _ _ H). reflexivity. Qed.
Lemma given_round E c ty ts enc sig a priv s p h : crypto_ok (cr E) -> secret_of (cr E) priv = Some s -> pub_of (cr E) s = Some p -> h <> [] ->
  exists sg, List.length sg = 65%nat /\ sign_with E (VMsg c ty ts enc sig a) priv (Some h) = Ok (VMsg c ty ts enc (VBytes sg) a) /\
  forall c' ty' ts' enc' a', verify_with E (VMsg c' ty' ts' enc' (VBytes sg) a') (VBytes p) (Some h) = Ok tt.
Proof.
  intros HC Hs Hp Hh. destruct (sign_total _ HC priv s (sha3_256 (cr E) h) Hs (sha3_len _ HC h)) as (sg & Hsg).
  destruct (sign_recover _ HC _ _ _ _ Hsg Hp) as [R L]. exists sg. split; [exact L|]. split.
  - rewrite given_sign by exact Hh. unfold ecdsa_sign. rewrite Hs, Hsg. reflexivity.
  - intros. rewrite given_verify by exact Hh. apply ecdsa_verify_ok. split; [exact (pub_len _ HC _ _ Hp)|]. exists sg. split; [reflexivity|exact R].
Qed.
(** [serialize] and [deserialize] give the hash of the payload they write or have read *)
Lemma hash_payload_nonempty E c ty ts a p h : crypto_ok (cr E) -> hash_payload E c ty ts a p = Ok h -> h <> [].
Proof.
  intros HC H Q. subst h. unfold hash_payload in H. destruct (dumps _) as [d|]; [|discriminate]. cbn [bind] in H.
  pose proof (sha1_len _ HC (d ++ p)) as L.
  assert (J : forall x : bytes, Ok x = Ok [] -> x = []) by (intros x Hx; injection Hx as ->; reflexivity).
  destruct c; try (apply J in H; rewrite H in L; discriminate L).
  destruct (version_bytes a) as [v|]; [|discriminate]. cbn [bind] in H. apply J in H. apply app_eq_nil in H as [H _]. rewrite H in L. discriminate L.
Qed.
Lemma loads_give E c ty ts enc sig a payload k : crypto_ok (cr E) -> k <> [] -> signs c = true ->
  check_sender E (VMsg c ty ts enc sig a) payload (Some k) =
  do h <- hash_payload E c ty ts a payload; verify_with E (VMsg c ty ts enc sig a) (VBytes k) (Some h).
Proof.
  intros HC Hk S. cbn [check_sender]. rewrite S. destruct k as [|x k]; [congruence|]. cbn [key_given andb].
  destruct (hash_payload E c ty ts a payload) as [h|] eqn:Q; [|reflexivity]. cbn [bind].
  rewrite given_verify by exact (hash_payload_nonempty _ _ _ _ _ _ _ HC Q). reflexivity.
Qed.
(** the ethereum signature *)
Lemma given_check E m h c ty ts enc sg a k : h <> [] -> getattr "want_to_compute_task" m = Ok (VMsg c ty ts enc sg a) ->
  getattr "requestor_ethereum_public_key" m = Ok k ->
  check_ethsig_with E m (Some h) = do sig <- getattr "ethsig" m; do p <- decode_hex k; ecdsa_verify (cr E) (VBytes p) sig h.
Proof.
  intros Hh Hw Hk. unfold check_ethsig_with. rewrite Hw. cbn [bind]. rewrite Hk. destruct (getattr "ethsig" m); [|reflexivity]. cbn [bind].
  destruct (decode_hex k); [|reflexivity]. cbn [bind]. unfold verifies_with. rewrite (hash_or_given _ _ _ Hh). reflexivity.
Qed.
Lemma given_ethsig E c ty ts enc sig a priv h d ty' ts' enc' sg a' k : let m := VMsg c ty ts enc sig a in
  h <> [] -> getattr "requestor_ethereum_public_key" m = Ok k -> truthy k = true -> getattr "want_to_compute_task" m = Ok (VMsg d ty' ts' enc' sg a') ->
  ethsig_with E m priv (Some h) = do s <- ecdsa_sign (cr E) priv h; Ok (VMsg c ty ts enc sig (attr_set "ethsig" (VBytes s) a)).
Proof.
  intros m Hh Hk Tk Hw. unfold ethsig_with, m. fold m. rewrite Hk. cbn [bind]. rewrite Tk. cbn [negb]. rewrite Hw. cbn [bind].
  unfold signature_with. rewrite (hash_or_given _ _ _ Hh). reflexivity.
Qed.
