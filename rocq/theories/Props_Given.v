(** * C94: signing and verifying with a hash given by the caller *)
From Verif Require Import FrameFacts HashFacts TaskLogic Wire Given Samples.

(** no hash, an empty hash and the message's own hash make no difference *)
Theorem C94_own :
  forall E m priv pub h, h = None \/ h = Some [] \/ (exists d, h = Some d /\ short_hash E m = Ok d) ->
  sign_with E m priv h = sign_message E m priv /\ verify_with E m pub h = verify_signature E m pub.
Proof.
  intros E m priv pub h H. assert (Q : hash_or E m h = short_hash E m).
  { destruct H as [H|[H|(d & -> & H)]]; [apply hash_or_none; left; exact H|apply hash_or_none; right; exact H|exact (hash_or_own E m d H)]. }
  split; [exact (usual_sign E m priv h Q)|exact (usual_verify E m pub h Q)].
Qed.
Print Assumptions C94_own.
(** for the ethereum signature it is the hash of the WantToComputeTask *)
Theorem C94_own_ethsig :
  forall E m priv h, h = None \/ h = Some [] \/ (exists w d, getattr "want_to_compute_task" m = Ok w /\ h = Some d /\ short_hash E w = Ok d) ->
  ethsig_with E m priv h = generate_ethsig E m priv /\ check_ethsig_with E m h = verify_ethsig E m.
Proof.
  intros E m priv h H. assert (Q : forall w, getattr "want_to_compute_task" m = Ok w -> hash_or E w h = short_hash E w).
  { intros w Hw. destruct H as [H|[H|(w' & d & Hw' & -> & H)]]; [apply hash_or_none; left; exact H|apply hash_or_none; right; exact H|].
    rewrite Hw in Hw'. injection Hw' as <-. exact (hash_or_own E w d H). }
  split; [exact (usual_ethsig E m priv h Q)|exact (usual_check E m h Q)].
Qed.
Print Assumptions C94_own_ethsig.
(** a signature made with any other hash, even for a message that has no hash, is
    accepted with that hash for every message whatever its class, header and content *)
Theorem C94_content_ignored :
  forall E c ty ts enc sig a priv s p h, crypto_ok (cr E) -> secret_of (cr E) priv = Some s -> pub_of (cr E) s = Some p -> h <> [] ->
  exists sg, List.length sg = 65%nat /\ sign_with E (VMsg c ty ts enc sig a) priv (Some h) = Ok (VMsg c ty ts enc (VBytes sg) a) /\
  forall c' ty' ts' enc' a', verify_with E (VMsg c' ty' ts' enc' (VBytes sg) a') (VBytes p) (Some h) = Ok tt.
Proof. exact given_round. Qed.
Print Assumptions C94_content_ignored.
(** what is verified is the signature over the hash that was given, under the key that was given *)
Theorem C94_verified :
  forall E c ty ts enc sig a k h, h <> [] ->
  (verify_with E (VMsg c ty ts enc sig a) (VBytes k) (Some h) = Ok tt <->
   List.length k = 64%nat /\ exists sg, sig = VBytes sg /\ recover (cr E) sg (sha3_256 (cr E) h) = Some (x04 :: k)).
Proof. intros E c ty ts enc sig a k h H. rewrite (given_verify E c ty ts enc sig a (VBytes k) h H). apply ecdsa_verify_ok. Qed.
Print Assumptions C94_verified.
(** likewise for the ethereum signature: the WantToComputeTask only has to be there *)
Theorem C94_ethsig_verified :
  forall E m h c ty ts enc sg a k, h <> [] -> getattr "want_to_compute_task" m = Ok (VMsg c ty ts enc sg a) ->
  getattr "requestor_ethereum_public_key" m = Ok k ->
  check_ethsig_with E m (Some h) = do sig <- getattr "ethsig" m; do p <- decode_hex k; ecdsa_verify (cr E) (VBytes p) sig h.
Proof. exact given_check. Qed.
Print Assumptions C94_ethsig_verified.
Theorem C94_ethsig_made :
  forall E c ty ts enc sig a priv h d ty' ts' enc' sg a' k, let m := VMsg c ty ts enc sig a in
  h <> [] -> getattr "requestor_ethereum_public_key" m = Ok k -> truthy k = true -> getattr "want_to_compute_task" m = Ok (VMsg d ty' ts' enc' sg a') ->
  ethsig_with E m priv (Some h) = do s <- ecdsa_sign (cr E) priv h; Ok (VMsg c ty ts enc sig (attr_set "ethsig" (VBytes s) a)).
Proof. exact given_ethsig. Qed.
Print Assumptions C94_ethsig_made.
(** loading with a sender's key gives the hash of the payload that was received, not of
    the slots made from it *)
Theorem C94_loading :
  forall E c ty ts enc sig a payload k, crypto_ok (cr E) -> k <> [] -> signs c = true ->
  check_sender E (VMsg c ty ts enc sig a) payload (Some k) =
  do h <- hash_payload E c ty ts a payload; verify_with E (VMsg c ty ts enc sig a) (VBytes k) (Some h).
Proof. exact loads_give. Qed.
Print Assumptions C94_loading.
(** "Ensures that the message's content is intact": not when a hash is given *)
Definition ex_price (z : Z) (sg : pyval) : pyval := match ex_ttc with
  | VMsg c ty ts enc sig a => VMsg c ty ts enc sg (attr_set "price" (VInt z) a) | v => v end.
Definition ex_hash : bytes := Eval vm_compute in get [] (short_hash E0 ex_ttc).
Definition ex_sig : pyval := match ex_ttc with VMsg _ _ _ _ sig _ => sig | _ => VNone end.
Theorem C94_intact_refuted :
  exists E m m' k h, crypto_ok (cr E) /\ verify_signature E m k = Ok tt /\ short_hash E m = Ok h /\
  verify_with E m' k (Some h) = Ok tt /\ verify_signature E m' k = Err EInvalidSignature /\
  getattr "price" m = Ok (VInt 5) /\ getattr "price" m' = Ok (VInt 5000).
Proof.
  exists E0, ex_ttc, (ex_price 5000 ex_sig), (VBytes (pub req_key)), ex_hash. split; [exact toy_ok|].
  split; [vm_compute; reflexivity|]. split; [vm_compute; reflexivity|]. split; [vm_compute; reflexivity|]. split; [vm_compute; reflexivity|].
  split; vm_compute; reflexivity.
Qed.
Print Assumptions C94_intact_refuted.
(** a message that cannot be hashed can be signed with a hash given *)
Definition ex_no_hash : pyval := make now0 MRemoveTask [("task_id", VStr [55296])]%string.
Example C94_ex :
  is_ok (short_hash E0 ex_no_hash) = false /\ is_ok (sign_message E0 ex_no_hash req_key) = false /\
  is_ok (do m <- sign_with E0 ex_no_hash req_key (Some [x01]); verify_with E0 m (VBytes (pub req_key)) (Some [x01])) = true /\
  is_ok (do m <- sign_with E0 ex_hello req_key (Some [x01]); verify_with E0 m (VBytes (pub req_key)) (Some [x02])) = false /\
  is_ok (do m <- ethsig_with E0 ex_ttc eth_key (Some [x01]); check_ethsig_with E0 m (Some [x01])) = true /\
  is_ok (do m <- ethsig_with E0 ex_ttc eth_key (Some [x01]); check_ethsig_with E0 m None) = false.
Proof. repeat split; vm_compute; reflexivity. Qed.
