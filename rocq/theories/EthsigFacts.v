(** * What the ethereum signature of a TaskToCompute covers *)
From Verif Require Export VetFacts TripFacts.

(** the slots of a TaskToCompute that the check looks at *)
Definition eth_slots : list string := ["want_to_compute_task"; "ethsig"; "requestor_ethereum_public_key"]%string.
Definition offer_of (a : attrs_t) : pyval := attr_get_or_none "want_to_compute_task" a.
Definition ethsig_of (a : attrs_t) : pyval := attr_get_or_none "ethsig" a.
Definition ethkey_of (a : attrs_t) : pyval := attr_get_or_none "requestor_ethereum_public_key" a.

Lemma ethsig_check E ty ts enc sig a : verify_ethsig E (VMsg MTaskToCompute ty ts enc sig a) =
  match offer_of a with
  | VMsg c wty wts wenc _ wa => do k <- decode_hex (ethkey_of a); verify_signature E (VMsg c wty wts wenc (ethsig_of a) wa) (VBytes k)
  | _ => Err EAttributeError
  end.
Proof.
  unfold verify_ethsig. rewrite !(getattr_slot MTaskToCompute) by slots_in. cbn [bind]. unfold offer_of, ethkey_of, ethsig_of.
  destruct (attr_get_or_none "want_to_compute_task" a); try reflexivity.
Qed.
Lemma same_slots E ty ts enc sig a ty' ts' enc' sig' a' : (forall k, In k eth_slots -> attr_get_or_none k a' = attr_get_or_none k a) ->
  verify_ethsig E (VMsg MTaskToCompute ty' ts' enc' sig' a') = verify_ethsig E (VMsg MTaskToCompute ty ts enc sig a).
Proof.
  intros H. rewrite !ethsig_check. unfold offer_of, ethkey_of, ethsig_of. rewrite !H by (unfold eth_slots; cbn; tauto). reflexivity.
Qed.
(** it is a signature of the offer, like the provider's own *)
Lemma ethsig_offer E ty ts enc sig a : verify_ethsig E (VMsg MTaskToCompute ty ts enc sig a) = Ok tt <->
  exists c wty wts wenc wsig wa k, offer_of a = VMsg c wty wts wenc wsig wa /\ decode_hex (ethkey_of a) = Ok k /\
    verify_signature E (VMsg c wty wts wenc (ethsig_of a) wa) (VBytes k) = Ok tt.
Proof.
  rewrite ethsig_check. split.
  - destruct (offer_of a) as [| | | | | | | | | | | |c wty wts wenc wsig wa|]; try discriminate. intros H. apply bind_ok in H as (k & Hk & H). exists c, wty, wts, wenc, wsig, wa, k. auto.
  - intros (c & wty & wts & wenc & wsig & wa & k & -> & -> & H). exact H.
Qed.
Lemma verify_ethsig_cr E E' m : cr E' = cr E -> verify_ethsig E' m = verify_ethsig E m.
Proof.
  intros H. unfold verify_ethsig. destruct (getattr "want_to_compute_task" m) as [w|e]; cbn [bind]; [|reflexivity]. destruct w; try reflexivity.
  destruct (getattr "ethsig" m); cbn [bind]; [|reflexivity]. destruct (getattr "requestor_ethereum_public_key" m); cbn [bind]; [|reflexivity].
  unfold short_hash, hash_payload. rewrite H. reflexivity.
Qed.
Lemma accepted_with E E' now t enc0 sig a key m' bs ct decf pub :
  cr E' = cr E -> crypto_ok (cr E) -> (forall s, sig = VBytes s -> List.length s = 65%nat) ->
  1262304000 < t < 32819212800 -> (ct = true -> now - 600000000 <= t * 1000000 <= now + 300000000) ->
  mok MTaskToCompute a -> mwire MTaskToCompute a ->
  (forall s, slots MTaskToCompute a = Ok s -> wirewf s = true /\ (vdepth s < cdepth E')%nat) ->
  serialize E (VMsg MTaskToCompute (VInt 2002) (VInt t) enc0 sig a) key None = (m', Ok bs) ->
  (forall k, pub = Some k -> k <> [] -> verify_signature E m' (VBytes k) = Ok tt) ->
  verify_ethsig E (VMsg MTaskToCompute (VInt 2002) (VInt t) enc0 sig a) = Ok tt -> validate_taskid m' = Ok tt ->
  deserialize E' now bs decf ct pub = Ok m'.
Proof.
  intros HE HC HL HT Hct M MW W H HV HS HI.
  assert (Em : m' = VMsg MTaskToCompute (VInt 2002) (VInt t) (VBool false) (sig_of m') a).
  { pose proof (serialize_msg E MTaskToCompute _ (VInt t) enc0 sig a key None m' bs H) as Q. cbn [given] in Q. rewrite andb_false_r in Q. exact Q. }
  rewrite (trip_same E E' now MTaskToCompute t enc0 sig [] a key None m' bs ct decf pub); try assumption.
  - unfold vet. cbn [is_task_message]. assert (V : is_valid m' = Ok tt) by (rewrite Em; reflexivity). rewrite V. cbn [bind].
    rewrite (verify_ethsig_cr E E' m' HE). rewrite Em at 1. rewrite (same_slots E (VInt 2002) (VInt t) enc0 sig a) by reflexivity. rewrite HS. cbn [bind]. rewrite HI. reflexivity.
  - intros Q. discriminate Q.
  - intros p _ f x Q. discriminate Q.
  - intros k K1 K2 _. auto.
Qed.
(** a received TaskToCompute lends its ethereum key and signature to any other for the
    same offer *)
Lemma lent E0 now0 bs0 decf0 ct0 pub0 ty0 ts0 enc00 sig0 a0 E E' now t enc0 sig a key m' bs ct decf pub :
  deserialize E0 now0 bs0 decf0 ct0 pub0 = Ok (VMsg MTaskToCompute ty0 ts0 enc00 sig0 a0) -> cr E0 = cr E ->
  (forall k, In k eth_slots -> attr_get_or_none k a = attr_get_or_none k a0) ->
  cr E' = cr E -> crypto_ok (cr E) -> (forall s, sig = VBytes s -> List.length s = 65%nat) ->
  1262304000 < t < 32819212800 -> (ct = true -> now - 600000000 <= t * 1000000 <= now + 300000000) ->
  mok MTaskToCompute a -> mwire MTaskToCompute a ->
  (forall s, slots MTaskToCompute a = Ok s -> wirewf s = true /\ (vdepth s < cdepth E')%nat) ->
  serialize E (VMsg MTaskToCompute (VInt 2002) (VInt t) enc0 sig a) key None = (m', Ok bs) ->
  (forall k, pub = Some k -> k <> [] -> verify_signature E m' (VBytes k) = Ok tt) -> validate_taskid m' = Ok tt ->
  deserialize E' now bs decf ct pub = Ok m'.
Proof.
  intros D H0 K. intros. eapply accepted_with; try eassumption. rewrite (same_slots E ty0 ts0 enc00 sig0 a0) by exact K. rewrite <- (verify_ethsig_cr E E0) by exact H0.
  destruct (loaded_ttc _ _ _ _ _ _ _ _ _ _ _ D) as [(k & h & sg & w & Hw & (wty & wts & wenc & wsig & wa & ->) & Hk & Lk & Hh & Hs & R) _].
  apply ethsig_offer. do 7 eexists. split; [exact Hw|]. split; [exact Hk|]. unfold ethsig_of. rewrite Hs. cbn [verify_signature].
  change (short_hash E0 (VMsg MWantToComputeTask wty wts wenc (VBytes sg) wa)) with (short_hash E0 (VMsg MWantToComputeTask wty wts wenc wsig wa)).
  rewrite Hh. cbn [bind]. unfold ecdsa_verify, blen. rewrite Lk. cbn [Z.eqb Z.of_nat Pos.of_succ_nat]. rewrite R, bytes_eqb_refl. reflexivity.
Qed.
(** so does the provider's signature of the offer, with the provider's key *)
Lemma offer_signed E ty ts enc sig a c wty wts wenc wsig wa k : offer_of a = VMsg c wty wts wenc wsig wa -> ethsig_of a = wsig -> decode_hex (ethkey_of a) = Ok k ->
  verify_ethsig E (VMsg MTaskToCompute ty ts enc sig a) = verify_signature E (VMsg c wty wts wenc wsig wa) (VBytes k).
Proof. intros H1 H2 H3. rewrite ethsig_check, H1, H2, H3. reflexivity. Qed.
Lemma borrowed E E' now t enc0 sig a key m' bs ct decf pub c wty wts wenc wsig wa k :
  offer_of a = VMsg c wty wts wenc wsig wa -> verify_signature E (VMsg c wty wts wenc wsig wa) (VBytes k) = Ok tt ->
  ethsig_of a = wsig -> decode_hex (ethkey_of a) = Ok k ->
  cr E' = cr E -> crypto_ok (cr E) -> (forall s, sig = VBytes s -> List.length s = 65%nat) ->
  1262304000 < t < 32819212800 -> (ct = true -> now - 600000000 <= t * 1000000 <= now + 300000000) ->
  mok MTaskToCompute a -> mwire MTaskToCompute a ->
  (forall s, slots MTaskToCompute a = Ok s -> wirewf s = true /\ (vdepth s < cdepth E')%nat) ->
  serialize E (VMsg MTaskToCompute (VInt 2002) (VInt t) enc0 sig a) key None = (m', Ok bs) ->
  (forall k, pub = Some k -> k <> [] -> verify_signature E m' (VBytes k) = Ok tt) -> validate_taskid m' = Ok tt ->
  deserialize E' now bs decf ct pub = Ok m'.
Proof.
  intros H1 H2 H3 H4. intros. eapply accepted_with; try eassumption. rewrite (offer_signed E _ _ _ _ _ _ _ _ _ _ _ _ H1 H3 H4). exact H2.
Qed.
(** ** What tells the requestors apart *)
Lemma owned_header E ty ts enc sig a concent : validate_ownership E (VMsg MTaskToCompute ty ts enc sig a) concent = Ok tt ->
  exists ha k, getattr "task_header" (offer_of a) = Ok (VObj CTaskHeader ha) /\ decode_hex (attr_get_or_none "requestor_public_key" a) = Ok k /\
    header_verify (cr E) ha (VBytes k) = Ok tt.
Proof.
  intros H. unfold validate_ownership in H. cbn [is_task_message] in H. apply bind_ok in H as ([] & H & _). unfold verify_header in H.
  rewrite !(getattr_slot MTaskToCompute) in H by slots_in. cbn [bind] in H. apply bind_ok in H as (h & Hh & H).
  destruct h; try discriminate H. destruct c; try discriminate H. apply bind_ok in H as (k & Hk & H). eexists _, k. split; [exact Hh|]. auto.
Qed.
Lemma one_owner E E' ty ts enc sig a ty' ts' enc' sig' a' concent concent' : cr E' = cr E -> offer_of a' = offer_of a ->
  validate_ownership E (VMsg MTaskToCompute ty ts enc sig a) concent = Ok tt ->
  validate_ownership E' (VMsg MTaskToCompute ty' ts' enc' sig' a') concent' = Ok tt ->
  exists k, decode_hex (attr_get_or_none "requestor_public_key" a) = Ok k /\ decode_hex (attr_get_or_none "requestor_public_key" a') = Ok k.
Proof.
  intros HE HO H1 H2. apply owned_header in H1 as (h1 & k1 & G1 & K1 & V1). apply owned_header in H2 as (h2 & k2 & G2 & K2 & V2).
  rewrite HO, G1 in G2. apply Ok_inj in G2. injection G2 as <-. rewrite HE in V2. exists k1. split; [exact K1|]. rewrite K2. f_equal.
  unfold header_verify in V1, V2. destruct (attr_get_or_none "signature" h1) eqn:Q; try discriminate V1.
  all: apply bind_ok in V1 as (x & Hx & V1); rewrite Hx in V2; cbn [bind] in V2.
  all: apply ecdsa_verify_ok in V1 as (_ & g1 & E1 & R1); apply ecdsa_verify_ok in V2 as (_ & g2 & E2 & R2); try discriminate.
  assert (g2 = g1) by congruence. subst g2. rewrite R1 in R2. congruence.
Qed.
