(** * Property theorems: what the ethereum signature of a TaskToCompute shows (C99).

    [offer_of], [ethsig_of], [ethkey_of]: the slots [want_to_compute_task], [ethsig] and
    [requestor_ethereum_public_key]; [eth_slots] is their list. *)
From Verif Require Import EthsigFacts SampleTrips.

(** ** C99 *)
(** it is a signature of the offer, of the kind the provider's own is: it is good exactly
    if the offer, carrying it as its signature, is signed with the ethereum key *)
Theorem C99_of_the_offer :
  forall E ty ts enc sig a, verify_ethsig E (VMsg MTaskToCompute ty ts enc sig a) = Ok tt <->
  exists c wty wts wenc wsig wa k, offer_of a = VMsg c wty wts wenc wsig wa /\ decode_hex (ethkey_of a) = Ok k /\
    verify_signature E (VMsg c wty wts wenc (ethsig_of a) wa) (VBytes k) = Ok tt.
Proof. exact ethsig_offer. Qed.
Print Assumptions C99_of_the_offer.
(** nothing else of the TaskToCompute matters to it: not the requestor, their key and id,
    the task, the price, the time nor the requestor's signature *)
Theorem C99_nothing_else :
  forall E ty ts enc sig a ty' ts' enc' sig' a', (forall k, In k eth_slots -> attr_get_or_none k a' = attr_get_or_none k a) ->
  verify_ethsig E (VMsg MTaskToCompute ty' ts' enc' sig' a') = verify_ethsig E (VMsg MTaskToCompute ty ts enc sig a).
Proof. exact same_slots. Qed.
Print Assumptions C99_nothing_else.
(** so whoever receives a TaskToCompute can send another one for the same offer, signed
    with their own key, with other contents and with the ethereum key and signature they
    received: it is accepted as theirs if its ids are made from the id it names *)
Theorem C99_taken_over :
  forall E0 now0 bs0 decf0 ct0 pub0 ty0 ts0 enc00 sig0 a0 E E' now t enc0 sig a key m' bs ct decf pub,
  deserialize E0 now0 bs0 decf0 ct0 pub0 = Ok (VMsg MTaskToCompute ty0 ts0 enc00 sig0 a0) -> cr E0 = cr E ->
  (forall k, In k eth_slots -> attr_get_or_none k a = attr_get_or_none k a0) ->
  cr E' = cr E -> crypto_ok (cr E) -> (forall s, sig = VBytes s -> List.length s = 65%nat) ->
  1262304000 < t < 32819212800 -> (ct = true -> now - 600000000 <= t * 1000000 <= now + 300000000) ->
  mok MTaskToCompute a -> mwire MTaskToCompute a ->
  (forall s, slots MTaskToCompute a = Ok s -> wirewf s = true /\ (vdepth s < cdepth E')%nat) ->
  serialize E (VMsg MTaskToCompute (VInt 2002) (VInt t) enc0 sig a) key None = (m', Ok bs) ->
  (forall k, pub = Some k -> k <> [] -> verify_signature E m' (VBytes k) = Ok tt) -> validate_taskid m' = Ok tt ->
  deserialize E' now bs decf ct pub = Ok m'.
Proof. exact lent. Qed.
Print Assumptions C99_taken_over.
(** and no ethereum key is needed at all: a requestor can name the provider's key as
    theirs and give the provider's signature of the offer as the ethereum signature *)
Theorem C99_provider_named :
  forall E E' now t enc0 sig a key m' bs ct decf pub c wty wts wenc wsig wa k,
  offer_of a = VMsg c wty wts wenc wsig wa -> verify_signature E (VMsg c wty wts wenc wsig wa) (VBytes k) = Ok tt ->
  ethsig_of a = wsig -> decode_hex (ethkey_of a) = Ok k ->
  cr E' = cr E -> crypto_ok (cr E) -> (forall s, sig = VBytes s -> List.length s = 65%nat) ->
  1262304000 < t < 32819212800 -> (ct = true -> now - 600000000 <= t * 1000000 <= now + 300000000) ->
  mok MTaskToCompute a -> mwire MTaskToCompute a ->
  (forall s, slots MTaskToCompute a = Ok s -> wirewf s = true /\ (vdepth s < cdepth E')%nat) ->
  serialize E (VMsg MTaskToCompute (VInt 2002) (VInt t) enc0 sig a) key None = (m', Ok bs) ->
  (forall k, pub = Some k -> k <> [] -> verify_signature E m' (VBytes k) = Ok tt) -> validate_taskid m' = Ok tt ->
  deserialize E' now bs decf ct pub = Ok m'.
Proof. exact borrowed. Qed.
Print Assumptions C99_provider_named.

(** what tells requestors apart is the task header inside the offer: two TaskToComputes
    for one offer that both pass the check of the owners name the same requestor *)
Theorem C99_one_owner :
  forall E E' ty ts enc sig a ty' ts' enc' sig' a' concent concent', cr E' = cr E -> offer_of a' = offer_of a ->
  validate_ownership E (VMsg MTaskToCompute ty ts enc sig a) concent = Ok tt ->
  validate_ownership E' (VMsg MTaskToCompute ty' ts' enc' sig' a') concent' = Ok tt ->
  exists k, decode_hex (attr_get_or_none "requestor_public_key" a) = Ok k /\ decode_hex (attr_get_or_none "requestor_public_key" a') = Ok k.
Proof. exact one_owner. Qed.
Print Assumptions C99_one_owner.

(** a TaskToCompute with another ethereum key and signature, from the requestor it came
    from or from somebody else, whose ids end in the first bytes of their key *)
Definition other_key : bytes := repeat x55 32.
Definition other_id : pyval := VStr (u "6aa5b6e2-f8a2-11ea-8b0b-555555555555").
Definition arrived_ttc : pyval := Eval vm_compute in get VNone (load0 (Some (pub req_key)) (dump0 ex_ttc)).
Definition with_eth (k : bytes) (id sg key : pyval) : pyval := signed k (VMsg MTaskToCompute (VInt 2002) (VInt now0) (VBool false) VNone
  (attr_set "requestor_id" (hex (pub k)) (attr_set "requestor_public_key" (hex (pub k))
  (attr_set "compute_task_def" (get VNone (dict_new DCTD (VDict DPlain [(skey "task_id", id); (skey "subtask_id", id)])))
  (attr_set "price" (VInt 1) (attr_set "ethsig" sg (attr_set "requestor_ethereum_public_key" key (attrs_of arrived_ttc)))))))%string).
Definition taken_ttc : pyval := Eval vm_compute in with_eth other_key other_id (ethsig_of (attrs_of arrived_ttc)) (hex (pub eth_key)).
Definition named_ttc : pyval := Eval vm_compute in with_eth req_key ex_task_id (sig_of (offer_of (attrs_of arrived_ttc))) (hex (pub prov_key)).
(** the docstring of verify_ethsig says that it ensures that the requestor has control
    over the ethereum address.  The requestor of the task is accepted with the provider's
    key as their ethereum key, by loading and by the check of the owners *)
Theorem C99_control_refuted :
  exists E now bs m a rk pk concent, crypto_ok (cr E) /\ rk <> pk /\
    deserialize E now bs (fun x => Ok x) true (Some rk) = Ok m /\ a = attrs_of m /\
    attr_get_or_none "requestor_public_key" a = hex rk /\ getattr "provider_public_key" m = Ok (hex pk) /\
    ethkey_of a = hex pk /\ ethsig_of a = sig_of (offer_of a) /\
    validate_ownership_chain E m concent = Ok tt /\ verify_owners E m (VBytes pk) (VBytes rk) concent = Ok tt.
Proof.
  exists E0, (now0 * 1000000), (dump0 named_ttc), (get VNone (load0 (Some (pub req_key)) (dump0 named_ttc))),
    (attrs_of (get VNone (load0 (Some (pub req_key)) (dump0 named_ttc)))), (pub req_key), (pub prov_key), (VBytes (pub conc_key)).
  split; [exact toy_ok|]. split; [discriminate|]. repeat (split; [vm_compute; reflexivity|]). vm_compute. reflexivity.
Qed.
Print Assumptions C99_control_refuted.
(** the other requestor is accepted when loaded but not by the check of the owners; a
    signature that does not fit the key is refused at once *)
Example C99_ex :
  load0 (Some (pub other_key)) (dump0 taken_ttc) = Ok (got other_key taken_ttc) /\
  validate_ownership_chain E0 (got other_key taken_ttc) (VBytes (pub conc_key)) = Err EInvalidSignature /\
  validate_ownership_chain E0 arrived_ttc (VBytes (pub conc_key)) = Ok tt /\ validate_taskid taken_ttc = Ok tt /\
  (forall k, In k eth_slots -> attr_get_or_none k (attrs_of (got other_key taken_ttc)) = attr_get_or_none k (attrs_of arrived_ttc)) /\
  good_sample MTaskToCompute (got other_key taken_ttc) = true /\ good_sample MTaskToCompute (got req_key named_ttc) = true /\
  verify_signature E0 (offer_of (attrs_of named_ttc)) (VBytes (pub prov_key)) = Ok tt /\
  load0 (Some (pub req_key)) (dump0 (with_eth req_key ex_task_id (ethsig_of (attrs_of arrived_ttc)) (hex (pub prov_key)))) = Err EInvalidSignature.
Proof.
  split; [vm_compute; reflexivity|]. split; [vm_compute; reflexivity|]. split; [vm_compute; reflexivity|]. split; [vm_compute; reflexivity|].
  split; [intros k [<-|[<-|[<-|[]]]]; vm_compute; reflexivity|]. repeat (split; [vm_compute; reflexivity|]). vm_compute. reflexivity.
Qed.
