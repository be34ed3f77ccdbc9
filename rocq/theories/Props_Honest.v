(** * Property theorems: honest exchanges are accepted (C66).

    [honest E priv pk rk m]: [m] was built the way the protocol asks: a TaskToCompute
    names the public keys [pk] and [rk], holds a header signed by the requestor and is
    signed by the requestor; any other task message holds honest task messages only, at
    least one in the slots its task is taken from, and is signed by a role that may
    sign it.  [key_pairs]: the private keys [priv] belong to the public ones. *)
From Verif Require Import SampleHonest.

(** ** C66 *)
(** honest messages are accepted, for the keys the parties have *)
Theorem C66_accepted :
  forall E priv pk rk ck m, crypto_ok (cr E) -> key_pairs (cr E) priv pk rk ck -> honest E priv pk rk m ->
  verify_owners E m (VBytes pk) (VBytes rk) (VBytes ck) = Ok tt.
Proof. exact honest_accepted. Qed.
Print Assumptions C66_accepted.
(** and so is every task message inside *)
Theorem C66_inside :
  forall E priv pk rk m n, honest E priv pk rk m -> reach m n -> honest E priv pk rk n.
Proof. exact honest_inside. Qed.
Print Assumptions C66_inside.
(** dumped, by anyone, encrypted or not, and loaded, they are still accepted *)
Theorem C66_arrives :
  forall E E' now priv pk rk ck c t enc0 sig a key encf m' bs ct decf pub m2,
  cr E' = cr E -> crypto_ok (cr E) -> key_pairs (cr E) priv pk rk ck ->
  honest E priv pk rk (VMsg c (VInt (type_of c)) (VInt t) enc0 sig a) -> 1262304000 < t < 32819212800 ->
  (forall s, slots c a = Ok s -> wirewf s = true /\ (vdepth s < cdepth E')%nat) ->
  (forall p, payload_of c a = Ok p -> undoes encf decf c p) ->
  serialize E (VMsg c (VInt (type_of c)) (VInt t) enc0 sig a) key encf = (m', Ok bs) -> deserialize E' now bs decf ct pub = Ok m2 ->
  verify_owners E' m2 (VBytes pk) (VBytes rk) (VBytes ck) = Ok tt.
Proof. exact honest_arrives. Qed.
Print Assumptions C66_arrives.
(** and they are delivered: sent within the time window, an honest message that passes
    its class's own checks is loaded, by whoever checks it with a key it verifies with *)
Theorem C66_delivered :
  forall E E' now priv pk rk ck c t enc0 sig a key encf m' bs ct decf pub,
  cr E' = cr E -> crypto_ok (cr E) -> key_pairs (cr E) priv pk rk ck ->
  honest E priv pk rk (VMsg c (VInt (type_of c)) (VInt t) enc0 sig a) -> 1262304000 < t < 32819212800 ->
  (ct = true -> now - 600000000 <= t * 1000000 <= now + 300000000) ->
  (forall s, slots c a = Ok s -> wirewf s = true /\ (vdepth s < cdepth E')%nat) ->
  (forall p, payload_of c a = Ok p -> undoes encf decf c p) ->
  serialize E (VMsg c (VInt (type_of c)) (VInt t) enc0 sig a) key encf = (m', Ok bs) ->
  (forall k, pub = Some k -> k <> [] -> signs c = true -> verify_signature E m' (VBytes k) = Ok tt) ->
  vet E c m' = Ok tt ->
  exists m2, deserialize E' now bs decf ct pub = Ok m2 /\ verify_owners E' m2 (VBytes pk) (VBytes rk) (VBytes ck) = Ok tt.
Proof. exact honest_delivered. Qed.
Print Assumptions C66_delivered.
(** in general: whatever well-formed message the sender accepts, the receiver accepts *)
Theorem C66_sender_receiver :
  forall E E' now c t enc0 sig v a key encf m' bs ct decf pub m2 p r concent,
  cr E' = cr E -> crypto_ok (cr E) -> (forall s, sig = VBytes s -> List.length s = 65%nat) ->
  1262304000 < t < 32819212800 -> mok c a -> a_key concent ->
  (forall s, slots c a = Ok s -> wirewf s = true /\ (vdepth s < cdepth E')%nat) ->
  (forall p, payload_of c a = Ok p -> undoes encf decf c p) ->
  serialize E (VMsg c (VInt (type_of c)) (VInt t) enc0 sig (full c v a)) key encf = (m', Ok bs) ->
  deserialize E' now bs decf ct pub = Ok m2 ->
  verify_owners E m' (opt_key p) (opt_key r) concent = Ok tt -> verify_owners E' m2 (opt_key p) (opt_key r) concent = Ok tt.
Proof. exact accepted_arrives. Qed.
Print Assumptions C66_sender_receiver.

(** the sample exchange, up to Concent's verdict; dumped and loaded it is accepted, by
    the recipients and with the signer's key given; with another party's key it is not *)
Example C66_ex :
  key_pairs (cr E0) ex_priv ex_pk ex_rk (pub conc_key) /\ honest E0 ex_priv ex_pk ex_rk ex_verdict /\
  (exists enc0 sig, ex_verdict = VMsg MVerdictReportComputedTask (VInt (type_of MVerdictReportComputedTask)) (VInt (now0 + 40)) enc0 sig (attrs_of ex_verdict)) /\
  slots_fit E0 MVerdictReportComputedTask (attrs_of ex_verdict) = true /\
  is_ok (snd (serialize E0 ex_verdict None None)) = true /\ is_ok (load0 (Some (pub conc_key)) (dump0 ex_verdict)) = true /\
  verify_signature E0 ex_verdict (VBytes (pub conc_key)) = Ok tt /\ vet E0 MVerdictReportComputedTask ex_verdict = Ok tt /\
  verify_owners E0 ex_verdict (VBytes ex_rk) (VBytes ex_rk) (VBytes (pub conc_key)) = Err EOwnershipMismatch.
Proof.
  split; [exact ex_pairs|]. split; [exact ex_verdict_honest|]. split; [do 2 eexists; reflexivity|].
  split; [|split; [|split; [|split; [|split]]]]; vm_compute; reflexivity.
Qed.
