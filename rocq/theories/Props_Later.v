(** * The signature checked on arrival and the same signature afterwards *)
From Verif Require Import TwinFacts Samples.

(** ** C75 *)
(** a message that was accepted with its sender's key verifies with that key afterwards,
    as evidence, if the payload it came with is the one it would be dumped to, and
    only then, unless [broken] holds of these two payloads: behind the same type and time
    [d] they have one SHA-1, or one SHA-3, or their two hashes recover one key *)
Theorem C75_later :
  forall E now msg decf ct k c ty ts enc sig a, k <> [] -> signs c = true ->
  deserialize E now msg decf ct (Some k) = Ok (VMsg c ty ts enc sig a) ->
  exists sg flag payload d tail, sig = VBytes sg /\ enc = VBool flag /\ decrypted decf flag (skipn 65 (body c msg)) = Ok payload /\
    dumps (VList [ty; ts]) = Ok d /\ hash_tail c a tail /\
    (payload_of c a = Ok payload -> verify_signature E (VMsg c ty ts enc sig a) (VBytes k) = Ok tt) /\
    (verify_signature E (VMsg c ty ts enc sig a) (VBytes k) = Ok tt ->
     exists p, payload_of c a = Ok p /\ (p = payload \/ broken (cr E) sg k (d ++ payload) (d ++ p) tail)).
Proof. exact later. Qed.
Print Assumptions C75_later.
(** what this library dumps verifies after loading with the keys it did before *)
Theorem C75_sent :
  forall E E' now c t enc0 sig v a key encf m' bs ct decf pub m2,
  cr E' = cr E -> crypto_ok (cr E) -> (forall s, sig = VBytes s -> List.length s = 65%nat) ->
  1262304000 < t < 32819212800 -> mok c a -> hello_ok E' c v ->
  (forall s, slots c a = Ok s -> wirewf s = true /\ (vdepth s < cdepth E')%nat) ->
  (forall p, payload_of c a = Ok p -> undoes encf decf c p) ->
  serialize E (VMsg c (VInt (type_of c)) (VInt t) enc0 sig (full c v a)) key encf = (m', Ok bs) ->
  deserialize E' now bs decf ct pub = Ok m2 ->
  forall k, verify_signature E' m2 k = verify_signature E m' k.
Proof. exact sent_verifies. Qed.
Print Assumptions C75_sent.
(** but whoever holds the key can write the same message in other bytes and sign those:
    whatever class signs, in the clear or encrypted *)
Theorem C75_other_bytes :
  forall E now msg decf ct k s c ty ts f sig a payload p' payload', crypto_ok (cr E) -> signs c = true ->
  secret_of (cr E) s = Some s -> pub_of (cr E) s = Some k ->
  deserialize E now msg decf ct (Some k) = Ok (VMsg c ty ts (VBool f) sig a) -> decrypted decf f (skipn 65 (body c msg)) = Ok payload ->
  p' <> [] -> decrypted decf f p' = Ok payload' -> loads (cdepth E) payload' = loads (cdepth E) payload ->
  exists sig', List.length sig' = 65%nat /\
    deserialize E now (firstn 11 msg ++ sig' ++ p' ++ tail_of c msg) decf ct (Some k) = Ok (VMsg c ty ts (VBool f) (VBytes sig') a).
Proof. exact twin_any. Qed.
Print Assumptions C75_other_bytes.
(** for instance with anything appended; such a message is accepted but does not verify
    afterwards *)
Theorem C75_appended :
  forall E now msg decf ct k s c ty ts f sig a payload p' junk, crypto_ok (cr E) -> signs c = true ->
  secret_of (cr E) s = Some s -> pub_of (cr E) s = Some k -> junk <> [] ->
  deserialize E now msg decf ct (Some k) = Ok (VMsg c ty ts (VBool f) sig a) -> decrypted decf f (skipn 65 (body c msg)) = Ok payload ->
  payload_of c a = Ok payload -> p' <> [] -> decrypted decf f p' = Ok (payload ++ junk) ->
  exists sig' d tail, deserialize E now (firstn 11 msg ++ sig' ++ p' ++ tail_of c msg) decf ct (Some k) = Ok (VMsg c ty ts (VBool f) (VBytes sig') a) /\
    dumps (VList [ty; ts]) = Ok d /\ hash_tail c a tail /\
    (verify_signature E (VMsg c ty ts (VBool f) (VBytes sig') a) (VBytes k) = Ok tt ->
     broken (cr E) sig' k (d ++ payload ++ junk) (d ++ payload) tail).
Proof. exact twin_any_junk. Qed.
Print Assumptions C75_appended.

(** a TaskToCompute with a byte appended, signed by the requestor: the provider accepts
    it, but a ReportComputedTask made with it is accepted by no one, and it cannot be
    relayed *)
Definition ttc_bytes : bytes := Eval vm_compute in dump0 ex_ttc.
Definition twin_sig : bytes := Eval vm_compute in
  Samples.get [] (match ex_ttc with
    | VMsg c ty ts _ _ a => do h <- hash_payload E0 c ty ts a (skipn 76 ttc_bytes ++ [x00]);
        match sign_rec toy req_key (sha3_256 toy h) with Some s => Ok s | None => Err EValueError end
    | _ => Err EValueError end).
Definition twin_bytes : bytes := Eval vm_compute in firstn 11 ttc_bytes ++ twin_sig ++ skipn 76 ttc_bytes ++ [x00].
Definition ttc_got : pyval := Eval vm_compute in Samples.get VNone (load0 (Some (pub req_key)) ttc_bytes).
Definition twin_got : pyval := Eval vm_compute in Samples.get VNone (load0 (Some (pub req_key)) twin_bytes).
Definition report_of (t : pyval) : pyval := signed prov_key (make (now0 + 10) MReportComputedTask [("task_to_compute", t)]%string).
Definition owners_of (m : pyval) : result unit := verify_owners E0 m (VBytes (pub prov_key)) (VBytes (pub req_key)) (VBytes (pub conc_key)).
Theorem C75_verifies_later_refuted :
  exists E now bs m rk pk ck, crypto_ok (cr E) /\
    deserialize E now bs (fun b => Ok b) true (Some rk) = Ok m /\ (exists ty ts enc sig a, m = VMsg MTaskToCompute ty ts enc sig a) /\
    verify_signature E m (VBytes rk) = Err EInvalidSignature /\
    verify_owners E (report_of m) (VBytes pk) (VBytes rk) (VBytes ck) = Err EInvalidSignature /\
    deserialize E now (dump0 m) (fun b => Ok b) true (Some rk) = Err EInvalidSignature.
Proof.
  exists E0, (now0 * 1000000), twin_bytes, twin_got, (pub req_key), (pub prov_key), (pub conc_key). split; [exact toy_ok|].
  split; [vm_compute; reflexivity|]. split; [do 5 eexists; reflexivity|]. repeat split; vm_compute; reflexivity.
Qed.
Print Assumptions C75_verifies_later_refuted.
(** the original is accepted, in a report too, and differs in nothing but the signature;
    the hypotheses of the theorems above hold of it *)
Example C75_ex :
  load0 (Some (pub req_key)) ttc_bytes = Ok ttc_got /\ owners_of (report_of ttc_got) = Ok tt /\ verify_signature E0 ttc_got (VBytes (pub req_key)) = Ok tt /\
  (exists c ty ts s s' a, ttc_got = VMsg c ty ts (VBool false) (VBytes s) a /\ twin_got = VMsg c ty ts (VBool false) (VBytes s') a /\ s <> s' /\
     signs c = true /\ c <> MHello /\ payload_of c a = Ok (skipn 76 ttc_bytes)) /\
  secret_of toy req_key = Some req_key /\ pub_of toy req_key = Some (pub req_key).
Proof.
  split; [vm_compute; reflexivity|]. split; [vm_compute; reflexivity|]. split; [vm_compute; reflexivity|]. split.
  - do 6 eexists. split; [reflexivity|]. split; [reflexivity|]. split; [discriminate|]. split; [reflexivity|]. split; [discriminate|]. vm_compute. reflexivity.
  - split; reflexivity.
Qed.
(** a Hello and an encrypted TaskToCompute meet the hypotheses too; the key of the first
    signs a copy with a byte appended before the version *)
Definition later_hello : pyval := Eval vm_compute in
  signed prov_key (make now0 MHello [("rand_val", VFloat 4607182418800017408); ("port", VInt 40102); ("node_info", Samples.get VNone (cnew CNode ex_node_kw))]%string).
Definition lh_bytes : bytes := Eval vm_compute in dump0 later_hello.
Definition lh_payload : bytes := Eval vm_compute in skipn 65 (body MHello lh_bytes).
Definition lh_sig : bytes := Eval vm_compute in
  Samples.get [] (match later_hello with
    | VMsg c ty ts _ _ a => do h <- hash_payload E0 c ty ts a (lh_payload ++ [x00]);
        match sign_rec toy prov_key (sha3_256 toy h) with Some s => Ok s | None => Err EValueError end
    | _ => Err EValueError end).
Definition mask (b : bytes) : result bytes := Ok (map (fun x => z2b (255 - b2z x)) b).
Definition sealed_ttc : bytes := Eval vm_compute in firstn 10 ttc_bytes ++ [x01] ++ firstn 65 (skipn 11 ttc_bytes) ++ Samples.get [] (mask (skipn 76 ttc_bytes)).
Definition lh_twin : bytes := Eval vm_compute in firstn 11 lh_bytes ++ lh_sig ++ (lh_payload ++ [x00]) ++ tail_of MHello lh_bytes.
Definition lh_got : pyval := Eval vm_compute in Samples.get VNone (load0 (Some (pub prov_key)) lh_bytes).
Definition lh_twin_got : pyval := Eval vm_compute in Samples.get VNone (load0 (Some (pub prov_key)) lh_twin).
Definition st_got : pyval := Eval vm_compute in Samples.get VNone (deserialize E0 (now0 * 1000000) sealed_ttc mask true (Some (pub req_key))).
Example C75_ex_hello :
  load0 (Some (pub prov_key)) lh_bytes = Ok lh_got /\ load0 (Some (pub prov_key)) lh_twin = Ok lh_twin_got /\
  (exists ty ts s s' a, lh_got = VMsg MHello ty ts (VBool false) (VBytes s) a /\ lh_twin_got = VMsg MHello ty ts (VBool false) (VBytes s') a /\
     s <> s' /\ payload_of MHello a = Ok lh_payload) /\
  verify_signature E0 lh_got (VBytes (pub prov_key)) = Ok tt /\ verify_signature E0 lh_twin_got (VBytes (pub prov_key)) = Err EInvalidSignature /\
  deserialize E0 (now0 * 1000000) sealed_ttc mask true (Some (pub req_key)) = Ok st_got /\
  (exists ty ts s a, st_got = VMsg MTaskToCompute ty ts (VBool true) (VBytes s) a /\ payload_of MTaskToCompute a = Ok (skipn 76 ttc_bytes)) /\
  decrypted mask true (skipn 65 (body MTaskToCompute sealed_ttc)) = Ok (skipn 76 ttc_bytes).
Proof.
  split; [vm_compute; reflexivity|]. split; [vm_compute; reflexivity|]. split.
  { do 5 eexists. split; [reflexivity|]. split; [reflexivity|]. split; [discriminate|]. vm_compute. reflexivity. }
  split; [vm_compute; reflexivity|]. split; [vm_compute; reflexivity|]. split; [vm_compute; reflexivity|]. split; [|vm_compute; reflexivity].
  do 4 eexists. split; [reflexivity|]. vm_compute. reflexivity.
Qed.
