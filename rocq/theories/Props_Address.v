(** * Property theorems: the ethereum address of a received TaskToCompute (C99) and what
    checking its promissory notes raises (C58) *)
From Verif Require Import AddressFacts SampleTrips.

(** ** C99 *)
(** the signature checked on arrival is by the key that requestor_ethereum_public_key is
    decoded to; requestor_ethereum_address is the address of that key if the slot holds
    text (in letters of either case), and for bytes it is made of the 128 digits *)
Theorem C99_address :
  forall E now bs decf ct pub ty ts enc sig a,
  deserialize E now bs decf ct pub = Ok (VMsg MTaskToCompute ty ts enc sig a) ->
  exists k h sg, decode_hex (ethkey_of a) = Ok k /\ List.length k = 64%nat /\ short_hash E (offer_of a) = Ok h /\ ethsig_of a = VBytes sg /\
    recover (cr E) sg (sha3_256 (cr E) h) = Some (x04 :: k) /\
    ((exists s, str_of (ethkey_of a) = Some s /\ requestor_address (cr E) (VMsg MTaskToCompute ty ts enc sig a) = Ok (VStr (address_of (keccak (cr E)) k))) \/
     (exists b, ethkey_of a = VBytes b /\ List.length b = 128%nat /\ requestor_address (cr E) (VMsg MTaskToCompute ty ts enc sig a) = Ok (VStr (address_of (keccak (cr E)) b)))).
Proof. exact address_of_received. Qed.
Print Assumptions C99_address.

(** a TaskToCompute with other values in some slots, signed again *)
Definition ad_base : pyval := Eval vm_compute in get VNone (load0 (Some (pub req_key)) (dump0 ex_ttc)).
Definition ad_with (kvs : list (string * pyval)) : pyval := signed req_key (VMsg MTaskToCompute (VInt 2002) (VInt now0) (VBool false) VNone
  (fold_left (fun a kv => attr_set (fst kv) (snd kv) a) kvs (attrs_of ad_base))).
Definition ad_load (m : pyval) : result pyval := load0 (Some (pub req_key)) (dump0 m).
Definition ad_contract : pyval := VStr (u "0x" ++ repeat 99 40)%list.
Definition ad_key (v : pyval) : pyval := ad_with [("requestor_ethereum_public_key", v)]%string.
Definition key_bytes : bytes := Eval vm_compute in map z2b (hexlify (pub eth_key)).
Definition upper (s : ustr) : ustr := map (fun c => if (97 <=? c) && (c <=? 102) then c - 32 else c) s.
Definition ad_bytes : pyval := Eval vm_compute in get VNone (ad_load (ad_key (VBytes key_bytes))).
Definition ad_upper : pyval := Eval vm_compute in get VNone (ad_load (ad_key (VStr (upper (hexlify (pub eth_key)))))).
(** so the address of an accepted TaskToCompute, which is what promissory notes are
    checked against, need not belong to the key whose signature was checked: with the key
    given as bytes all checks pass, and the notes that the owner of the key signs do not
    verify *)
Theorem C99_address_refuted :
  exists E now bs m k rk pk concent contract cb m' adr, crypto_ok (cr E) /\
    deserialize E now bs (fun x => Ok x) true (Some rk) = Ok m /\ verify_ethsig E m = Ok tt /\
    decode_hex (ethkey_of (attrs_of m)) = Ok k /\ Samples.pub eth_key = k /\
    validate_ownership_chain E m concent = Ok tt /\ verify_owners E m (VBytes pk) (VBytes rk) concent = Ok tt /\
    is_address contract cb /\ requestor_address (cr E) m = Ok (VStr adr) /\ adr <> address_of (keccak (cr E)) k /\
    sign_all_notes (cr E) m contract eth_key = Ok m' /\ verify_all_notes (cr E) m' contract = Ok false.
Proof.
  exists E0, (now0 * 1000000), (dump0 (ad_key (VBytes key_bytes))), ad_bytes, (pub eth_key), (pub req_key), (pub prov_key), (VBytes (pub conc_key)),
    ad_contract, (repeat xcc 20), (get VNone (sign_all_notes (cr E0) ad_bytes ad_contract eth_key)), (address_of (keccak (cr E0)) key_bytes).
  split; [exact toy_ok|]. do 3 (split; [vm_compute; reflexivity|]). split; [reflexivity|]. do 2 (split; [vm_compute; reflexivity|]).
  split; [eexists; split; [reflexivity|split; vm_compute; reflexivity]|]. split; [vm_compute; reflexivity|].
  split; [vm_compute; discriminate|]. split; vm_compute; reflexivity.
Qed.
Print Assumptions C99_address_refuted.
Example C99_address_ex :
  ad_load (ad_key (VStr (upper (hexlify (pub eth_key))))) = Ok ad_upper /\ requestor_address toy ad_upper = Ok (VStr (address_of (keccak toy) (pub eth_key))) /\
  (do m <- sign_all_notes toy ad_upper ad_contract eth_key; verify_all_notes toy m ad_contract) = Ok true.
Proof. split; [vm_compute; reflexivity|]. split; vm_compute; reflexivity. Qed.

(** ** C58 *)
(** what checking the notes of a received TaskToCompute raises: nothing if there is no
    signature for the Concent; else one of these, and never a MessageError *)
Theorem C58_raises :
  forall E now bs decf ct pub ty ts enc sig a contract cb e,
  deserialize E now bs decf ct pub = Ok (VMsg MTaskToCompute ty ts enc sig a) -> is_address contract cb ->
  verify_all_notes (cr E) (VMsg MTaskToCompute ty ts enc sig a) contract = Err e ->
  truthy (attr_get_or_none "concent_promissory_note_sig" a) = true /\
  ((e = ETypeError /\ (~ vrs_shape (attr_get_or_none "concent_promissory_note_sig" a) \/ ~ vrs_shape (attr_get_or_none "promissory_note_sig" a) \/
      exists pa, getattr "provider_ethereum_address" (VMsg MTaskToCompute ty ts enc sig a) = Ok pa /\ str_of pa = None)) \/
   (e = EAttributeError /\ attr_get_or_none "price" a = VNone) \/
   (e = EOverflowError /\ exists z, attr_get_or_none "price" a = VInt z /\ ~ 0 <= z < 2 ^ 256) \/
   e = EBinasciiError \/ e = EValueError).
Proof. exact notes_raise. Qed.
Print Assumptions C58_raises.
Definition some_sig : pyval := VList [VInt 27; VBytes (repeat x11 32); VBytes (repeat x22 32)].
Definition ad_price (v s : pyval) : pyval := ad_with [("price", v); ("concent_promissory_note_sig", s)]%string.
(** a TaskToCompute with a price below zero passes all checks, but asking whether its
    notes are good raises *)
Theorem C58_answer_refuted :
  exists E now bs m rk pk concent contract cb, crypto_ok (cr E) /\
    deserialize E now bs (fun x => Ok x) true (Some rk) = Ok m /\ (exists ty ts enc sig a, m = VMsg MTaskToCompute ty ts enc sig a) /\
    validate_ownership_chain E m concent = Ok tt /\ verify_owners E m (VBytes pk) (VBytes rk) concent = Ok tt /\
    is_address contract cb /\ verify_all_notes (cr E) m contract = Err EOverflowError.
Proof.
  exists E0, (now0 * 1000000), (dump0 (ad_price (VInt (-1)) some_sig)), (get VNone (ad_load (ad_price (VInt (-1)) some_sig))), (pub req_key), (pub prov_key),
    (VBytes (pub conc_key)), ad_contract, (repeat xcc 20).
  split; [exact toy_ok|]. split; [vm_compute; reflexivity|]. split; [do 5 eexists; vm_compute; reflexivity|]. do 2 (split; [vm_compute; reflexivity|]).
  split; [eexists; split; [reflexivity|split; vm_compute; reflexivity]|]. vm_compute. reflexivity.
Qed.
Print Assumptions C58_answer_refuted.
(** a signature of two items; one that is nobody's; none; and a price of None, which is
    refused on arrival unless the slot is left out *)
Definition notes_of (m : pyval) : result bool := do g <- ad_load m; verify_all_notes toy g ad_contract.
Example C58_raises_ex :
  map notes_of [ad_price (VInt 5) (VList [VInt 27; VBytes []]); ad_price (VInt 5) some_sig; ad_price (VInt (-1)) VNone; ad_price VNone some_sig] =
    [Err ETypeError; Err EValueError; Ok false; Err (EFieldError (u "price"))] /\
  is_ok (ad_load (ad_price (VInt 5) some_sig)) = true /\ vrs_shape some_sig /\ ~ vrs_shape (VList [VInt 27; VBytes []]).
Proof. split; [vm_compute; reflexivity|]. split; [vm_compute; reflexivity|]. split; [do 3 eexists; reflexivity|]. intros (v & r & q & H). discriminate H. Qed.
