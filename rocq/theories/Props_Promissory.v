(** * Property theorems: promissory notes (C39, C40) *)
From Verif Require Import Promissory.

(** ** C39 a note signed with the private key of account [a] verifies exactly when
    its [address_from] is [a]; so does the list the signature becomes on the wire *)
Theorem C39_signed_verifies_iff_own_address :
  forall (C : crypto), crypto_ok C -> forall n k a h,
  eth_address C k = Some a -> note_hash C n = Ok h ->
  exists v r s, note_sign C n k = Ok (VTuple [VInt v; VBytes r; VBytes s]) /\
    forall sig, sig = VTuple [VInt v; VBytes r; VBytes s] \/ sig = VList [VInt v; VBytes r; VBytes s] ->
      (str_of (n_from n) = Some a -> sig_valid C n sig = Ok true) /\
      (str_of (n_from n) <> Some a -> sig_valid C n sig = Ok false).
Proof. exact sign_verify_iff. Qed.
Print Assumptions C39_signed_verifies_iff_own_address.

Theorem C39_missing_signature_is_false :
  forall (C : crypto) n sig, truthy sig = false -> sig_valid C n sig = Ok false.
Proof. exact unsigned_false. Qed.
Print Assumptions C39_missing_signature_is_false.

(** a non-empty signature that is not a sequence of three items is a TypeError *)
Theorem C39_malformed_signature_type_error :
  forall (C : crypto) n sig,
  truthy sig = true -> (forall a b c, py_iter sig <> Some [a; b; c]) -> sig_valid C n sig = Err ETypeError.
Proof. exact malformed_type_error. Qed.
Print Assumptions C39_malformed_signature_type_error.

(** every note over three 20-byte addresses, with an amount below 2^256 and a UUID
    subtask, has signed bytes: the prefix, and 20+20+20+32+16+16 bytes *)
Theorem C39_signed_bytes_defined :
  forall n cb fb tb z i,
  is_address (n_contract n) cb -> is_address (n_from n) fb -> is_address (n_to n) tb ->
  amount_of (n_amount n) z -> 0 <= z < 2 ^ 256 -> py_uuid (n_subtask n) = Ok i ->
  signed_bytes n = Ok ((x19 :: map z2b (u "Ethereum Signed Message:") ++ x0a :: map z2b (u "124")) ++
    cb ++ fb ++ tb ++ be_enc 32 z ++ be_enc 16 i ++ repeat x00 16).
Proof. exact signed_bytes_literal. Qed.
Print Assumptions C39_signed_bytes_defined.

(** ** C40 notes with the same signed bytes have the same terms *)
Theorem C40_same_bytes_same_terms :
  forall n1 n2 c1 f1 t1 c2 f2 t2 b,
  is_address (n_contract n1) c1 -> is_address (n_from n1) f1 -> is_address (n_to n1) t1 ->
  is_address (n_contract n2) c2 -> is_address (n_from n2) f2 -> is_address (n_to n2) t2 ->
  signed_bytes n1 = Ok b -> signed_bytes n2 = Ok b ->
  c1 = c2 /\ f1 = f2 /\ t1 = t2 /\
  (exists z, amount_of (n_amount n1) z /\ amount_of (n_amount n2) z) /\
  (exists i, py_uuid (n_subtask n1) = Ok i /\ py_uuid (n_subtask n2) = Ok i).
Proof. exact note_binds. Qed.
Print Assumptions C40_same_bytes_same_terms.

(** without the length condition it is false: digits can move between addresses *)
Theorem C40_any_length_refuted :
  exists n1 n2 b, signed_bytes n1 = Ok b /\ signed_bytes n2 = Ok b /\
    n_from n1 <> n_from n2 /\ n_to n1 <> n_to n2.
Proof.
  exists {| n_contract := VStr (u "0x11"); n_from := VStr (u "0x2233"); n_to := VStr (u "0x44"); n_amount := VInt 5;
            n_subtask := VStr (u "00000000-0000-0000-0000-000000000007") |},
         {| n_contract := VStr (u "0x11"); n_from := VStr (u "0x22"); n_to := VStr (u "0x3344"); n_amount := VInt 5;
            n_subtask := VStr (u "00000000-0000-0000-0000-000000000007") |}.
  eexists. split; [vm_compute; reflexivity|]. split; [vm_compute; reflexivity|]. split; discriminate.
Qed.
Print Assumptions C40_any_length_refuted.

(** ** The hypotheses are met *)
Definition ex_addr (c : Z) : pyval := VStr (u "0x" ++ repeat c 40).
Definition ex_note (from : pyval) : note :=
  {| n_contract := ex_addr 49; n_from := from; n_to := ex_addr 65; n_amount := VInt 1000;
     n_subtask := VStr (u "0000a500-0000-11e8-8000-000000000007") |}.
Example C39_ex :
  let k := repeat xab 32 in let a := u "0xabababababababababababababababababababab" in
  eth_address toy k = Some a /\
  is_ok (note_hash toy (ex_note (ex_addr 102))) = true /\
  (do s <- note_sign toy (ex_note (ex_addr 102)) k; sig_valid toy (ex_note (ex_addr 102)) s) = Ok false /\
  (do s <- note_sign toy (ex_note (VStr a)) k; sig_valid toy (ex_note (VStr a)) s) = Ok true /\
  sig_valid toy (ex_note (ex_addr 102)) VNone = Ok false /\
  sig_valid toy (ex_note (ex_addr 102)) (VList [VInt 1]) = Err ETypeError.
Proof. repeat split; vm_compute; reflexivity. Qed.
Example C40_ex :
  is_address (n_contract (ex_note (ex_addr 102))) (repeat x11 20) /\
  is_address (n_from (ex_note (ex_addr 102))) (repeat xff 20) /\
  is_address (n_to (ex_note (ex_addr 102))) (repeat xaa 20) /\
  is_ok (signed_bytes (ex_note (ex_addr 102))) = true.
Proof.
  repeat split; try (vm_compute; reflexivity);
  eexists; (split; [reflexivity|]; split; vm_compute; reflexivity).
Qed.
