(** * Property theorems: a signature of a task header is no signature of a message (C34). *)
From Verif Require Import SeparateFacts Samples Props_Data.
Local Open Scope Z_scope.

(** ** C34 *)
(** the same signature of the same key for a task header and for a message, of whatever
    class, means that sha1 or sha3_256 maps different bytes to one hash, or that the key is
    recovered from the signature for two different digests.  [bh] is the dict of the header
    without its signature and [d ++ pl] the type and time with the slots of the message,
    all in CBOR; [clash f x y]: [x <> y] and [f x = f y] *)
Theorem C34_not_for_a_message :
  forall E a c ty ts enc b p, crypto_ok (cr E) -> header_verify (cr E) a (VBytes p) = Ok tt ->
  verify_signature E (VMsg c ty ts enc (attr_get_or_none "signature" a) b) (VBytes p) = Ok tt ->
  exists sg kvs bh d s pl hm, attr_get_or_none "signature" a = VBytes sg /\
    to_dict (VObj CTaskHeader a) = Ok (VDict DPlain kvs) /\
    dumps (VDict DPlain (filter (fun (kv : pyval * pyval) => negb (py_eq (fst kv) (VStr (u "signature")))) kvs)) = Ok bh /\
    dumps (VList [ty; ts]) = Ok d /\ slots c b = Ok s /\ dumps s = Ok pl /\
    short_hash E (VMsg c ty ts enc (VBytes sg) b) = Ok hm /\
    (clash (sha1 (cr E)) bh (d ++ pl) \/ clash (sha3_256 (cr E)) (sha1 (cr E) bh) hm \/
     sha3_256 (cr E) (sha1 (cr E) bh) <> sha3_256 (cr E) hm /\
     recover (cr E) sg (sha3_256 (cr E) (sha1 (cr E) bh)) = Some (x04 :: p) /\ recover (cr E) sg (sha3_256 (cr E) hm) = Some (x04 :: p)).
Proof. exact not_both. Qed.
Print Assumptions C34_not_for_a_message.

(** with the toy primitives, whose sha1 is a checksum, there is such a pair *)
Example C34_message_ex :
  exists a, (do o <- cnew CTaskHeader ex_header; match o with VObj _ a => header_sign toy a (repeat x05 32) | _ => Err ETypeError end) = Ok a /\
  header_verify (cr E0) a (VBytes (repeat x05 64)) = Ok tt /\
  verify_signature E0 (VMsg MGossip (VInt 1011) (VInt 1500000000) (VBool false) (attr_get_or_none "signature" a)
    [("gossip"%string, VList [VBytes (repeat (z2b 116) 68 ++ [z2b 250] ++ repeat (z2b 111) 303 ++ [z2b 10])])]) (VBytes (repeat x05 64)) = Ok tt.
Proof. eexists. split; [vm_compute; reflexivity|]. split; vm_compute; reflexivity. Qed.
(** and a message signed otherwise is not taken for one *)
Example C34_other_message_ex :
  (do o <- cnew CTaskHeader ex_header;
   match o with
   | VObj _ a => do a' <- header_sign toy a (repeat x05 32);
       Ok (verify_signature E0 (VMsg MPing (VInt 1001) (VInt 1500000000) (VBool false) (attr_get_or_none "signature" a') []) (VBytes (repeat x05 64)))
   | _ => Err ETypeError
   end) = Ok (Err EInvalidSignature).
Proof. vm_compute. reflexivity. Qed.
