(** * A frame altered on its way *)
From Verif Require Import TamperFacts Samples.

(** ** C97 *)
(** two frames that carry one signature and are accepted from one sender, of types whose
    signature is checked, hold the same message: type, time, version and attributes.  The
    exception is a signature that is good for the two different contents [x], [y] hashed
    of these frames, of which [one_for_two] says what collides *)
Theorem C97_same_signature :
  forall E now now' msg msg' decf decf' ct ct' k c ty ts f sg a c' ty' ts' f' a',
  crypto_ok (cr E) -> k <> [] -> signs c = true -> signs c' = true ->
  deserialize E now msg decf ct (Some k) = Ok (VMsg c ty ts (VBool f) (VBytes sg) a) ->
  deserialize E now' msg' decf' ct' (Some k) = Ok (VMsg c' ty' ts' (VBool f') (VBytes sg) a') ->
  exists x tail y tail', hashed_of decf msg x tail /\ hashed_of decf' msg' y tail' /\
  ((c' = c /\ ty' = ty /\ ts' = ts /\ a' = a /\ y = x /\ tail' = tail) \/ one_for_two (cr E) sg k x tail y tail').
Proof. exact same_signature. Qed.
Print Assumptions C97_same_signature.
(** of a frame that is not encrypted and no Hello, no byte can be altered, appended or cut
    off and the signature kept *)
Theorem C97_plain :
  forall E now now' msg msg' decf decf' ct ct' k m m', crypto_ok (cr E) -> k <> [] ->
  ~ In (be_dec (firstn 2 msg)) (0 :: unsigned_types) -> ~ In (be_dec (firstn 2 msg')) (0 :: unsigned_types) ->
  nth_error msg 10 = Some x00 -> nth_error msg' 10 = Some x00 -> firstn 65 (skipn 11 msg') = firstn 65 (skipn 11 msg) ->
  deserialize E now msg decf ct (Some k) = Ok m -> deserialize E now' msg' decf' ct' (Some k) = Ok m' ->
  msg' = msg \/
  exists d d', dumps (VList [VInt (be_dec (firstn 2 msg)); VInt (be_dec (firstn 8 (skipn 2 msg)))]) = Ok d /\
    dumps (VList [VInt (be_dec (firstn 2 msg')); VInt (be_dec (firstn 8 (skipn 2 msg')))]) = Ok d' /\
    one_for_two (cr E) (firstn 65 (skipn 11 msg)) k (d ++ skipn 76 msg) [] (d' ++ skipn 76 msg') [].
Proof. exact same_bytes. Qed.
Print Assumptions C97_plain.
(** but whoever carries a frame may write 1001 for its type: it then arrives as a Ping
    from the same sender, at the same time and with the signature of the message it was,
    which nobody checks.  (A plain Hello too: the version behind its payload is not looked
    at; but an encrypted one could not be decrypted together with it.) *)
Theorem C97_made_ping :
  forall E now msg decf ct k c ty ts e sg a, deserialize E now msg decf ct k = Ok (VMsg c ty ts e sg a) -> c <> MHello \/ e = VBool false ->
  forall k', deserialize E now (be_enc 2 1001 ++ skipn 2 msg) decf ct k' = Ok (VMsg MPing (VInt 1001) ts e sg []).
Proof. exact made_ping. Qed.
Print Assumptions C97_made_ping.

(** likewise any of the twelve types that are not signed, if the payload names none of
    the slots of that type: it arrives with all of them unset (lists empty) *)
Theorem C97_retyped :
  forall E now msg decf ct k c ty ts f sg a x p v, deserialize E now msg decf ct k = Ok (VMsg c ty ts (VBool f) sg a) -> c <> MHello \/ f = false ->
  signs x = false -> decrypted decf f (skipn 76 msg) = Ok p -> loads (cdepth E) p = Ok v ->
  (forall kvs, py_dict_of v = Some kvs -> forall k, In k (slot_names x) -> dict_get (skey k) kvs = None) ->
  forall k', deserialize E now (be_enc 2 (type_of x) ++ skipn 2 msg) decf ct k' =
    Ok (VMsg x (VInt (type_of x)) ts (VBool f) sg
          (map (fun k => (k, match x with MPeers | MResourcePeers | MGossip => VList [] | _ => VNone end)) (slot_names x))).
Proof. exact retyped. Qed.
Print Assumptions C97_retyped.

(** a ReportComputedTask and a Hello; the same with the flag or the bytes after the version
    altered; and with the time, a byte of the payload, the version or the length altered *)
Definition put (n : nat) (x : byte) (b : bytes) : bytes := firstn n b ++ x :: skipn (S n) b.
Definition rct_frame : bytes := Eval vm_compute in dump0 ex_rct.
Definition rct_got : pyval := Eval vm_compute in Samples.get VNone (load0 (Some (pub prov_key)) rct_frame).
Definition rct_flagged : pyval := Eval vm_compute in Samples.get VNone (load0 (Some (pub prov_key)) (put 10 x07 rct_frame)).
Definition hello_frame : bytes := Eval vm_compute in dump0 (signed prov_key ex_hello).
Definition hello_got : pyval := Eval vm_compute in Samples.get VNone (load0 (Some (pub prov_key)) hello_frame).
Definition hello_last : nat := Eval vm_compute in (List.length hello_frame - 1)%nat.
Definition hello_version : nat := Eval vm_compute in (List.length hello_frame - 32 + 6)%nat.
Example C97_ex :
  let from := load0 (Some (pub prov_key)) in
  from rct_frame = Ok rct_got /\ from (put 10 x07 rct_frame) = Ok rct_flagged /\ from hello_frame = Ok hello_got /\ from (put hello_last xff hello_frame) = Ok hello_got /\
  put hello_last xff hello_frame <> hello_frame /\
  (exists c ty ts s a, rct_got = VMsg c ty ts (VBool false) (VBytes s) a /\ rct_flagged = VMsg c ty ts (VBool true) (VBytes s) a /\ signs c = true) /\
  (exists c ty ts s a, hello_got = VMsg c ty ts (VBool false) (VBytes s) a /\ signs c = true) /\
  ~ In (be_dec (firstn 2 rct_frame)) (0 :: unsigned_types) /\ nth_error rct_frame 10 = Some x00 /\ crypto_ok (cr E0) /\ pub prov_key <> [].
Proof.
  cbv zeta. split; [vm_compute; reflexivity|]. split; [vm_compute; reflexivity|]. split; [vm_compute; reflexivity|]. split; [vm_compute; reflexivity|]. split; [vm_compute; discriminate|].
  split; [do 5 eexists; split; [reflexivity|]; split; reflexivity|]. split; [do 5 eexists; split; reflexivity|].
  split; [vm_compute; intuition discriminate|]. split; [reflexivity|]. split; [exact toy_ok|discriminate].
Qed.
Example C97_ex_altered :
  let from := load0 (Some (pub prov_key)) in
  from (put 9 x00 rct_frame) = Err EInvalidSignature /\ from (rct_frame ++ [x00]) = Err EInvalidSignature /\
  from (put hello_version x32 hello_frame) = Err EInvalidSignature /\
  (exists ty ts s, from (be_enc 2 1001 ++ skipn 2 rct_frame) = Ok (VMsg MPing ty ts (VBool false) s [])) /\
  (exists ty ts s, from (be_enc 2 1001 ++ skipn 2 hello_frame) = Ok (VMsg MPing ty ts (VBool false) s [])).
Proof.
  cbv zeta. split; [vm_compute; reflexivity|]. split; [vm_compute; reflexivity|]. split; [vm_compute; reflexivity|].
  split; do 3 eexists; vm_compute; reflexivity.
Qed.
(** the ReportComputedTask made a Degree and a list of peers; none of their slots is named *)
Example C97_ex_retyped :
  let from := load0 (Some (pub prov_key)) in
  (exists ts s, from (be_enc 2 1010 ++ skipn 2 rct_frame) = Ok (VMsg MDegree (VInt 1010) ts (VBool false) s [("degree"%string, VNone)])) /\
  (exists ts s, from (be_enc 2 1004 ++ skipn 2 rct_frame) = Ok (VMsg MPeers (VInt 1004) ts (VBool false) s [("peers"%string, VList [])])) /\
  match loads 100 (skipn 76 rct_frame) with
  | Ok v => match py_dict_of v with Some kvs => forallb (fun k => match dict_get (skey k) kvs with None => true | Some _ => false end) ["degree"; "peers"]%string = true | None => False end
  | Err _ => False
  end /\ signs MDegree = false /\ signs MPeers = false.
Proof.
  cbv zeta. split; [do 2 eexists; vm_compute; reflexivity|]. split; [do 2 eexists; vm_compute; reflexivity|]. split; [vm_compute; reflexivity|]. split; reflexivity.
Qed.
