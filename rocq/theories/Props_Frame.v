(** * Property theorems: frames (C01, C02, C05, C09, C10, C11, C53) *)
From Verif Require Import SignFacts Samples.

(** ** C01 header codec *)
Theorem C01_roundtrip :
  forall ty ts b, 0 <= ty < 2 ^ 16 -> 0 <= ts < 2 ^ 64 ->
  exists h, pack_header ty (VInt ts) (VBool b) = Ok h /\ List.length h = 11%nat /\ unpack_header h = Ok (ty, ts, b).
Proof. exact header_roundtrip. Qed.
Print Assumptions C01_roundtrip.
(** big-endian type, big-endian timestamp, one flag byte *)
Theorem C01_layout :
  forall ty ts b, 0 <= ty < 2 ^ 16 -> 0 <= ts < 2 ^ 64 ->
  pack_header ty (VInt ts) (VBool b) = Ok (be_enc 2 ty ++ be_enc 8 ts ++ [if b then x01 else x00]).
Proof. exact header_layout. Qed.
Print Assumptions C01_layout.
Theorem C01_out_of_range :
  forall ty ts b h, pack_header ty (VInt ts) b = Ok h -> 0 <= ty < 2 ^ 16 /\ 0 <= ts < 2 ^ 64.
Proof. exact header_out_of_range. Qed.
Print Assumptions C01_out_of_range.
Theorem C01_unpack_exact :
  forall h,
  (List.length h = 11%nat -> exists ty ts b, unpack_header h = Ok (ty, ts, b) /\ 0 <= ty < 2 ^ 16 /\ 0 <= ts < 2 ^ 64) /\
  (List.length h <> 11%nat -> unpack_header h = Err EHeaderError).
Proof. exact unpack_exact. Qed.
Print Assumptions C01_unpack_exact.
(** an unpacked header determines its bytes except for the non-zero flag values *)
Theorem C01_unpack_inverse :
  forall h ty ts b, unpack_header h = Ok (ty, ts, b) ->
  exists x, h = be_enc 2 ty ++ be_enc 8 ts ++ [x] /\ (b = false <-> x = x00).
Proof. exact unpack_pack. Qed.
Print Assumptions C01_unpack_inverse.
Example C01_ex :
  pack_header 2002 (VInt 1600000000) (VBool true) = Ok [x07; xd2; x00; x00; x00; x00; x5f; x5e; x10; x00; x01] /\
  unpack_header [x07; xd2; x00; x00; x00; x00; x5f; x5e; x10; x00; x07] = Ok (2002, 1600000000, true) /\
  unpack_header [x07] = Err EHeaderError /\ pack_header 2002 (VInt (2 ^ 64)) (VBool true) = Err EStructError.
Proof. split; [|split; [|split]]; vm_compute; reflexivity. Qed.

(** ** C02 layout of a frame; [suffix] is Hello's version field *)
Theorem C02_layout :
  forall E c ty ts enc sig a key encf m' bs, crypto_ok (cr E) ->
  serialize E (VMsg c ty ts enc sig a) key encf = (m', Ok bs) ->
  (forall s, sig = VBytes s -> List.length s = 65%nat) ->
  exists s payload sealed suffix,
    sig_of m' = VBytes s /\ payload_of c a = Ok payload /\
    (if encrypts c then match encf with Some f => f payload | None => Ok payload end else Ok payload) = Ok sealed /\
    (c <> MHello -> suffix = []) /\ (c = MHello -> List.length suffix = 32%nat) /\
    List.length s = 65%nat /\
    (exists n, num_of ts = Some (FFin n 0) /\ unpack_header (firstn 11 bs) = Ok (type_of c, n, encrypts c && given encf)) /\
    firstn 65 (skipn 11 bs) = s /\ skipn 76 bs = sealed ++ suffix /\
    (sig = VNone -> key_given key && signs c = false -> s = repeat x00 65).
Proof. exact frame_layout. Qed.
Print Assumptions C02_layout.
Example C02_ex :
  let bs := get [] (snd (serialize E0 ex_remove (Some req_key) (Some (fun p => Ok (x09 :: p))))) in
  let bs0 := dump0 ex_remove in
  (List.length bs, nth_error bs 76, unpack_header (firstn 11 bs)) = (125%nat, Some x09, Ok (1007, now0, true)) /\
  firstn 65 (skipn 11 bs0) = repeat x00 65 /\ firstn 32 (skipn 11 bs) = req_key /\ List.length (dump0 ex_hello) = 227%nat.
Proof. split; [|split; [|split]]; vm_compute; reflexivity. Qed.

(** ** C05 *)
(** whatever sequence of serialize calls is made (with any keys and encryption
    functions, failing or not), class, header type, timestamp and slots stay, and
    so does a signature once there is one *)
Theorem C05_kept :
  forall E calls c ty ts enc sig a,
  exists enc' sig', run_serialize E calls (VMsg c ty ts enc sig a) = VMsg c ty ts enc' sig' a /\ (sig <> VNone -> sig' = sig).
Proof. exact run_serialize_keeps. Qed.
Print Assumptions C05_kept.
Theorem C05_resign_refused :
  forall E m key encf, key_given key = true -> truthy (sig_of m) = true ->
  serialize E m key encf = (m, Err ESignatureAlreadyExists).
Proof. exact already_signed_refused. Qed.
Print Assumptions C05_resign_refused.
(** two frames of one message object carry the same signature bytes *)
Theorem C05_same_signature :
  forall E c ty ts enc sig a key encf m1 bs1 calls key' encf' m2 bs2, crypto_ok (cr E) ->
  (forall s, sig = VBytes s -> List.length s = 65%nat) ->
  serialize E (VMsg c ty ts enc sig a) key encf = (m1, Ok bs1) ->
  serialize E (run_serialize E calls m1) key' encf' = (m2, Ok bs2) ->
  firstn 65 (skipn 11 bs2) = firstn 65 (skipn 11 bs1) /\ sig_of m2 = VBytes (firstn 65 (skipn 11 bs1)).
Proof. exact resign_same. Qed.
Print Assumptions C05_same_signature.
Example C05_ex :
  let '(m1, r1) := serialize E0 ex_remove (Some req_key) None in
  let '(m2, r2) := serialize E0 m1 None (Some (fun p => Ok (rev p))) in
  is_ok r1 = true /\ is_ok r2 = true /\ sig_of m1 = sig_of m2 /\ sig_of ex_remove = VNone /\ truthy (sig_of m1) = true /\
  serialize E0 m2 (Some prov_key) None = (m2, Err ESignatureAlreadyExists).
Proof. vm_compute. auto 10. Qed.

(** ** C09 *)
(** with an admissible header, time checking decides alone; [now] in microseconds *)
Theorem C09_window :
  forall E now msg decf ct pub ty ts enc c, (76 < List.length msg)%nat ->
  unpack_header (firstn 11 msg) = Ok (ty, ts, enc) -> 1262304000 < ts < 32819212800 -> getitem library ty = Ok c ->
  deserialize E now msg decf ct pub =
    if ct && (ts * 1000000 <? now - 600000000) then Err EMessageTooOldError
    else if ct && (now + 300000000 <? ts * 1000000) then Err EMessageFromFutureError
    else class_load E c ty ts enc (skipn 11 msg) decf pub.
Proof. exact deserialize_dispatch. Qed.
Print Assumptions C09_window.
Theorem C09_verify_time_exact :
  forall now ts, verify_time now ts = Ok tt <->
  -62135596800 <= ts <= 253402300799 /\ now - 600000000 <= ts * 1000000 <= now + 300000000.
Proof. exact verify_time_iff. Qed.
Print Assumptions C09_verify_time_exact.
Theorem C09_verify_time_errors :
  forall now ts e, verify_time now ts = Err e ->
  (e = ETimestampError /\ ~ (-62135596800 <= ts <= 253402300799)) \/
  (e = EMessageTooOldError /\ ts * 1000000 < now - 600000000) \/ (e = EMessageFromFutureError /\ now + 300000000 < ts * 1000000).
Proof. exact verify_time_err. Qed.
Print Assumptions C09_verify_time_errors.
Example C09_ex :
  map (fun d => match deserialize E0 ((now0 + d) * 1000000) (dump0 ex_remove) (fun b => Ok b) true None with Ok _ => None | Err e => Some e end)
    [-301; -300; 0; 600; 601] = [Some EMessageFromFutureError; None; None; None; Some EMessageTooOldError] /\
  is_ok (deserialize E0 ((now0 + 601) * 1000000) (dump0 ex_remove) (fun b => Ok b) false None) = true.
Proof. split; vm_compute; reflexivity. Qed.

(** ** C10 *)
Theorem C10_admitted :
  forall E now msg decf ct pub m, deserialize E now msg decf ct pub = Ok m ->
  exists ty ts enc c sig a,
    unpack_header (firstn 11 msg) = Ok (ty, ts, enc) /\ 1262304000 < ts < 32819212800 /\ getitem library ty = Ok c /\
    m = VMsg c (VInt ty) (VInt ts) (VBool enc) (VBytes sig) a.
Proof.
  intros E now msg decf ct pub m H. apply deserialize_ok in H as (_ & ty & ts & enc & c & Hu & T & Hc & _ & H).
  destruct (class_load_msg _ _ _ _ _ _ _ _ _ H) as (sig & a & Hm). exists ty, ts, enc, c, sig, a. auto.
Qed.
Print Assumptions C10_admitted.
Theorem C10_refused :
  forall E now msg decf ct pub, (76 < List.length msg)%nat ->
  (forall ty ts enc c, unpack_header (firstn 11 msg) = Ok (ty, ts, enc) -> 1262304000 < ts < 32819212800 -> getitem library ty = Ok c -> False) ->
  deserialize E now msg decf ct pub = Err EHeaderError.
Proof. exact bad_header. Qed.
Print Assumptions C10_refused.
Definition ex_frame (ty ts : Z) : bytes := be_enc 2 ty ++ be_enc 8 ts ++ x00 :: skipn 11 (dump0 ex_remove).
Example C10_ex :
  map (fun f => is_ok (deserialize E0 0 f (fun b => Ok b) false None))
    [ex_frame 1007 1262304001; ex_frame 1007 32819212799; ex_frame 3001 now0; ex_frame 1007 1262304000; ex_frame 1007 32819212800; ex_frame 5 now0]
  = [true; true; true; false; false; false] /\
  deserialize E0 0 (ex_frame 5 now0) (fun b => Ok b) false None = Err EHeaderError.
Proof. split; vm_compute; reflexivity. Qed.

(** ** C11 *)
Theorem C11_short :
  forall E now msg decf ct pub, (List.length msg <= 76)%nat -> deserialize E now msg decf ct pub = Err EMessageError.
Proof. exact short_frame. Qed.
Print Assumptions C11_short.
Example C11_ex : (List.length (firstn 76 (dump0 ex_remove)) <= 76)%nat /\ is_ok (load0 None (dump0 ex_remove)) = true.
Proof. split; [rewrite firstn_length; lia|vm_compute; reflexivity]. Qed.

(** ** C53 *)
(** after a failed signing dump, dumping again with the same key is refused *)
Theorem C53_refuted :
  exists E m k f f' m1 bs, crypto_ok (cr E) /\ snd (serialize E m (Some k) (Some f)) = Err EValueError /\
    fst (serialize E m (Some k) (Some f)) = m1 /\ snd (serialize E m (Some k) (Some f')) = Ok bs /\
    snd (serialize E m1 (Some k) (Some f')) = Err ESignatureAlreadyExists.
Proof.
  exists E0, ex_remove, req_key, (fun _ => Err EValueError), (fun p => Ok p), (fst (serialize E0 ex_remove (Some req_key) (Some (fun _ => Err EValueError)))),
    (get [] (snd (serialize E0 ex_remove (Some req_key) (Some (fun p => Ok p))))).
  split; [exact toy_ok|]. split; [|split; [|split]]; vm_compute; reflexivity.
Qed.
Print Assumptions C53_refuted.
(** dumping again without a key always gives what the first dump should have *)
Theorem C53_retry_without_key :
  forall E m k f m1 e f' m2 bs,
  serialize E m k f = (m1, Err e) -> e <> ESignatureAlreadyExists -> serialize E m k f' = (m2, Ok bs) ->
  snd (serialize E m1 None f') = Ok bs /\ fst (serialize E m1 None f') = m2 /\
  (key_given k = true -> truthy (sig_of m1) = true -> forall f'', serialize E m1 k f'' = (m1, Err ESignatureAlreadyExists)).
Proof. exact retry. Qed.
Print Assumptions C53_retry_without_key.
(** every failed dump: either the signature is as before and every further dump gives
    what it would have given, or the message was signed and kept that signature:
    dumping it without a key gives what dumping with the key would have, dumping with
    the key is refused *)
Theorem C53_retry_exact :
  forall E m k f m1 e, crypto_ok (cr E) -> serialize E m k f = (m1, Err e) ->
  (sig_of m1 = sig_of m /\ forall k' f', snd (serialize E m1 k' f') = snd (serialize E m k' f')) \/
  (sig_of m = VNone /\ exists s, List.length s = 65%nat /\ sig_of m1 = VBytes s /\
     (forall f', serialize E m1 None f' = serialize E m k f') /\
     (key_given k = true -> forall f', serialize E m1 k f' = (m1, Err ESignatureAlreadyExists))).
Proof. exact retry_exact. Qed.
Print Assumptions C53_retry_exact.
Example C53_ex :
  let '(m1, r1) := serialize E0 ex_remove (Some req_key) (Some (fun _ => Err EValueError)) in
  r1 = Err EValueError /\ is_ok (snd (serialize E0 ex_remove (Some req_key) (Some (fun p => Ok p)))) = true /\
  snd (serialize E0 m1 None (Some (fun p => Ok p))) = snd (serialize E0 ex_remove (Some req_key) (Some (fun p => Ok p))).
Proof. vm_compute. auto. Qed.
