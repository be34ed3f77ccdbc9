(** * Property theorems: signed hash, senders, Hello versions, copies, equality,
    construction (C06, C07, C08, C17, C18, C47, C49, C56) *)
From Verif Require Import VersionFacts NestFacts SignFacts Samples.

(** ** C06 *)
(** [body] is the frame after the header, without Hello's version field;
    [hello_suffix] is that field's text, decoded and encoded with 'replace' *)
Theorem C06_sender_exact :
  forall E now msg decf ct k m, k <> [] ->
  deserialize E now msg decf ct (Some k) = Ok m <->
  deserialize E now msg decf ct None = Ok m /\
  exists ty ts enc c payload sig a h,
    m = VMsg c (VInt ty) (VInt ts) (VBool enc) (VBytes sig) a /\
    unpack_header (firstn 11 msg) = Ok (ty, ts, enc) /\ getitem library ty = Ok c /\
    decrypted decf enc (skipn 65 (body c msg)) = Ok payload /\ dumps (VList [VInt ty; VInt ts]) = Ok h /\
    (signs c = true -> List.length k = 64%nat /\
       recover (cr E) (firstn 65 (body c msg))
         (sha3_256 (cr E) (sha1 (cr E) (h ++ payload) ++ match c with MHello => hello_suffix msg | _ => [] end)) = Some (x04 :: k)).
Proof. exact sender_exact. Qed.
Print Assumptions C06_sender_exact.
Theorem C06_mismatch :
  forall E now msg decf ct k m, k <> [] -> deserialize E now msg decf ct None = Ok m ->
  deserialize E now msg decf ct (Some k) = Ok m \/
  deserialize E now msg decf ct (Some k) = Err EInvalidSignature \/ deserialize E now msg decf ct (Some k) = Err EInvalidKeys.
Proof. exact sender_mismatch. Qed.
Print Assumptions C06_mismatch.
(** an empty key is no key: nothing is verified *)
Theorem C06_empty_key :
  forall E now msg decf ct, deserialize E now msg decf ct (Some []) = deserialize E now msg decf ct None.
Proof. exact empty_sender_key. Qed.
Print Assumptions C06_empty_key.
Definition ex_signed_hello : pyval := signed req_key ex_hello.
Example C06_ex :
  map (fun k => match load0 (Some k) (dump0 ex_rct) with Ok _ => None | Err e => Some e end) [pub prov_key; pub req_key; prov_key]
    = [None; Some EInvalidSignature; Some EInvalidKeys] /\
  is_ok (load0 (Some (pub req_key)) (dump0 ex_signed_hello)) = true /\
  load0 (Some (pub req_key)) (dump0 ex_hello) = Err EInvalidSignature /\
  map (fun c => signs c) [MReportComputedTask; MHello] = [true; true].
Proof. split; [|split; [|split]]; vm_compute; reflexivity. Qed.

(** ** C07 *)
Theorem C07_hash_input :
  forall t1 s1 t2 s2 h1 h2 p1 p2, dumps (VList [VInt t1; VInt s1]) = Ok h1 -> dumps (VList [VInt t2; VInt s2]) = Ok h2 ->
  h1 ++ p1 = h2 ++ p2 -> t1 = t2 /\ s1 = s2 /\ p1 = p2.
Proof. exact hash_input_inj. Qed.
Print Assumptions C07_hash_input.
(** [x1] and [x2] are the two explicit SHA-1 inputs *)
Theorem C07_binds :
  forall E c1 ts1 e1 g1 a1 c2 ts2 e2 g2 a2 h, crypto_ok (cr E) ->
  short_hash E (VMsg c1 (VInt (type_of c1)) (VInt ts1) e1 g1 a1) = Ok h ->
  short_hash E (VMsg c2 (VInt (type_of c2)) (VInt ts2) e2 g2 a2) = Ok h ->
  exists d1 d2 p1 p2 s1 s2,
    dumps (VList [VInt (type_of c1); VInt ts1]) = Ok d1 /\ slots c1 a1 = Ok s1 /\ dumps s1 = Ok p1 /\
    dumps (VList [VInt (type_of c2); VInt ts2]) = Ok d2 /\ slots c2 a2 = Ok s2 /\ dumps s2 = Ok p2 /\
    sha1 (cr E) (d1 ++ p1) = sha1 (cr E) (d2 ++ p2) /\
    (d1 ++ p1 <> d2 ++ p2 \/
     (c1 = c2 /\ ts1 = ts2 /\ p1 = p2 /\ (c1 = MHello -> version_bytes a1 = version_bytes a2) /\
      (wirewf s1 = true -> wirewf s2 = true -> norm s1 = norm s2))).
Proof. exact hash_binds. Qed.
Print Assumptions C07_binds.
Example C07_ex :
  let h m := get [] (short_hash E0 m) in
  is_ok (short_hash E0 ex_remove) = true /\
  bytes_eqb (h ex_remove) (h (make now0 MRemoveTask [("task_id", VStr (u "other"))]%string)) = false /\
  bytes_eqb (h ex_remove) (h (make (now0 + 1) MRemoveTask [("task_id", ex_task_id)]%string)) = false /\
  bytes_eqb (h ex_remove) (h (make now0 MRemoveTask [("task_id", ex_task_id)]%string)) = true /\
  (match ex_verdict with VMsg c _ _ _ _ a => wirewf (get VNone (slots c a)) | _ => false end) = true.
Proof. split; [|split; [|split; [|split]]]; vm_compute; reflexivity. Qed.

(** ** C08 *)
Theorem C08_independent :
  forall E c ty ts enc sig a key f m1 b1 m2 b2,
  serialize E (VMsg c ty ts enc sig a) key None = (m1, Ok b1) ->
  serialize E (VMsg c ty ts enc sig a) key (Some f) = (m2, Ok b2) ->
  sig_of m1 = sig_of m2 /\ short_hash E m1 = short_hash E m2 /\ short_hash E m1 = short_hash E (VMsg c ty ts enc sig a) /\
  (forall pub, verify_signature E m1 pub = verify_signature E m2 pub).
Proof. exact sig_independent. Qed.
Print Assumptions C08_independent.
(** sending a message encrypted invalidates the signature of a message that contains it *)
Definition set_slot (k : string) (v m : pyval) : pyval :=
  match m with VMsg c ty ts enc sig a => VMsg c ty ts enc sig (attr_set k v a) | _ => m end.
Theorem C08_nested_refuted :
  exists E outer k inner f bs pub, crypto_ok (cr E) /\
    acc k outer = Some inner /\ verify_signature E outer pub = Ok tt /\ snd (serialize E inner None (Some f)) = Ok bs /\
    verify_signature E (set_slot k (fst (serialize E inner None (Some f))) outer) pub = Err EInvalidSignature.
Proof.
  exists E0, ex_rct, "task_to_compute"%string, ex_ttc, (fun p => Ok p), (get [] (snd (serialize E0 ex_ttc None (Some (fun p => Ok p))))), (VBytes (pub prov_key)).
  split; [exact toy_ok|]. split; [|split; [|split]]; vm_compute; reflexivity.
Qed.
Print Assumptions C08_nested_refuted.
(** the reason: the hash covers the flag, the signature and everything else of every
    nested message; two messages with the same hash have nested messages with the
    same headers, signatures and contents, or SHA-1 collides *)
Theorem C08_nested_covered :
  forall E c ts1 e1 g1 a1 ts2 e2 g2 a2 s1 s2 h, crypto_ok (cr E) ->
  short_hash E (VMsg c (VInt (type_of c)) (VInt ts1) e1 g1 a1) = Ok h ->
  short_hash E (VMsg c (VInt (type_of c)) (VInt ts2) e2 g2 a2) = Ok h ->
  slots c a1 = Ok s1 -> slots c a2 = Ok s2 -> wirewf s1 = true -> wirewf s2 = true ->
  sha1_collision E (VMsg c (VInt (type_of c)) (VInt ts1) e1 g1 a1) (VMsg c (VInt (type_of c)) (VInt ts2) e2 g2 a2) \/
  forall p d ty ts enc sig b, p <> [] -> follow p (VMsg c (VInt (type_of c)) (VInt ts1) e1 g1 a1) = Some (VMsg d ty ts enc sig b) ->
    exists ty' ts' enc' sig' b', follow p (VMsg c (VInt (type_of c)) (VInt ts2) e2 g2 a2) = Some (VMsg d ty' ts' enc' sig' b') /\
      norm ty = norm ty' /\ norm ts = norm ts' /\ norm enc = norm enc' /\ norm sig = norm sig' /\ payload_of d b = payload_of d b'.
Proof. exact hash_binds_nested. Qed.
Print Assumptions C08_nested_covered.
Example C08_nested_ex :
  match ex_verdict with
  | VMsg c ty _ _ _ a =>
      ty = VInt (type_of c) /\ is_ok (short_hash E0 ex_verdict) = true /\
      wirewf (get VNone (slots c a)) = true /\
      match follow [("ack_report_computed_task", 0%nat); ("report_computed_task", 0%nat); ("task_to_compute", 0%nat)]%string ex_verdict with
      | Some (VMsg MTaskToCompute _ _ (VBool false) (VBytes _) _) => True | _ => False end
  | _ => False
  end.
Proof. split; [|split; [|split]]; vm_compute; (reflexivity || exact I). Qed.
Example C08_ex :
  is_ok (snd (serialize E0 ex_remove (Some req_key) None)) = true /\ is_ok (snd (serialize E0 ex_remove (Some req_key) (Some (fun p => Ok (rev p))))) = true.
Proof. split; vm_compute; reflexivity. Qed.

(** ** C17, for Hello messages *)
Theorem C17_hello_admitted :
  forall E ty ts enc data decf pub m, class_load E MHello ty ts enc data decf pub = Ok m ->
  exists v a o t sig, unpack32p (slice_last 32 data) = Ok v /\ m = VMsg MHello (VInt ty) (VInt ts) (VBool enc) (VBytes sig) a /\
    attr_get "_version" a = Some (VStr (ascii_decode v)) /\
    ver_parse (our_version E) = Some o /\ ver_parse (ascii_decode v) = Some t /\
    v_major t = v_major o /\ v_minor t = v_minor o /\ ~ (v_patch t = 0 /\ v_pre t <> []).
Proof. exact hello_admitted. Qed.
Print Assumptions C17_hello_admitted.
Theorem C17_hello_refused :
  forall E ty ts enc data decf pub,
  (forall v t, unpack32p (slice_last 32 data) = Ok v -> ver_parse (ascii_decode v) = Some t -> False) ->
  class_load E MHello ty ts enc data decf pub = Err EVersionMismatchError.
Proof. exact hello_refused. Qed.
Print Assumptions C17_hello_refused.
Definition hello_from (v : ustr) : bytes :=
  dump0 (make now0 MHello [("_version", VStr v)]%string).
Example C17_hello_ex :
  map (fun v => match load0 None (hello_from v) with Ok _ => None | Err e => Some e end) [u "2.12.0"; u "2.12.9-rc"; u "2.13.0"; u "2.12.0-a"; u "x"; []]
  = [None; None; Some EVersionMismatchError; Some EVersionMismatchError; Some EVersionMismatchError; Some EVersionMismatchError].
Proof. vm_compute. reflexivity. Qed.

(** ** C18 *)
Theorem C18_survives_exact :
  forall E ty ts enc sig a key encf m' bs v,
  serialize E (VMsg MHello ty ts enc sig a) key encf = (m', Ok bs) -> attr_get "_version" a = Some (VStr v) ->
  (wire_version bs = Ok v <-> Forall (fun c => 0 <= c < 128) v /\ (List.length v <= 31)%nat).
Proof. exact version_kept. Qed.
Print Assumptions C18_survives_exact.
(** the receiver hashes the first 31 characters, the sender all of them *)
Theorem C18_hashed_version :
  forall E ty ts enc sig a key encf m' bs v,
  serialize E (VMsg MHello ty ts enc sig a) key encf = (m', Ok bs) -> attr_get "_version" a = Some (VStr v) ->
  hello_suffix bs = firstn 31 (ascii_replace v).
Proof. exact hello_suffix_sent. Qed.
Print Assumptions C18_hashed_version.
Definition long_version : ustr := u "2.12.1-abcdefghijklmnopqrstuvwxyz". (* 33 characters *)
(** a sender with a longer version signs Hellos that nobody can verify *)
Theorem C18_long_version_refuted :
  exists E m k bs pub, crypto_ok (cr E) /\ ver_parse (our_version E) <> None /\
    msg_init E now0 MHello None VNone (VList []) [] = Ok m /\ snd (serialize E m (Some k) None) = Ok bs /\
    (exists sk, secret_of (cr E) k = Some sk /\ pub_of (cr E) sk = Some pub) /\
    wire_version bs <> Ok (our_version E) /\
    deserialize E (now0 * 1000000) bs (fun b => Ok b) true (Some pub) = Err EInvalidSignature.
Proof.
  pose (E1 := {| cr := Build_crypto (sha1 toy) (sha256 toy)
                         (fun b => be_enc 32 (fold_left (fun h x => (h * 257 + b2z x + 1) mod 2305843009213693951) b 7)) (keccak toy) (secret_of toy)
                         (pub_of toy) (sign_rec toy) (recover toy) (compress toy) (ecdh_raw toy) (aes_ctr toy) (hmac_sha256 toy)
                         (eth_sign toy) (eth_recover toy) (eth_address toy);
                 our_version := long_version; cdepth := 100 |}).
  exists E1, (get VNone (msg_init E1 now0 MHello None VNone (VList []) [])), req_key,
    (get [] (snd (serialize E1 (get VNone (msg_init E1 now0 MHello None VNone (VList []) [])) (Some req_key) None))), (pub req_key).
  split.
  { destruct toy_ok. split; try assumption. intros; apply be_enc_length. }
  split; [vm_compute; discriminate|]. split; [vm_compute; reflexivity|]. split; [vm_compute; reflexivity|].
  split; [exists req_key; split; vm_compute; reflexivity|]. split; [vm_compute; discriminate|]. vm_compute. reflexivity.
Qed.
Print Assumptions C18_long_version_refuted.
Example C18_ex : wire_version (hello_from (u "2.12.1+build.123456789")) = Ok (u "2.12.1+build.123456789").
Proof. vm_compute. reflexivity. Qed.

(** ** C62: [core v] is the version's text without build metadata *)
Theorem C62_cut_version :
  forall E ty ts enc sig a key encf m' bs v,
  serialize E (VMsg MHello ty ts enc sig a) key encf = (m', Ok bs) ->
  ver_wf v -> attr_get "_version" a = Some (VStr (ver_print v)) -> (List.length (core v) <= 31)%nat ->
  exists t, wire_version bs = Ok t /\ forall ours,
   ((forall q, t <> q ++ [43] /\ t <> q ++ [46]) -> verify_version ours t = verify_version ours (ver_print v)) /\
   ((exists q, t = q ++ [43] \/ t = q ++ [46]) -> verify_version ours t = Err EVersionMismatchError).
Proof. exact hello_cut. Qed.
Print Assumptions C62_cut_version.
(** a development version that git describes, cut right after a dot: the gate that
    lets it through refuses it over the wire *)
Theorem C62_same_gate_refuted :
  exists tag n h s t, ver_parse tag <> None /\ git_after (Some (n, h)) /\
    call_git_describe (u "v") (describes (u "v" ++ tag) (Some (n, h))) (describes (u "v" ++ tag) None) = Ok s /\
    wire_version (hello_from s) = Ok t /\
    verify_version (u "2.12.0") s = Ok tt /\ verify_version (u "2.12.0") t = Err EVersionMismatchError.
Proof.
  exists (u "2.12.1-golem.concent.rc1"), 42, (u "78df3e1"), (u "2.12.1-golem.concent.rc1+dev42.g78df3e1"), (u "2.12.1-golem.concent.rc1+dev42.").
  split; [vm_compute; discriminate|]. split; [split; [lia|split; [discriminate|]]|].
  { apply Forall_forall. intros c Hc. change (u "78df3e1") with [55; 56; 100; 102; 51; 101; 49] in Hc. cbn [In] in Hc. lia. }
  vm_compute. repeat split.
Qed.
Print Assumptions C62_same_gate_refuted.
Example C62_ex :
  wire_version (hello_from (u "2.12.1-rc5+dev1234.g78df3e12a4b5")) = Ok (u "2.12.1-rc5+dev1234.g78df3e12a4b") /\
  verify_version (u "2.12.0") (u "2.12.1-rc5+dev1234.g78df3e12a4b") = Ok tt.
Proof. vm_compute. split; reflexivity. Qed.

(** ** C47 *)
Theorem C47_copy_and_sign :
  forall E c ty ts enc sig a k, crypto_ok (cr E) ->
  (sig <> VNone -> copy_and_sign E (VMsg c ty ts enc sig a) k = Ok (VMsg c ty ts enc sig a)) /\
  (forall sk pk h, sig = VNone -> secret_of (cr E) k = Some sk -> pub_of (cr E) sk = Some pk -> short_hash E (VMsg c ty ts enc sig a) = Ok h ->
     exists s, copy_and_sign E (VMsg c ty ts enc sig a) k = Ok (VMsg c ty ts enc (VBytes s) a) /\ List.length s = 65%nat /\
       verify_signature E (VMsg c ty ts enc (VBytes s) a) (VBytes pk) = Ok tt /\
       (forall p, verify_signature E (VMsg c ty ts enc (VBytes s) a) (VBytes p) = Ok tt -> p = pk)).
Proof. exact copy_and_sign_spec. Qed.
Print Assumptions C47_copy_and_sign.
Example C47_ex :
  (do m <- copy_and_sign E0 ex_remove req_key; Ok (verify_signature E0 m (VBytes (pub req_key)), sig_of ex_remove)) = Ok (Ok tt, VNone) /\
  copy_and_sign E0 ex_rct req_key = Ok ex_rct.
Proof. split; vm_compute; reflexivity. Qed.

(** ** C49 *)
Theorem C49_equality :
  forall c ty ts enc sig a c' ty' ts' enc' sig' a',
  msg_eq (VMsg c (VInt ty) (VInt ts) enc (VBytes sig) a) (VMsg c' (VInt ty') (VInt ts') enc' (VBytes sig') a') = Ok true <->
  c = c' /\ ty = ty' /\ ts = ts' /\ sig = sig' /\
  (exists s s', slots c a = Ok s /\ slots c' a' = Ok s' /\ py_eq s s' = true) /\
  (c = MHello -> py_eq (attr_get_or_none "_version" a) (attr_get_or_none "_version" a') = true).
Proof. exact msg_eq_iff. Qed.
Print Assumptions C49_equality.
Theorem C49_encrypted_ignored :
  forall c ty ts e1 sig a m' e2, msg_eq (VMsg c ty ts e1 sig a) m' = msg_eq (VMsg c ty ts e2 sig a) m' /\
  msg_eq m' (VMsg c ty ts e1 sig a) = msg_eq m' (VMsg c ty ts e2 sig a).
Proof. exact msg_eq_enc. Qed.
Print Assumptions C49_encrypted_ignored.
(** every message without a NaN (and with text-keyed dicts) equals itself *)
Theorem C49_reflexive :
  forall c ty ts enc sig a s, slots c a = Ok s -> selfeq s = true -> selfeq ty = true -> selfeq ts = true -> selfeq sig = true ->
  selfeq (attr_get_or_none "_version" a) = true ->
  msg_eq (VMsg c ty ts enc sig a) (VMsg c ty ts enc sig a) = Ok true.
Proof. exact msg_eq_refl. Qed.
Print Assumptions C49_reflexive.
(** equal messages need not have the same hash: 1 == True == 1.0 *)
Theorem C49_equal_hash_refuted :
  exists E m m' h h', crypto_ok (cr E) /\ msg_eq m m' = Ok true /\ short_hash E m = Ok h /\ short_hash E m' = Ok h' /\ h <> h'.
Proof.
  pose (m := fun v => make now0 MDegree [("degree", v)]%string).
  exists E0, (m (VInt 1)), (m (VBool true)), (get [] (short_hash E0 (m (VInt 1)))), (get [] (short_hash E0 (m (VBool true)))).
  split; [exact toy_ok|]. split; [vm_compute; reflexivity|]. split; [vm_compute; reflexivity|]. split; [vm_compute; reflexivity|]. vm_compute. discriminate.
Qed.
Print Assumptions C49_equal_hash_refuted.
Example C49_ex :
  msg_eq ex_verdict ex_verdict = Ok true /\ msg_eq ex_rct ex_ack = Ok false /\
  msg_eq ex_remove (make now0 MRemoveTask [("task_id", VStr (u "x"))]%string) = Ok false /\
  msg_eq ex_remove (make (now0 + 1) MRemoveTask [("task_id", ex_task_id)]%string) = Ok false /\
  (match ex_verdict with VMsg c _ _ _ _ a => selfeq (get (VMask []) (slots c a)) | _ => false end) = true.
Proof. split; [|split; [|split; [|split]]]; vm_compute; reflexivity. Qed.

(** ** C56 *)
(** [adjusted] is what the subclasses do with a value: [x or []] for the four list
    messages, [bool()] for concent_enabled, a default for num_subtasks and for
    TaskFailure's reason *)
Theorem C56_precedence :
  forall E now c header sig s kw m, c <> MStartSessionResponse -> NoDup (map fst kw) -> msg_init E now c header sig s kw = Ok m ->
  exists ty ts enc a, m = VMsg c ty ts enc sig a /\
    (header = None -> ty = VInt (type_of c) /\ ts = VInt now /\ enc = VBool false) /\ (forall h, header = Some h -> h = (ty, ts, enc)) /\
    forall k, In k (slot_names c) ->
      match dict_get (skey k) (match py_dict_of s with Some kvs => kvs | None => [] end) with
      | None => attr_get_or_none k a = adjusted c k (attr_get_or_none k kw)
      | Some v => exists v', deser_slot (load_attrs 7) c k v = Ok v' /\
          attr_get_or_none k a = adjusted c k (match v' with VNone => attr_get_or_none k kw | _ => v' end)
      end.
Proof. exact constructor_exact. Qed.
Print Assumptions C56_precedence.
(** StartSessionResponse takes its only slot from the keyword, whatever it receives *)
Theorem C56_start_session :
  forall E now header sig s kw m, NoDup (map fst kw) -> msg_init E now MStartSessionResponse header sig s kw = Ok m ->
  exists ty ts enc, m = VMsg MStartSessionResponse ty ts enc sig [("conn_id"%string, attr_get_or_none "conn_id" kw)].
Proof. exact start_session_exact. Qed.
Print Assumptions C56_start_session.
(** so a received value is overridden *)
Theorem C56_start_session_refuted :
  exists E m, msg_init E now0 MStartSessionResponse None VNone (VList [VList [skey "conn_id"; VStr (u "received")]])
                [("conn_id", VStr (u "keyword"))]%string = Ok m /\
    acc "conn_id" m = Some (VStr (u "keyword")).
Proof.
  exists E0, (get VNone (msg_init E0 now0 MStartSessionResponse None VNone (VList [VList [skey "conn_id"; VStr (u "received")]])
                [("conn_id", VStr (u "keyword"))]%string)).
  split; vm_compute; reflexivity.
Qed.
Print Assumptions C56_start_session_refuted.
Example C56_ex :
  (do m <- msg_init E0 now0 MLocRank None VNone (VList [VList [skey "node_id"; VStr (u "received")]])
             [("node_id", VStr (u "keyword")); ("loc_rank", VInt 3)]%string;
   Ok (acc "node_id" m, acc "loc_rank" m)) = Ok (Some (VStr (u "received")), Some (VInt 3)) /\
  msg_init E0 now0 MLocRank None VNone (VList []) [("foo", VInt 3)]%string = Err EAttributeError.
Proof. split; vm_compute; reflexivity. Qed.
