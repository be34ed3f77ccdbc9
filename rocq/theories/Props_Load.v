(** * Property theorems: what loading guarantees (C12, C13, C14, C23, C24, C55, C59, C60) *)
From Coq Require Import Permutation.
From Verif Require Import VetFacts CleanFacts SampleLoads.

(** ** C12 *)
(** whatever is received: [received E decf bs c a] says that [bs] is a frame of class
    [c] whose payload decodes to the contents [a]; [careless c a] names the contents
    of three classes that let other exceptions out *)
Theorem C12_errors :
  forall E now bs decf ct pub e, ver_parse (our_version E) <> None ->
  deserialize E now bs decf ct pub = Err e ->
  is_message_error e = true \/
  exists c a, received E decf bs c a /\
    ((c = MSubtaskResultsAccepted /\ ~ exists z, attr_get_or_none "payment_ts" a = VInt z /\ - 2 ^ 1023 < z) \/
     (c = MVerdictReportComputedTask /\ complete_attrs c a = false) \/
     (c = MTaskToCompute /\ (complete_attrs c a = false \/ ~ hex_ok (attr_get_or_none "requestor_ethereum_public_key" a) \/
                             ~ hex_ok (attr_get_or_none "requestor_id" a)))).
Proof.
  intros E now bs decf ct pub e HV H. destruct (load_error _ _ _ _ _ _ _ HV H) as [M|(c & a & R & C)]; [left; exact M|].
  right. exists c, a. split; [exact R|]. destruct c; try (exfalso; exact C); auto.
Qed.
Print Assumptions C12_errors.
(** every other type number, known or not, leads to a message or a MessageError *)
Theorem C12_other_classes :
  forall E now bs decf ct pub e, ver_parse (our_version E) <> None ->
  deserialize E now bs decf ct pub = Err e -> ~ In (be_dec (firstn 2 bs)) [2002; 2010; 4004] -> is_message_error e = true.
Proof. exact load_error_class. Qed.
Print Assumptions C12_other_classes.
(** and those three classes do raise others, on frames that anyone can make *)
Theorem C12_always_message_error_refuted :
  exists b1 b2 b3 b4, load0 None b1 = Err ETypeError /\ load0 None b2 = Err EOverflowError /\
    load0 None b3 = Err EAttributeError /\ load0 None b4 = Err EBinasciiError /\
    map is_message_error [ETypeError; EOverflowError; EAttributeError; EBinasciiError] = [false; false; false; false].
Proof. exists bs_sra_none, bs_sra_neg, bs_verdict, bs_ttc. repeat split; vm_compute; reflexivity. Qed.
Print Assumptions C12_always_message_error_refuted.
Example C12_ex :
  ver_parse (our_version E0) <> None /\
  load0 None (dump0 ex_remove ++ [x00]) = load0 None (dump0 ex_remove) /\
  map (fun bs => match load0 (Some (pub req_key)) bs with Err e => is_message_error e | Ok _ => false end)
    [[]; firstn 76 (dump0 ex_remove); firstn 80 (dump0 ex_remove); zeros 100; bs_rct_empty] = [true; true; true; true; true] /\
  map (fun bs => existsb (Z.eqb (be_dec (firstn 2 bs))) [2002; 2010; 4004]) [dump0 ex_remove; bs_rct_empty; bs_ttc] = [false; false; true].
Proof. split; [vm_compute; discriminate|]. repeat split; vm_compute; reflexivity. Qed.

(** ** C13 *)
(** [n] is any message inside the loaded one, reached through message slots; every
    message slot of it holds the declared class, a non-empty list of it, or None *)
Theorem C13_declared_classes :
  forall E now bs decf ct pub m p n c ty ts enc sig a k d an il,
  deserialize E now bs decf ct pub = Ok m -> follow p m = Some n -> n = VMsg c ty ts enc sig a -> slot_kind c k = KMsg d an il ->
  exists w, attr_get k a = Some w /\
    (w = VNone \/
     (il = false /\ exists ty' ts' enc' sig' b, w = VMsg d ty' ts' enc' sig' b) \/
     (il = true /\ exists l, w = VList l /\ l <> [] /\ Forall (fun x => exists ty' ts' enc' sig' b, x = VMsg d ty' ts' enc' sig' b) l)).
Proof. exact declared_classes. Qed.
Print Assumptions C13_declared_classes.
(** [load_attrs] makes the attributes of the outer and of every nested message from the
    decoded slots [s]: a required message slot is None exactly if it was not sent *)
Theorem C13_sent_is_present :
  forall n c s a k d an il, load_attrs n c s = Ok a -> slot_kind c k = KMsg d an il ->
  let w := attr_get_or_none k (post_init c a) in
  match dict_get (skey k) (sent_slots s) with
  | None => w = VNone
  | Some v => (an = true /\ w = VNone) \/
              (exists ty ts enc sig b, w = VMsg d ty ts enc sig b) \/ (exists l, w = VList l)
  end.
Proof. exact sent_present. Qed.
Print Assumptions C13_sent_is_present.
(** leaving a required slot out is not noticed *)
Theorem C13_required_refuted :
  exists bs m c ty ts enc sig a k d, load0 (Some (pub prov_key)) bs = Ok m /\ m = VMsg c ty ts enc sig a /\
    slot_kind c k = KMsg d false false /\ attr_get k a = Some VNone.
Proof.
  exists bs_rct_empty, (get VNone (load0 None bs_rct_empty)), MReportComputedTask, (VInt 2004), (VInt now0), (VBool false),
    (VBytes (firstn 65 (skipn 11 bs_rct_empty))), (match get VNone (load0 None bs_rct_empty) with VMsg _ _ _ _ _ a => a | _ => [] end),
    "task_to_compute"%string, MTaskToCompute.
  split; [vm_compute; reflexivity|]. split; [vm_compute; reflexivity|]. split; vm_compute; reflexivity.
Qed.
Print Assumptions C13_required_refuted.
Example C13_ex :
  (match follow [("ack_report_computed_task", 0%nat); ("report_computed_task", 0%nat); ("task_to_compute", 0%nat)]%string
           (get VNone (load0 (Some (pub conc_key)) (dump0 ex_verdict))) with
   | Some (VMsg c _ _ _ _ a) => Some (type_of c, match attr_get_or_none "want_to_compute_task" a with VMsg d _ _ _ _ _ => type_of d | _ => 0 end)
   | _ => None
   end) = Some (2002, 2001) /\
  (match load_attrs FUEL MReportComputedTask (VList [slot "task_to_compute" (nest ex_ttc)]) with
   | Ok a => match attr_get_or_none "task_to_compute" a with VMsg d _ _ _ _ _ => type_of d | _ => 0 end
   | Err _ => 1
   end) = 2002.
Proof. split; vm_compute; reflexivity. Qed.

(** ** C14 *)
(** a nested message received as class [d] that has the hash of a message signed as
    class [c] carries [c]'s number and timestamp in its header and the same serialized
    slots, unless these two messages are a SHA-1 collision *)
Theorem C14_signed_type_in_header :
  forall E c ts0 enc0 sig0 a0 d ty ts enc sig b h, crypto_ok (cr E) ->
  wirewf (VList [ty; ts]) = true ->
  short_hash E (VMsg c (VInt (type_of c)) (VInt ts0) enc0 sig0 a0) = Ok h ->
  short_hash E (VMsg d ty ts enc sig b) = Ok h ->
  sha1_collision E (VMsg c (VInt (type_of c)) (VInt ts0) enc0 sig0 a0) (VMsg d ty ts enc sig b) \/
  (norm ty = VInt (type_of c) /\ norm ts = VInt ts0 /\ payload_of d b = payload_of c a0).
Proof. exact nested_type. Qed.
Print Assumptions C14_signed_type_in_header.
(** but the number in a nested header is compared with nothing: the requestor's
    ForceGetTaskResult is accepted as their AckReportComputedTask in a verdict, which
    passes the ownership checks of the whole chain *)
Theorem C14_same_type_refuted :
  exists m0 bs m n ty ts enc sig a,
    sign_message E0 m0 req_key = Ok (VMsg MForceGetTaskResult ty ts enc sig a) /\
    load0 (Some (pub conc_key)) bs = Ok m /\ follow [("ack_report_computed_task"%string, 0%nat)] m = Some n /\
    n = VMsg MAckReportComputedTask ty ts enc sig a /\ verify_signature E0 n (VBytes (pub req_key)) = Ok tt /\
    validate_ownership_chain E0 m (VBytes (pub conc_key)) = Ok tt.
Proof.
  set (a := match follow [("ack_report_computed_task"%string, 0%nat)] (get VNone (load0 None bs_fake_verdict)) with Some (VMsg _ _ _ _ _ a) => a | _ => [] end).
  exists (make (now0 + 20) MForceGetTaskResult a), bs_fake_verdict, (get VNone (load0 None bs_fake_verdict)),
    (match follow [("ack_report_computed_task"%string, 0%nat)] (get VNone (load0 None bs_fake_verdict)) with Some n => n | None => VNone end),
    (VInt 4009), (VInt (now0 + 20)), (VBool false), (match ex_fgtr with VMsg _ _ _ _ s _ => s | _ => VNone end), a.
  unfold a. split; [vm_compute; reflexivity|]. repeat (split; [vm_compute; reflexivity|]). vm_compute; reflexivity.
Qed.
Print Assumptions C14_same_type_refuted.
Example C14_ex :
  (match ex_fake_ack with VMsg _ ty ts _ _ _ => (wirewf (VList [ty; ts]), ty) | _ => (false, VNone) end) = (true, VInt 4009) /\
  short_hash E0 ex_fake_ack = short_hash E0 ex_fgtr /\ is_ok (short_hash E0 ex_fgtr) = true.
Proof. split; [|split]; vm_compute; reflexivity. Qed.

(** ** C23 *)
(** [recover]: the public key that made the signature; the ids' last 48 bits are
    the first six bytes of the decoded requestor id *)
Theorem C23_vetted :
  forall E now bs decf ct pub ty ts enc sig a,
  deserialize E now bs decf ct pub = Ok (VMsg MTaskToCompute ty ts enc sig a) ->
  (exists k h sg w, attr_get_or_none "want_to_compute_task" a = w /\
     (exists wty wts wenc wsig wa, w = VMsg MWantToComputeTask wty wts wenc wsig wa) /\
     decode_hex (attr_get_or_none "requestor_ethereum_public_key" a) = Ok k /\ List.length k = 64%nat /\
     short_hash E w = Ok h /\ attr_get_or_none "ethsig" a = VBytes sg /\
     recover (cr E) sg (sha3_256 (cr E) h) = Some (x04 :: k)) /\
  exists seed, decode_hex (attr_get_or_none "requestor_id" a) = Ok seed /\
  forall name, name = "task_id"%string \/ name = "subtask_id"%string ->
  exists d kvs x t z, attr_get_or_none "compute_task_def" a = VDict d kvs /\ dict_get (skey name) kvs = Some x /\
    str_of x = Some t /\ uuid_parse t = Some z /\ z mod 2 ^ 48 = be_dec (firstn 6 seed).
Proof. exact loaded_ttc. Qed.
Print Assumptions C23_vetted.
(** the sender's side: signing changes nothing but [ethsig], and the receiver's
    check accepts the result exactly if the message names the signing key *)
Theorem C23_generated :
  forall E ty ts enc sig a priv m', crypto_ok (cr E) ->
  generate_ethsig E (VMsg MTaskToCompute ty ts enc sig a) priv = Ok m' ->
  exists s p sg, secret_of (cr E) priv = Some s /\ pub_of (cr E) s = Some p /\
    m' = VMsg MTaskToCompute ty ts enc sig (attr_set "ethsig" (VBytes sg) a) /\ List.length sg = 65%nat /\
    (verify_ethsig E m' = Ok tt <-> decode_hex (attr_get_or_none "requestor_ethereum_public_key" a) = Ok p).
Proof. exact generated_ethsig. Qed.
Print Assumptions C23_generated.
Theorem C23_generates :
  forall E ty ts enc sig a priv s wty wts wenc wsig wa h, crypto_ok (cr E) -> secret_of (cr E) priv = Some s ->
  truthy (attr_get_or_none "requestor_ethereum_public_key" a) = true ->
  attr_get_or_none "want_to_compute_task" a = VMsg MWantToComputeTask wty wts wenc wsig wa ->
  short_hash E (VMsg MWantToComputeTask wty wts wenc wsig wa) = Ok h ->
  exists m', generate_ethsig E (VMsg MTaskToCompute ty ts enc sig a) priv = Ok m'.
Proof. exact generates_ethsig. Qed.
Print Assumptions C23_generates.
Example C23_ex :
  is_ok (load0 (Some (pub req_key)) (dump0 ex_ttc)) = true /\
  load0 (Some (pub req_key)) (dump0 ex_bad_ttc) = Err EInvalidSignature /\
  load0 (Some (pub req_key)) (dump0 (signed req_key (get VNone (generate_ethsig E0 (match ex_bad_ttc with VMsg c ty ts e _ a => VMsg c ty ts e VNone a | _ => VNone end) eth_key))))
    = Err (EFieldError (u "task_id")) /\
  (exists m', generate_ethsig E0 ex_bad_ttc req_key = Ok m' /\ verify_ethsig E0 m' = Err EInvalidSignature).
Proof.
  split; [|split; [|split]]; [vm_compute; reflexivity..|].
  exists (get VNone (generate_ethsig E0 ex_bad_ttc req_key)). split; vm_compute; reflexivity.
Qed.

(** ** C24 *)
(** loading checks the outer message only *)
Theorem C24_nested_refuted :
  exists bs m n, load0 (Some (pub prov_key)) bs = Ok m /\ follow [("task_to_compute"%string, 0%nat)] m = Some n /\
    verify_ethsig E0 n = Err EInvalidSignature /\ validate_taskid n = Err (EFieldError (u "task_id")).
Proof.
  exists bs_bad_rct, (get VNone (load0 None bs_bad_rct)),
    (match follow [("task_to_compute"%string, 0%nat)] (get VNone (load0 None bs_bad_rct)) with Some n => n | None => VNone end).
  repeat (split; [vm_compute; reflexivity|]). vm_compute; reflexivity.
Qed.
Print Assumptions C24_nested_refuted.
(** what does hold: a TaskToCompute that the sender vetted is still vetted after any
    trip inside other messages, at any depth *)
Theorem C24_vetted_stays_vetted :
  forall E E' now c t enc0 sig v a key encf m' bs ct decf pub m2 p ty ts enc sg b,
  cr E' = cr E -> crypto_ok (cr E) -> (forall s, sig = VBytes s -> List.length s = 65%nat) ->
  1262304000 < t < 32819212800 ->
  mok c a -> hello_ok E' c v ->
  (forall s, slots c a = Ok s -> wirewf s = true /\ (vdepth s < cdepth E')%nat) ->
  (forall p, payload_of c a = Ok p -> undoes encf decf c p) ->
  serialize E (VMsg c (VInt (type_of c)) (VInt t) enc0 sig (full c v a)) key encf = (m', Ok bs) ->
  deserialize E' now bs decf ct pub = Ok m2 -> p <> [] ->
  follow p m' = Some (VMsg MTaskToCompute ty ts enc sg b) ->
  verify_ethsig E (VMsg MTaskToCompute ty ts enc sg b) = Ok tt ->
  validate_taskid (VMsg MTaskToCompute ty ts enc sg b) = Ok tt ->
  exists n', follow p m2 = Some n' /\ verify_ethsig E' n' = Ok tt /\ validate_taskid n' = Ok tt.
Proof. exact vetted_arrives. Qed.
Print Assumptions C24_vetted_stays_vetted.
Example C24_ex :
  let m := got prov_key ex_rct in
  mok MReportComputedTask (attrs_of m) /\
  (forall s, slots MReportComputedTask (attrs_of m) = Ok s -> wirewf s = true /\ (vdepth s < cdepth E0)%nat) /\
  is_ok (load0 None (dump0 m)) = true /\
  option_map (fun n => (verify_ethsig E0 n, validate_taskid n)) (follow [("task_to_compute"%string, 0%nat)] m) = Some (Ok tt, Ok tt).
Proof.
  cbv zeta. destruct (sample_ok MReportComputedTask prov_key ex_rct) as (M & _ & W); [vm_compute; reflexivity|].
  split; [exact M|]. split; [exact W|]. split; vm_compute; reflexivity.
Qed.

(** ** C55 *)
Theorem C55_peers :
  forall E now bs decf ct pub ty ts enc sig a,
  deserialize E now bs decf ct pub = Ok (VMsg MPeers ty ts enc sig a) ->
  exists l, attr_get_or_none "peers" a = VList l /\
    Forall (fun p => exists kvs, p = VDict DPeer kvs /\
      Permutation (map (fun kv => str_of (fst kv)) kvs) [Some (u "address"); Some (u "port"); Some (u "node")] /\
      (forall k v, In (k, v) kvs -> str_of k = Some (u "address") -> ip_ok v = true) /\
      (forall k v, In (k, v) kvs -> str_of k = Some (u "port") -> exists z, v = VInt z /\ 1 <= z <= 65534) /\
      (forall k v, In (k, v) kvs -> str_of k = Some (u "node") -> exists n, v = VObj CNode n)) l.
Proof. exact loaded_peers. Qed.
Print Assumptions C55_peers.
Theorem C55_tasks :
  forall E now bs decf ct pub ty ts enc sig a,
  deserialize E now bs decf ct pub = Ok (VMsg MTasks ty ts enc sig a) ->
  exists l, attr_get_or_none "tasks" a = VList l /\
    Forall (fun h => exists ha, h = VObj CTaskHeader ha /\
      field ha "task_id" (fun w => exists s, is_str w s /\ Z.of_nat (List.length s) <= 128) /\
      field ha "task_owner" (fun w => exists n, w = VObj CNode n) /\
      field ha "subtasks_count" (fun w => exists z, w = VInt z /\ 0 < z) /\
      field ha "min_version" (fun w => exists s v, is_str w s /\ spells_version s v) /\
      field ha "timestamp" an_int /\
      field ha "mask" (opt (fun w => exists b, w = VMask b)) /\
      field ha "signature" (opt (fun w => exists b, w = VBytes b)) /\
      field ha "deadline" (opt an_int) /\
      field ha "subtask_timeout" (opt (fun w => exists z, w = VInt z /\ 0 <= z)) /\
      field ha "market_type" (opt (fun w => w = VEnum EnMarketType "Brass" \/ w = VEnum EnMarketType "Usage")) /\
      field ha "environment" (opt (fun w => exists s, is_str w s /\ Z.of_nat (List.length s) <= 128)) /\
      field ha "environment_prerequisites" (opt (fun w => exists d kvs, w = VDict d kvs)) /\
      field ha "estimated_memory" (opt an_int) /\
      field ha "max_price" (opt an_int) /\
      field ha "subtask_budget" (opt an_int) /\
      field ha "concent_enabled" (opt (fun w => exists b, w = VBool b))) l.
Proof.
  intros E now bs decf ct pub ty ts enc sig a H. destruct (loaded_tasks _ _ _ _ _ _ _ _ _ _ _ H) as (l & Hl & F).
  exists l. split; [exact Hl|]. eapply Forall_impl; [|exact F]. intros h (kw & ha & Hn & ->). exists ha. split; [reflexivity|].
  exact (header_fields _ _ Hn).
Qed.
Print Assumptions C55_tasks.
(** only a list of containers, resp. an iterable of Peers, can be sent *)
Theorem C55_sent :
  forall v s,
  (slots MTasks [("tasks"%string, v)] = Ok s -> exists l, v = VList l /\ Forall (fun h => exists c a, h = VObj c a) l) /\
  (slots MPeers [("peers"%string, v)] = Ok s -> exists l, py_iter v = Some l /\ Forall (fun p => exists kvs, p = VDict DPeer kvs) l).
Proof. exact (fun v s => conj (sent_tasks v s) (sent_peers v s)). Qed.
Print Assumptions C55_sent.
Example C55_ex :
  items_in "peers" (load0 (Some (pub req_key)) (dump0 ex_peers)) = Some (1004, 2%nat) /\
  items_in "tasks" (load0 (Some (pub req_key)) (dump0 ex_tasks)) = Some (1006, 1%nat) /\
  load0 None (forge req_key MPeers now0 (VList [slot "peers" (VList [VDict DPlain [(skey "address", VStr (u "10.0.0.1")); (skey "port", VInt 0)]])]))
    = Err (EFieldError (u "port")).
Proof. split; [|split]; vm_compute; reflexivity. Qed.

(** ** C60 *)
(** whatever is received whole can be dumped again: its slots serialize to a value
    that survives the codec, and the frame is written, only with the transport flag
    reset ([vsize] bounds the encoding from below: no 2^64 bytes fit anywhere) *)
Theorem C60_can_be_sent_again :
  forall E E1 now bs decf ct pub c ty ts enc sig a,
  deserialize E now bs decf ct pub = Ok (VMsg c ty ts enc sig a) -> complete (VMsg c ty ts enc sig a) = true ->
  exists s, slots c a = Ok s /\ wirewf s = true /\
    (vsize s < 2 ^ 64 -> exists bs', serialize E1 (VMsg c ty ts enc sig a) None None = (VMsg c ty ts (VBool false) sig a, Ok bs')).
Proof. exact resend. Qed.
Print Assumptions C60_can_be_sent_again.
(** whole is needed: a ReportComputedTask without its TaskToCompute is accepted but
    cannot be dumped *)
Theorem C60_incomplete_refuted :
  exists now bs decf pub m, deserialize E0 now bs decf true (Some pub) = Ok m /\
    snd (serialize E0 m None None) = Err (EFieldError (u "task_to_compute")).
Proof.
  exists (now0 * 1000000), bs_rct_empty, (fun b => Ok b), (Samples.pub prov_key), (get VNone (load0 (Some (Samples.pub prov_key)) bs_rct_empty)).
  split; vm_compute; reflexivity.
Qed.
Print Assumptions C60_incomplete_refuted.
(** but nothing else can happen: a received message, whole or not, is dumped or the
    error is a FieldError, and the message is left unchanged *)
Theorem C60_sent_or_field_error :
  forall E E1 now bs decf ct pub c ty ts enc sig a,
  deserialize E now bs decf ct pub = Ok (VMsg c ty ts enc sig a) -> (forall s, slots c a = Ok s -> vsize s < 2 ^ 64) ->
  (exists bs', serialize E1 (VMsg c ty ts enc sig a) None None = (VMsg c ty ts (VBool false) sig a, Ok bs')) \/
  exists f, serialize E1 (VMsg c ty ts enc sig a) None None = (VMsg c ty ts (VBool false) sig a, Err (EFieldError f)).
Proof. exact resend_any. Qed.
Print Assumptions C60_sent_or_field_error.
Definition ex_peers_got : pyval := Eval vm_compute in get VNone (load0 (Some (pub req_key)) (dump0 ex_peers)).
Example C60_ex :
  load0 (Some (pub req_key)) (dump0 ex_peers) = Ok ex_peers_got /\ complete ex_peers_got = true /\
  (forall s, slots MPeers (attrs_of ex_peers_got) = Ok s -> (vsize s <? 2 ^ 64) = true).
Proof.
  split; [vm_compute; reflexivity|]. split; [vm_compute; reflexivity|]. intros s H. vm_compute in H. apply Ok_inj in H. subst s. vm_compute. reflexivity.
Qed.

(** ** C59, any number of hops *)
(** [pass m hs]: every relay dumps what it holds and the next one loads it *)
Theorem C59_any_number_of_hops :
  forall E hs now bs decf ct pub c ty ts enc sig a,
  crypto_ok (cr E) ->
  deserialize E now bs decf ct pub = Ok (VMsg c ty ts enc sig a) -> complete (VMsg c ty ts enc sig a) = true ->
  c <> MHello -> (forall s, slots c a = Ok s -> vsize s < 2 ^ 64) -> Forall (hop_fits E (VMsg c ty ts enc sig a)) hs ->
  pass (VMsg c ty ts enc sig a) hs = Ok (VMsg c ty ts (match hs with [] => enc | _ => VBool false end) sig a).
Proof. intros E hs now bs decf ct pub c ty ts enc sig a HC. exact (pass_all E hs HC E now bs decf ct pub c ty ts enc sig a eq_refl). Qed.
Print Assumptions C59_any_number_of_hops.
Example C59_hops_ex :
  let h := {| h_from := E0; h_to := E0; h_now := now0 * 1000000; h_dec := fun b => Ok b; h_check := true; h_pub := Some (pub req_key) |} in
  hop_fits E0 ex_peers_got h /\ pass ex_peers_got [h; h; h] = Ok ex_peers_got.
Proof.
  split; [|vm_compute; reflexivity].
  assert (D : forall s, slots MPeers (attrs_of ex_peers_got) = Ok s -> Nat.ltb (vdepth s) 100 = true).
  { intros s H. vm_compute in H. apply Ok_inj in H. subst s. vm_compute. reflexivity. }
  split; [reflexivity|]. split; [reflexivity|]. split; [intros s Hs; apply Nat.ltb_lt, D, Hs|]. split.
  - intros t Ht _. injection Ht as <-. vm_compute. split; discriminate.
  - intros k Hk _ _. apply Some_inj in Hk. subst k. vm_compute. reflexivity.
Qed.

(** ** C68 *)
(** every received message, whole or not, can be shown: its class, header and
    signature, its slots if they can be serialized and, for a Hello, the version *)
Theorem C68_received :
  forall E now bs decf ct pub c ty ts enc sig a,
  deserialize E now bs decf ct pub = Ok (VMsg c ty ts enc sig a) ->
  exists r, msg_repr (VMsg c ty ts enc sig a) = Ok r /\ sh_class r = c /\ sh_header r = VTuple [ty; ts; enc] /\ sh_sig r = sig /\
    (forall s, sh_slots r = Some s <-> slots c a = Ok s) /\ (forall w, sh_version r = Some w <-> c = MHello /\ attr_get "_version" a = Some w).
Proof. exact repr_received. Qed.
Print Assumptions C68_received.
(** not so a message just built: Peers(peers=5) has no text *)
Theorem C68_built_refuted :
  exists E now m, msg_init E now MPeers None VNone (VList []) [("peers", VInt 5)]%string = Ok m /\ msg_repr m = Err ETypeError.
Proof. exists E0, now0, (make now0 MPeers [("peers", VInt 5)]%string). split; vm_compute; reflexivity. Qed.
Print Assumptions C68_built_refuted.
Example C68_ex :
  is_ok (load0 (Some (pub req_key)) (dump0 ex_peers)) = true /\
  (do m <- load0 (Some (Samples.pub prov_key)) bs_rct_empty; do r <- msg_repr m; Ok (sh_slots r)) = Ok None /\
  (do m <- load0 (Some (pub req_key)) (dump0 ex_peers); do r <- msg_repr m; Ok (match sh_slots r with Some _ => true | None => false end)) = Ok true.
Proof. split; [|split]; vm_compute; reflexivity. Qed.
