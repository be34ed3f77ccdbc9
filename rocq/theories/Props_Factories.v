(** * Property theorems: the shipped factories (C67).

    Random draws and clock readings are universally quantified: [task_ok d] bounds
    them by the ranges the factories draw from.  [kept c a]: the contents survive
    [slots()] and the constructor, i.e. no enum members where plain values go. *)
From Verif Require Import SampleHonest FactoryTasks.

(** ** C67 *)
(** clone_message copies a well-formed message; only Hello's version becomes the library's own *)
Theorem C67_clone :
  forall E now c ty ts enc sig v a, mok c a -> kept c a ->
  clone_message E now (VMsg c ty ts enc sig (full c v a)) None None = Ok (VMsg c ty ts enc sig (full c (our_version E) a)).
Proof. exact clone_mok. Qed.
Print Assumptions C67_clone.
(** every received complete message can be cloned, by any library version *)
Theorem C67_clone_received :
  forall E now bs decf ct pub E' now' c ty ts enc sig a0,
  deserialize E now bs decf ct pub = Ok (VMsg c ty ts enc sig a0) -> complete (VMsg c ty ts enc sig a0) = true ->
  exists a1, clone_message E' now' (VMsg c ty ts enc sig a0) None None = Ok (VMsg c ty ts enc sig a1) /\
    (c <> MHello -> a1 = a0) /\ (c = MHello -> a1 = attr_set "_version" (VStr (our_version E')) a0).
Proof. exact clone_received. Qed.
Print Assumptions C67_clone_received.
(** a Hello cloned by another library version no longer verifies *)
Theorem C67_hello_clone_refuted :
  exists E E' m pub m', crypto_ok (cr E) /\ cr E' = cr E /\ verify_signature E m (VBytes pub) = Ok tt /\
    clone_message E' now0 m None None = Ok m' /\ verify_signature E m' (VBytes pub) = Err EInvalidSignature.
Proof.
  pose (C := Build_crypto (sha1 toy) (sha256 toy)
               (fun b => be_enc 32 (fold_left (fun h x => (h * 257 + b2z x + 1) mod 2305843009213693951) b 7)) (keccak toy) (secret_of toy)
               (pub_of toy) (sign_rec toy) (recover toy) (compress toy) (ecdh_raw toy) (aes_ctr toy) (hmac_sha256 toy)
               (eth_sign toy) (eth_recover toy) (eth_address toy)).
  pose (V := fun v => {| cr := C; our_version := v; cdepth := 100 |}).
  pose (m := Samples.get VNone (do m <- msg_init (V (u "2.12.1")) now0 MHello None VNone (VList []) []; sign_message (V (u "2.12.1")) m req_key)).
  exists (V (u "2.12.1")), (V (u "2.13.0")), m, (pub req_key), (Samples.get VNone (clone_message (V (u "2.13.0")) now0 m None None)).
  split. { destruct toy_ok. split; try assumption. intros; apply be_enc_length. }
  split; [reflexivity|]. split; [vm_compute; reflexivity|]. split; [vm_compute; reflexivity|]. vm_compute. reflexivity.
Qed.
Print Assumptions C67_hello_clone_refuted.
(** a message whose timestamp was overridden does not have the old hash, unless SHA-1 collides *)
Theorem C67_timestamp :
  forall E c t enc sig a t' m' h, crypto_ok (cr E) ->
  override_timestamp (VMsg c (VInt (type_of c)) (VInt t) enc sig a) (VInt t') = Ok m' -> t' <> t ->
  short_hash E (VMsg c (VInt (type_of c)) (VInt t) enc sig a) = Ok h -> short_hash E m' = Ok h ->
  sha1_collision E (VMsg c (VInt (type_of c)) (VInt t) enc sig a) m'.
Proof. exact timestamp_hash. Qed.
Print Assumptions C67_timestamp.
(** made-up ids pass the check for keys with the same first six bytes and for no others;
    all but the node part is the random uuid's *)
Theorem C67_uuid :
  forall rnd b, 0 <= rnd < 2 ^ 128 ->
  exists id, fake_golem_uuid rnd (VStr (hexlify b)) = Ok id /\
    (forall seed, check_id_seed (VStr id) seed = Ok (be_dec (firstn 6 seed) =? be_dec (firstn 6 b))) /\
    exists z, py_uuid (VStr id) = Ok z /\ z / 2 ^ 48 = rnd / 2 ^ 48.
Proof. exact fake_uuid_checks. Qed.
Print Assumptions C67_uuid.
(** made-up versions parse to the numbers drawn *)
Theorem C67_version :
  forall a b c, 0 <= a -> 0 <= b -> 0 <= c ->
  ver_parse (fake_version a b c) = Some {| v_major := a; v_minor := b; v_patch := c; v_pre := []; v_build := [] |}.
Proof. exact fake_version_parses. Qed.
Print Assumptions C67_version.
(** [with_signed_nested_messages] with both parties' keys returns, for all draws, an honest
    TaskToCompute: the owners' keys are accepted, so are the message itself, the ethereum
    signature and the ids, the provider signed the WantToComputeTask, and the header is
    for the same task *)
Theorem C67_signed_task :
  forall E priv pk rk ck d, crypto_ok (cr E) -> key_pairs (cr E) priv pk rk ck -> (forall o, priv o <> []) ->
  pair_keys (cr E) (fst (d_eth d)) (snd (d_eth d)) -> task_ok d ->
  exists m w h id, signed_task E d (Some (priv ORequestor, rk)) (Some (priv OProvider, pk)) = Ok m /\ honest E priv pk rk m /\
    verify_owners E m (VBytes pk) (VBytes rk) (VBytes ck) = Ok tt /\ vet E MTaskToCompute m = Ok tt /\
    getattr "want_to_compute_task" m = Ok w /\ verify_signature E w (VBytes pk) = Ok tt /\
    getattr "task_header" w = Ok h /\ getattr "task_id" h = Ok id /\ getattr "task_id" m = Ok id.
Proof. exact signed_task_good. Qed.
Print Assumptions C67_signed_task.

Definition ex_draws : task_draws := {|
  d_header := {| d_key := u "00"; d_mask := zeros 32; d_now := now0; d_uuid := 2 ^ 127 + 12345; d_name := u "Ada"; d_later := now0; d_timeout := 60;
                 d_major := 2; d_minor := 12; d_patch := 9999; d_memory := 4096; d_max_price := 10; d_budget := 50; d_count := 3 |};
  d_requestor := []; d_provider := []; d_id1 := u "one"; d_id2 := u "two"; d_resource := u "r"; d_ctd_now := now0; d_wtct_now := now0; d_ttc_now := now0 + 5;
  d_sha1 := u "abc"; d_size := 2 ^ 20; d_price := 2 ^ 21; d_task := 0; d_subtask := 2 ^ 126 + 77; d_eth := (eth_key, pub eth_key) |}.
(** two parties with toy keys and one set of draws; the sample verdict can be cloned *)
Example C67_ex :
  key_pairs (cr E0) ex_priv ex_pk ex_rk (pub conc_key) /\ (forall o, ex_priv o <> []) /\
  pair_keys (cr E0) (fst (d_eth ex_draws)) (snd (d_eth ex_draws)) /\ task_ok ex_draws /\
  complete ex_verdict = true /\ is_ok (load0 None (dump0 ex_verdict)) = true /\ load0 None (dump0 ex_verdict) = Ok ex_verdict.
Proof.
  split; [exact ex_pairs|]. split; [intros []; discriminate|].
  split; [eexists _, _, _; repeat split; reflexivity|]. split.
  { unfold task_ok, header_ok. cbn [ex_draws d_header d_mask d_now d_uuid d_name d_later d_timeout d_major d_minor d_patch d_memory d_max_price d_budget d_count
      d_id1 d_id2 d_resource d_ctd_now d_wtct_now d_ttc_now d_sha1 d_size d_price d_task d_subtask].
    repeat split; vm_compute; first [reflexivity|discriminate]. }
  split; [|split]; vm_compute; reflexivity.
Qed.
