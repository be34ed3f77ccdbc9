(** * Property theorems: the factories of replies (C69, C70, C71).

    [made_up E priv pk rk c m]: [m] is of class [c] and came from the factories, given
    the private key of a role that may sign it; its parts came from them as well.
    Draws and clock readings are arbitrary within [task_ok], [report_ok], [a_text]
    (the ranges drawn from) and [clock] (the first 2^62 seconds). *)
From Verif Require Import SampleHonest HookFacts.

(** ** C69 *)
(** the factories succeed on parts they built *)
Theorem C69_total :
  forall E priv pk rk ck, crypto_ok (cr E) -> key_pairs (cr E) priv pk rk ck -> (forall o, priv o <> []) ->
  (forall d, task_ok d -> pair_keys (cr E) (fst (d_eth d)) (snd (d_eth d)) ->
     exists m, signed_task E d (Some (priv ORequestor, rk)) (Some (priv OProvider, pk)) = Ok m) /\
  (forall t now, made_up E priv pk rk MTaskToCompute t -> clock now ->
     (forall d, report_ok d -> exists m, report_factory E now d t (Some (priv OProvider)) = Ok m) /\
     (forall reason, In reason (members EnCannotCompute) -> exists m, cannot_factory E now reason t (Some (priv OProvider)) = Ok m) /\
     (forall err, a_text err -> exists m, failure_factory E now err t (Some (priv OProvider)) = Ok m) /\
     (forall b, exists m, settled_factory E now b t (Some (priv OConcent)) = Ok m) /\
     (exists m, get_failed_factory E now t (Some (priv OConcent)) = Ok m) /\
     (forall reason, In reason (members EnServiceRefused) -> exists m, refused_factory E now reason t (Some (priv OConcent)) = Ok m)) /\
  (forall r now, made_up E priv pk rk MReportComputedTask r -> clock now ->
     (forall o, In o (expected_owners MAckReportComputedTask) -> exists m, ack_factory E now r (Some (priv o)) = Ok m) /\
     (forall drawn, clock drawn -> exists m, accepted_factory E drawn now r (Some (priv ORequestor)) = Ok m) /\
     (forall o, In o (expected_owners MSubtaskResultsRejected) -> exists m, rejected_factory E now r (Some (priv o)) = Ok m) /\
     (forall hash o, a_text hash -> In o (expected_owners MForceReportComputedTask) -> exists m, force_report_factory E now hash r (Some (priv o)) = Ok m) /\
     (exists m, get_result_factory E now r (Some (priv ORequestor)) = Ok m) /\
     (forall now1 now2 hash o1 o2 f a, clock now1 -> clock now2 -> In o1 (expected_owners MForceReportComputedTask) ->
        In o2 (expected_owners MAckReportComputedTask) -> a_text hash -> force_report_factory E now1 hash r (Some (priv o1)) = Ok f ->
        ack_factory E now2 r (Some (priv o2)) = Ok a -> exists m, verdict_factory E now f a (Some (priv OConcent)) = Ok m)) /\
  (forall s now, made_up E priv pk rk MSubtaskResultsRejected s -> clock now -> exists m, verify_factory E now s (Some (priv OProvider)) = Ok m) /\
  (forall g now, made_up E priv pk rk MForceGetTaskResult g -> clock now ->
     (exists m, ack_get_factory E now g (Some (priv OConcent)) = Ok m) /\ (exists m, get_rejected_factory E now g (Some (priv OConcent)) = Ok m)) /\
  (forall a now o, made_up E priv pk rk MAckReportComputedTask a -> clock now -> In o (expected_owners MForceSubtaskResults) ->
     exists m, force_results_factory E now a (Some (priv o)) = Ok m) /\
  (forall f now b, made_up E priv pk rk MForceSubtaskResults f -> clock now ->
     exists m, results_rejected_factory E now b f (Some (priv OConcent)) = Ok m).
Proof. exact made_up_total. Qed.
Print Assumptions C69_total.
(** what they return is accepted for the three parties' keys, and clones to itself *)
Theorem C69_accepted :
  forall E priv pk rk ck c m now, crypto_ok (cr E) -> key_pairs (cr E) priv pk rk ck -> (forall o, priv o <> []) ->
  made_up E priv pk rk c m ->
  verify_owners E m (VBytes pk) (VBytes rk) (VBytes ck) = Ok tt /\ clone_message E now m None None = Ok m.
Proof. exact made_up_accepted. Qed.
Print Assumptions C69_accepted.
(** dumped and loaded within the time window, with any key it verifies with, it is
    accepted as well; an acceptance has to be valid *)
Theorem C69_delivered :
  forall E E' now priv pk rk ck c ty t enc sig a key ct pub, let m := VMsg c ty (VInt t) enc sig a in
  cr E' = cr E -> crypto_ok (cr E) -> key_pairs (cr E) priv pk rk ck -> (forall o, priv o <> []) ->
  made_up E priv pk rk c m -> (c = MSubtaskResultsAccepted -> is_valid m = Ok tt) ->
  1262304000 < t < 32819212800 -> (ct = true -> now - 600000000 <= t * 1000000 <= now + 300000000) ->
  (forall s, slots c a = Ok s -> (vdepth s < cdepth E')%nat) ->
  (forall k, pub = Some k -> k <> [] -> verify_signature E m (VBytes k) = Ok tt) -> key_given key = false ->
  exists bs m2, serialize E m key None = (m, Ok bs) /\ deserialize E' now bs (fun b => Ok b) ct pub = Ok m2 /\
    verify_owners E' m2 (VBytes pk) (VBytes rk) (VBytes ck) = Ok tt.
Proof. exact made_up_delivered. Qed.
Print Assumptions C69_delivered.
(** an acceptance is valid exactly if its payment time was drawn at most a quarter of an
    hour before the message was built *)
Theorem C69_payment :
  forall E drawn now r p m, 0 <= now < 2 ^ 52 -> accepted_factory E drawn now r p = Ok m -> r <> VNone ->
  is_valid m = Ok tt <-> now - 900 <= drawn <= now.
Proof. exact accepted_valid. Qed.
Print Assumptions C69_payment.

Definition ex_task_draws : task_draws := {|
  d_header := {| d_key := u "00"; d_mask := zeros 32; d_now := now0; d_uuid := 2 ^ 127 + 12345; d_name := u "Ada"; d_later := now0; d_timeout := 60;
                 d_major := 2; d_minor := 12; d_patch := 9999; d_memory := 4096; d_max_price := 10; d_budget := 50; d_count := 3 |};
  d_requestor := []; d_provider := []; d_id1 := u "one"; d_id2 := u "two"; d_resource := u "r"; d_ctd_now := now0; d_wtct_now := now0; d_ttc_now := now0 + 5;
  d_sha1 := u "abc"; d_size := 2 ^ 20; d_price := 2 ^ 21; d_task := 0; d_subtask := 2 ^ 126 + 77; d_eth := (eth_key, pub eth_key) |}.
Definition ex_report_draws : report_draws := {|
  d_address := u "10.0.0.1"; d_port := 40102; d_key_id := zeros 64; d_rsha1 := u "abc"; d_rsize := 1024; d_multihash := u "Qm"; d_secret := u "s" |}.
Definition ex_made_task : pyval := Eval vm_compute in Samples.get VNone (signed_task E0 ex_task_draws (Some (ex_priv ORequestor, ex_rk)) (Some (ex_priv OProvider, ex_pk))).
Definition ex_made_report : pyval := Eval vm_compute in Samples.get VNone (report_factory E0 (now0 + 9) ex_report_draws ex_made_task (Some (ex_priv OProvider))).
Definition ex_made_accepted : pyval := Eval vm_compute in Samples.get VNone (accepted_factory E0 (now0 + 10) (now0 + 11) ex_made_report (Some (ex_priv ORequestor))).
(** a task, its report and an acceptance of it from the factories; they go over the wire *)
Example C69_ex :
  key_pairs (cr E0) ex_priv ex_pk ex_rk (pub conc_key) /\ (forall o, ex_priv o <> []) /\
  made_up E0 ex_priv ex_pk ex_rk MReportComputedTask ex_made_report /\
  made_up E0 ex_priv ex_pk ex_rk MSubtaskResultsAccepted ex_made_accepted /\ is_valid ex_made_accepted = Ok tt /\
  is_ok (load0 (Some ex_rk) (dump0 ex_made_accepted)) = true.
Proof.
  assert (T : made_up E0 ex_priv ex_pk ex_rk MTaskToCompute ex_made_task).
  { apply (mu_task E0 ex_priv ex_pk ex_rk ex_task_draws).
    - unfold task_ok, header_ok. cbn [ex_task_draws d_header d_mask d_now d_uuid d_name d_later d_timeout d_major d_minor d_patch d_memory d_max_price d_budget d_count
        d_id1 d_id2 d_resource d_ctd_now d_wtct_now d_ttc_now d_sha1 d_size d_price d_task d_subtask].
      repeat split; vm_compute; first [reflexivity|discriminate].
    - eexists _, _, _; repeat split; reflexivity.
    - vm_compute. reflexivity. }
  assert (C : forall k, 0 <= k < 100 -> clock (now0 + k)) by (intros k Hk; unfold clock; change now0 with 1600000000; lia).
  assert (R : made_up E0 ex_priv ex_pk ex_rk MReportComputedTask ex_made_report).
  { apply (mu_report E0 ex_priv ex_pk ex_rk (now0 + 9) OProvider ex_made_task ex_report_draws); [apply C; lia|left; reflexivity|exact T| |vm_compute; reflexivity].
    unfold report_ok, a_text. cbn [ex_report_draws d_address d_port d_key_id d_rsha1 d_rsize d_multihash d_secret].
    repeat split; first [apply Nat.leb_le; vm_compute; reflexivity|vm_compute; first [reflexivity|discriminate]]. }
  split; [exact ex_pairs|]. split; [intros []; discriminate|]. split; [exact R|]. split.
  { apply (mu_accepted E0 ex_priv ex_pk ex_rk (now0 + 11) ORequestor ex_made_report (now0 + 10)); [apply C; lia|left; reflexivity|exact R|apply C; lia|vm_compute; reflexivity]. }
  split; vm_compute; reflexivity.
Qed.

(** ** C70 *)
(** a factory without hooks of its own, given a private key, returns a message that
    verifies with the public key, whatever its class and arguments *)
Theorem C70_verifies :
  forall E now c kw k m, crypto_ok (cr E) -> k <> [] -> reply E now c kw (Some k) = Ok m ->
  exists s pub, secret_of (cr E) k = Some s /\ pub_of (cr E) s = Some pub /\ verify_signature E m (VBytes pub) = Ok tt.
Proof. exact reply_verifies. Qed.
Print Assumptions C70_verifies.
(** factories with hooks: the signature is for the message without the parts (or with the
    default operation), whose hash the message built does not have unless SHA-1 collides *)
Theorem C70_reject :
  forall E now reason t f c k m, crypto_ok (cr E) -> k <> [] -> reject_factory E now reason t f c (Some k) = Ok m ->
  part_of MTaskToCompute t -> part_of MTaskFailure f -> part_of MCannotComputeTask c -> (t, f, c) <> (None, None, None) ->
  exists sg, let msg t f c := VMsg MRejectReportComputedTask (VInt (type_of MRejectReportComputedTask)) (VInt now) (VBool false) sg
       [("attached_task_to_compute", t); ("task_failure", f); ("cannot_compute_task", c); ("reason", VEnum EnRejectRCT reason)]%string in
    m = msg (or_none t) (or_none f) (or_none c) /\ signed_for E k (msg VNone VNone VNone) m.
Proof. exact reject_unsigned. Qed.
Print Assumptions C70_reject.
Theorem C70_response :
  forall E now reason a r k m, crypto_ok (cr E) -> k <> [] -> response_factory E now reason a r (Some k) = Ok m ->
  part_of MAckReportComputedTask a -> part_of MRejectReportComputedTask r -> (a, r) <> (None, None) ->
  exists sg, let msg a r := VMsg MForceReportComputedTaskResponse (VInt (type_of MForceReportComputedTaskResponse)) (VInt now) (VBool false) sg
       [("reason", VEnum EnFRCTResponse reason); ("ack_report_computed_task", a); ("reject_report_computed_task", r)]%string in
    m = msg (or_none a) (or_none r) /\ signed_for E k (msg VNone VNone) m.
Proof. exact response_unsigned. Qed.
Print Assumptions C70_response.
Theorem C70_results_response :
  forall E now a r k m, crypto_ok (cr E) -> k <> [] -> results_response_factory E now a r (Some k) = Ok m ->
  part_of MSubtaskResultsAccepted a -> part_of MSubtaskResultsRejected r -> (a, r) <> (None, None) ->
  exists sg, let msg a r := VMsg MForceSubtaskResultsResponse (VInt (type_of MForceSubtaskResultsResponse)) (VInt now) (VBool false) sg
       [("subtask_results_accepted", a); ("subtask_results_rejected", r)]%string in
    m = msg (or_none a) (or_none r) /\ signed_for E k (msg VNone VNone) m.
Proof. exact results_response_unsigned. Qed.
Print Assumptions C70_results_response.
Theorem C70_token :
  forall E now id url client files up down k m, crypto_ok (cr E) -> k <> [] -> token_factory E now id url client files up down (Some k) = Ok m ->
  exists sg, m = token now sg id url client (if down then "download" else "upload") files /\
    if down then signed_for E k (token now sg id url client "upload" files) m
    else exists s pub, secret_of (cr E) k = Some s /\ pub_of (cr E) s = Some pub /\ verify_signature E m (VBytes pub) = Ok tt.
Proof. exact token_signed. Qed.
Print Assumptions C70_token.

Definition ex_reject : pyval := Eval vm_compute in
  Samples.get VNone (reject_with_task E0 (now0 + 30) None "SubtaskTimeLimitExceeded" ex_ttc (Some req_key)).
Definition ex_other_ack : pyval := Eval vm_compute in
  Samples.get VNone (reply E0 (now0 + 20) MAckReportComputedTask [("report_computed_task"%string, ex_made_report)] (Some req_key)).
Definition ex_response : pyval := Eval vm_compute in Samples.get VNone (response_with_ack E0 (now0 + 30) None "ack_from_requestor" ex_other_ack (Some conc_key)).
Definition ex_mixed : pyval := Eval vm_compute in Samples.get VNone (verdict_factory E0 (now0 + 40) ex_force ex_other_ack (Some conc_key)).
Definition ex_token (down : bool) : pyval := Samples.get VNone (token_factory E0 now0 (u "id") (u "http://x") [] [] false down (Some conc_key)).
(** so the signed message is refused: a rejection with its task, a response with its
    acknowledgement, a download token; and a verdict whose acknowledgement was for another report *)
Theorem C70_signed_refuted :
  exists E t f a1 m1 m2 m3 m4, crypto_ok (cr E) /\
    verify_signature E t (VBytes (pub req_key)) = Ok tt /\ verify_signature E a1 (VBytes (pub req_key)) = Ok tt /\ verify_signature E f (VBytes (pub prov_key)) = Ok tt /\
    reject_with_task E (now0 + 30) None "SubtaskTimeLimitExceeded" t (Some req_key) = Ok m1 /\ verify_signature E m1 (VBytes (pub req_key)) = Err EInvalidSignature /\
    response_with_ack E (now0 + 30) None "ack_from_requestor" a1 (Some conc_key) = Ok m2 /\ verify_signature E m2 (VBytes (pub conc_key)) = Err EInvalidSignature /\
    token_factory E now0 (u "id") (u "http://x") [] [] false true (Some conc_key) = Ok m3 /\ verify_signature E m3 (VBytes (pub conc_key)) = Err EInvalidSignature /\
    verdict_factory E (now0 + 40) f a1 (Some conc_key) = Ok m4 /\ verify_signature E m4 (VBytes (pub conc_key)) = Err EInvalidSignature.
Proof.
  exists E0, ex_ttc, ex_force, ex_other_ack, ex_reject, ex_response, (ex_token true), ex_mixed.
  split; [exact toy_ok|]. repeat split; vm_compute; reflexivity.
Qed.
Print Assumptions C70_signed_refuted.
(** an upload token verifies; the rejection above meets the hypotheses of [C70_reject] *)
Example C70_ex :
  verify_signature E0 (ex_token false) (VBytes (pub conc_key)) = Ok tt /\
  reject_factory E0 (now0 + 30) "SubtaskTimeLimitExceeded" (Some ex_ttc) None None (Some req_key) = Ok ex_reject /\
  part_of MTaskToCompute (Some ex_ttc) /\ part_of MTaskFailure None /\ is_ok (short_hash E0 ex_reject) = true.
Proof.
  split; [vm_compute; reflexivity|]. split; [vm_compute; reflexivity|]. split; [right; do 5 eexists; reflexivity|]. split; [left; reflexivity|vm_compute; reflexivity].
Qed.

(** ** C71 *)
(** a named variant holds its part, and the reason given or else its own; it never fails unsigned *)
Theorem C71_reject :
  forall E now given drawn x p m,
  (reject_with_task E now given drawn x p = Ok m -> getattr "attached_task_to_compute" m = Ok x /\
     getattr "reason" m = Ok (VEnum EnRejectRCT (match given with Some r => r | None => "SubtaskTimeLimitExceeded" end))) /\
  (reject_with_failure E now given drawn x p = Ok m -> getattr "task_failure" m = Ok x /\
     getattr "reason" m = Ok (VEnum EnRejectRCT (match given with Some r => r | None => "GotMessageTaskFailure" end))) /\
  (reject_with_cannot E now given drawn x p = Ok m -> getattr "cannot_compute_task" m = Ok x /\
     getattr "reason" m = Ok (VEnum EnRejectRCT (match given with Some r => r | None => "GotMessageCannotComputeTask" end))) /\
  (response_with_ack E now given drawn x p = Ok m -> getattr "ack_report_computed_task" m = Ok x /\
     getattr "reason" m = Ok (VEnum EnFRCTResponse (match given with Some r => r | None => "ack_from_requestor" end))).
Proof. exact named_variants. Qed.
Print Assumptions C71_reject.
(** except [with_reject_report_computed_task]: a reason given is replaced, and without one
    the reason is the one drawn *)
Theorem C71_response :
  forall E now given drawn x p m, response_with_reject E now given drawn x p = Ok m -> getattr "reject_report_computed_task" m = Ok x /\
  getattr "reason" m = Ok (VEnum EnFRCTResponse (match given with Some _ => "reject_from_requestor" | None => drawn end)).
Proof. exact rejecting_response. Qed.
Print Assumptions C71_response.
Theorem C71_response_refuted :
  exists m1 m2, response_with_reject E0 now0 (Some "subtask_timeout"%string) "concent_ack" ex_reject None = Ok m1 /\
    getattr "reason" m1 = Ok (VEnum EnFRCTResponse "reject_from_requestor") /\
    response_with_reject E0 now0 None "concent_ack" ex_reject None = Ok m2 /\ getattr "reason" m2 = Ok (VEnum EnFRCTResponse "concent_ack").
Proof.
  exists (Samples.get VNone (response_with_reject E0 now0 (Some "subtask_timeout"%string) "concent_ack" ex_reject None)),
    (Samples.get VNone (response_with_reject E0 now0 None "concent_ack" ex_reject None)).
  repeat split; vm_compute; reflexivity.
Qed.
Print Assumptions C71_response_refuted.
Example C71_ex :
  reject_with_task E0 (now0 + 30) None "GotMessageTaskFailure" ex_ttc (Some req_key) = Ok ex_reject /\
  getattr "reason" ex_reject = Ok (VEnum EnRejectRCT "SubtaskTimeLimitExceeded").
Proof. split; vm_compute; reflexivity. Qed.
