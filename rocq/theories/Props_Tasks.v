(** * Property theorems: ownership, validity, chain accessors, file lookup and
    promissory notes of task messages (C25-C27, C29-C31, C50, C51, C58) *)
From Verif Require Import NoteFacts SampleLoads.

(** ** C25 *)
(** keys come from the chain's TaskToCompute ([chain_keys]); roles are tried in
    order, and a key that is not 64 bytes long ends the search with InvalidKeys *)
Theorem C25_exact :
  forall E c ty ts enc sig a concent, is_task_message c = true -> a_key concent ->
  let m := VMsg c ty ts enc sig a in
  validate_ownership E m concent = Ok tt <->
  exists pk rk, chain_keys m pk rk /\ (c = MTaskToCompute -> header_signed E m rk) /\
    exists pre o post, expected_owners c = pre ++ o :: post /\ Forall (fun x => key64 (owner_key pk rk concent x)) pre /\
      signed_by E m (owner_key pk rk concent o).
Proof. exact ownership_iff. Qed.
Print Assumptions C25_exact.
Theorem C25_wrong_signer :
  forall E c ty ts enc sig a concent pk rk h, is_task_message c = true ->
  let m := VMsg c ty ts enc sig a in
  chain_keys m pk rk -> (c = MTaskToCompute -> header_signed E m rk) -> short_hash E m = Ok h ->
  (forall o, In o (expected_owners c) -> key64 (owner_key pk rk concent o) /\ ~ signed_by E m (owner_key pk rk concent o)) ->
  validate_ownership E m concent = Err EInvalidSignature.
Proof. exact ownership_invalid. Qed.
Print Assumptions C25_wrong_signer.
(** a message just signed is accepted exactly if its signer has an expected role *)
Theorem C25_signed :
  forall E c ty ts enc sig a concent pk rk priv sec pub m', crypto_ok (cr E) -> is_task_message c = true -> a_key concent ->
  let m := VMsg c ty ts enc sig a in
  chain_keys m pk rk -> (c = MTaskToCompute -> header_signed E m rk) ->
  secret_of (cr E) priv = Some sec -> pub_of (cr E) sec = Some pub -> sign_message E m priv = Ok m' ->
  (forall o, In o (expected_owners c) -> key64 (owner_key pk rk concent o)) ->
  (validate_ownership E m' concent = Ok tt <-> exists o, In o (expected_owners c) /\ owner_key pk rk concent o = VBytes pub).
Proof. exact ownership_signed. Qed.
Print Assumptions C25_signed.
(** not every failure is InvalidSignature: Concent expected but its key not given
    is a TypeError, a key of the wrong length InvalidKeys *)
Theorem C25_only_invalid_signature_refuted :
  exists E m, crypto_ok (cr E) /\ is_task_msg m = true /\
    validate_ownership E m (VBytes (pub conc_key)) = Ok tt /\
    validate_ownership E m VNone = Err ETypeError /\ validate_ownership E m (VBytes conc_key) = Err EInvalidKeys.
Proof.
  exists E0, ex_verdict. split; [exact toy_ok|]. split; [reflexivity|]. split; [|split]; vm_compute; reflexivity.
Qed.
Print Assumptions C25_only_invalid_signature_refuted.
Example C25_ex :
  map (fun m => validate_ownership E0 m (VBytes (pub conc_key))) [ex_ttc; ex_rct; ex_ack; ex_force; ex_verdict; ex_sra; ex_srr] = repeat (Ok tt) 7 /\
  validate_ownership E0 (signed prov_key ex_ack) (VBytes (pub conc_key)) = Err EInvalidSignature /\
  validate_ownership E0 (signed conc_key ex_ack) (VBytes (pub conc_key)) = Ok tt /\
  chain_key "provider_public_key" ex_ack = Ok (pub prov_key) /\ chain_key "requestor_public_key" ex_ack = Ok (pub req_key).
Proof. split; [|split; [|split; [|split]]]; vm_compute; reflexivity. Qed.

(** ** C26 *)
Theorem C26_exact :
  forall E m concent,
  validate_ownership_chain E m concent = Ok tt <->
  is_task_msg m = true /\ forall n, reach m n -> validate_ownership E n concent = Ok tt.
Proof. exact ownership_chain_iff. Qed.
Print Assumptions C26_exact.
Theorem C26_errors :
  forall E m concent e, is_task_msg m = true -> validate_ownership_chain E m concent = Err e ->
  exists n, reach m n /\ is_task_msg n = true /\ validate_ownership E n concent = Err e.
Proof. exact ownership_chain_err. Qed.
Print Assumptions C26_errors.
(** no task message holds messages in a list, where the walk would not look *)
Theorem C26_no_list_slots :
  forall c k d an il, is_task_message c = true -> slot_kind c k = KMsg d an il -> il = false.
Proof. exact task_slots_single. Qed.
Print Assumptions C26_no_list_slots.
(** WantToComputeTask is not a task message: a chain is valid whoever signed it *)
Definition ex_other_wtct : pyval := Eval vm_compute in signed conc_key ex_wtct.
Definition ex_ttc_other : pyval := Eval vm_compute in
  signed req_key (get VNone (generate_ethsig E0 (match ex_ttc with
    | VMsg c ty ts enc sig a => VMsg c ty ts enc sig (attr_set "want_to_compute_task" ex_other_wtct a) | m => m end) eth_key)).
Theorem C26_every_message_refuted :
  exists E m w, crypto_ok (cr E) /\ getattr "want_to_compute_task" m = Ok w /\
    validate_ownership_chain E m VNone = Ok tt /\
    chain_key "provider_public_key" m = Ok (pub prov_key) /\ verify_signature E w (VBytes (pub prov_key)) = Err EInvalidSignature.
Proof.
  exists E0, ex_ttc_other, ex_other_wtct. split; [exact toy_ok|]. split; [vm_compute; reflexivity|]. split; [|split]; vm_compute; reflexivity.
Qed.
Print Assumptions C26_every_message_refuted.
Example C26_ex :
  validate_ownership_chain E0 ex_verdict (VBytes (pub conc_key)) = Ok tt /\
  validate_ownership_chain E0 (signed conc_key (make now0 MForceSubtaskResultsRejected [])) (VBytes (pub conc_key)) = Err EAttributeError /\
  validate_ownership_chain E0 (signed conc_key (make now0 MVerdictReportComputedTask
    [("force_report_computed_task", ex_force); ("ack_report_computed_task", signed prov_key ex_ack)]%string)) (VBytes (pub conc_key)) = Err EInvalidSignature.
Proof. split; [|split]; vm_compute; reflexivity. Qed.

(** ** C27 *)
Theorem C27_exact :
  forall E m p r concent,
  verify_owners E m (opt_key p) (opt_key r) concent = Ok tt <->
  (forall b, p = Some b -> b <> [] -> chain_key "provider_public_key" m = Ok b) /\
  (forall b, r = Some b -> b <> [] -> chain_key "requestor_public_key" m = Ok b) /\
  validate_ownership_chain E m concent = Ok tt.
Proof. exact verify_owners_iff. Qed.
Print Assumptions C27_exact.
Theorem C27_mismatch :
  forall E m p r concent, is_task_msg m = true ->
  (exists b k, p = Some b /\ b <> [] /\ chain_key "provider_public_key" m = Ok k /\ k <> b) \/
  ((forall b, p = Some b -> b <> [] -> chain_key "provider_public_key" m = Ok b) /\
   exists b k, r = Some b /\ b <> [] /\ chain_key "requestor_public_key" m = Ok k /\ k <> b) ->
  verify_owners E m (opt_key p) (opt_key r) concent = Err EOwnershipMismatch.
Proof. exact owners_mismatch. Qed.
Print Assumptions C27_mismatch.
(** an empty key is not compared *)
Theorem C27_empty_key_refuted :
  exists E m, crypto_ok (cr E) /\ verify_owners E m (opt_key (Some [])) (opt_key (Some [])) VNone = Ok tt /\
    chain_key "provider_public_key" m <> Ok [] /\ chain_key "requestor_public_key" m <> Ok [].
Proof.
  exists E0, ex_rct. split; [exact toy_ok|]. split; [vm_compute; reflexivity|]. split; vm_compute; discriminate.
Qed.
Print Assumptions C27_empty_key_refuted.
Example C27_ex :
  verify_owners E0 ex_verdict (opt_key (Some (pub prov_key))) (opt_key (Some (pub req_key))) (VBytes (pub conc_key)) = Ok tt /\
  verify_owners E0 ex_verdict (opt_key (Some (pub req_key))) (opt_key (Some (pub req_key))) (VBytes (pub conc_key)) = Err EOwnershipMismatch /\
  verify_owners E0 ex_rct (opt_key None) (opt_key (Some (pub prov_key))) VNone = Err EOwnershipMismatch.
Proof. split; [|split]; vm_compute; reflexivity. Qed.

(** ** C29 *)
Theorem C29_window :
  forall ty t enc sig a z, 0 <= t < 2 ^ 52 -> attr_get_or_none "payment_ts" a = VInt z ->
  is_valid (VMsg MSubtaskResultsAccepted ty (VInt t) enc sig a) = Ok tt <-> t - 900 <= z <= t.
Proof. exact sra_iff. Qed.
Print Assumptions C29_window.
Theorem C29_outside :
  forall ty t enc sig a z, 0 <= t < 2 ^ 52 -> attr_get_or_none "payment_ts" a = VInt z -> - 2 ^ 1023 < z ->
  ~ t - 900 <= z <= t -> is_valid (VMsg MSubtaskResultsAccepted ty (VInt t) enc sig a) = Err EValidationError.
Proof. exact sra_error. Qed.
Print Assumptions C29_outside.
(** an int too large for a float is an OverflowError, not a ValidationError *)
Theorem C29_overflow :
  forall ty t enc sig a z, 0 <= t -> attr_get_or_none "payment_ts" a = VInt z -> z <= - 2 ^ 1024 ->
  is_valid (VMsg MSubtaskResultsAccepted ty (VInt t) enc sig a) = Err EOverflowError.
Proof. exact sra_huge. Qed.
Print Assumptions C29_overflow.
(** a payment_ts that is no number cannot be compared: TypeError *)
Theorem C29_not_a_number :
  forall ty ts enc sig a, let p := attr_get_or_none "payment_ts" a in
  match p with VBool _ | VInt _ | VFloat _ => False | _ => True end ->
  is_valid (VMsg MSubtaskResultsAccepted ty (VInt ts) enc sig a) = Err ETypeError.
Proof. exact sra_not_number. Qed.
Print Assumptions C29_not_a_number.
(** a finite float, +-(2^52 + frac) * 2^(ex - 1075), is judged by the same window; a
    payment less than a second too old may be rounded into it (subnormal floats, left
    out here, are below every window) *)
Theorem C29_float :
  forall ty t enc sig a neg ex frac, 0 < t < 2 ^ 52 -> 0 < ex < 2047 -> 0 <= frac < 2 ^ 52 ->
  attr_get_or_none "payment_ts" a = VFloat (bits_of neg ex frac) ->
  let v := (if neg then -1 else 1) * (2 ^ 52 + frac) * 2 ^ Z.max 0 (ex - 1075) in let one := 2 ^ Z.max 0 (1075 - ex) in
  let r := is_valid (VMsg MSubtaskResultsAccepted ty (VInt t) enc sig a) in
  ((t - 900) * one <= v <= t * one -> r = Ok tt) /\ (t * one < v \/ v <= (t - 901) * one -> r = Err EValidationError).
Proof. exact sra_float_bits. Qed.
Print Assumptions C29_float.
Theorem C29_infinite :
  forall ty t enc sig a neg, attr_get_or_none "payment_ts" a = VFloat (bits_of neg 2047 0) ->
  is_valid (VMsg MSubtaskResultsAccepted ty (VInt t) enc sig a) = Err EValidationError.
Proof. exact sra_infinite_bits. Qed.
Print Assumptions C29_infinite.
(** but "not a number" passes both comparisons, at any time *)
Theorem C29_nan :
  forall ty t enc sig a neg frac, 0 < frac < 2 ^ 52 -> attr_get_or_none "payment_ts" a = VFloat (bits_of neg 2047 frac) ->
  is_valid (VMsg MSubtaskResultsAccepted ty (VInt t) enc sig a) = Ok tt.
Proof. exact sra_nan_bits. Qed.
Print Assumptions C29_nan.
Definition ex_sra_float (b : Z) : pyval := make now0 MSubtaskResultsAccepted [("payment_ts", VFloat b); ("report_computed_task", ex_rct)]%string.
Definition bits_nan : Z := 2047 * 2 ^ 52 + 2 ^ 51.
(** so a signed acceptance without any payment time arrives and is accepted *)
Theorem C29_arrives_in_window_refuted :
  exists E now bs k t enc sig a b, deserialize E now bs (fun b => Ok b) true (Some k) = Ok (VMsg MSubtaskResultsAccepted (VInt (type_of MSubtaskResultsAccepted)) (VInt t) enc sig a) /\
    signs MSubtaskResultsAccepted = true /\ attr_get_or_none "payment_ts" a = VFloat b /\ b = bits_of false 2047 (2 ^ 51).
Proof.
  exists E0, (now0 * 1000000), (dump0 (signed req_key (ex_sra_float bits_nan))), (pub req_key), now0, (VBool false).
  destruct (load0 (Some (pub req_key)) (dump0 (signed req_key (ex_sra_float bits_nan)))) as [g|] eqn:L; [|vm_compute in L; discriminate L].
  exists (sig_of g), (attrs_of g), bits_nan. vm_compute in L. injection L as <-. vm_compute. auto.
Qed.
Print Assumptions C29_arrives_in_window_refuted.
Definition ex_sra_at (z : Z) : pyval := make now0 MSubtaskResultsAccepted [("payment_ts", VInt z); ("report_computed_task", ex_rct)]%string.
Example C29_ex :
  map (fun d => is_valid (ex_sra_at (now0 + d))) [0; -900; 1; -901] = [Ok tt; Ok tt; Err EValidationError; Err EValidationError] /\
  is_valid (ex_sra_at (- 2 ^ 1024)) = Err EOverflowError /\ now0 < 2 ^ 52 /\
  is_valid (make now0 MSubtaskResultsAccepted [("report_computed_task", ex_rct)]%string) = Err ETypeError /\
  (* floats: the timestamp, 899.5 and 900 s before it; 0.25 s after, 901 s before it; infinities *)
  map (fun b => is_valid (ex_sra_float b)) [4744497694393761792; 4744497690620985344; 4744497690618888192] = [Ok tt; Ok tt; Ok tt] /\
  map (fun b => is_valid (ex_sra_float b)) [4744497694394810368; 4744497690614693888; 2047 * 2 ^ 52; 4095 * 2 ^ 52] = repeat (Err EValidationError) 4 /\
  4744497690620985344 = bits_of false 1053 (6710882627223552 - 2 ^ 52) /\ bits_nan = bits_of false 2047 (2 ^ 51).
Proof. split; [|split; [|split; [|split; [|split; [|split; [|split]]]]]]; vm_compute; reflexivity. Qed.

(** ** C30 *)
Theorem C30_valid :
  forall ty ts enc sig a, let m := VMsg MSubtaskResultsRejected ty ts enc sig a in
  let reason := attr_get_or_none "reason" a in let f := attr_get_or_none "force_get_task_result_failed" a in
  srr_reason reason -> srr_attachment f ->
  (is_valid m = Ok tt <-> reason <> VNone /\ (f <> VNone -> same_task m f) /\ (reason = ForcedResourcesFailure -> f <> VNone)).
Proof. exact srr_iff. Qed.
Print Assumptions C30_valid.
Theorem C30_errors :
  forall ty ts enc sig a e, let m := VMsg MSubtaskResultsRejected ty ts enc sig a in
  srr_reason (attr_get_or_none "reason" a) -> srr_attachment (attr_get_or_none "force_get_task_result_failed" a) ->
  is_valid m = Err e -> e = EValidationError.
Proof. exact srr_error. Qed.
Print Assumptions C30_errors.
Theorem C30_from_requestor :
  forall ty ts enc sig a r t ce, let m := VMsg MSubtaskResultsRejected ty ts enc sig a in
  let reason := attr_get_or_none "reason" a in
  srr_reason reason -> srr_attachment (attr_get_or_none "force_get_task_result_failed" a) ->
  attr_get_or_none "report_computed_task" a = r -> getattr "task_to_compute" r = Ok t -> getattr "concent_enabled" t = Ok ce ->
  (srr_valid_for_requestor m = Ok tt <-> is_valid m = Ok tt /\ requestor_may ce reason) /\
  (reason <> VNone -> forall e, srr_valid_for_requestor m = Err e -> e = EValidationError) /\
  (reason = VNone -> srr_valid_for_requestor m = Err EAttributeError).
Proof. exact srr_requestor. Qed.
Print Assumptions C30_from_requestor.
Definition ex_fgtrf : pyval := Eval vm_compute in signed conc_key (make (now0 + 20) MForceGetTaskResultFailed [("task_to_compute", ex_ttc)]%string).
Definition ex_fgtrf_bad : pyval := Eval vm_compute in signed conc_key (make (now0 + 20) MForceGetTaskResultFailed [("task_to_compute", ex_bad_ttc)]%string).
Definition ex_srr_with (reason f : pyval) : pyval :=
  make (now0 + 50) MSubtaskResultsRejected [("report_computed_task", ex_rct); ("force_get_task_result_failed", f); ("reason", reason)]%string.
Example C30_ex :
  map (fun rf => is_valid (ex_srr_with (fst rf) (snd rf)))
    [(VerificationNegative, VNone); (VerificationNegative, ex_fgtrf); (VerificationNegative, ex_fgtrf_bad); (VNone, VNone);
     (ForcedResourcesFailure, ex_fgtrf); (ForcedResourcesFailure, VNone)]
    = [Ok tt; Ok tt; Err EValidationError; Err EValidationError; Ok tt; Err EValidationError] /\
  map (fun rf => srr_valid_for_requestor (ex_srr_with (fst rf) (snd rf)))
    [(VerificationNegative, VNone); (ResourcesFailure, VNone); (ForcedResourcesFailure, ex_fgtrf); (VNone, VNone)]
    = [Ok tt; Ok tt; Err EValidationError; Err EAttributeError].
Proof. split; vm_compute; reflexivity. Qed.

(** ** C31 *)
(** both parts are equal TaskToCompute messages or, in unfinished messages, both
    absent; any other outcome with serializable TaskToCompute messages is a
    ValidationError if the verdict can be shown (the error's text shows it; received
    verdicts always can, C68) *)
Theorem C31_equal :
  forall ty ts enc sig a ack ack_rct ack_ttc force force_rct force_ttc, let m := VMsg MVerdictReportComputedTask ty ts enc sig a in
  attr_get_or_none "ack_report_computed_task" a = ack -> getattr "report_computed_task" ack = Ok ack_rct -> getattr "task_to_compute" ack_rct = Ok ack_ttc ->
  attr_get_or_none "force_report_computed_task" a = force -> getattr "report_computed_task" force = Ok force_rct -> getattr "task_to_compute" force_rct = Ok force_ttc ->
  none_or_ttc ack_ttc -> none_or_ttc force_ttc ->
  (is_valid m = Ok tt <-> ttc_equal force_ttc ack_ttc) /\
  (forall s s', (forall ty ts enc sig a, ack_ttc = VMsg MTaskToCompute ty ts enc sig a -> slots MTaskToCompute a = Ok s) ->
     (forall ty ts enc sig a, force_ttc = VMsg MTaskToCompute ty ts enc sig a -> slots MTaskToCompute a = Ok s') ->
     (exists r, msg_repr m = Ok r) ->
     is_valid m = Ok tt \/ is_valid m = Err EValidationError).
Proof. exact verdict_iff. Qed.
Print Assumptions C31_equal.
(** it looks at the TaskToCompute messages only: two different
    ReportComputedTask messages about one task pass *)
Definition ex_rct2 : pyval := Eval vm_compute in signed prov_key (make (now0 + 15) MReportComputedTask
  [("task_to_compute", ex_ttc); ("multihash", VStr (u "other"))]%string).
Definition ex_ack2 : pyval := Eval vm_compute in signed req_key (make (now0 + 20) MAckReportComputedTask [("report_computed_task", ex_rct2)]%string).
Definition ex_verdict2 : pyval := Eval vm_compute in signed conc_key (make (now0 + 40) MVerdictReportComputedTask
  [("force_report_computed_task", ex_force); ("ack_report_computed_task", ex_ack2)]%string).
Theorem C31_same_report_refuted :
  exists E m f a r r', crypto_ok (cr E) /\ is_valid m = Ok tt /\ validate_ownership_chain E m (VBytes (pub conc_key)) = Ok tt /\
    getattr "force_report_computed_task" m = Ok f /\ getattr "ack_report_computed_task" m = Ok a /\
    getattr "report_computed_task" f = Ok r /\ getattr "report_computed_task" a = Ok r' /\ msg_eq r r' = Ok false.
Proof.
  exists E0, ex_verdict2, ex_force, ex_ack2, ex_rct, ex_rct2. split; [exact toy_ok|].
  split; [|split; [|split; [|split; [|split; [|split]]]]]; vm_compute; reflexivity.
Qed.
Print Assumptions C31_same_report_refuted.
Example C31_ex :
  is_valid ex_verdict = Ok tt /\
  is_valid (make (now0 + 40) MVerdictReportComputedTask [("force_report_computed_task", ex_force);
    ("ack_report_computed_task", make now0 MAckReportComputedTask [("report_computed_task", ex_bad_rct)])]%string) = Err EValidationError /\
  map (fun m => match m with VMsg MTaskToCompute _ _ _ _ a => is_ok (slots MTaskToCompute a) | _ => false end) [ex_ttc; ex_bad_ttc] = [true; true].
Proof. split; [|split]; vm_compute; reflexivity. Qed.

(** ** C43 *)
(** the protocol's times in minutes and seconds, and the wait before sending: 2 min 25 s
    for ForceReportComputedTask, which comes after two transports and one action, and
    nothing for every other class *)
Theorem C43_times :
  (CMT = 4 * 60 * 1000000 /\ FAT = 16 * 60 * 1000000 /\ AVCT = 28 * 60 * 1000000 /\ PDT = 12 * 60 * 60 * 1000000 /\
   MTD = 10 * 1000000) /\
  forall c, msg_delay c = (if mcls_eqb c MForceReportComputedTask then (2 * 5 + 2 * 60 + 15) * 1000000 else 0) /\
    0 <= msg_delay c < CMT.
Proof. exact times. Qed.
Print Assumptions C43_times.

(** ** C50 *)
Theorem C50_first_provider :
  forall c name ty ts enc sig a v, is_task_message c = true -> c <> MTaskToCompute -> In name chain_names -> ~ In name (slot_names c) ->
  (getattr name (VMsg c ty ts enc sig a) = Ok v <-> first_value name a (task_id_providers c) v).
Proof. exact accessor_first. Qed.
Print Assumptions C50_first_provider.
(** the accessors of a received message are total, and their values those of a
    TaskToCompute inside it *)
Theorem C50_from_chain :
  forall c ty ts enc sig a name, is_task_message c = true -> loaded c a -> In name chain_names ->
  exists v, getattr name (VMsg c ty ts enc sig a) = Ok v /\
    (v = VNone \/ exists t, reach (VMsg c ty ts enc sig a) t /\ is_ttc t /\ getattr name t = Ok v).
Proof. exact accessor_from_chain. Qed.
Print Assumptions C50_from_chain.
(** and if no TaskToCompute inside lacks the value, of the very one that the
    message's [task_to_compute] gives *)
Theorem C50_one_task :
  forall c ty ts enc sig a name, is_task_message c = true -> loaded c a -> In name chain_names ->
  filled name (VMsg c ty ts enc sig a) ->
  (getattr "task_to_compute" (VMsg c ty ts enc sig a) = Ok VNone /\ getattr name (VMsg c ty ts enc sig a) = Ok VNone) \/
  exists t, getattr "task_to_compute" (VMsg c ty ts enc sig a) = Ok t /\ is_ttc t /\ reach (VMsg c ty ts enc sig a) t /\
    getattr name (VMsg c ty ts enc sig a) = getattr name t.
Proof. exact accessor_agrees. Qed.
Print Assumptions C50_one_task.
(** otherwise a message can mix two tasks: the first lacks a [requestor_id] *)
Definition ex_ttc_anon : pyval := Eval vm_compute in match ex_bad_ttc with
  | VMsg c ty ts enc sig a => signed req_key (VMsg c ty ts enc sig (attr_set "requestor_id" VNone a)) | m => m end.
Definition ex_mixed : pyval := Eval vm_compute in make now0 MRejectReportComputedTask
  [("attached_task_to_compute", ex_ttc_anon); ("cannot_compute_task", make now0 MCannotComputeTask [("task_to_compute", ex_ttc)])]%string.
Theorem C50_one_task_refuted :
  exists m t, getattr "task_to_compute" m = Ok t /\ getattr "requestor_id" t = Ok VNone /\
    getattr "requestor_id" m = Ok (hex (pub req_key)) /\ getattr "subtask_id" m = getattr "subtask_id" t /\ is_ok (load0 None (dump0 m)) = true.
Proof.
  exists ex_mixed, ex_ttc_anon. split; [|split; [|split; [|split]]]; vm_compute; reflexivity.
Qed.
Print Assumptions C50_one_task_refuted.
Example C50_ex :
  map (fun n => getattr n ex_verdict) chain_names =
    [Ok ex_task_id; Ok ex_task_id; Ok ex_ttc; Ok (hex (pub prov_key)); Ok (hex (pub req_key))] /\
  is_task_message MVerdictReportComputedTask = true /\ loaded MVerdictReportComputedTask (attrs_of (got conc_key ex_verdict)).
Proof.
  split; [vm_compute; reflexivity|]. split; [reflexivity|].
  destruct (load0 (Some (pub conc_key)) (dump0 ex_verdict)) as [g|e] eqn:L; [|exfalso; revert L; vm_compute; discriminate].
  unfold got. rewrite L. cbn [get]. pose proof L as L'. unfold load0 in L'. apply deserialize_loaded in L' as (c & t & enc & sig & v & a & -> & H & _).
  assert (c = MVerdictReportComputedTask) as ->; [|exact H].
  assert (Q : match load0 (Some (pub conc_key)) (dump0 ex_verdict) with Ok (VMsg MVerdictReportComputedTask _ _ _ _ _) => true | _ => false end = true) by (vm_compute; reflexivity).
  rewrite L in Q. destruct c; try discriminate Q; reflexivity.
Qed.

(** ** C51 *)
Theorem C51_first :
  forall ty ts enc sig a l cat f, attr_get_or_none "files" a = VList l -> Forall is_file l -> f <> VNone ->
  (get_file_info (VMsg MFileTransferToken ty ts enc sig a) cat = Ok f <->
   exists pre post, l = pre ++ f :: post /\ of_category cat f /\ Forall (fun g => ~ of_category cat g) pre).
Proof. exact file_info_first. Qed.
Print Assumptions C51_first.
Theorem C51_none :
  forall ty ts enc sig a l cat, attr_get_or_none "files" a = VList l -> Forall is_file l ->
  (get_file_info (VMsg MFileTransferToken ty ts enc sig a) cat = Ok VNone <-> Forall (fun g => ~ of_category cat g) l).
Proof. exact file_info_none. Qed.
Print Assumptions C51_none.
Theorem C51_exclusive :
  forall ty ts enc sig a, let m := VMsg MFileTransferToken ty ts enc sig a in
  exists b b', is_upload m = Ok b /\ is_download m = Ok b' /\ (b && b' = false).
Proof. exact operation_exclusive. Qed.
Print Assumptions C51_exclusive.
Theorem C51_kind :
  forall ty ts enc sig a s, attr_get_or_none "operation" a = VEnum EnFTTOperation s ->
  let m := VMsg MFileTransferToken ty ts enc sig a in
  (is_upload m = Ok true <-> s = "upload"%string) /\ (is_download m = Ok true <-> s = "download"%string).
Proof. exact operation_kind. Qed.
Print Assumptions C51_kind.
Definition ex_file (path cat : string) : pyval := get VNone (dict_new DFileInfo (VDict DPlain
  [(skey "path", VStr (u path)); (skey "checksum", VStr (u "sha1:0")); (skey "size", VInt 3); (skey "category", VEnum EnFileCategory cat)])).
Definition ex_ftt : pyval := Eval vm_compute in make now0 MFileTransferToken
  [("operation", VEnum EnFTTOperation "upload"); ("files", VList [ex_file "a" "resources"; ex_file "b" "results"; ex_file "c" "results"])]%string.
Example C51_ex :
  get_file_info ex_ftt (VEnum EnFileCategory "results") = Ok (ex_file "b" "results") /\
  get_file_info ex_ftt (VEnum EnFileCategory "resources") = Ok (ex_file "a" "resources") /\
  get_file_info (make now0 MFileTransferToken [("files", VList [ex_file "a" "resources"])]%string) (VEnum EnFileCategory "results") = Ok VNone /\
  is_upload ex_ftt = Ok true /\ is_download ex_ftt = Ok false /\ is_file (ex_file "a" "resources").
Proof. split; [|split; [|split; [|split; [|split]]]]; try (vm_compute; reflexivity). vm_compute. eauto. Qed.

(** ** C58 *)
(** notes signed with the requestor's own key verify *)
Theorem C58_own_key :
  forall C ty ts enc sig a contract p tb cb z i priv adr sec, crypto_ok C ->
  payable (VMsg MTaskToCompute ty ts enc sig a) contract p tb cb z i -> eth_address C priv = Some adr ->
  secret_of C priv = Some sec -> pub_of C sec = Some p ->
  exists m', sign_all_notes C (VMsg MTaskToCompute ty ts enc sig a) contract priv = Ok m' /\ verify_all_notes C m' contract = Ok true.
Proof. exact sign_all_own. Qed.
Print Assumptions C58_own_key.
(** with a key of another account they do not *)
Theorem C58_other_key :
  forall C ty ts enc sig a contract p tb cb z i priv adr, crypto_ok C ->
  payable (VMsg MTaskToCompute ty ts enc sig a) contract p tb cb z i -> eth_address C priv = Some adr -> adr <> address_of (keccak C) p ->
  exists m', sign_all_notes C (VMsg MTaskToCompute ty ts enc sig a) contract priv = Ok m' /\ verify_all_notes C m' contract = Ok false.
Proof. exact sign_all_other. Qed.
Print Assumptions C58_other_key.
(** whatever the two signatures in the message are, the answer is "yes" exactly
    if each is one by the requestor's account, of the note paying the contract and
    of the note paying the provider *)
Theorem C58_both_notes :
  forall C m contract p tb cb z i, crypto_ok C -> payable m contract p tb cb z i -> is_ttc m ->
  (verify_all_notes C m contract = Ok true <->
   pays C m "concent_promissory_note_sig" p cb cb z i /\ pays C m "promissory_note_sig" p tb cb z i).
Proof. exact verify_all_exact. Qed.
Print Assumptions C58_both_notes.
(** the same answer on the sender's side and after a trip over the wire *)
Theorem C58_after_trip :
  forall C ty ts enc sig a contract p tb cb z i priv adr, crypto_ok C ->
  let m := VMsg MTaskToCompute ty ts enc sig a in
  payable m contract p tb cb z i -> eth_address C priv = Some adr ->
  exists b, sign_all_notes C m contract priv = Ok (VMsg MTaskToCompute ty ts enc sig b) /\
    verify_all_notes C (VMsg MTaskToCompute ty ts enc sig b) contract = Ok (ustr_eqb (address_of (keccak C) p) adr) /\
    (forall b' ty' ts' enc' sig', mok MTaskToCompute b -> arrives MTaskToCompute b b' ->
       verify_all_notes C (VMsg MTaskToCompute ty' ts' enc' sig' b') contract = Ok (ustr_eqb (address_of (keccak C) p) adr)).
Proof. exact sign_all_verify. Qed.
Print Assumptions C58_after_trip.
Theorem C58_provider :
  forall C ty ts enc sig a contract f fb cb z i priv adr, crypto_ok C ->
  let m := VMsg MSubtaskResultsVerify ty ts enc sig a in
  owing m contract f fb cb z i -> eth_address C priv = Some adr ->
  exists m', sign_concent_note C m contract priv = Ok m' /\ verify_concent_note C m' contract = Ok (ustr_eqb f adr).
Proof. exact provider_note. Qed.
Print Assumptions C58_provider.
Definition ex_contract : pyval := VStr (u "0x" ++ repeat 99 40)%list.
Definition ex_srv (adr : ustr) : pyval :=
  let w := match ex_wtct with VMsg c ty ts enc sig a => VMsg c ty ts enc sig (attr_set "provider_ethereum_address" (VStr adr) a) | m => m end in
  let t := match ex_ttc with VMsg c ty ts enc sig a => VMsg c ty ts enc sig (attr_set "want_to_compute_task" w a) | m => m end in
  let r := match ex_rct with VMsg c ty ts enc sig a => VMsg c ty ts enc sig (attr_set "task_to_compute" t a) | m => m end in
  let s := match ex_srr with VMsg c ty ts enc sig a => VMsg c ty ts enc sig (attr_set "report_computed_task" r a) | m => m end in
  make (now0 + 60) MSubtaskResultsVerify [("subtask_results_rejected", s)]%string.
Definition ex_srv_upper : pyval := Eval vm_compute in ex_srv (u "0x" ++ repeat 65 40)%list.
Definition ex_srv_signed : pyval := Eval vm_compute in get VNone (sign_concent_note toy ex_srv_upper ex_contract (repeat xaa 32)).
Definition ex_number : Z := 141758605915920134939527143152769180194.
(** the provider's address is compared as text: the signer's own account, spelled
    in other case than the checksummed one, is refused *)
Theorem C58_account_refuted :
  exists C m contract priv adr f fb cb z i m', crypto_ok C /\ owing m contract f fb cb z i /\ eth_address C priv = Some adr /\
    is_address (VStr adr) fb /\ sign_concent_note C m contract priv = Ok m' /\ verify_concent_note C m' contract = Ok false.
Proof.
  exists toy, ex_srv_upper, ex_contract, (repeat xaa 32), (u "0x" ++ repeat 97 40)%list, (u "0x" ++ repeat 65 40)%list,
    (repeat xaa 20), (repeat xcc 20), 5, ex_number, ex_srv_signed.
  split; [exact toy_ok|]. split; [|split; [|split; [|split]]].
  - constructor; [|eexists; split; [reflexivity|split; vm_compute; reflexivity]].
    exists (get VNone (getattr "subtask_results_rejected" ex_srv_upper)), (get VNone (getattr "task_to_compute" (get VNone (getattr "subtask_results_rejected" ex_srv_upper)))).
    split; [vm_compute; reflexivity|]. split; [vm_compute; reflexivity|]. split; [vm_compute; reflexivity|].
    split; [exists (u "0x" ++ repeat 65 40)%list; split; [reflexivity|split; vm_compute; reflexivity]|]. split; [vm_compute; reflexivity|]. split; [split; [discriminate|reflexivity]|].
    exists ex_task_id. split; vm_compute; reflexivity.
  - vm_compute. reflexivity.
  - exists (u "0x" ++ repeat 97 40)%list. split; [reflexivity|split; vm_compute; reflexivity].
  - vm_compute. reflexivity.
  - vm_compute. reflexivity.
Qed.
Print Assumptions C58_account_refuted.
Example C58_ex :
  payable ex_ttc ex_contract (pub eth_key) (repeat xaa 20) (repeat xcc 20) 5 ex_number /\
  map (fun k => do m <- sign_all_notes toy ex_ttc ex_contract k; verify_all_notes toy m ex_contract) [eth_key; prov_key] = [Ok true; Ok false] /\
  (do m <- sign_all_notes toy ex_ttc ex_contract eth_key; do g <- load0 (Some (pub req_key)) (dump0 (signed req_key m)); verify_all_notes toy g ex_contract) = Ok true /\
  map (fun k => do m <- sign_concent_note toy (ex_srv (u "0x" ++ repeat 97 40)%list) ex_contract k; verify_concent_note toy m ex_contract)
    [repeat xaa 32; prov_key] = [Ok true; Ok false] /\
  (do m <- sign_note toy ex_ttc ex_contract eth_key; verify_all_notes toy m ex_contract) = Ok false /\
  (do m <- sign_concent_note toy ex_ttc ex_contract eth_key; verify_all_notes toy m ex_contract) = Ok false /\
  (do m <- sign_note toy ex_ttc ex_contract prov_key; do m' <- sign_concent_note toy m ex_contract eth_key; verify_all_notes toy m' ex_contract) = Ok false.
Proof.
  split; [|split; [|split; [|split; [|split; [|split]]]]].
  - constructor.
    + vm_compute. reflexivity.
    + exists (VStr (u "0x" ++ repeat 97 40)%list). split; [vm_compute; reflexivity|]. exists (u "0x" ++ repeat 97 40)%list. split; [reflexivity|split; vm_compute; reflexivity].
    + split; [vm_compute; reflexivity|split; [discriminate|reflexivity]].
    + exists ex_task_id. split; vm_compute; reflexivity.
    + exists (u "0x" ++ repeat 99 40)%list. split; [reflexivity|split; vm_compute; reflexivity].
  - vm_compute. reflexivity.
  - vm_compute. reflexivity.
  - vm_compute. reflexivity.
  - vm_compute. reflexivity.
  - vm_compute. reflexivity.
  - vm_compute. reflexivity.
Qed.
