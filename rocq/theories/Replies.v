(** * The shipped factories of replies: factories/tasks.py 240-334 and
    factories/concents.py.  A factory's parts are given (its sub-factories build
    them), random draws and clock readings are arguments and so is [sign__privkey].
    Hooks run in the order they are declared, the inherited [sign]
    (factories/helpers.py 102-119) before those of the factory itself. *)
From Verif Require Export Factories.
Open Scope Z_scope.

(** every factory of factories/helpers.py 102-119: the constructor, then [sign] *)
Definition reply (E : env) (now : Z) (c : mcls) (kw : attrs_t) (priv : option bytes) : result pyval :=
  do m <- msg_init E now c None VNone (VList []) kw;
  sign_hook E m priv.

(** factories/tasks.py 240-245; the reason is drawn from the members *)
Definition cannot_factory (E : env) (now : Z) (reason : string) (ttc : pyval) (priv : option bytes) : result pyval :=
  reply E now MCannotComputeTask [("task_to_compute", ttc); ("reason", VEnum EnCannotCompute reason)]%string priv.
(** factories/tasks.py 248-253 *)
Definition failure_factory (E : env) (now : Z) (err : ustr) (ttc : pyval) (priv : option bytes) : result pyval :=
  reply E now MTaskFailure [("task_to_compute", ttc); ("err", VStr err)]%string priv.
(** factories/tasks.py 256-267 *)
Record report_draws := {
  d_address : ustr; d_port : Z; d_key_id : bytes; d_rsha1 : ustr; d_rsize : Z; d_multihash : ustr; d_secret : ustr }.
Definition report_factory (E : env) (now : Z) (d : report_draws) (ttc : pyval) (priv : option bytes) : result pyval :=
  reply E now MReportComputedTask
    [("address", VStr (d_address d)); ("port", VInt (d_port d)); ("key_id", VBytes (d_key_id d)); ("task_to_compute", ttc);
     ("package_hash", VStr (u "sha1:" ++ d_rsha1 d)%list); ("size", VInt (d_rsize d)); ("multihash", VStr (d_multihash d));
     ("secret", VStr (d_secret d))]%string priv.
(** factories/tasks.py 270-274 *)
Definition ack_factory (E : env) (now : Z) (rct : pyval) (priv : option bytes) : result pyval :=
  reply E now MAckReportComputedTask [("report_computed_task", rct)]%string priv.
(** factories/tasks.py 315-322: [drawn] is the clock when the payment time is drawn,
    [now] the clock when the message is built *)
Definition accepted_factory (E : env) (drawn now : Z) (rct : pyval) (priv : option bytes) : result pyval :=
  reply E now MSubtaskResultsAccepted [("report_computed_task", rct); ("payment_ts", VInt drawn)]%string priv.
(** factories/tasks.py 325-334 *)
Definition rejected_factory (E : env) (now : Z) (rct : pyval) (priv : option bytes) : result pyval :=
  reply E now MSubtaskResultsRejected
    [("report_computed_task", rct); ("reason", VEnum EnSRR "Results verification negative")]%string priv.
(** factories/concents.py 64-70 *)
Definition force_report_factory (E : env) (now : Z) (hash : ustr) (rct : pyval) (priv : option bytes) : result pyval :=
  reply E now MForceReportComputedTask [("result_hash", VStr hash); ("report_computed_task", rct)]%string priv.
(** factories/concents.py 73-78 *)
Definition verify_factory (E : env) (now : Z) (srr : pyval) (priv : option bytes) : result pyval :=
  reply E now MSubtaskResultsVerify [("subtask_results_rejected", srr)]%string priv.
(** factories/concents.py 97-115; [rejected] tells [origin_results_rejected] from the
    default and [origin_acceptance_timeout] *)
Definition settled_factory (E : env) (now : Z) (rejected : bool) (ttc : pyval) (priv : option bytes) : result pyval :=
  reply E now MSubtaskResultsSettled
    [("origin", VEnum EnSettledOrigin (if rejected then "results_rejected" else "results_accepted_timeout")); ("task_to_compute", ttc)]%string priv.
(** factories/concents.py 118-123, 126-130, 133-138, 141-145 *)
Definition get_result_factory (E : env) (now : Z) (rct : pyval) (priv : option bytes) : result pyval :=
  reply E now MForceGetTaskResult [("report_computed_task", rct)]%string priv.
Definition ack_get_factory (E : env) (now : Z) (fgtr : pyval) (priv : option bytes) : result pyval :=
  reply E now MAckForceGetTaskResult [("force_get_task_result", fgtr)]%string priv.
Definition get_failed_factory (E : env) (now : Z) (ttc : pyval) (priv : option bytes) : result pyval :=
  reply E now MForceGetTaskResultFailed [("task_to_compute", ttc)]%string priv.
Definition get_rejected_factory (E : env) (now : Z) (fgtr : pyval) (priv : option bytes) : result pyval :=
  reply E now MForceGetTaskResultRejected [("force_get_task_result", fgtr)]%string priv.
(** factories/concents.py 213-218 *)
Definition force_results_factory (E : env) (now : Z) (ack : pyval) (priv : option bytes) : result pyval :=
  reply E now MForceSubtaskResults [("ack_report_computed_task", ack)]%string priv.
(** factories/concents.py 221-238; [late] tells [too_late] from the default and [premature] *)
Definition results_rejected_factory (E : env) (now : Z) (late : bool) (fsr : pyval) (priv : option bytes) : result pyval :=
  reply E now MForceSubtaskResultsRejected
    [("force_subtask_results", fsr); ("reason", VEnum EnFSRRejected (if late then "too late: past the forced communication timeout" else "premature: still within the verification timeout"))]%string priv.
(** factories/concents.py 375-381; the reason is drawn from the members *)
Definition refused_factory (E : env) (now : Z) (reason : string) (ttc : pyval) (priv : option bytes) : result pyval :=
  reply E now MServiceRefused [("reason", VEnum EnServiceRefused reason); ("task_to_compute", ttc)]%string priv.

(** ** Factories with hooks of their own, which run on the signed message *)

(** factories/helpers.py 41-67: an [optional_subfactory] assigns the part given or built,
    or None *)
Definition assign_part (k : string) (part : option pyval) (m : pyval) : result pyval :=
  set_attr k (match part with Some x => x | None => VNone end) m.
(** factories/tasks.py 277-288 *)
Definition reject_factory (E : env) (now : Z) (reason : string) (ttc failure cannot : option pyval) (priv : option bytes) : result pyval :=
  do m <- reply E now MRejectReportComputedTask [("reason", VEnum EnRejectRCT reason)]%string priv;
  do m <- assign_part "attached_task_to_compute" ttc m;
  do m <- assign_part "task_failure" failure m;
  assign_part "cannot_compute_task" cannot m.
(** factories/tasks.py 290-312: the reason given, or the one documented; [drawn] is what
    the factory would choose at random *)
Definition reason_or (given : option string) (dflt : string) : string := match given with Some r => r | None => dflt end.
Definition reject_with_task (E : env) (now : Z) (given : option string) (drawn : string) (ttc : pyval) (priv : option bytes) : result pyval :=
  reject_factory E now (reason_or given "SubtaskTimeLimitExceeded") (Some ttc) None None priv.
Definition reject_with_failure (E : env) (now : Z) (given : option string) (drawn : string) (failure : pyval) (priv : option bytes) : result pyval :=
  reject_factory E now (reason_or given "GotMessageTaskFailure") None (Some failure) None priv.
Definition reject_with_cannot (E : env) (now : Z) (given : option string) (drawn : string) (cannot : pyval) (priv : option bytes) : result pyval :=
  reject_factory E now (reason_or given "GotMessageCannotComputeTask") None None (Some cannot) priv.
(** factories/concents.py 304-318 *)
Definition response_factory (E : env) (now : Z) (reason : string) (ack reject : option pyval) (priv : option bytes) : result pyval :=
  do m <- reply E now MForceReportComputedTaskResponse [("reason", VEnum EnFRCTResponse reason)]%string priv;
  do m <- assign_part "ack_report_computed_task" ack m;
  assign_part "reject_report_computed_task" reject m.
(** factories/concents.py 320-327 *)
Definition response_with_ack (E : env) (now : Z) (given : option string) (drawn : string) (ack : pyval) (priv : option bytes) : result pyval :=
  response_factory E now (reason_or given "ack_from_requestor") (Some ack) None priv.
(** factories/concents.py 329-339: the condition is the wrong way round *)
Definition response_with_reject (E : env) (now : Z) (given : option string) (drawn : string) (reject : pyval) (priv : option bytes) : result pyval :=
  response_factory E now (match given with Some _ => "reject_from_requestor"%string | None => drawn end) None (Some reject) priv.
(** factories/concents.py 166-208: the parts that are given or built are assigned *)
Definition results_response_factory (E : env) (now : Z) (accepted rejected : option pyval) (priv : option bytes) : result pyval :=
  do m <- reply E now MForceSubtaskResultsResponse [] priv;
  do m <- match accepted with Some x => set_attr "subtask_results_accepted" x m | None => Ok m end;
  match rejected with Some x => set_attr "subtask_results_rejected" x m | None => Ok m end.
(** factories/concents.py 21-27: [category] is given or left out *)
Definition file_factory (path sha : ustr) (size : Z) (category : option string) : result pyval :=
  dict_new_kw DFileInfo
    ([(u "path", VStr path); (u "checksum", VStr (u "sha1:" ++ sha)%list); (u "size", VInt size)] ++
     match category with Some s => [(u "category", VEnum EnFileCategory s)] | None => [] end).
(** factories/concents.py 30-59: the hooks [upload] and [download] assign the operation *)
Definition token_factory (E : env) (now : Z) (id url : ustr) (client : bytes) (files : list pyval) (upload download : bool)
    (priv : option bytes) : result pyval :=
  do m <- reply E now MFileTransferToken
    [("subtask_id", VStr id); ("token_expiration_deadline", VInt 1800); ("storage_cluster_address", VStr url);
     ("authorized_client_public_key", VBytes client); ("operation", VEnum EnFTTOperation "upload"); ("files", VList files)]%string priv;
  do m <- (if upload then set_attr "operation" (VEnum EnFTTOperation "upload") m else Ok m);
  if download then set_attr "operation" (VEnum EnFTTOperation "download") m else Ok m.
(** factories/concents.py 342-363, without arguments for the hook: the clone is assigned
    inside the acknowledgement the message holds *)
Definition verdict_factory (E : env) (now : Z) (force ack : pyval) (priv : option bytes) : result pyval :=
  do m <- reply E now MVerdictReportComputedTask [("force_report_computed_task", force); ("ack_report_computed_task", ack)]%string priv;
  do f <- getattr "force_report_computed_task" m;
  do r <- getattr "report_computed_task" f;
  do r <- clone_message E now r None None;
  do a <- getattr "ack_report_computed_task" m;
  do a <- set_attr "report_computed_task" r a;
  set_attr "ack_report_computed_task" a m.
