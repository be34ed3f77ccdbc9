(** * Property theorems: the time allowed for verifying a received report (C43) *)
From Verif Require Import VerifTime Samples.
Local Open Scope Z_scope.

(** ** C43 *)
(** what the time is computed from, in a message: the size of the report, the timestamp of
    its TaskToCompute and the deadline of the task; for sizes and deadlines as they should
    be it is at least 19 minutes *)
Theorem C43_report :
  forall ty ts enc sig a n cty t cenc csig b kvs d,
  attr_get "size" a = Some (VInt n) -> attr_get "task_to_compute" a = Some (VMsg MTaskToCompute cty (VInt t) cenc csig b) ->
  attr_get "compute_task_def" b = Some (VDict DCTD kvs) -> dict_get (skey "deadline") kvs = Some (VInt d) ->
  0 <= n < 2 ^ 53 -> -62135596800 <= t <= 253402300799 -> -62135596800 <= d <= 253402300799 ->
  exists mdt, maximum_download_time n 48 = Ok mdt /\
    svt_of (VMsg MReportComputedTask ty ts enc sig a) = Ok (4 * (4 * 60 * 1000000) + 3 * mdt + (d - t) * 500000) /\
    (t <= d -> 4 * (4 * 60 * 1000000) + 3 * (60 * 1000000) <= 4 * (4 * 60 * 1000000) + 3 * mdt + (d - t) * 500000).
Proof. exact svt_reads. Qed.
Print Assumptions C43_report.
(** what is raised for a received report is no MessageError; floats, for which Python
    computes a time, are not modelled ([EFuel]) *)
Theorem C43_raises :
  forall E now bs decf ct pub ty ts enc sig a e,
  deserialize E now bs decf ct pub = Ok (VMsg MReportComputedTask ty ts enc sig a) ->
  svt_of (VMsg MReportComputedTask ty ts enc sig a) = Err e ->
  e = ETypeError \/ (e = EAttributeError /\ attr_get "task_to_compute" a = Some VNone) \/ e = EValueError \/ e = EOverflowError \/
  (e = EFuel /\ exists f, attr_get "size" a = Some (VFloat f) \/
     exists cty ct cenc csig b, attr_get "task_to_compute" a = Some (VMsg MTaskToCompute cty ct cenc csig b) /\
       (ct = VFloat f \/ exists kvs, attr_get "compute_task_def" b = Some (VDict DCTD kvs) /\ dict_get (skey "deadline") kvs = Some (VFloat f))).
Proof. exact svt_raises. Qed.
Print Assumptions C43_raises.
(** and a time is computed only from numbers: a report without a size, a TaskToCompute or
    a task has none, nor has one with dates outside the years 1 to 9999 (bools are numbers:
    [counts_as]) *)
Theorem C43_found :
  forall E now bs decf ct pub ty ts enc sig a r,
  deserialize E now bs decf ct pub = Ok (VMsg MReportComputedTask ty ts enc sig a) ->
  svt_of (VMsg MReportComputedTask ty ts enc sig a) = Ok r ->
  exists w n mdt cty cts cenc csig b t kvs v d, attr_get "size" a = Some w /\ counts_as w n /\
    attr_get "task_to_compute" a = Some (VMsg MTaskToCompute cty cts cenc csig b) /\ counts_as cts t /\
    attr_get "compute_task_def" b = Some (VDict DCTD kvs) /\ dict_get (skey "deadline") kvs = Some v /\ counts_as v d /\
    maximum_download_time n 48 = Ok mdt /\ -62135596800 <= t <= 253402300799 /\ -62135596800 <= d <= 253402300799 /\
    r = 4 * (4 * 60 * 1000000) + 3 * mdt + (d - t) * 500000.
Proof. exact svt_found. Qed.
Print Assumptions C43_found.

(** a task with two hours to go *)
Definition vt_ttc : pyval := Eval vm_compute in
  let m := make now0 MTaskToCompute
    [("requestor_id", hex (pub req_key)); ("requestor_public_key", hex (pub req_key));
     ("requestor_ethereum_public_key", hex (pub eth_key)); ("provider_id", hex (pub prov_key));
     ("compute_task_def", Samples.get VNone (dict_new DCTD (VDict DPlain [(skey "task_id", ex_task_id); (skey "subtask_id", ex_task_id); (skey "deadline", VInt (now0 + 7200))])));
     ("want_to_compute_task", ex_wtct); ("size", VInt 1000); ("price", VInt 5)]%string in
  signed req_key (Samples.get VNone (generate_ethsig E0 m eth_key)).
Definition vt_report (size : pyval) : pyval := signed prov_key (make (now0 + 10) MReportComputedTask [("task_to_compute", vt_ttc); ("size", size)]%string).
Definition vt_negative : pyval := Eval vm_compute in Samples.get VNone (load0 (Some (pub prov_key)) (dump0 (vt_report (VInt (-1000000000))))).
Definition vt_sizeless : pyval := Eval vm_compute in Samples.get VNone (load0 (Some (pub prov_key)) (dump0 (vt_report VNone))).
Definition vt_good : pyval := Eval vm_compute in Samples.get VNone (load0 (Some (pub prov_key)) (dump0 (vt_report (VInt 1000000)))).
Definition deadline_in (m : pyval) : result pyval := do t <- getattr "task_to_compute" m; do d <- getattr "compute_task_def" t; deadline_of d.
(** a provider can leave the requestor no time: the size of the report is not checked, and
    a negative one is subtracted *)
Theorem C43_time_left_refuted :
  exists E now bs m k rk ck t, crypto_ok (cr E) /\ deserialize E now bs (fun b => Ok b) true (Some k) = Ok m /\
    (exists ty ts enc sig a, m = VMsg MReportComputedTask ty ts enc sig a) /\ verify_owners E m (VBytes k) (VBytes rk) (VBytes ck) = Ok tt /\
    deadline_in m = Ok (VInt (now / 1000000 + 7200)) /\ svt_of m = Ok t /\ t < 0.
Proof.
  exists E0, (now0 * 1000000), (dump0 (vt_report (VInt (-1000000000)))), vt_negative, (pub prov_key), (pub req_key), (pub conc_key), (-56295000000).
  split; [exact toy_ok|]. split; [vm_compute; reflexivity|]. split; [do 5 eexists; reflexivity|].
  split; [vm_compute; reflexivity|]. split; [vm_compute; reflexivity|]. split; vm_compute; reflexivity.
Qed.
Print Assumptions C43_time_left_refuted.
(** and a report without a size is accepted, though no time can be computed for it *)
Theorem C43_every_report_refuted :
  exists E now bs m k rk ck, crypto_ok (cr E) /\ deserialize E now bs (fun b => Ok b) true (Some k) = Ok m /\
    (exists ty ts enc sig a, m = VMsg MReportComputedTask ty ts enc sig a) /\ verify_owners E m (VBytes k) (VBytes rk) (VBytes ck) = Ok tt /\
    deadline_in m = Ok (VInt (now / 1000000 + 7200)) /\ svt_of m = Err ETypeError.
Proof.
  exists E0, (now0 * 1000000), (dump0 (vt_report VNone)), vt_sizeless, (pub prov_key), (pub req_key), (pub conc_key).
  split; [exact toy_ok|]. split; [vm_compute; reflexivity|]. split; [do 5 eexists; reflexivity|].
  split; [vm_compute; reflexivity|]. split; vm_compute; reflexivity.
Qed.
Print Assumptions C43_every_report_refuted.
Example C43_report_ex :
  load0 (Some (pub prov_key)) (dump0 (vt_report (VInt 1000000))) = Ok vt_good /\ deadline_in vt_good = Ok (VInt (now0 + 7200)) /\
  (exists ty ts enc sig a cty cenc csig b, vt_good = VMsg MReportComputedTask ty ts enc sig a /\ attr_get "size" a = Some (VInt 1000000) /\
     attr_get "task_to_compute" a = Some (VMsg MTaskToCompute cty (VInt now0) cenc csig b)) /\
  svt_of vt_good = Ok (4 * (4 * 60 * 1000000) + 3 * ((60 + 21) * 1000000) + 7200 * 500000).
Proof.
  split; [vm_compute; reflexivity|]. split; [vm_compute; reflexivity|]. split; [|vm_compute; reflexivity].
  do 9 eexists. split; [reflexivity|]. split; reflexivity.
Qed.
