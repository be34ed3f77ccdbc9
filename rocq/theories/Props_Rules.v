(** * C93: rules stated in the documentation that loading does not enforce *)
From Verif Require Import AcceptFacts HashFacts SignFacts ReadSpec Rules Samples.

(** what the slots of a message may hold is a matter of each slot by itself: any values
    that are possible one by one can be read together *)
Theorem C93_independent :
  forall c a, c <> MStartSessionResponse ->
  ((exists s, read c s a) <-> map fst a = slot_names c /\ forall k w, In (k, w) a -> allowed c k w).
Proof. exact independent. Qed.
Print Assumptions C93_independent.
(** and what classes ask beyond that is asked by four of them only *)
Theorem C93_only_these :
  forall c, (forall E ty ts enc sig a, vet E c (VMsg c ty ts enc sig a) = Ok tt) <->
  ~ In c [MTaskToCompute; MSubtaskResultsAccepted; MSubtaskResultsRejected; MVerdictReportComputedTask].
Proof. exact only_these. Qed.
Print Assumptions C93_only_these.
(** so a receiver that was told "the key it contains" has to ask for it: an authorization
    is signed with the key it names exactly if the frame also loads with that key as
    the sender's *)
Theorem C93_own_key :
  forall E now bs decf ct t e sg k,
  let m := VMsg MClientAuthorization (VInt 4022) (VInt t) (VBool e) (VBytes sg) [("client_public_key"%string, VBytes k)] in
  k <> [] -> deserialize E now bs decf ct None = Ok m ->
  (deserialize E now bs decf ct (Some k) = Ok m <->
   List.length k = 64%nat /\ exists payload h, decrypted decf e (skipn 76 bs) = Ok payload /\ dumps (VList [VInt 4022; VInt t]) = Ok h /\
     recover (cr E) (firstn 65 (skipn 11 bs)) (sha3_256 (cr E) (sha1 (cr E) (h ++ payload))) = Some (x04 :: k)).
Proof. exact own_key. Qed.
Print Assumptions C93_own_key.

(** ClientAuthorization: "This message must be signed with the key it contains" *)
Definition ex_auth (k : bytes) : pyval := signed prov_key (make now0 MClientAuthorization [("client_public_key", VBytes k)]%string).
Theorem C93_own_key_refuted :
  exists E now bs pk m k, crypto_ok (cr E) /\ deserialize E now bs (fun b => Ok b) true (Some pk) = Ok m /\
  holds m "client_public_key" (VBytes k) /\ List.length pk = 64%nat /\ List.length k = 64%nat /\ k <> pk.
Proof.
  exists E0, (now0 * 1000000), (dump0 (ex_auth (pub req_key))), (pub prov_key), (ex_auth (pub req_key)), (pub req_key).
  split; [exact toy_ok|]. split; [vm_compute; reflexivity|]. split; [vm_compute; eauto 10|]. split; [reflexivity|]. split; [reflexivity|]. vm_compute. discriminate.
Qed.
Print Assumptions C93_own_key_refuted.
Example C93_ex_own_key :
  is_ok (load0 None (dump0 (ex_auth (pub req_key)))) = true /\ is_ok (load0 (Some (pub req_key)) (dump0 (ex_auth (pub req_key)))) = false /\
  is_ok (load0 (Some (pub prov_key)) (dump0 (ex_auth (pub prov_key)))) = true.
Proof. repeat split; vm_compute; reflexivity. Qed.

(** ForceSubtaskResultsResponse: "Contains one of the following"; both, about different
    subtasks, or neither *)
Definition other_id : pyval := VStr (u "7aa5b6e2-f8a2-11ea-8b0b-222222222222").
Definition ex_ttc2 : pyval := Eval vm_compute in
  signed req_key (get VNone (generate_ethsig E0 (make now0 MTaskToCompute
    [("requestor_id", hex (pub req_key)); ("requestor_public_key", hex (pub req_key));
     ("requestor_ethereum_public_key", hex (pub eth_key)); ("provider_id", hex (pub prov_key));
     ("compute_task_def", get VNone (dict_new DCTD (VDict DPlain [(skey "task_id", ex_task_id); (skey "subtask_id", other_id)])));
     ("want_to_compute_task", ex_wtct); ("size", VInt 1000); ("price", VInt 5)]%string) eth_key)).
Definition ex_srr2 : pyval := Eval vm_compute in signed req_key (make (now0 + 50) MSubtaskResultsRejected
  [("report_computed_task", signed prov_key (make (now0 + 10) MReportComputedTask [("task_to_compute", ex_ttc2)])); ("reason", VerificationNegative)]%string).
Definition ex_both : pyval := Eval vm_compute in signed conc_key (make (now0 + 70) MForceSubtaskResultsResponse
  [("subtask_results_accepted", ex_sra); ("subtask_results_rejected", ex_srr2)]%string).
Definition ex_neither : pyval := Eval vm_compute in signed conc_key (make (now0 + 70) MForceSubtaskResultsResponse []).
Theorem C93_one_answer_refuted :
  exists E now pk bs m acc rej bs' m', crypto_ok (cr E) /\
  deserialize E now bs (fun b => Ok b) true (Some pk) = Ok m /\
  holds m "subtask_results_accepted" acc /\ holds m "subtask_results_rejected" rej /\ acc <> VNone /\ rej <> VNone /\
  (exists i j, getattr "subtask_id" acc = Ok i /\ getattr "subtask_id" rej = Ok j /\ i <> j) /\
  deserialize E now bs' (fun b => Ok b) true (Some pk) = Ok m' /\
  holds m' "subtask_results_accepted" VNone /\ holds m' "subtask_results_rejected" VNone.
Proof.
  exists E0, (now0 * 1000000), (pub conc_key), (dump0 ex_both), ex_both, ex_sra, ex_srr2, (dump0 ex_neither), ex_neither.
  split; [exact toy_ok|]. split; [vm_compute; reflexivity|]. split; [vm_compute; eauto 10|]. split; [vm_compute; eauto 10|]. split; [discriminate|]. split; [discriminate|].
  split; [exists ex_task_id, other_id; split; [vm_compute; reflexivity|]; split; [vm_compute; reflexivity|discriminate]|].
  split; [vm_compute; reflexivity|]. split; vm_compute; eauto 10.
Qed.
Print Assumptions C93_one_answer_refuted.

(** ForceReportComputedTaskResponse: "Ack received from requestor attached" *)
Definition ex_no_ack : pyval := Eval vm_compute in signed conc_key (make (now0 + 70) MForceReportComputedTaskResponse
  [("reason", VEnum EnFRCTResponse "ack_from_requestor")]%string).
Theorem C93_attached_refuted :
  exists E now pk bs m, crypto_ok (cr E) /\ deserialize E now bs (fun b => Ok b) true (Some pk) = Ok m /\
  holds m "reason" (VEnum EnFRCTResponse "ack_from_requestor") /\ holds m "ack_report_computed_task" VNone /\ holds m "reject_report_computed_task" VNone.
Proof.
  exists E0, (now0 * 1000000), (pub conc_key), (dump0 ex_no_ack), ex_no_ack.
  split; [exact toy_ok|]. split; [vm_compute; reflexivity|]. repeat split; vm_compute; eauto 10.
Qed.
Print Assumptions C93_attached_refuted.
Example C93_ex : forall k w, In (k, w) [("ack_report_computed_task", VNone); ("reject_report_computed_task", VNone); ("reason", VEnum EnFRCTResponse "concent_ack")]%string ->
  allowed MForceReportComputedTaskResponse k w.
Proof.
  intros k w [Q|[Q|[Q|[]]]]; injection Q as <- <-; [left; reflexivity|left; reflexivity|right].
  exists (VStr (u "concent_ack")), (VEnum EnFRCTResponse "concent_ack"). split; [|reflexivity]. apply S_plain. apply (A_member EnFRCTResponse). vm_compute. auto.
Qed.
