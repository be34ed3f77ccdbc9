(** * Frames that no constructor would make, and relabelled or unvetted nested
    messages, for the Examples and refutations about loading *)
From Verif Require Export SampleTrips.

(** a frame of class [c] at time [t] with the slots [s], signed by [k] *)
Definition forge (k : bytes) (c : mcls) (t : Z) (s : pyval) : bytes :=
  let h := get [] (dumps (VList [VInt (type_of c); VInt t])) in
  let p := get [] (dumps s) in
  get [] (pack_header (type_of c) (VInt t) (VBool false)) ++ get [] (ecdsa_sign toy k (sha1 toy (h ++ p))) ++ p.
Definition slot (k : string) (v : pyval) : pyval := VList [skey k; v].
(** the wire form of a nested message *)
Definition nest (m : pyval) : pyval := VList [VBool false; get VNone (wire m)].

Definition bs_sra_none : bytes := Eval vm_compute in forge req_key MSubtaskResultsAccepted now0 (VList []).
Definition bs_sra_neg : bytes := Eval vm_compute in
  forge req_key MSubtaskResultsAccepted now0 (VList [slot "payment_ts" (VInt (- 2 ^ 1024))]).
Definition bs_verdict : bytes := Eval vm_compute in forge conc_key MVerdictReportComputedTask now0 (VList []).
Definition bs_ttc : bytes := Eval vm_compute in
  forge req_key MTaskToCompute now0 (VList [slot "want_to_compute_task" (nest ex_wtct); slot "requestor_ethereum_public_key" (VStr (u "zz"))]).
(** ReportComputedTask without the TaskToCompute it reports about *)
Definition bs_rct_empty : bytes := Eval vm_compute in forge prov_key MReportComputedTask now0 (VList []).

(** a ForceGetTaskResult signed by the requestor, presented as AckReportComputedTask
    inside a verdict *)
Definition ex_fgtr : pyval := Eval vm_compute in signed req_key (make (now0 + 20) MForceGetTaskResult [("report_computed_task", ex_rct)]%string).
Definition as_class (c : mcls) (m : pyval) : pyval := match m with VMsg _ ty ts enc sig a => VMsg c ty ts enc sig a | _ => m end.
Definition ex_fake_ack : pyval := Eval vm_compute in as_class MAckReportComputedTask ex_fgtr.
Definition ex_fake_verdict : pyval := Eval vm_compute in signed conc_key (make (now0 + 40) MVerdictReportComputedTask
  [("force_report_computed_task", ex_force); ("ack_report_computed_task", ex_fake_ack)]%string).
Definition bs_fake_verdict : bytes := Eval vm_compute in dump0 ex_fake_verdict.

(** a TaskToCompute without ethereum signature, whose ids do not come from its
    requestor, inside a ReportComputedTask *)
Definition ex_bad_ttc : pyval := Eval vm_compute in signed req_key (make now0 MTaskToCompute
    [("requestor_id", hex (pub req_key)); ("requestor_public_key", hex (pub req_key));
     ("requestor_ethereum_public_key", hex (pub eth_key)); ("provider_id", hex (pub prov_key));
     ("compute_task_def", get VNone (dict_new DCTD (VDict DPlain [(skey "task_id", VStr (u "mine")); (skey "subtask_id", VStr (u "mine too"))])));
     ("want_to_compute_task", ex_wtct); ("size", VInt 1000); ("price", VInt 5)]%string).
Definition ex_bad_rct : pyval := Eval vm_compute in signed prov_key (make (now0 + 10) MReportComputedTask [("task_to_compute", ex_bad_ttc)]%string).
Definition bs_bad_rct : bytes := Eval vm_compute in dump0 ex_bad_rct.

Definition ex_peer : pyval := Eval vm_compute in get VNone (dict_new DPeer (VDict DPlain
  [(skey "address", VStr (u "10.0.0.1")); (skey "port", VInt 40102); (skey "node", VDict DPlain [(skey "node_name", VStr (u "n"))])])).
Definition ex_peers : pyval := Eval vm_compute in signed req_key (make now0 MPeers [("peers", VList [ex_peer; ex_peer])]%string).
Definition ex_tasks : pyval := Eval vm_compute in signed req_key (make now0 MTasks [("tasks", VList [ex_header_obj])]%string).

(** (class number, number of items in the slot) of a loaded message *)
Definition items_in (k : string) (r : result pyval) : option (Z * nat) :=
  match r with
  | Ok (VMsg c _ _ _ _ a) => match attr_get_or_none k a with VList l => Some (type_of c, List.length l) | _ => None end
  | _ => None
  end.
