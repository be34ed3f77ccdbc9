(** * Sample messages for the Examples beside the theorems: a provider, a
    requestor and Concent with toy keys, and one chain of task messages *)
From Verif Require Export Wire.

Definition E0 : env := {| cr := toy; our_version := u "2.12.1"; cdepth := 100 |}.
Definition prov_key : bytes := repeat x11 32.
Definition req_key : bytes := repeat x22 32.
Definition conc_key : bytes := repeat x33 32.
Definition eth_key : bytes := repeat x44 32.
Definition pub (k : bytes) : bytes := k ++ k.
Definition hex (b : bytes) : pyval := VStr (hexlify b).

Definition get {A} (d : A) (r : result A) : A := match r with Ok x => x | Err _ => d end.
Definition now0 : Z := 1600000000.
(** [C( **kw)] at time [t], signed by [k] *)
Definition make (t : Z) (c : mcls) (kw : attrs_t) : pyval := get VNone (msg_init E0 t c None VNone (VList []) kw).
Definition signed (k : bytes) (m : pyval) : pyval := get VNone (sign_message E0 m k).

Definition ex_node_kw : list (ustr * pyval) :=
  [(u "node_name", VStr (u "n")); (u "key", VStr (u "k")); (u "prv_port", VInt 40102); (u "prv_addr", VStr (u "10.0.0.1"))].
Definition ex_task_id : pyval := VStr (u "6aa5b6e2-f8a2-11ea-8b0b-222222222222").
Definition ex_header_obj : pyval := Eval vm_compute in
  match cnew CTaskHeader
    [(u "task_id", ex_task_id); (u "task_owner", VDict DPlain (map (fun kv => (VStr (fst kv), snd kv)) ex_node_kw));
     (u "subtasks_count", VInt 3); (u "min_version", VStr (u "2.12.0")); (u "timestamp", VInt now0);
     (u "mask", VBytes (zeros 32)); (u "market_type", VStr (u "Brass"))] with
  | Ok (VObj _ a) => match header_sign toy a req_key with Ok a' => VObj CTaskHeader a' | Err _ => VNone end
  | _ => VNone
  end.
Definition ex_wtct : pyval := Eval vm_compute in signed prov_key (make now0 MWantToComputeTask
  [("task_header", ex_header_obj); ("provider_public_key", hex (pub prov_key)); ("price", VInt 5);
   ("provider_ethereum_address", VStr (u "0x" ++ repeat 97 40)%list)]%string).
Definition ex_ttc_at (t : Z) : pyval :=
  let m := make t MTaskToCompute
    [("requestor_id", hex (pub req_key)); ("requestor_public_key", hex (pub req_key));
     ("requestor_ethereum_public_key", hex (pub eth_key)); ("provider_id", hex (pub prov_key));
     ("compute_task_def", get VNone (dict_new DCTD (VDict DPlain [(skey "task_id", ex_task_id); (skey "subtask_id", ex_task_id)])));
     ("want_to_compute_task", ex_wtct); ("size", VInt 1000); ("price", VInt 5)]%string in
  signed req_key (get VNone (generate_ethsig E0 m eth_key)).
Definition ex_ttc : pyval := Eval vm_compute in ex_ttc_at now0.
Definition ex_rct : pyval := Eval vm_compute in signed prov_key (make (now0 + 10) MReportComputedTask [("task_to_compute", ex_ttc)]%string).
Definition ex_ack : pyval := Eval vm_compute in signed req_key (make (now0 + 20) MAckReportComputedTask [("report_computed_task", ex_rct)]%string).
Definition ex_force : pyval := Eval vm_compute in signed prov_key (make (now0 + 30) MForceReportComputedTask [("report_computed_task", ex_rct)]%string).
Definition ex_verdict : pyval := Eval vm_compute in signed conc_key (make (now0 + 40) MVerdictReportComputedTask
  [("force_report_computed_task", ex_force); ("ack_report_computed_task", ex_ack)]%string).
Definition ex_sra : pyval := Eval vm_compute in signed req_key (make (now0 + 50) MSubtaskResultsAccepted
  [("payment_ts", VInt now0); ("report_computed_task", ex_rct)]%string).
Definition ex_srr : pyval := Eval vm_compute in signed req_key (make (now0 + 50) MSubtaskResultsRejected
  [("report_computed_task", ex_rct); ("reason", VerificationNegative)]%string).
Definition ex_payment : pyval := Eval vm_compute in signed prov_key (make (now0 + 60) MForcePayment
  [("subtask_results_accepted_list", VList [ex_sra; ex_sra])]%string).
Definition ex_hello : pyval := Eval vm_compute in make now0 MHello [("rand_val", VFloat 4607182418800017408); ("port", VInt 40102)]%string.
Definition ex_remove : pyval := Eval vm_compute in make now0 MRemoveTask [("task_id", ex_task_id)]%string.

(** a dump without encryption and the corresponding load *)
Definition dump0 (m : pyval) : bytes := get [] (snd (serialize E0 m None None)).
Definition load0 (pub : option bytes) (bs : bytes) : result pyval := deserialize E0 (now0 * 1000000) bs (fun b => Ok b) true pub.

Example samples_load :
  map (fun km => is_ok (load0 (Some (pub (fst km))) (dump0 (snd km))))
    [(req_key, ex_ttc); (prov_key, ex_rct); (req_key, ex_ack); (prov_key, ex_force); (conc_key, ex_verdict); (req_key, ex_sra);
     (req_key, ex_srr); (prov_key, ex_payment); (prov_key, ex_wtct)] = repeat true 9 /\
  is_ok (load0 None (dump0 ex_hello)) = true /\ is_ok (load0 None (dump0 ex_remove)) = true.
Proof. split; [|split]; vm_compute; reflexivity. Qed.
