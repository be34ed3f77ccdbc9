(** * What ownership validation raises *)
From Verif Require Import DisownFacts SampleLoads.

(** ** C85 *)
(** one message: what is raised is what the rules of [disowned] say *)
Theorem C85_raised :
  forall E c ty ts enc sig a concent e, is_task_message c = true -> a_key concent ->
  let m := VMsg c ty ts enc sig a in
  validate_ownership E m concent = Err e <-> disowned E concent m e.
Proof. exact disowned_iff. Qed.
Print Assumptions C85_raised.
(** what a key that is no hexadecimal text gives *)
Theorem C85_hex :
  forall v e, (forall n s, v <> VEnum n s) -> decode_hex v = Err e <-> bad_hex v e.
Proof. exact bad_hex_iff. Qed.
Print Assumptions C85_hex.
(** a chain: the messages are asked in the order of [visited], and the first that fails decides *)
Theorem C85_chain :
  forall E m concent l e, is_task_msg m = true -> visited m l ->
  validate_ownership_chain E m concent = Err e <->
  exists pre n post, l = pre ++ n :: post /\ Forall (fun x => validate_ownership E x concent = Ok tt) pre /\ validate_ownership E n concent = Err e.
Proof. exact chain_first. Qed.
Print Assumptions C85_chain.
(** every message has one such order, and it lists what C26 calls reachable *)
Theorem C85_order :
  forall m, (exists l, visited m l) /\ (forall l l', visited m l -> visited m l' -> l = l') /\
  (forall l, visited m l -> is_task_msg m = true -> forall n, In n l <-> reach m n).
Proof. intros m. split; [apply visited_exists|]. split; [apply visited_unique|apply visited_reach]. Qed.
Print Assumptions C85_order.
(** [verify_owners]: the provider's role, then the requestor's, then the chain *)
Theorem C85_owners :
  forall E m p r concent e, is_task_msg m = true ->
  verify_owners E m (opt_key p) (opt_key r) concent = Err e <->
  wrong_role "provider_public_key" m p e \/
  (role_fits "provider_public_key" m p /\ wrong_role "requestor_public_key" m r e) \/
  (role_fits "provider_public_key" m p /\ role_fits "requestor_public_key" m r /\ validate_ownership_chain E m concent = Err e).
Proof. exact owners_err. Qed.
Print Assumptions C85_owners.

(** [m] with another value in a slot, its signature kept *)
Definition put (k : string) (v m : pyval) : pyval :=
  match m with VMsg c ty ts enc sig a => VMsg c ty ts enc sig (attr_set k v a) | _ => m end.
Definition slot_of (k : string) (m : pyval) : pyval := get VNone (getattr k m).
Definition header_with (k : string) (v m : pyval) : pyval :=
  let w := slot_of "want_to_compute_task" m in
  put "want_to_compute_task" (put "task_header" (match slot_of "task_header" w with VObj c a => VObj c (attr_set k v a) | x => x end) w) m.
Definition owned (concent m : pyval) : option exn := match validate_ownership E0 m concent with Ok _ => None | Err e => Some e end.
Definition conc : pyval := VBytes (pub conc_key).
(** one message for each rule: a TaskToCompute without attachment, without header, with keys that are no keys, with the header
    unsigned or changed; then no provider's key and no requestor's key in the chain of a report; then the roles *)
Example C85_ex_message :
  map (owned conc) [ex_ttc; ex_rct; ex_ack; ex_verdict] = [None; None; None; None] /\
  map (owned conc)
    [put "want_to_compute_task" VNone ex_ttc;
     put "want_to_compute_task" (put "task_header" VNone (slot_of "want_to_compute_task" ex_ttc)) ex_ttc;
     put "requestor_public_key" VNone ex_ttc; put "requestor_public_key" (VStr [0x665; 0x665]) ex_ttc; put "requestor_public_key" (VStr (u "0x")) ex_ttc;
     put "requestor_public_key" (VStr (u "00")) ex_ttc;
     header_with "signature" VNone ex_ttc; header_with "subtasks_count" (VInt 99) ex_ttc;
     put "want_to_compute_task" (put "provider_public_key" (VStr (u "xyz")) (slot_of "want_to_compute_task" ex_ttc)) ex_ttc]%string =
    [Some EAttributeError; Some EAttributeError; Some ETypeError; Some EValueError; Some EBinasciiError; Some EInvalidKeys;
     Some EInvalidSignature; Some EInvalidSignature; Some EBinasciiError] /\
  map (owned conc)
    [put "task_to_compute" VNone ex_rct; put "task_to_compute" (put "want_to_compute_task" VNone ex_ttc) ex_rct;
     put "task_to_compute" (put "requestor_public_key" VNone ex_ttc) ex_rct; put "size" (VInt 99) ex_rct; signed req_key ex_rct]%string =
    [Some EAttributeError; Some EAttributeError; Some ETypeError; Some EInvalidSignature; Some EInvalidSignature] /\
  map (fun k => owned k (signed conc_key ex_ack)) [conc; VNone; VBytes []; VBytes (pub prov_key)] =
    [None; Some ETypeError; Some EInvalidKeys; Some EInvalidSignature] /\
  map (fun k => owned k ex_ack) [conc; VNone; VBytes []; VBytes (pub prov_key)] = [None; None; None; None] /\ a_key VNone /\ a_key conc.
Proof.
  split; [vm_compute; reflexivity|]. split; [vm_compute; reflexivity|]. split; [vm_compute; reflexivity|]. split; [vm_compute; reflexivity|].
  split; [vm_compute; reflexivity|]. split; [left; reflexivity|right; eexists; reflexivity].
Qed.

Fixpoint order (fuel : nat) (m : pyval) : list pyval :=
  match fuel, m with
  | S f, VMsg c _ _ _ _ a => if is_task_message c then m :: flat_map (fun k => order f (attr_get_or_none k a)) (slot_names c) else []
  | _, _ => []
  end.
Definition class_of (m : pyval) : option mcls := match m with VMsg c _ _ _ _ _ => Some c | _ => None end.
(** in a verdict the forced report comes before the acknowledgement, and its chain before that; with both changed the first is named *)
Example C85_ex_chain :
  map class_of (order 9 ex_verdict) =
    map Some [MVerdictReportComputedTask; MForceReportComputedTask; MReportComputedTask; MTaskToCompute;
              MAckReportComputedTask; MReportComputedTask; MTaskToCompute] /\
  validate_ownership_chain E0 ex_verdict conc = Ok tt /\
  (let m1 := signed conc_key (put "force_report_computed_task" (put "report_computed_task" VNone ex_force) ex_verdict) in
   let m2 := signed conc_key (put "ack_report_computed_task" (signed prov_key ex_ack) ex_verdict) in
   let m3 := signed conc_key (put "ack_report_computed_task" (signed prov_key ex_ack) m1) in
   map (fun m => validate_ownership_chain E0 m conc) [m1; m2; m3] = [Err EAttributeError; Err EInvalidSignature; Err EAttributeError]).
Proof. split; [|split]; vm_compute; reflexivity. Qed.
Example C85_ex_owners :
  map (fun pr => verify_owners E0 ex_verdict (opt_key (fst pr)) (opt_key (snd pr)) VNone)
    [(Some (pub prov_key), Some (pub req_key)); (Some (pub req_key), Some (pub prov_key)); (Some (pub prov_key), Some (pub prov_key)); (None, None)] =
    [Err ETypeError; Err EOwnershipMismatch; Err EOwnershipMismatch; Err ETypeError] /\
  verify_owners E0 ex_verdict (opt_key (Some (pub prov_key))) (opt_key (Some (pub req_key))) conc = Ok tt /\
  verify_owners E0 (make now0 MForceReportComputedTask []) (opt_key (Some (pub prov_key))) VNone conc = Err EAttributeError.
Proof. repeat split; vm_compute; reflexivity. Qed.
