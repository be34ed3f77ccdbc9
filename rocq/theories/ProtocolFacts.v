(** * The protocol as a peer sees it: type numbers, slot names and values on the wire *)
From Verif Require Export OwnFacts VetFacts ValidFacts NestFacts.

(** ** Tables, by type number *)
(** types whose signature nobody checks *)
Definition unsigned_types : list Z := [1001; 1002; 1003; 1004; 1005; 1008; 1009; 1010; 1011; 1012; 1013; 1014].
(** a slot holding messages: type number of the holder, slot name, type number of what it
    holds, whether the slot is required, whether it holds a list *)
Definition nested_slots : list (Z * string * Z * bool * bool) := [
   (1017, "remove_tasks", 1007, true, true); (2002, "want_to_compute_task", 2001, true, false);
   (2004, "task_to_compute", 2002, true, false); (2010, "report_computed_task", 2004, true, false);
   (2011, "report_computed_task", 2004, true, false); (2011, "force_get_task_result_failed", 4011, false, false);
   (2015, "task_to_compute", 2002, true, false); (2026, "task_to_compute", 2002, true, false);
   (2029, "report_computed_task", 2004, true, false); (2030, "attached_task_to_compute", 2002, false, false);
   (2030, "task_failure", 2015, false, false); (2030, "cannot_compute_task", 2026, false, false);
   (4000, "task_to_compute", 2002, false, false); (4001, "report_computed_task", 2004, true, false);
   (4004, "force_report_computed_task", 4001, true, false); (4004, "ack_report_computed_task", 2029, true, false);
   (4006, "subtask_results_rejected", 2011, true, false); (4007, "subtask_results_verify", 4006, true, false);
   (4007, "file_transfer_token", 4005, true, false); (4008, "task_to_compute", 2002, true, false);
   (4009, "report_computed_task", 2004, true, false); (4010, "force_get_task_result", 4009, true, false);
   (4011, "task_to_compute", 2002, true, false); (4012, "force_get_task_result", 4009, true, false);
   (4013, "force_get_task_result", 4009, true, false); (4013, "file_transfer_token", 4005, true, false);
   (4014, "force_get_task_result", 4009, true, false); (4014, "file_transfer_token", 4005, true, false);
   (4015, "ack_report_computed_task", 2029, true, false); (4016, "subtask_results_accepted", 2010, false, false);
   (4016, "subtask_results_rejected", 2011, false, false); (4017, "force_subtask_results", 4015, true, false);
   (4018, "subtask_results_accepted_list", 2010, true, true); (4020, "force_payment", 4018, true, false);
   (4021, "ack_report_computed_task", 2029, false, false); (4021, "reject_report_computed_task", 2030, false, false)]%string.
(** a slot holding an enumeration member: holder, slot name, the texts allowed on the wire *)
Definition enum_slots : list (Z * string * list string) := [
   (2, "reason",
    ["duplicate_peers"; "too_many_peers"; "refresh"; "unverified"; "protocol_version"; "bad_protocol"; "timeout";
     "no_more_messages"; "wrong_encryption"; "resource_handshake"; "key_not_difficult"; "bootstrap"]);
   (2003, "reason",
    ["NotMyTask"; "NoMoreSubtasks"; "TaskFinished"; "ConcentDisabled"]);
   (2011, "reason",
    ["Results verification negative"; "Concent could not retrieve resources to verify";
     "Concent results verification negative"; "Concent reported failure to retrieve the resources to verify";
     "Could not retrieve resources"]);
   (2015, "reason",
    ["ComputationError"; "BudgetExceeded"; "TimeExceeded"]);
   (2026, "reason",
    ["CannotTakeWork"; "WrongCTD"; "WrongKey"; "WrongAddress"; "WrongEnvironment"; "NoSourceCode";
     "WrongDockerImages"; "ConcentRequired"; "ConcentDisabled"; "InsufficientBalance"; "InsufficientDeposit";
     "TooShortDeposit"; "PromissoryNoteMissing"; "OfferCancelled"; "ResourcesTooBig"]);
   (2030, "reason",
    ["SubtaskTimeLimitExceeded"; "GotMessageCannotComputeTask"; "GotMessageTaskFailure"]);
   (4000, "reason",
    ["TOO_SMALL_COMMUNICATION_PAYMENT"; "TOO_SMALL_REQUESTOR_DEPOSIT"; "TOO_SMALL_PROVIDER_DEPOSIT";
     "SYSTEM_OVERLOADED"; "DUPLICATE_REQUEST"; "REQUEST_FORMAT_OR_CONTENT_INVALID";
     "CONCENT_SERVICE_IS_NOT_ENABLED_FOR_THIS_SUBTASK"; "UNSUPPORTED_PROTOCOL_VERSION"; "PRICE_NOT_POSITIVE"]);
   (4005, "operation",
    ["upload"; "download"]);
   (4008, "origin",
    ["results_accepted_timeout"; "results_rejected"]);
   (4012, "reason",
    ["acceptance_time_limit_exceeded"]);
   (4017, "reason",
    ["premature: still within the verification timeout"; "too late: past the forced communication timeout"]);
   (4019, "recipient_type",
    ["requestor"; "provider"]);
   (4020, "reason",
    ["no unsettled tasks found"; "timestamp error - subtasks are not overdue yet"]);
   (4021, "reason",
    ["ack_from_requestor"; "reject_from_requestor"; "subtask_timeout"; "concent_ack"])]%string.
(** who signs a message about a task *)
Definition signers : list (Z * list owner) := [
   (2002, [ORequestor]); (2004, [OProvider]); (2010, [ORequestor]); (2011, [ORequestor; OConcent]);
   (2015, [OProvider]); (2026, [OProvider]); (2029, [ORequestor; OConcent]); (2030, [ORequestor; OConcent]);
   (4000, [OConcent]); (4001, [OProvider; OConcent]); (4004, [OConcent]); (4006, [OProvider]); (4007, [OConcent]);
   (4008, [OConcent]); (4009, [ORequestor]); (4010, [OConcent]); (4011, [OConcent]); (4012, [OConcent]);
   (4013, [OConcent]); (4014, [OConcent]); (4015, [OProvider; OConcent]); (4016, [OConcent]); (4017, [OConcent]);
   (4021, [OConcent])].
(** the slots of each type, in the order in which they are sent *)
Definition wire_slots : list (Z * list string) := [ (0, ["rand_val"; "proto_id"; "node_info"; "port"; "client_ver";
   "solve_challenge"; "challenge"; "difficulty"; "metadata"]); (1, ["rand_val"]); (2, ["reason"]); (3,
   ["solution"]); (1001, []); (1002, []); (1003, []); (1004, ["peers"]); (1005, []); (1006, ["tasks"]); (1007,
   ["task_id"]); (1008, []); (1009, ["resource_peers"]); (1010, ["degree"]); (1011, ["gossip"]); (1012, []); (1013,
   ["node_id"; "loc_rank"]); (1014, ["node_key_id"]); (1015, ["node_info"; "conn_id"; "super_node_info"]); (1016,
   ["key_id"; "node_info"; "conn_id"; "super_node_info"]); (1017, ["remove_tasks"]); (2001, ["perf_index";
   "cpu_usage"; "max_resource_size"; "max_memory_size"; "price"; "num_subtasks"; "concent_enabled"; "extra_data";
   "provider_public_key"; "provider_ethereum_address"; "task_header"]); (2002, ["requestor_id";
   "requestor_public_key"; "requestor_ethereum_public_key"; "provider_id"; "compute_task_def";
   "want_to_compute_task"; "package_hash"; "size"; "concent_enabled"; "price"; "resources_options"; "ethsig";
   "promissory_note_sig"; "concent_promissory_note_sig"]); (2003, ["task_id"; "reason"]); (2004, ["address";
   "node_info"; "port"; "key_id"; "extra_data"; "task_to_compute"; "size"; "package_hash"; "multihash"; "secret";
   "options"; "stats"]); (2010, ["payment_ts"; "report_computed_task"]); (2011, ["report_computed_task";
   "force_get_task_result_failed"; "reason"]); (2015, ["task_to_compute"; "err"; "reason"]); (2016, ["conn_id"]);
   (2026, ["task_to_compute"; "reason"]); (2027, ["subtask_id"; "reward"; "transaction_id"; "block_number"]); (2028,
   ["subtask_id"]); (2029, ["report_computed_task"]); (2030, ["attached_task_to_compute"; "task_failure";
   "cannot_compute_task"; "reason"]); (3001, ["copies"; "resource"]); (3002, ["resource"]); (3003, ["resource"]);
   (3004, ["resource"]); (3005, ["resource"; "has_resource"]); (3008, ["resource"; "options"]); (3009, ["nonce"]);
   (3010, ["accepted"; "nonce"]); (4000, ["task_to_compute"; "reason"]); (4001, ["report_computed_task";
   "result_hash"]); (4004, ["force_report_computed_task"; "ack_report_computed_task"]); (4005, ["subtask_id";
   "token_expiration_deadline"; "storage_cluster_address"; "authorized_client_public_key"; "operation"; "files"]);
   (4006, ["subtask_results_rejected"; "concent_promissory_note_sig"]); (4007, ["subtask_results_verify";
   "file_transfer_token"]); (4008, ["origin"; "task_to_compute"]); (4009, ["report_computed_task"]); (4010,
   ["force_get_task_result"]); (4011, ["task_to_compute"]); (4012, ["force_get_task_result"; "reason"]); (4013,
   ["force_get_task_result"; "file_transfer_token"]); (4014, ["force_get_task_result"; "file_transfer_token"]);
   (4015, ["ack_report_computed_task"]); (4016, ["subtask_results_accepted"; "subtask_results_rejected"]); (4017,
   ["force_subtask_results"; "reason"]); (4018, ["subtask_results_accepted_list"]); (4019, ["payment_ts";
   "task_owner_key"; "provider_eth_account"; "amount_paid"; "recipient_type"; "amount_pending"]); (4020,
   ["force_payment"; "reason"]); (4021, ["reason"; "ack_report_computed_task"; "reject_report_computed_task"]);
   (4022, ["client_public_key"])]%string.
(** where a message about a task looks for its task, in order *)
Definition provider_slots : list (Z * list string) := [ (2002, []); (2004, ["task_to_compute"]); (2010,
   ["report_computed_task"]); (2011, ["report_computed_task"]); (2015, ["task_to_compute"]); (2026,
   ["task_to_compute"]); (2029, ["report_computed_task"]); (2030, ["attached_task_to_compute"; "task_failure";
   "cannot_compute_task"]); (4000, ["task_to_compute"]); (4001, ["report_computed_task"]); (4004,
   ["force_report_computed_task"; "ack_report_computed_task"]); (4006, ["subtask_results_rejected"]); (4007,
   ["subtask_results_verify"]); (4008, ["task_to_compute"]); (4009, ["report_computed_task"]); (4010,
   ["force_get_task_result"]); (4011, ["task_to_compute"]); (4012, ["force_get_task_result"]); (4013,
   ["force_get_task_result"]); (4014, ["force_get_task_result"]); (4015, ["ack_report_computed_task"]); (4016,
   ["subtask_results_accepted"; "subtask_results_rejected"]); (4017, ["force_subtask_results"]); (4021,
   ["ack_report_computed_task"; "reject_report_computed_task"])]%string.

Lemma unsigned_rows c : In (type_of c) unsigned_types <-> signs c = false.
Proof. destruct c; vm_compute; intuition discriminate. Qed.
Lemma signer_rows c os : In (type_of c, os) signers <-> is_task_message c = true /\ os = expected_owners c.
Proof.
  split.
  - destruct c; vm_compute; intros H; repeat (destruct H as [H|H]; [try discriminate H; injection H as <-; split; reflexivity|]); destruct H.
  - intros [T ->]. destruct c; try discriminate T; vm_compute; auto 30.
Qed.
Lemma nested_rows c k t req il : In (type_of c, k, t, req, il) nested_slots <->
  exists d, slot_kind c k = KMsg d (negb req) il /\ type_of d = t.
Proof.
  split.
  - assert (H : forallb (fun r => let '(n, k, t, req, il) := r in
       existsb (fun c => (type_of c =? n) && match slot_kind c k with
          KMsg d an l => Bool.eqb an (negb req) && Bool.eqb l il && (type_of d =? t) | _ => false end) all_classes) nested_slots = true)
      by (vm_compute; reflexivity).
    intros Hin. rewrite forallb_forall in H. specialize (H _ Hin). cbv beta iota in H. apply existsb_exists in H as (c' & _ & H).
    apply andb_true_iff in H as [H1 H2]. apply Z.eqb_eq, type_of_inj in H1. subst c'.
    destruct (slot_kind c k) as [| |d an l| | | | | | | | | |]; try discriminate H2.
    apply andb_true_iff in H2 as [H2 H3]. apply andb_true_iff in H2 as [H2 H4]. apply Bool.eqb_prop in H2, H4. apply Z.eqb_eq in H3. subst. eauto.
  - intros (d & K & <-).
    assert (Hin : In (k, KMsg d (negb req) il) (slot_table c)).
    { destruct (slot_kind_cases c k) as [H|H]; [rewrite K in H; exact H|rewrite (slot_kind_default _ _ H) in K; discriminate K]. }
    assert (H : forallb (fun c => forallb (fun p => match snd p with
        | KMsg d an il => existsb (fun r => let '(n, k, t, req, l) := r in
            (n =? type_of c) && String.eqb k (fst p) && (t =? type_of d) && Bool.eqb req (negb an) && Bool.eqb l il) nested_slots
        | _ => true end) (slot_table c)) all_classes = true) by (vm_compute; reflexivity).
    pose proof (for_all_classes _ H c) as G. cbv beta in G. rewrite forallb_forall in G. specialize (G _ Hin). cbn [fst snd] in G.
    apply existsb_exists in G as ([[[[n k'] t] rq] l] & Hr & G).
    repeat (apply andb_true_iff in G as [G ?]).
    repeat match goal with
    | X : Bool.eqb _ _ = true |- _ => apply Bool.eqb_prop in X
    | X : (_ =? _)%Z = true |- _ => apply Z.eqb_eq in X
    | X : String.eqb _ _ = true |- _ => apply String.eqb_eq in X
    end. subst. rewrite Bool.negb_involutive in Hr. exact Hr.
Qed.
Lemma enum_rows c k vals : In (type_of c, k, vals) enum_slots <-> exists e, slot_kind c k = KEnum e /\ members e = vals.
Proof.
  split.
  - assert (H : Forall (fun r => let '(n, k, vals) := r in
       exists c e, type_of c = n /\ slot_kind c k = KEnum e /\ members e = vals) enum_slots).
    { unfold enum_slots.
      repeat (constructor; [first
        [ exists MDisconnect, EnDisconnect; vm_compute; tauto | exists MCannotAssignTask, EnCannotAssign; vm_compute; tauto
        | exists MSubtaskResultsRejected, EnSRR; vm_compute; tauto | exists MTaskFailure, EnTaskFailure; vm_compute; tauto
        | exists MCannotComputeTask, EnCannotCompute; vm_compute; tauto | exists MRejectReportComputedTask, EnRejectRCT; vm_compute; tauto
        | exists MServiceRefused, EnServiceRefused; vm_compute; tauto | exists MFileTransferToken, EnFTTOperation; vm_compute; tauto
        | exists MSubtaskResultsSettled, EnSettledOrigin; vm_compute; tauto | exists MForceGetTaskResultRejected, EnFGTRRejected; vm_compute; tauto
        | exists MForceSubtaskResultsRejected, EnFSRRejected; vm_compute; tauto | exists MForcePaymentCommitted, EnActor; vm_compute; tauto
        | exists MForcePaymentRejected, EnForcePaymentRejected; vm_compute; tauto
        | exists MForceReportComputedTaskResponse, EnFRCTResponse; vm_compute; tauto ]|]). constructor. }
    intros Hin. rewrite Forall_forall in H. destruct (H _ Hin) as (c' & e & T & K & M). apply type_of_inj in T. subst c'. eauto.
  - intros (e & K & <-).
    assert (Hin : In (k, KEnum e) (slot_table c)).
    { destruct (slot_kind_cases c k) as [H|H]; [rewrite K in H; exact H|rewrite (slot_kind_default _ _ H) in K; discriminate K]. }
    clear K. destruct c; cbn [slot_table In] in Hin; repeat (destruct Hin as [Hin|Hin]; [try discriminate Hin; injection Hin as <- <-; vm_compute; tauto|]); destruct Hin.
Qed.

(** ** Senders *)
Lemma msg_init_class E now c h sig s kw m : msg_init E now c h sig s kw = Ok m -> exists ty ts enc sg a, m = VMsg c ty ts enc sg a.
Proof.
  unfold msg_init. intros H.
  repeat match goal with
  | X : bind _ _ = Ok _ |- _ => apply bind_ok in X as (? & ? & X)
  | X : match ?x with _ => _ end = Ok _ |- _ => destruct x; try discriminate X
  end; apply Ok_inj in H; subst m; eauto 8.
Qed.
Lemma unsigned_sender E now msg decf ct pub : In (be_dec (firstn 2 msg)) unsigned_types ->
  deserialize E now msg decf ct pub = deserialize E now msg decf ct None.
Proof.
  intros H. unfold deserialize. destruct (Nat.leb _ _); [reflexivity|].
  destruct (deserialize_header _) as [[[ty ts] enc]|] eqn:D; cbn [bind]; [|reflexivity].
  assert (T : ty = be_dec (firstn 2 msg)).
  { unfold deserialize_header in D. destruct (unpack_header (firstn HDR_LEN msg)) as [[[t s] e]|] eqn:U; [|discriminate D]. cbn [bind] in D.
    destruct (negb _); [discriminate D|]. destruct (negb _); [discriminate D|]. apply Ok_inj in D. apply unpack_type in U.
    rewrite firstn_firstn in U. change (Nat.min 2 HDR_LEN) with 2%nat in U. congruence. }
  destruct (if ct then _ else _); cbn [bind]; [|reflexivity]. destruct (getitem library ty) as [c|] eqn:G; cbn [bind]; [|reflexivity].
  apply registry_number in G. rewrite <- T, G in H. apply unsigned_rows in H.
  assert (B : forall t data kw, base_load E c t ts enc data decf pub kw = base_load E c t ts enc data decf None kw).
  { intros. unfold base_load. cbv zeta. destruct (decrypted _ _ _); cbn [bind]; [|reflexivity]. destruct (loads _ _); cbn [bind]; [|reflexivity].
    destruct (msg_init _ _ _ _ _ _ _) as [m|] eqn:M; cbn [bind]; [|reflexivity].
    apply msg_init_class in M as (y1 & y2 & y3 & y4 & y5 & ->). unfold check_sender. rewrite H, !andb_false_r. reflexivity. }
  destruct c; try discriminate H; cbn [class_load]; rewrite ?B; reflexivity.
Qed.
Lemma signed_sender E now msg decf ct k1 k2 m1 m2 : ~ In (be_dec (firstn 2 msg)) unsigned_types -> k1 <> [] -> k2 <> [] ->
  deserialize E now msg decf ct (Some k1) = Ok m1 -> deserialize E now msg decf ct (Some k2) = Ok m2 -> k1 = k2.
Proof.
  intros H N1 N2 H1 H2.
  apply (sender_exact _ _ _ _ _ _ _ N1) in H1 as (_ & ty & ts & enc & c & p & sg & a & h & _ & U & G & P & D & V).
  apply (sender_exact _ _ _ _ _ _ _ N2) in H2 as (_ & ty' & ts' & enc' & c' & p' & sg' & a' & h' & _ & U' & G' & P' & D' & V').
  assert (ty' = ty /\ ts' = ts /\ enc' = enc) as (-> & -> & ->) by (repeat split; congruence).
  assert (c' = c) by congruence. subst c'. assert (p' = p) by congruence. subst p'. assert (h' = h) by congruence. subst h'.
  assert (S : signs c = true).
  { destruct (signs c) eqn:S; [reflexivity|]. exfalso. apply H. apply unsigned_rows in S. apply registry_number in G. rewrite G in U.
    apply unpack_type in U. rewrite firstn_firstn in U. change (Nat.min 2 11) with 2%nat in U. rewrite U. exact S. }
  destruct (V S) as [_ R]. destruct (V' S) as [_ R']. rewrite R in R'. injection R'. auto.
Qed.

(** ** Slots *)
Lemma nested_declared E now bs decf ct pub m p c ty ts enc sig a k t req il :
  deserialize E now bs decf ct pub = Ok m -> follow p m = Some (VMsg c ty ts enc sig a) -> In (type_of c, k, t, req, il) nested_slots ->
  exists w, attr_get k a = Some w /\
    (w = VNone \/
     (il = false /\ exists d ty' ts' enc' sig' b, type_of d = t /\ w = VMsg d ty' ts' enc' sig' b) \/
     (il = true /\ exists l, w = VList l /\ l <> [] /\
        Forall (fun x => exists d ty' ts' enc' sig' b, type_of d = t /\ x = VMsg d ty' ts' enc' sig' b) l)).
Proof.
  intros H F R. apply nested_rows in R as (d & K & <-).
  destruct (declared_classes _ _ _ _ _ _ _ _ _ _ _ _ _ _ _ _ _ _ _ H F eq_refl K) as (w & Hw & Q). exists w. split; [exact Hw|].
  destruct Q as [Q|[(Hl & y1 & y2 & y3 & y4 & b & ->)|(Hl & l & -> & Nl & Fl)]]; [left; exact Q|right; left|right; right].
  - split; [exact Hl|]. exists d, y1, y2, y3, y4, b. auto.
  - split; [exact Hl|]. exists l. split; [reflexivity|]. split; [exact Nl|]. eapply Forall_impl; [|exact Fl].
    cbv beta. intros x (y1 & y2 & y3 & y4 & b & ->). exists d, y1, y2, y3, y4, b. auto.
Qed.
Lemma follow_loaded E now bs decf ct pub m p c ty ts enc sig a :
  deserialize E now bs decf ct pub = Ok m -> follow p m = Some (VMsg c ty ts enc sig a) ->
  exists a0, loaded c a0 /\ forall k, In k (slot_names c) -> attr_get k a = attr_get k a0.
Proof.
  intros H Hp. apply deserialize_loaded in H as (c0 & t & en & sg & v & a0 & -> & L & _).
  destruct (mcls_eqb c0 MHello) eqn:Q.
  - apply mcls_eqb_eq in Q. subst c0. destruct p as [|[k0 i] p]; cbn [follow] in Hp.
    + apply Some_inj in Hp. assert (c = MHello) by congruence. subst c. exists a0. split; [exact L|].
      intros k Hk. assert (a = full MHello v a0) by congruence. subst a. unfold full. destruct L as [F _ _]. rewrite <- F in Hk.
      clear -Hk. induction a0 as [|[k1 x] a0 IH]; [destruct Hk|]. cbn [attr_get app map fst] in *. destruct (String.eqb_spec k1 k) as [|Nk]; [reflexivity|].
      apply IH. destruct Hk; [contradiction|assumption].
    + destruct (slot_kind MHello k0) as [| |d0 an0 il0| | | | | | | | | |] eqn:K0; try discriminate. pose proof (rank_decreases _ _ _ _ _ K0) as R. cbn in R. lia.
  - assert (N : c0 <> MHello) by (intros ->; discriminate Q). rewrite full_not_hello in Hp by exact N.
    destruct (loaded_follow _ _ _ _ _ _ _ _ L Hp) as [Q'|(d0 & ty' & ts' & en' & sg' & b & Q' & Lb)]; [discriminate|].
    assert (d0 = c /\ b = a) as [-> ->] by (split; congruence). exists a. split; [exact Lb|auto].
Qed.
Lemma follow_slot E now bs decf ct pub m p c ty ts enc sig a k :
  deserialize E now bs decf ct pub = Ok m -> follow p m = Some (VMsg c ty ts enc sig a) -> In k (slot_names c) ->
  exists w, attr_get k a = Some w /\ loaded_val (slot_kind c k) w.
Proof.
  intros H F Hk. destruct (follow_loaded _ _ _ _ _ _ _ _ _ _ _ _ _ _ H F) as (a0 & [K V _] & Q).
  pose proof Hk as Hk'. rewrite <- K in Hk'. destruct (attr_get_some _ _ Hk') as (w & Hw & Hin). exists w. split; [rewrite Q by exact Hk; exact Hw|].
  exact (proj2 (V _ _ Hin)).
Qed.
Lemma enum_declared E now bs decf ct pub m p c ty ts enc sig a k vals :
  deserialize E now bs decf ct pub = Ok m -> follow p m = Some (VMsg c ty ts enc sig a) -> In (type_of c, k, vals) enum_slots ->
  exists w, attr_get k a = Some w /\ (w = VNone \/ exists e s, w = VEnum e s /\ In s vals).
Proof.
  intros H F R. apply enum_rows in R as (e & K & <-).
  assert (Hk : In k (slot_names c)).
  { destruct (slot_kind_cases c k) as [Q|Q]; [apply (in_map fst) in Q; exact Q|rewrite (slot_kind_default _ _ Q) in K; discriminate K]. }
  destruct (follow_slot _ _ _ _ _ _ _ _ _ _ _ _ _ _ _ H F Hk) as (w & Hw & V). exists w. split; [exact Hw|].
  rewrite K in V. destruct V as [[V|[V|[V _]]] _]; [left; exact V| |discriminate V]. cbn [val_ok] in V.
  destruct V as [V|(s & V & Hs)]; [left; exact V|right; eauto].
Qed.
(** messages are nowhere else *)
Lemma not_nested E now bs decf ct pub m p c ty ts enc sig a k w :
  deserialize E now bs decf ct pub = Ok m -> follow p m = Some (VMsg c ty ts enc sig a) -> In k (slot_names c) -> attr_get k a = Some w ->
  (forall t req il, ~ In (type_of c, k, t, req, il) nested_slots) ->
  (forall d ty' ts' enc' sig' b, w <> VMsg d ty' ts' enc' sig' b) /\
  (forall l d ty' ts' enc' sig' b, w = VList l -> ~ In (VMsg d ty' ts' enc' sig' b) l).
Proof.
  intros H F Hk Hw R. destruct (follow_slot _ _ _ _ _ _ _ _ _ _ _ _ _ _ _ H F Hk) as (w' & Hw' & V). assert (w' = w) by congruence. subst w'.
  assert (NM : forall d an il, slot_kind c k <> KMsg d an il).
  { intros d an il K. apply (R (type_of d) (negb an) il). apply nested_rows. exists d. rewrite Bool.negb_involutive. auto. }
  destruct V as [V [_ C]].
  assert (G : w = VNone \/ val_ok (slot_kind c k) w \/ (slot_kind c k = KNode /\ truthy w = false)) by exact V. clear V.
  assert (P : slot_kind c k = KPlain -> encb w = true \/ exists e s, w = VEnum e s).
  { intros K. rewrite K in C. cbn [ser_clean ser_plain] in C. specialize (C k _ eq_refl). destruct C as [C _].
    destruct w; try (left; exact C). right. eauto. }
  clear C. split.
  - intros d y1 y2 y3 y4 b ->. destruct G as [G|[G|[_ G]]]; [discriminate G| |discriminate G].
    destruct (slot_kind c k) as [| |d0 an il| | | | | | | | | |]; cbn [val_ok] in G;
      try (destruct G as [G|G]; [discriminate G|]); try (destruct G as (x & G); first [discriminate G|destruct G as [G _]; discriminate G]).
    + destruct (P eq_refl) as [Q|(e & x & Q)]; discriminate Q.
    + eapply NM. reflexivity.
  - intros l d y1 y2 y3 y4 b -> Hin. destruct G as [G|[G|[_ G]]]; [discriminate G| |destruct l; [destruct Hin|discriminate G]].
    destruct (slot_kind c k) as [| |d0 an il| | | | | | | | | |]; cbn [val_ok] in G;
      try (destruct G as [G|G]; [discriminate G|]); try (destruct G as (x & G); first [discriminate G|destruct G as [G _]; discriminate G]).
    + destruct (P eq_refl) as [Q|(e & x & Q)]; [|discriminate Q]. cbn [encb] in Q. rewrite forallb_forall in Q. specialize (Q _ Hin). discriminate Q.
    + eapply NM. reflexivity.
    + destruct G as (x & G & FF). injection G as <-. rewrite Forall_forall in FF. destruct (FF _ Hin) as (kvs & Q & _). discriminate Q.
    + destruct G as (x & G & FF). injection G as <-. rewrite Forall_forall in FF. destruct (FF _ Hin) as (kvs & Q & _). discriminate Q.
    + destruct G as (x & G & FF). injection G as <-. rewrite Forall_forall in FF. destruct (FF _ Hin) as (kvs & Q & _). discriminate Q.
Qed.

(** ** Owners *)
Lemma owner_declared E c ty ts enc sig a concent : a_key concent ->
  let m := VMsg c ty ts enc sig a in
  validate_ownership E m concent = Ok tt ->
  exists os o pk rk, In (type_of c, os) signers /\ chain_keys m pk rk /\ In o os /\ signed_by E m (owner_key pk rk concent o).
Proof.
  intros K m H. assert (T : is_task_message c = true).
  { unfold m in H. cbn [validate_ownership] in H. destruct (is_task_message c); [reflexivity|discriminate H]. }
  apply (ownership_iff E c ty ts enc sig a concent T K) in H as (pk & rk & Hk & _ & pre & o & post & Ho & _ & Hs).
  exists (expected_owners c), o, pk, rk. split; [apply signer_rows; auto|]. split; [exact Hk|]. split; [|exact Hs].
  rewrite Ho. apply in_or_app. right. left. reflexivity.
Qed.
Lemma owner_signed E c ty ts enc sig a concent pk rk priv sec pub m' os : crypto_ok (cr E) -> a_key concent -> In (type_of c, os) signers ->
  let m := VMsg c ty ts enc sig a in
  chain_keys m pk rk -> (c = MTaskToCompute -> header_signed E m rk) ->
  secret_of (cr E) priv = Some sec -> pub_of (cr E) sec = Some pub -> sign_message E m priv = Ok m' ->
  (forall o, In o os -> key64 (owner_key pk rk concent o)) ->
  (validate_ownership E m' concent = Ok tt <-> exists o, In o os /\ owner_key pk rk concent o = VBytes pub).
Proof.
  intros HC K R m Hk Hh S P Hm H64. apply signer_rows in R as [T ->]. eapply ownership_signed; eassumption.
Qed.

(** ** What may be sent in a slot *)
Lemma required_sent n c s a k t il v : load_attrs n c s = Ok a -> In (type_of c, k, t, true, il) nested_slots ->
  dict_get (skey k) (sent_slots s) = Some v -> attr_get_or_none k (post_init c a) <> VNone.
Proof.
  intros H R Hv. apply nested_rows in R as (d & K & _). cbn [negb] in K. pose proof (sent_present _ _ _ _ _ _ _ _ H K) as G. cbv zeta in G.
  rewrite Hv in G. destruct G as [[G _]|[(y1 & y2 & y3 & y4 & b & G)|(l & G)]]; [discriminate G| |]; rewrite G; discriminate.
Qed.
Lemma enum_sent n c s a k vals v : load_attrs n c s = Ok a -> In (type_of c, k, vals) enum_slots ->
  dict_get (skey k) (sent_slots s) = Some v -> (forall e x, v <> VEnum e x) ->
  (v = VNone /\ attr_get_or_none k a = VNone) \/
  exists e x, In x vals /\ v = VStr (u x) /\ attr_get_or_none k a = VEnum e x.
Proof.
  intros H R Hv Ne. apply enum_rows in R as (e & K & <-). destruct n as [|n]; [discriminate H|].
  assert (Hk : In k (slot_names c)).
  { destruct (slot_kind_cases c k) as [Q|Q]; [apply (in_map fst) in Q; exact Q|rewrite (slot_kind_default _ _ Q) in K; discriminate K]. }
  assert (N : c <> MStartSessionResponse) by (intros ->; destruct Hk as [<-|[]]; discriminate K).
  pose proof (load_attrs_slot _ _ _ _ _ H N Hk) as G. rewrite Hv in G. unfold deser_slot in G. rewrite K in G. cbn [deser_plain] in G.
  destruct (is_none v) eqn:Z0; [apply is_none_true in Z0; subst v; apply Ok_inj in G; left; auto|]. right.
  destruct (enum_call e v) as [m|] eqn:Q; [|discriminate G]. apply Ok_inj in G. subst m.
  unfold enum_call in Q. destruct v; cbn [str_of] in Q; try discriminate Q; [|exfalso; eapply Ne; reflexivity].
  destruct (find _ (members e)) as [x|] eqn:F; [|discriminate Q]. cbn [option_map] in Q. apply Some_inj in Q. apply find_some in F as [F1 F2].
  apply ustr_eqb_eq in F2. exists e, x. split; [exact F1|]. split; [congruence|]. congruence.
Qed.

(** ** Slots on the wire, and where the task is looked for *)
Definition same_names (x y : list string) : bool := if list_eq_dec string_dec x y then true else false.
Lemma same_names_eq x y : same_names x y = true -> x = y.
Proof. unfold same_names. destruct (list_eq_dec string_dec x y); [auto|discriminate]. Qed.
Lemma names_table (T : list (Z * list string)) (f : mcls -> option (list string)) :
  forallb (fun r => existsb (fun c => (type_of c =? fst r) && match f c with Some ks => same_names ks (snd r) | None => false end) all_classes) T = true ->
  forallb (fun c => match f c with Some ks => existsb (fun r => (fst r =? type_of c) && same_names ks (snd r)) T | None => true end) all_classes = true ->
  forall c ks, In (type_of c, ks) T <-> f c = Some ks.
Proof.
  intros H1 H2 c ks. split.
  - intros Hin. rewrite forallb_forall in H1. specialize (H1 _ Hin). apply existsb_exists in H1 as (c' & _ & H1). cbn [fst snd] in H1.
    apply andb_true_iff in H1 as [Q H1]. apply Z.eqb_eq, type_of_inj in Q. subst c'. destruct (f c) as [x|]; [|discriminate H1].
    apply same_names_eq in H1. congruence.
  - intros F. pose proof (for_all_classes _ H2 c) as G. cbv beta in G. rewrite F in G. apply existsb_exists in G as ([t x] & Hr & G).
    cbn [fst snd] in G. apply andb_true_iff in G as [Q G]. apply Z.eqb_eq in Q. apply same_names_eq in G. subst. exact Hr.
Qed.
Lemma wire_rows c ks : In (type_of c, ks) wire_slots <-> ks = slot_names c.
Proof.
  rewrite (names_table wire_slots (fun c => Some (slot_names c))); [|vm_compute; reflexivity|vm_compute; reflexivity]. split; congruence.
Qed.
Lemma provider_rows c ks : In (type_of c, ks) provider_slots <-> is_task_message c = true /\ ks = task_id_providers c.
Proof.
  rewrite (names_table provider_slots (fun c => if is_task_message c then Some (task_id_providers c) else None)); [|vm_compute; reflexivity|vm_compute; reflexivity].
  destruct (is_task_message c); split; [intros H; split; congruence|intros [_ ->]; reflexivity|discriminate|intros [H _]; discriminate H].
Qed.
Lemma sent_names c a s ks : slots c a = Ok s -> In (type_of c, ks) wire_slots ->
  exists l, s = VList l /\ Forall2 (fun k x => exists v, x = VList [VStr (u k); v]) ks l.
Proof.
  intros H R. apply wire_rows in R as ->. unfold slots, slot_list in H.
  destruct (collect _) as [l|e] eqn:C; [|discriminate H]. apply Ok_inj in H. subst s. exists l. split; [reflexivity|]. revert l C.
  induction (slot_names c) as [|k ks IH]; intros l C; cbn [map collect] in C.
  - apply Ok_inj in C. subst l. constructor.
  - destruct (assoc_or _ _ _) as [x|e]; [|discriminate C]. cbn [bind] in C. destruct (collect _) as [r|e] eqn:Q; [|discriminate C].
    apply Ok_inj in C. subst l. constructor; [exists x; reflexivity|]. apply IH. reflexivity.
Qed.
Lemma one_row c : exists ks, In (type_of c, ks) wire_slots /\ forall ks', In (type_of c, ks') wire_slots -> ks' = ks.
Proof. exists (slot_names c). split; [apply wire_rows; reflexivity|]. intros ks' H. apply wire_rows in H. exact H. Qed.
Lemma not_nested_row E now bs decf ct pub m p c ty ts enc sig a k ks w :
  deserialize E now bs decf ct pub = Ok m -> follow p m = Some (VMsg c ty ts enc sig a) -> In (type_of c, ks) wire_slots -> In k ks ->
  attr_get k a = Some w ->
  (forall t req il, ~ In (type_of c, k, t, req, il) nested_slots) ->
  (forall d ty' ts' enc' sig' b, w <> VMsg d ty' ts' enc' sig' b) /\
  (forall l d ty' ts' enc' sig' b, w = VList l -> ~ In (VMsg d ty' ts' enc' sig' b) l).
Proof. intros H F R Hk. apply wire_rows in R as ->. eapply not_nested; eassumption. Qed.
Lemma task_source c name ty ts enc sig a v ps : In (type_of c, ps) provider_slots -> type_of c <> 2002 -> In name chain_names -> ~ In name (slot_names c) ->
  (getattr name (VMsg c ty ts enc sig a) = Ok v <-> first_value name a ps v).
Proof.
  intros R N H NS. apply provider_rows in R as [T ->]. apply accessor_first; auto. intros ->. apply N. reflexivity.
Qed.
Lemma required_dumped c a k t il : In (type_of c, k, t, true, il) nested_slots -> attr_get k a = Some VNone -> forall s, slots c a <> Ok s.
Proof.
  intros R N s H. apply nested_rows in R as (d & K & _). cbn [negb] in K.
  assert (Hk : In k (slot_names c)).
  { destruct (slot_kind_cases c k) as [Q|Q]; [apply (in_map fst) in Q; exact Q|rewrite (slot_kind_default _ _ Q) in K; discriminate K]. }
  destruct (slots_at _ _ _ _ H Hk) as (x & l & _ & G & _). rewrite assoc_attr in G. rewrite N in G. unfold ser_slot, ser_slot_with in G. rewrite K in G. discriminate G.
Qed.

(** ** Containers *)
Definition wire_fields : list (ccls * list string) := [
  (CNode, ["node_name"; "key"; "prv_port"; "pub_port"; "p2p_prv_port"; "p2p_pub_port"; "prv_addr"; "pub_addr"; "prv_addresses";
           "hyperdrive_prv_port"; "hyperdrive_pub_port"; "port_statuses"; "nat_type"]);
  (CTaskHeader, ["mask"; "timestamp"; "signature"; "task_id"; "task_owner"; "deadline"; "subtask_timeout"; "market_type"; "environment";
                 "environment_prerequisites"; "min_version"; "estimated_memory"; "max_price"; "subtask_budget"; "subtasks_count";
                 "concent_enabled"]);
  (CBlockIo, ["io_merged_recursive"; "io_queue_recursive"; "io_service_bytes_recursive"; "io_service_time_recursive";
              "io_serviced_recursive"; "io_time_recursive"; "io_wait_time_recursive"; "sectors_recursive"]);
  (CCpu, ["cpu_usage"; "throttling_data"]);
  (CMemory, ["kernel_tcp_usage"; "kernel_usage"; "swap_usage"; "usage"; "cache"; "stats"; "use_hierarchy"]);
  (CPid, ["current"; "limit"]);
  (CProvider, ["blkio_stats"; "cpu_stats"; "memory_stats"; "pids_stats"]) ]%string.
Lemma field_row c : exists ks, In (c, ks) wire_fields /\ ks = cslots c.
Proof. eexists. split; [|reflexivity]. destruct c; cbn [wire_fields In cslots]; auto 10. Qed.
Lemma field_row_only c ks : In (c, ks) wire_fields -> ks = cslots c.
Proof. cbn [wire_fields In]. intros H. repeat (destruct H as [H|H]; [injection H as <- <-; reflexivity|]). destruct H. Qed.
Lemma fields_sent c ks : In (c, ks) wire_fields ->
  (forall kw a, cnew c kw = Ok (VObj c a) -> map fst a = ks) /\
  (forall a d, to_dict (VObj c a) = Ok d -> exists kvs, d = VDict DPlain kvs /\ map fst kvs = map skey ks).
Proof.
  intros H. apply field_row_only in H. subst ks. split.
  - intros kw a H. apply cnew_iff in H as (_ & a0 & E & F & _). congruence.
  - intros a d H. unfold to_dict in H. apply bind_ok in H as (kvs & Hk & H). apply Ok_inj in H. subst d. exists kvs. split; [reflexivity|].
    unfold to_dict_kvs in Hk. cbv zeta in Hk. revert kvs Hk. induction (cslots c) as [|k l IH]; intros kvs Hk; cbn [mapM] in Hk; [apply Ok_inj in Hk; subst; reflexivity|].
    apply bind_ok in Hk as (x & Hx & Hk). apply bind_ok in Hk as (r & Hr & Hk). apply Ok_inj in Hk. subst kvs.
    apply bind_ok in Hx as (y & _ & Hx). apply Ok_inj in Hx. subst x. cbn [map fst]. rewrite (IH r Hr). reflexivity.
Qed.
