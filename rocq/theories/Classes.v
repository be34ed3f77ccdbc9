(** * The shipped message classes (message/base.py, message/p2p.py,
    message/tasks.py, message/resources.py, message/concents.py): type numbers,
    slots and class attributes, as tables over [mcls]. *)
From Verif Require Export Data Register.

(** the [@library.register(...)] decorators in import order: message/__init__.py
    3-7 imports base, concents (which imports tasks first), p2p, resources *)
Definition registrations : list (Z * mcls) := [
  (* message/base.py 634-738 *)
  (0, MHello); (1, MRandVal); (2, MDisconnect); (3, MChallengeSolution);
  (* message/tasks.py 234-850, TASK_MSG_BASE = 2000 *)
  (2001, MWantToComputeTask); (2002, MTaskToCompute); (2003, MCannotAssignTask); (2004, MReportComputedTask);
  (2010, MSubtaskResultsAccepted); (2011, MSubtaskResultsRejected); (2015, MTaskFailure); (2016, MStartSessionResponse);
  (2026, MCannotComputeTask); (2027, MSubtaskPayment); (2028, MSubtaskPaymentRequest); (2029, MAckReportComputedTask);
  (2030, MRejectReportComputedTask);
  (* message/concents.py 15-642, CONCENT_MSG_BASE = 4000 *)
  (4000, MServiceRefused); (4001, MForceReportComputedTask); (4004, MVerdictReportComputedTask); (4005, MFileTransferToken);
  (4006, MSubtaskResultsVerify); (4007, MAckSubtaskResultsVerify); (4008, MSubtaskResultsSettled); (4009, MForceGetTaskResult);
  (4010, MAckForceGetTaskResult); (4011, MForceGetTaskResultFailed); (4012, MForceGetTaskResultRejected);
  (4013, MForceGetTaskResultUpload); (4014, MForceGetTaskResultDownload); (4015, MForceSubtaskResults);
  (4016, MForceSubtaskResultsResponse); (4017, MForceSubtaskResultsRejected); (4018, MForcePayment);
  (4019, MForcePaymentCommitted); (4020, MForcePaymentRejected); (4021, MForceReportComputedTaskResponse);
  (4022, MClientAuthorization);
  (* message/p2p.py 18-237, P2P_MESSAGE_BASE = 1000 *)
  (1001, MPing); (1002, MPong); (1003, MGetPeers); (1004, MPeers); (1005, MGetTasks); (1006, MTasks); (1007, MRemoveTask);
  (1008, MGetResourcePeers); (1009, MResourcePeers); (1010, MDegree); (1011, MGossip); (1012, MStopGossip); (1013, MLocRank);
  (1014, MFindNode); (1015, MWantToStartTaskSession); (1016, MSetTaskSession); (1017, MRemoveTaskContainer);
  (* message/resources.py 15-77, RESOURCE_MSG_BASE = 3000 *)
  (3001, MPushResource); (3002, MHasResource); (3003, MWantsResource); (3004, MPullResource); (3005, MPullAnswer);
  (3008, MResourceHandshakeStart); (3009, MResourceHandshakeNonce); (3010, MResourceHandshakeVerdict)].

(** register.py 38: [library], after all modules are imported *)
Definition library : register mcls := run_register mcls_eqb registrations empty_register.

(** message/base.py 173-175: [self._type] *)
Definition type_of (c : mcls) : Z := match get_type mcls_eqb library c with Ok t => t | Err _ => -1 end.

(** ** Slots *)

(** what a slot holds, i.e. which branch of the class's [serialize_slot] and
    [deserialize_slot] handles it *)
Inductive skind :=
| KPlain                                            (* stored as it is *)
| KEnum (e : ecls)                                  (* ENUM_SLOTS *)
| KMsg (d : mcls) (allow_none is_list : bool)       (* MSG_SLOTS *)
| KNode                                             (* datastructures/p2p.py 68-98 NODE_SLOTS *)
| KPeers                                            (* message/p2p.py 49-74 *)
| KTasks                                            (* message/p2p.py 97-127 *)
| KHeader | KCpu | KNum                             (* message/tasks.py 274-297 *)
| KCtd | KInt                                       (* message/tasks.py 345-354 *)
| KStats                                            (* message/tasks.py 551-561 *)
| KFiles.                                           (* message/concents.py 140-154 *)

Definition msg1 (d : mcls) : skind := KMsg d false false.
Definition msg1_opt (d : mcls) : skind := KMsg d true false.

(** [__slots__] in order, without [header], [sig] and underscored names (the ones
    [valid_slot] accepts, message/base.py 517-520) *)
Definition slot_table (c : mcls) : list (string * skind) :=
  match c with
  | MHello => (* message/base.py 643-654 *)
      [("rand_val", KPlain); ("proto_id", KPlain); ("node_info", KNode); ("port", KPlain); ("client_ver", KPlain);
       ("solve_challenge", KPlain); ("challenge", KPlain); ("difficulty", KPlain); ("metadata", KPlain)]
  | MRandVal => [("rand_val", KPlain)] (* message/base.py 712 *)
  | MDisconnect => [("reason", KEnum EnDisconnect)] (* message/base.py 617-626, 719 *)
  | MChallengeSolution => [("solution", KPlain)] (* message/base.py 738 *)
  (* message/p2p.py *)
  | MPing | MPong | MGetPeers | MGetTasks | MGetResourcePeers | MStopGossip => []
  | MPeers => [("peers", KPeers)]
  | MTasks => [("tasks", KTasks)]
  | MRemoveTask => [("task_id", KPlain)]
  | MResourcePeers => [("resource_peers", KPlain)]
  | MDegree => [("degree", KPlain)]
  | MGossip => [("gossip", KPlain)]
  | MLocRank => [("node_id", KPlain); ("loc_rank", KPlain)]
  | MFindNode => [("node_key_id", KPlain)]
  | MWantToStartTaskSession => [("node_info", KNode); ("conn_id", KPlain); ("super_node_info", KNode)]
  | MSetTaskSession => [("key_id", KPlain); ("node_info", KNode); ("conn_id", KPlain); ("super_node_info", KNode)]
  | MRemoveTaskContainer => [("remove_tasks", KMsg MRemoveTask false true)]
  (* message/tasks.py *)
  | MWantToComputeTask => (* 243-260 *)
      [("perf_index", KPlain); ("cpu_usage", KCpu); ("max_resource_size", KPlain); ("max_memory_size", KPlain); ("price", KPlain);
       ("num_subtasks", KNum); ("concent_enabled", KPlain); ("extra_data", KPlain); ("provider_public_key", KPlain);
       ("provider_ethereum_address", KPlain); ("task_header", KHeader)]
  | MTaskToCompute => (* 308-331 *)
      [("requestor_id", KPlain); ("requestor_public_key", KPlain); ("requestor_ethereum_public_key", KPlain);
       ("provider_id", KPlain); ("compute_task_def", KCtd); ("want_to_compute_task", msg1 MWantToComputeTask);
       ("package_hash", KPlain); ("size", KInt); ("concent_enabled", KPlain); ("price", KInt); ("resources_options", KPlain);
       ("ethsig", KPlain); ("promissory_note_sig", KPlain); ("concent_promissory_note_sig", KPlain)]
  | MCannotAssignTask => [("task_id", KPlain); ("reason", KEnum EnCannotAssign)] (* 507-518 *)
  | MReportComputedTask => (* 531-549 *)
      [("address", KPlain); ("node_info", KPlain); ("port", KPlain); ("key_id", KPlain); ("extra_data", KPlain);
       ("task_to_compute", msg1 MTaskToCompute); ("size", KPlain); ("package_hash", KPlain); ("multihash", KPlain);
       ("secret", KPlain); ("options", KPlain); ("stats", KStats)]
  | MSubtaskResultsAccepted => [("payment_ts", KPlain); ("report_computed_task", msg1 MReportComputedTask)] (* 575-581 *)
  | MSubtaskResultsRejected => (* 614-624 *)
      [("report_computed_task", msg1 MReportComputedTask);
       ("force_get_task_result_failed", msg1_opt MForceGetTaskResultFailed); ("reason", KEnum EnSRR)]
  | MTaskFailure => [("task_to_compute", msg1 MTaskToCompute); ("err", KPlain); ("reason", KEnum EnTaskFailure)] (* 694-707 *)
  | MStartSessionResponse => [("conn_id", KPlain)] (* 719 *)
  | MCannotComputeTask => [("task_to_compute", msg1 MTaskToCompute); ("reason", KEnum EnCannotCompute)] (* 733-757 *)
  | MSubtaskPayment => [("subtask_id", KPlain); ("reward", KPlain); ("transaction_id", KPlain); ("block_number", KPlain)]
  | MSubtaskPaymentRequest => [("subtask_id", KPlain)]
  | MAckReportComputedTask => [("report_computed_task", msg1 MReportComputedTask)]
  | MRejectReportComputedTask => (* 826-850 *)
      [("attached_task_to_compute", msg1_opt MTaskToCompute); ("task_failure", msg1_opt MTaskFailure);
       ("cannot_compute_task", msg1_opt MCannotComputeTask); ("reason", KEnum EnRejectRCT)]
  (* message/resources.py *)
  | MPushResource => [("copies", KPlain); ("resource", KPlain)]
  | MHasResource | MWantsResource | MPullResource => [("resource", KPlain)]
  | MPullAnswer => [("resource", KPlain); ("has_resource", KPlain)]
  | MResourceHandshakeStart => [("resource", KPlain); ("options", KPlain)]
  | MResourceHandshakeNonce => [("nonce", KPlain)]
  | MResourceHandshakeVerdict => [("accepted", KPlain); ("nonce", KPlain)]
  (* message/concents.py *)
  | MServiceRefused => [("task_to_compute", msg1_opt MTaskToCompute); ("reason", KEnum EnServiceRefused)]
  | MForceReportComputedTask => [("report_computed_task", msg1 MReportComputedTask); ("result_hash", KPlain)]
  | MVerdictReportComputedTask =>
      [("force_report_computed_task", msg1 MForceReportComputedTask); ("ack_report_computed_task", msg1 MAckReportComputedTask)]
  | MFileTransferToken => (* 128-138 *)
      [("subtask_id", KPlain); ("token_expiration_deadline", KPlain); ("storage_cluster_address", KPlain);
       ("authorized_client_public_key", KPlain); ("operation", KEnum EnFTTOperation); ("files", KFiles)]
  | MSubtaskResultsVerify =>
      [("subtask_results_rejected", msg1 MSubtaskResultsRejected); ("concent_promissory_note_sig", KPlain)]
  | MAckSubtaskResultsVerify =>
      [("subtask_results_verify", msg1 MSubtaskResultsVerify); ("file_transfer_token", msg1 MFileTransferToken)]
  | MSubtaskResultsSettled => [("origin", KEnum EnSettledOrigin); ("task_to_compute", msg1 MTaskToCompute)]
  | MForceGetTaskResult => [("report_computed_task", msg1 MReportComputedTask)]
  | MAckForceGetTaskResult => [("force_get_task_result", msg1 MForceGetTaskResult)]
  | MForceGetTaskResultFailed => [("task_to_compute", msg1 MTaskToCompute)]
  | MForceGetTaskResultRejected => [("force_get_task_result", msg1 MForceGetTaskResult); ("reason", KEnum EnFGTRRejected)]
  | MForceGetTaskResultUpload | MForceGetTaskResultDownload =>
      [("force_get_task_result", msg1 MForceGetTaskResult); ("file_transfer_token", msg1 MFileTransferToken)]
  | MForceSubtaskResults => [("ack_report_computed_task", msg1 MAckReportComputedTask)]
  | MForceSubtaskResultsResponse =>
      [("subtask_results_accepted", msg1_opt MSubtaskResultsAccepted);
       ("subtask_results_rejected", msg1_opt MSubtaskResultsRejected)]
  | MForceSubtaskResultsRejected => [("force_subtask_results", msg1 MForceSubtaskResults); ("reason", KEnum EnFSRRejected)]
  | MForcePayment => [("subtask_results_accepted_list", KMsg MSubtaskResultsAccepted false true)]
  | MForcePaymentCommitted => (* 540-565 *)
      [("payment_ts", KPlain); ("task_owner_key", KPlain); ("provider_eth_account", KPlain); ("amount_paid", KPlain);
       ("recipient_type", KEnum EnActor); ("amount_pending", KPlain)]
  | MForcePaymentRejected => [("force_payment", msg1 MForcePayment); ("reason", KEnum EnForcePaymentRejected)]
  | MForceReportComputedTaskResponse => (* 610-628 *)
      [("reason", KEnum EnFRCTResponse); ("ack_report_computed_task", msg1_opt MAckReportComputedTask);
       ("reject_report_computed_task", msg1_opt MRejectReportComputedTask)]
  | MClientAuthorization => [("client_public_key", KPlain)]
  end%string.

Definition slot_names (c : mcls) : list string := map fst (slot_table c).
Definition slot_kind (c : mcls) (k : string) : skind :=
  match find (fun p => (fst p =? k)%string) (slot_table c) with Some p => snd p | None => KPlain end.

(** ** Class attributes *)

(** [SIGN] (message/base.py 92; False in message/p2p.py) *)
Definition signs (c : mcls) : bool :=
  match c with
  | MPing | MPong | MGetPeers | MPeers | MGetTasks | MGetResourcePeers | MResourcePeers | MDegree | MGossip | MStopGossip
  | MLocRank | MFindNode => false
  | _ => true
  end.
(** [ENCRYPT] (message/base.py 91; False at 636 and 717) *)
Definition encrypts (c : mcls) : bool := match c with MHello | MDisconnect => false | _ => true end.

(** [isinstance(m, TaskMessage)] (message/tasks.py 50) *)
Definition is_task_message (c : mcls) : bool :=
  match c with
  | MTaskToCompute | MReportComputedTask | MSubtaskResultsAccepted | MSubtaskResultsRejected | MTaskFailure | MCannotComputeTask
  | MAckReportComputedTask | MRejectReportComputedTask
  | MServiceRefused | MForceReportComputedTask | MVerdictReportComputedTask | MSubtaskResultsVerify | MAckSubtaskResultsVerify
  | MSubtaskResultsSettled | MForceGetTaskResult | MAckForceGetTaskResult | MForceGetTaskResultFailed
  | MForceGetTaskResultRejected | MForceGetTaskResultUpload | MForceGetTaskResultDownload | MForceSubtaskResults
  | MForceSubtaskResultsResponse | MForceSubtaskResultsRejected | MForceReportComputedTaskResponse => true
  | _ => false
  end.

(** message/tasks.py 54-58 *)
Inductive owner := OProvider | ORequestor | OConcent.
(** [EXPECTED_OWNERS] *)
Definition expected_owners (c : mcls) : list owner :=
  match c with
  | MTaskToCompute => [ORequestor]             (* message/tasks.py 306 *)
  | MReportComputedTask => [OProvider]         (* 530 *)
  | MSubtaskResultsAccepted => [ORequestor]    (* 573 *)
  | MSubtaskResultsRejected => [ORequestor; OConcent] (* 611-612 *)
  | MTaskFailure | MCannotComputeTask => [OProvider]  (* 694, 733 *)
  | MAckReportComputedTask | MRejectReportComputedTask => [ORequestor; OConcent] (* 804-805, 825-826 *)
  (* message/concents.py *)
  | MForceReportComputedTask | MForceSubtaskResults => [OProvider; OConcent]
  | MSubtaskResultsVerify => [OProvider]
  | MForceGetTaskResult => [ORequestor]
  | MServiceRefused | MVerdictReportComputedTask | MAckSubtaskResultsVerify | MSubtaskResultsSettled | MAckForceGetTaskResult
  | MForceGetTaskResultFailed | MForceGetTaskResultRejected | MForceGetTaskResultUpload | MForceGetTaskResultDownload
  | MForceSubtaskResultsResponse | MForceSubtaskResultsRejected | MForceReportComputedTaskResponse => [OConcent]
  | _ => []
  end.

(** [TASK_ID_PROVIDERS] *)
Definition task_id_providers (c : mcls) : list string :=
  match c with
  | MReportComputedTask | MTaskFailure | MCannotComputeTask | MServiceRefused | MSubtaskResultsSettled
  | MForceGetTaskResultFailed => ["task_to_compute"]
  | MSubtaskResultsAccepted | MSubtaskResultsRejected | MAckReportComputedTask | MForceReportComputedTask
  | MForceGetTaskResult => ["report_computed_task"]
  | MRejectReportComputedTask => ["attached_task_to_compute"; "task_failure"; "cannot_compute_task"] (* tasks.py 822-824 *)
  | MVerdictReportComputedTask => ["force_report_computed_task"; "ack_report_computed_task"] (* concents.py 85-86 *)
  | MSubtaskResultsVerify => ["subtask_results_rejected"]
  | MAckSubtaskResultsVerify => ["subtask_results_verify"]
  | MAckForceGetTaskResult | MForceGetTaskResultRejected | MForceGetTaskResultUpload | MForceGetTaskResultDownload =>
      ["force_get_task_result"]
  | MForceSubtaskResults => ["ack_report_computed_task"]
  | MForceSubtaskResultsResponse => ["subtask_results_accepted"; "subtask_results_rejected"] (* concents.py 461-462 *)
  | MForceSubtaskResultsRejected => ["force_subtask_results"]
  | MForceReportComputedTaskResponse => ["ack_report_computed_task"; "reject_report_computed_task"] (* concents.py 594-595 *)
  | _ => []
  end%string.

(** every class, for finite checks *)
Definition all_classes : list mcls := map snd registrations.
Lemma all_classes_complete c : In c all_classes.
Proof.
  assert (H : existsb (mcls_eqb c) all_classes = true) by (destruct c; vm_compute; reflexivity).
  apply existsb_exists in H as (x & Hx & E). apply mcls_eqb_eq in E. subst. exact Hx.
Qed.
Lemma for_all_classes (p : mcls -> bool) : forallb p all_classes = true -> forall c, p c = true.
Proof. intros H c. rewrite forallb_forall in H. apply H, all_classes_complete. Qed.

Lemma slot_names_NoDup c : NoDup (slot_names c).
Proof.
  assert (H : forall l : list string, (fix nd (l : list string) : bool :=
      match l with [] => true | x :: r => negb (existsb (String.eqb x) r) && nd r end) l = true -> NoDup l).
  { induction l as [|x l IH]; intros H; constructor; apply andb_true_iff in H as [H1 H2].
    - intros Hin. apply negb_true_iff in H1. assert (E : existsb (String.eqb x) l = true).
      { apply existsb_exists. exists x. split; [exact Hin|apply String.eqb_refl]. } congruence.
    - apply IH, H2. }
  apply H. destruct c; vm_compute; reflexivity.
Qed.

(** ** Nesting: every message slot's class has a smaller rank *)
Definition rank (c : mcls) : nat :=
  match c with
  | MTaskToCompute | MRemoveTaskContainer => 1
  | MReportComputedTask | MTaskFailure | MCannotComputeTask | MServiceRefused | MSubtaskResultsSettled
  | MForceGetTaskResultFailed => 2
  | MSubtaskResultsAccepted | MSubtaskResultsRejected | MAckReportComputedTask | MRejectReportComputedTask
  | MForceReportComputedTask | MForceGetTaskResult => 3
  | MVerdictReportComputedTask | MSubtaskResultsVerify | MAckForceGetTaskResult | MForceGetTaskResultRejected
  | MForceGetTaskResultUpload | MForceGetTaskResultDownload | MForceSubtaskResults | MForceSubtaskResultsResponse
  | MForcePayment | MForceReportComputedTaskResponse => 4
  | MAckSubtaskResultsVerify | MForceSubtaskResultsRejected | MForcePaymentRejected => 5
  | _ => 0
  end.
Lemma rank_decreases c k d an il : slot_kind c k = KMsg d an il -> (rank d < rank c)%nat.
Proof.
  unfold slot_kind. destruct (find _ (slot_table c)) as [[k' x]|] eqn:E; [|discriminate]. cbn [snd]. intros ->.
  apply find_some in E as [E _].
  assert (H : forallb (fun c => forallb (fun p => match snd p with KMsg d _ _ => Nat.ltb (rank d) (rank c) | _ => true end)
                       (slot_table c)) all_classes = true) by (vm_compute; reflexivity).
  rewrite forallb_forall in H. specialize (H c (all_classes_complete c)). rewrite forallb_forall in H.
  specialize (H _ E). cbn [snd] in H. apply Nat.ltb_lt. exact H.
Qed.
Lemma rank_bound c : (rank c < 8)%nat.
Proof. destruct c; cbn; lia. Qed.

Lemma slot_kind_in c k x : In (k, x) (slot_table c) -> slot_kind c k = x.
Proof.
  pose proof (slot_names_NoDup c) as N. unfold slot_kind, slot_names in *. induction (slot_table c) as [|[k' y] l IH]; cbn [In]; [easy|].
  cbn [map fst] in N. inversion N; subst. cbn [find fst]. intros [H|H].
  - assert (k' = k /\ y = x) as [-> ->] by (split; congruence). rewrite String.eqb_refl. reflexivity.
  - destruct (String.eqb_spec k' k) as [->|]; [|apply IH; assumption].
    exfalso. match goal with X : ~ In k _ |- _ => apply X end. apply (in_map fst) in H. exact H.
Qed.
Lemma slot_kind_default c k : ~ In k (slot_names c) -> slot_kind c k = KPlain.
Proof.
  intros H. unfold slot_kind. destruct (find _ _) as [[k' x]|] eqn:E; [|reflexivity]. exfalso. apply H.
  apply find_some in E as [E1 E2]. cbn [fst] in E2. apply String.eqb_eq in E2. subst. apply (in_map fst) in E1. exact E1.
Qed.
Lemma slot_kind_cases c k : In (k, slot_kind c k) (slot_table c) \/ ~ In k (slot_names c).
Proof.
  destruct (in_dec string_dec k (slot_names c)) as [H|H]; [left|right; exact H].
  unfold slot_names in H. apply in_map_iff in H as ([k' x] & <- & H). cbn [fst]. rewrite (slot_kind_in _ _ _ H). exact H.
Qed.

(** ** The shipped registry *)
Lemma registry_type c : get_type mcls_eqb library c = Ok (type_of c).
Proof. destruct c; vm_compute; reflexivity. Qed.
Lemma registry_roundtrip c : getitem library (type_of c) = Ok c.
Proof. destruct c; vm_compute; reflexivity. Qed.
Lemma registry_number t c : getitem library t = Ok c -> t = type_of c.
Proof.
  unfold library. rewrite register_first_wins. destruct (find _ registrations) as [[t' c']|] eqn:E; [|discriminate].
  intros H. apply Ok_inj in H. cbn [snd] in H. subst c'. apply find_some in E as [Hin E]. cbn [fst] in E. apply Z.eqb_eq in E. subst t'.
  assert (F : forallb (fun p => fst p =? type_of (snd p)) registrations = true) by (vm_compute; reflexivity).
  rewrite forallb_forall in F. specialize (F _ Hin). cbn [fst snd] in F. apply Z.eqb_eq. exact F.
Qed.
Lemma type_of_inj c c' : type_of c = type_of c' -> c = c'.
Proof. intros H. pose proof (registry_roundtrip c) as H1. rewrite H, registry_roundtrip in H1. congruence. Qed.
Lemma type_of_range c : 0 <= type_of c < 2 ^ 16.
Proof.
  assert (F : forallb (fun c => (0 <=? type_of c) && (type_of c <? 65536)) all_classes = true) by (vm_compute; reflexivity).
  pose proof (for_all_classes _ F c) as H. cbv beta in H. change (2 ^ 16) with 65536. lia.
Qed.
Lemma contains_iff t : contains library t = true <-> exists c, t = type_of c.
Proof.
  assert (G : contains library t = true <-> exists c, getitem library t = Ok c).
  { unfold contains, getitem. destruct (zget t _); split; eauto; [discriminate|]. intros [x H]; discriminate. }
  rewrite G. split; intros [c H]; exists c; [apply registry_number, H|]. subst. apply registry_roundtrip.
Qed.
Lemma no_duplicate_registration : forall l1 t c l2, registrations = l1 ++ (t, c) :: l2 ->
  fst (do_register mcls_eqb t c (run_register mcls_eqb l1 empty_register)) = Ok c.
Proof.
  intros l1 t c l2 H. unfold do_register.
  destruct (zget t (types (run_register mcls_eqb l1 empty_register))) as [c'|] eqn:E; [|reflexivity]. exfalso.
  assert (G : getitem (run_register mcls_eqb l1 empty_register) t = Ok c') by (unfold getitem; rewrite E; reflexivity).
  rewrite register_first_wins in G. destruct (find _ l1) as [p|] eqn:F; [|discriminate].
  apply find_some in F as [F1 F2]. apply Z.eqb_eq in F2.
  assert (N : NoDup (map fst registrations)).
  { assert (D : forall l : list Z, (fix nd (l : list Z) : bool :=
      match l with [] => true | x :: r => negb (existsb (Z.eqb x) r) && nd r end) l = true -> NoDup l).
    { induction l as [|x l IH]; intros D; constructor; apply andb_true_iff in D as [D1 D2].
      - intros Hin. apply negb_true_iff in D1. assert (X : existsb (Z.eqb x) l = true).
        { apply existsb_exists. exists x. split; [exact Hin|apply Z.eqb_refl]. } congruence.
      - apply IH, D2. }
    apply D. vm_compute. reflexivity. }
  rewrite H, map_app in N. cbn [map fst] in N. apply NoDup_remove_2 in N. apply N. apply in_or_app. left.
  apply in_map_iff. exists p. auto.
Qed.
Lemma number_to_class_and_back t c : getitem library t = Ok c -> get_type mcls_eqb library c = Ok t.
Proof. intros H. rewrite registry_type. apply registry_number in H. congruence. Qed.
Lemma numbers_distinct c c' t : get_type mcls_eqb library c = Ok t -> get_type mcls_eqb library c' = Ok t -> c = c'.
Proof. rewrite !registry_type. intros H H'. apply type_of_inj. congruence. Qed.
Lemma contains_exactly t : contains library t = true <-> exists c, get_type mcls_eqb library c = Ok t.
Proof.
  rewrite contains_iff. split; intros [c H]; exists c; rewrite registry_type in *; [subst; reflexivity|congruence].
Qed.
Lemma numbers_fit c t : get_type mcls_eqb library c = Ok t -> 0 <= t < 2 ^ 16.
Proof. rewrite registry_type. intros H. apply Ok_inj in H. subst. apply type_of_range. Qed.
