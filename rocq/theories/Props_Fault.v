(** * What a slot's value is refused for *)
From Verif Require Import FaultProofs BlameFacts SampleLoads Samples.

(** ** C83 *)
(** [failing r o]: [r] raises; FieldError for [f] if [o] is [Some f], something else if
    [o] is [None].  A container looks at its slots in the order of the class and refuses
    the first that is missing or whose value is refused; names that are not slots come
    last, in the order given; what cannot be keyword arguments is no FieldError *)
Theorem C83_node :
  forall v o, pure v = true -> (failing (cnew_star CNode v) o <-> no_node v o).
Proof. exact node_fault. Qed.
Print Assumptions C83_node.
(** the owner inside a task's header is refused for the field of the owner *)
Theorem C83_header :
  forall v o, pure v = true -> (failing (cnew_star CTaskHeader v) o <-> no_header v o).
Proof. exact header_faulty. Qed.
Print Assumptions C83_header.
Theorem C83_stats :
  forall v o, pure v = true -> (failing (cnew_star CProvider v) o <-> no_stats v o).
Proof. exact stats_faulty. Qed.
Print Assumptions C83_stats.
(** a frozen dict takes its items in the order given and refuses the first that is
    refused: FieldError for the few keys with validators, another exception for unknown
    keys; only a peer refuses what is missing *)
Theorem C83_dict :
  forall d v o, loadable d -> pure v = true -> (failing (dict_new d v) o <-> unfrozen d v o).
Proof. exact unfrozen_iff. Qed.
Print Assumptions C83_dict.
Theorem C83_file :
  forall v o, pure v = true ->
  (failing (deser_file v) o <-> (~ a_dict v /\ o = None) \/ (a_dict v /\ unfrozen DFileInfo v o)).
Proof. exact file_fault. Qed.
Print Assumptions C83_file.
(** every kind of slot other than nested messages *)
Theorem C83_slot :
  forall kd k v o, (forall d an il, kd <> KMsg d an il) -> (kd = KTasks -> k = "tasks"%string) -> pure v = true ->
  (failing (deser_plain kd k v) o <-> slot_fault kd k v o).
Proof. exact plain_failing. Qed.
Print Assumptions C83_slot.
(** enums and numbers are refused under the name of the slot *)
Theorem C83_named :
  forall kd k v e, (exists en, kd = KEnum en) \/ In kd [KCpu; KNum; KInt] -> pure v = true ->
  deser_plain kd k v = Err e -> e = EFieldError (u k).
Proof. exact fault_named. Qed.
Print Assumptions C83_named.

Definition entry (k : string) (v : pyval) : pyval * pyval := (skey k, v).
(** three things are wrong with this node: the slot that comes first in the class is blamed *)
Example C83_ex_node : no_node (VDict DPlain [entry "colour" (VInt 1); entry "key" (VInt 5); entry "node_name" (VInt 7)]) (Some (u "node_name")).
Proof.
  refine (Ub_slot CNode _ _ _ "node_name" [] _ (VInt 7) _ _ eq_refl (Forall_nil _) _ _ _).
  - intros k v [Q|[Q|[Q|[]]]]; inversion Q; subst; eexists; (split; [reflexivity|discriminate]).
  - right. right. left. reflexivity.
  - left. discriminate.
  - split; [|reflexivity]. intros w H. inversion H as [| |k v I|k v I|k v I|k v I]; subst;
    repeat (destruct I as [I|I]; [discriminate I|]); contradiction.
Qed.
(** the same through the model: a missing timestamp comes before a wrong task id, a wrong
    key of the owner is blamed by its own name, an unknown key of a CTD is no FieldError *)
Example C83_ex_more :
  no_header (VDict DPlain [entry "task_id" (VInt 5)]) (Some (u "timestamp")) /\
  no_header (VDict DPlain [entry "deadline" (VInt (-1)); entry "timestamp" (VInt now0); entry "task_id" ex_task_id; entry "task_owner" (VDict DPlain [entry "key" (VInt 5)])]) (Some (u "key")) /\
  unfrozen DPeer (VDict DPlain [entry "port" (VInt 0); entry "address" (VInt 1)]) (Some (u "port")) /\
  unfrozen DPeer (VDict DPlain [entry "address" (VStr (u "10.0.0.1"))]) (Some (u "port")) /\
  unfrozen DCTD (VDict DPlain [entry "colour" (VInt 1); entry "task_id" (VInt 1)]) None /\
  unfrozen DFileInfo (VDict DPlain [entry "path" (VInt 1); entry "category" (VInt 1)]) (Some (u "category")) /\
  slot_fault KFiles "files" (VList [VDict DPlain []; VInt 1]) None.
Proof.
  repeat split.
  - apply header_faulty; [reflexivity|]. eexists. split; vm_compute; reflexivity.
  - apply header_faulty; [reflexivity|]. eexists. split; vm_compute; reflexivity.
  - apply unfrozen_iff; [unfold loadable; auto|reflexivity|]. eexists. split; vm_compute; reflexivity.
  - apply unfrozen_iff; [unfold loadable; auto|reflexivity|]. eexists. split; vm_compute; reflexivity.
  - apply unfrozen_iff; [unfold loadable; auto|reflexivity|]. eexists. split; vm_compute; reflexivity.
  - assert (H : failing (deser_file (VDict DPlain [entry "path" (VInt 1); entry "category" (VInt 1)])) (Some (u "category"))) by (eexists; split; vm_compute; reflexivity).
    apply file_fault in H; [|reflexivity]. destruct H as [[_ H]|[_ H]]; [discriminate H|exact H].
  - apply plain_failing; [discriminate|discriminate|reflexivity|]. eexists. split; vm_compute; reflexivity.
Qed.
