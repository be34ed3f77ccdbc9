(** * Attributes of messages: the properties of task messages (message/tasks.py
    50-106, 269-271, 332-369) and the names every instance of a class has
    (message/base.py 82-591 and the class bodies of the subclasses). *)
From Verif Require Export Classes Promissory.

(** ** Properties *)

(** the names served by [_get_task_value] (message/tasks.py 73-106) *)
Definition chain_names : list string :=
  ["task_id"; "subtask_id"; "task_to_compute"; "provider_id"; "requestor_id"]%string.

(** the loop of message/tasks.py 67-71; [None] entries are AttributeErrors, which
    [getattr(msg, attr_name, None)] turns into None *)
Fixpoint first_truthy (l : list (option pyval)) : pyval :=
  match l with
  | Some v :: r => if truthy v then v else first_truthy r
  | None :: r => first_truthy r
  | [] => VNone
  end.

(** [getattr(v, name)] for the names used in chains; [None] is AttributeError.
    Slots shadow the properties of TaskMessage; message/tasks.py 62-106 for task
    messages, 269-271 for WantToComputeTask, 336-369 for TaskToCompute
    ([requestor_ethereum_address] is [requestor_address] below).
    Methods and class attributes are in [class_names] below. *)
Fixpoint acc (name : string) (v : pyval) {struct v} : option pyval :=
  match v with
  | VObj _ a => attr_get name a
  | VMsg c _ _ _ _ a =>
      let subs := map (fun kv => (fst kv, acc name (snd kv))) a in
      if existsb (String.eqb name) (slot_names c) then Some (attr_get_or_none name a)
      else
        match c with
        | MTaskToCompute =>
            if (name =? "task_id")%string || (name =? "subtask_id")%string then
              let d := attr_get_or_none "compute_task_def" a in
              if truthy d then
                match d with
                | VDict _ kvs => Some (match dict_get (skey name) kvs with Some x => x | None => VNone end)
                | _ => None
                end
              else Some VNone
            else if (name =? "task_to_compute")%string then Some v
            else if (name =? "provider_public_key")%string || (name =? "provider_ethereum_address")%string then
              assoc_or None "want_to_compute_task" subs
            else None
        | MWantToComputeTask => if (name =? "task_id")%string then assoc_or None "task_header" subs else None
        | _ =>
            if is_task_message c && existsb (String.eqb name) chain_names then
              Some (first_truthy (map (fun p => assoc_or None p subs) (task_id_providers c)))
            else None
        end
  | _ => None
  end.
Definition getattr (name : string) (v : pyval) : result pyval :=
  match acc name v with Some x => Ok x | None => Err EAttributeError end.

(** ** The address of the requestor *)

(** utils.py 11-18 ([address_of], Crypto.v) on str and bytes ([hexstr_if_str(keccak, pubkey)]); a str must
    be hexadecimal.  Simplification: ints, which eth_utils also accepts, are a
    TypeError *)
Definition pubkey_to_address (C : crypto) (pubkey : pyval) : result ustr :=
  do b <- (match pubkey with
           | VBytes b => Ok b
           | _ => match str_of pubkey with
                  | Some s => match hexstr_to_bytes s with Ok b => Ok b | Err _ => Err EValueError end
                  | None => Err ETypeError
                  end
           end);
  Ok (address_of (keccak C) b).
(** message/tasks.py 332-334 *)
Definition requestor_address (C : crypto) (m : pyval) : result pyval :=
  do k <- getattr "requestor_ethereum_public_key" m;
  do a <- pubkey_to_address C k; Ok (VStr a).

(** ** Names of methods and class attributes *)

(** message/base.py 82-591, [Message] *)
Definition message_names : list string :=
  ["HDR_FORMAT"; "HDR_LEN"; "SIG_LEN"; "ENCRYPT"; "SIGN"; "ENUM_SLOTS"; "MSG_SLOTS"; "_type"; "get_short_hash"; "serialize";
   "serialize_header"; "serialize_slot"; "serialize_message"; "serialize_message_single"; "deserialize_slot"; "deserialize_message";
   "deserialize_message_single"; "unpack_header"; "deserialize_header"; "deserialize"; "deserialize_with_header"; "load_slots";
   "valid_slot"; "_verify_signature"; "verify_signature"; "_get_signature"; "sign_message"; "_fake_sign"]%string.
(** message/tasks.py 50-223, [TaskMessage] *)
Definition task_message_names : list string :=
  ["TASK_ID_PROVIDERS"; "OWNER_CHOICES"; "EXPECTED_OWNERS"; "_get_task_value"; "validate_ownership"; "validate_ownership_chain";
   "verify_owners"; "is_valid"]%string.
(** datastructures/p2p.py 68-98, [NodeSlotMixin] *)
Definition node_slot_names : list string := ["NODE_SLOTS"; "serialize_node"; "deserialize_node"]%string.
(** datastructures/promissory.py 110-148, [PromissorySlotMixin] *)
Definition promissory_slot_names : list string :=
  ["CONCENT_PROMISSORY_NOTE_SIG"; "_get_concent_promissory_note"; "sign_concent_promissory_note"; "verify_concent_promissory_note"]%string.
(** what the class bodies of the subclasses add *)
Definition own_names (c : mcls) : list string :=
  match c with
  | MHello => "VERSION_FORMAT" :: "VERSION_LENGTH" :: node_slot_names (* message/base.py 635-706 *)
  | MWantToStartTaskSession | MSetTaskSession => node_slot_names (* message/p2p.py *)
  | MPeers => ["serialize_peer_list"; "deserialize_peer_list"] (* message/p2p.py 39-74 *)
  | MTasks => ["deserialize_tasks"] (* message/p2p.py 84-127 *)
  | MDisconnect | MCannotAssignTask | MCannotComputeTask | MRejectReportComputedTask | MServiceRefused | MForceGetTaskResultRejected
  | MForceSubtaskResultsRejected | MForcePaymentRejected | MForceReportComputedTaskResponse => ["REASON"]
  | MTaskFailure => ["REASON"; "DEFAULT_REASON"] (* message/tasks.py 692-715 *)
  | MSubtaskResultsRejected => ["REASON"; "REQUESTOR_REASONS_ALLOWED"; "is_valid_for_requestor"] (* message/tasks.py 598-688 *)
  | MWantToComputeTask => ["DEFAULT_NUM_SUBTASKS"] (* message/tasks.py 235-297 *)
  | MTaskToCompute => (* message/tasks.py 300-504 *)
      "generate_ethsig" :: "verify_ethsig" :: "validate_taskid" :: "_get_promissory_note" :: "sign_promissory_note" :: "verify_promissory_note" ::
       "sign_all_promissory_notes" :: "verify_all_promissory_notes" :: promissory_slot_names
  | MSubtaskResultsVerify => promissory_slot_names (* message/concents.py 205-242 *)
  | MSubtaskResultsSettled => ["Origin"] (* message/concents.py 269-302 *)
  | MForcePaymentCommitted => ["Actor"] (* message/concents.py 532-565 *)
  | MFileTransferToken => ["Operation"; "FileInfo"; "get_file_info"; "is_upload"; "is_download"] (* message/concents.py 118-202 *)
  | _ => []
  end%string.
(** names that any instance of [c] has, whatever its slots, with a value other than
    None.  Left out are the names [Message.__init__] declares as parameters
    (header, sig, slots, deserialized), the properties [timestamp] and [encrypted]
    (AttributeErrors while the header is not set) and names in double underscores *)
Definition class_names (c : mcls) : list string :=
  message_names ++ (if is_task_message c then task_message_names else []) ++ own_names c.
