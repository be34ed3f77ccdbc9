(** * Enumerations, schema dictionaries and containers
    (datastructures/__init__.py, datastructures/p2p.py, datastructures/stats.py,
    datastructures/tasks.py, message/tasks.py 22-47, message/concents.py 156-178). *)
From Verif Require Export Validators Crypto Cbor.
From Coq Require Import Permutation.

(** ** Enum members, as their [.value]s (a [StringEnum] member's value is its
    name, datastructures/__init__.py 87-94).  All member values are strings. *)
Definition members (e : ecls) : list string :=
  match e with
  | EnDisconnect => (* message/base.py 721-733 *)
      ["duplicate_peers"; "too_many_peers"; "refresh"; "unverified"; "protocol_version"; "bad_protocol"; "timeout";
       "no_more_messages"; "wrong_encryption"; "resource_handshake"; "key_not_difficult"; "bootstrap"]
  | EnCannotAssign => (* message/tasks.py 513-518 *)
      ["NotMyTask"; "NoMoreSubtasks"; "TaskFinished"; "ConcentDisabled"]
  | EnSRR => (* message/tasks.py 626-635 *)
      ["Results verification negative"; "Concent could not retrieve resources to verify";
       "Concent results verification negative"; "Concent reported failure to retrieve the resources to verify";
       "Could not retrieve resources"]
  | EnTaskFailure => ["ComputationError"; "BudgetExceeded"; "TimeExceeded"] (* message/tasks.py 704-707 *)
  | EnCannotCompute => (* message/tasks.py 742-757 *)
      ["CannotTakeWork"; "WrongCTD"; "WrongKey"; "WrongAddress"; "WrongEnvironment"; "NoSourceCode"; "WrongDockerImages";
       "ConcentRequired"; "ConcentDisabled"; "InsufficientBalance"; "InsufficientDeposit"; "TooShortDeposit";
       "PromissoryNoteMissing"; "OfferCancelled"; "ResourcesTooBig"]
  | EnRejectRCT => (* message/tasks.py 840-844 *)
      ["SubtaskTimeLimitExceeded"; "GotMessageCannotComputeTask"; "GotMessageTaskFailure"]
  | EnServiceRefused => (* message/concents.py 33-43 *)
      ["TOO_SMALL_COMMUNICATION_PAYMENT"; "TOO_SMALL_REQUESTOR_DEPOSIT"; "TOO_SMALL_PROVIDER_DEPOSIT"; "SYSTEM_OVERLOADED";
       "DUPLICATE_REQUEST"; "REQUEST_FORMAT_OR_CONTENT_INVALID"; "CONCENT_SERVICE_IS_NOT_ENABLED_FOR_THIS_SUBTASK";
       "UNSUPPORTED_PROTOCOL_VERSION"; "PRICE_NOT_POSITIVE"]
  | EnFTTOperation => ["upload"; "download"] (* message/concents.py 123-126 *)
  | EnFileCategory => ["results"; "resources"] (* message/concents.py 159-162 *)
  | EnSettledOrigin => ["results_accepted_timeout"; "results_rejected"] (* message/concents.py 286-289 *)
  | EnFGTRRejected => ["acceptance_time_limit_exceeded"] (* message/concents.py 381-382 *)
  | EnFSRRejected => (* message/concents.py 504-506 *)
      ["premature: still within the verification timeout"; "too late: past the forced communication timeout"]
  | EnActor => ["requestor"; "provider"] (* message/concents.py 558-560 *)
  | EnForcePaymentRejected => (* message/concents.py 576-579 *)
      ["no unsettled tasks found"; "timestamp error - subtasks are not overdue yet"]
  | EnFRCTResponse => (* message/concents.py 598-608 *)
      ["ack_from_requestor"; "reject_from_requestor"; "subtask_timeout"; "concent_ack"]
  | EnMarketType => ["Brass"; "Usage"] (* datastructures/tasks.py 24-26 *)
  | EnOwner => ["provider"; "requestor"; "concent"] (* message/tasks.py 54-58 *)
  end%string.

(** Python 3.6 [Enum.__new__]: [E(value)] is the member itself when given one,
    else the member whose value equals [value]; [None] stands for ValueError *)
Definition enum_call (e : ecls) (v : pyval) : option pyval :=
  match v with
  | VEnum e' s => if ecls_eqb e' e && existsb (String.eqb s) (members e) then Some v
                  else match str_of v with
                       | Some t => option_map (VEnum e) (find (fun m => ustr_eqb (u m) t) (members e))
                       | None => None
                       end
  | _ => match str_of v with
         | Some t => option_map (VEnum e) (find (fun m => ustr_eqb (u m) t) (members e))
         | None => None
         end
  end.

(** ** Container declarations: slot names in order, validators, required names,
    default factories. *)

(** [C( **value)]: the keyword arguments. Non-dict arguments, non-str keys and a
    key [self] are TypeErrors raised by the call itself. *)
Fixpoint kwargs_of (kvs : list (pyval * pyval)) : result (list (ustr * pyval)) :=
  match kvs with
  | [] => Ok []
  | (k, v) :: r =>
      match str_of k with
      | Some s => if ustr_eqb s (u "self") then Err ETypeError
                  else do r' <- kwargs_of r; Ok ((s, v) :: r')
      | None => Err ETypeError
      end
  end.
Definition star_star (v : pyval) : result (list (ustr * pyval)) :=
  match v with VDict _ kvs => kwargs_of kvs | _ => Err ETypeError end.

(** [__slots__] keys in order *)
Definition cslots (c : ccls) : list string :=
  match c with
  | CNode => (* datastructures/p2p.py 12-33 *)
      ["node_name"; "key"; "prv_port"; "pub_port"; "p2p_prv_port"; "p2p_pub_port"; "prv_addr"; "pub_addr"; "prv_addresses";
       "hyperdrive_prv_port"; "hyperdrive_pub_port"; "port_statuses"; "nat_type"]
  | CTaskHeader => (* datastructures/tasks.py 28-88 *)
      ["mask"; "timestamp"; "signature"; "task_id"; "task_owner"; "deadline"; "subtask_timeout"; "market_type"; "environment";
       "environment_prerequisites"; "min_version"; "estimated_memory"; "max_price"; "subtask_budget"; "subtasks_count";
       "concent_enabled"]
  | CBlockIo => (* datastructures/stats.py 29-34 *)
      ["io_merged_recursive"; "io_queue_recursive"; "io_service_bytes_recursive"; "io_service_time_recursive";
       "io_serviced_recursive"; "io_time_recursive"; "io_wait_time_recursive"; "sectors_recursive"]
  | CCpu => ["cpu_usage"; "throttling_data"] (* datastructures/stats.py 65-72 *)
  | CMemory => (* datastructures/stats.py 112-127 *)
      ["kernel_tcp_usage"; "kernel_usage"; "swap_usage"; "usage"; "cache"; "stats"; "use_hierarchy"]
  | CPid => ["current"; "limit"] (* datastructures/stats.py 132-139 *)
  | CProvider => ["blkio_stats"; "cpu_stats"; "memory_stats"; "pids_stats"] (* datastructures/stats.py 149-178 *)
  end%string.

Definition is_dict (v : pyval) : bool := match v with VDict _ _ => true | _ => false end.
Definition is_bytes (v : pyval) : bool := match v with VBytes _ => true | _ => false end.
Definition is_dict_or (c : ccls) (v : pyval) : bool :=
  match v with VDict _ _ => true | VObj c' _ => ccls_eqb c c' | _ => false end.
(** [x >= 0] and [x > 0] on a value that passed [validate_integer] *)
Definition int_check (p : Z -> bool) (v : pyval) : bool := match v with VInt z => p z | _ => false end.
Definition vcheck (p : pyval -> bool) : validator := fun f v => fail_unless f (p v).
(** [validate_varchar(max_length=inf)], datastructures/p2p.py 13-18 *)
Definition validate_anystr : validator :=
  fun f v => match str_of v with Some _ => Ok tt | None => Err (EFieldError f) end.

(** the validators listed for a slot, in order *)
Definition cvalidators (c : ccls) (k : string) : list validator :=
  match c with
  | CNode => (* datastructures/p2p.py 12-33 *)
      if (k =? "node_name")%string then [validate_anystr]
      else if (k =? "key")%string then [validate_varchar128]
      else if existsb (String.eqb k) ["prv_port"; "pub_port"; "p2p_prv_port"; "p2p_pub_port"]%string then [validate_port]
      else if existsb (String.eqb k) ["prv_addr"; "pub_addr"]%string then [validate_ipaddress]
      else if existsb (String.eqb k) ["hyperdrive_prv_port"; "hyperdrive_pub_port"]%string then [validate_integer]
      else []
  | CTaskHeader => (* datastructures/tasks.py 28-88 *)
      if existsb (String.eqb k) ["mask"; "signature"]%string then [vcheck is_bytes]
      else if existsb (String.eqb k)
                ["timestamp"; "deadline"; "estimated_memory"; "max_price"; "subtask_budget"]%string then [validate_integer]
      else if existsb (String.eqb k) ["task_id"; "environment"]%string then [validate_varchar128]
      else if (k =? "task_owner")%string then [vcheck (is_dict_or CNode)]
      else if (k =? "subtask_timeout")%string then [validate_integer; vcheck (int_check (fun z => 0 <=? z))]
      else if (k =? "environment_prerequisites")%string then [validate_dict]
      else if (k =? "min_version")%string then [validate_version]
      else if (k =? "subtasks_count")%string then [validate_integer; vcheck (int_check (fun z => 0 <? z))]
      else if (k =? "concent_enabled")%string then [validate_boolean]
      else []
  | CBlockIo => [vcheck is_dict] (* datastructures/stats.py 18-22, 34 *)
  | CCpu => [validate_dict] (* datastructures/stats.py 65-72 *)
  | CMemory => (* datastructures/stats.py 103-127 *)
      if (k =? "cache")%string then [validate_integer]
      else if (k =? "stats")%string then [validate_dict]
      else if (k =? "use_hierarchy")%string then [validate_boolean]
      else [vcheck is_dict]
  | CPid => [validate_integer] (* datastructures/stats.py 132-139 *)
  | CProvider => (* datastructures/stats.py 149-178 *)
      if (k =? "blkio_stats")%string then [vcheck (is_dict_or CBlockIo)]
      else if (k =? "cpu_stats")%string then [vcheck (is_dict_or CCpu)]
      else if (k =? "memory_stats")%string then [vcheck (is_dict_or CMemory)]
      else [vcheck (is_dict_or CPid)]
  end.

(** [REQUIRED]: datastructures/tasks.py 90-96; empty elsewhere *)
Definition crequired (c : ccls) (k : string) : bool :=
  match c with
  | CTaskHeader => existsb (String.eqb k) ["task_id"; "task_owner"; "subtasks_count"; "min_version"; "timestamp"]%string
  | _ => false
  end.
(** [DEFAULTS]: datastructures/p2p.py 35-39; None elsewhere *)
Definition cdefault (c : ccls) (k : string) : pyval :=
  match c with
  | CNode => if (k =? "prv_addresses")%string then VList []
             else if (k =? "port_statuses")%string then VDict DPlain []
             else if (k =? "nat_type")%string then VList [] else VNone
  | _ => VNone
  end.

Fixpoint kw_get (k : ustr) (kw : list (ustr * pyval)) : option pyval :=
  match kw with
  | [] => None
  | (k', v) :: r => if ustr_eqb k' k then Some v else kw_get k r
  end.

Fixpoint run_validators (l : list validator) (f : ustr) (v : pyval) : result unit :=
  match l with [] => Ok tt | g :: r => do _ <- g f v; run_validators r f v end.

(** ** Container.__init__ / load_slots / deserialize_slot
    (datastructures/__init__.py 109-154).  [hook] is the class's
    [deserialize_<key>] method, where there is one. *)
Section Load.
  Variable hook : string -> option (pyval -> result pyval).
  Variable c : ccls.

  (** datastructures/__init__.py 140-154; an AttributeError raised by the hook is
      taken for a missing hook *)
  Definition cdeser_slot (k : string) (v : pyval) : result pyval :=
    if is_none v && negb (crequired c k) then Ok v
    else
      do _ <- run_validators (cvalidators c k) (u k) v;
      match hook k with
      | None => Ok v
      | Some h => match h v with Err EAttributeError => Ok v | r => r end
      end.

  (** datastructures/__init__.py 118-132, one slot *)
  Definition cload_slot (kw : list (ustr * pyval)) (k : string) : result (string * pyval) :=
    match kw_get (u k) kw with
    | Some v => do v' <- cdeser_slot k v; Ok (k, v')
    | None => if crequired c k then Err (EFieldError (u k)) else Ok (k, cdefault c k)
    end.

  Definition cknown (k : ustr) : bool := existsb (fun s => ustr_eqb (u s) k) (cslots c).

  (** datastructures/__init__.py 117-138 *)
  Definition cload_slots (kw : list (ustr * pyval)) : result attrs_t :=
    do a <- mapM (cload_slot kw) (cslots c);
    match find (fun kv => negb (cknown (fst kv))) kw with
    | Some (k, _) => Err (EFieldError k)
    | None => Ok a
    end.

  (** datastructures/__init__.py 109-115 *)
  Definition cinit (kw : list (ustr * pyval)) : result pyval :=
    match cload_slots kw with
    | Ok a => Ok (VObj c a)
    | Err e => if is_field_error e then Err e else Err EMessageError
    end.
End Load.

(** datastructures/p2p.py 11-65: [Node( **kw)]; no deserialization hooks *)
Definition node_new (kw : list (ustr * pyval)) : result pyval := cinit (fun _ => None) CNode kw.

(** ** SetItemDict / FrozenDict / ValidatingDict
    (datastructures/__init__.py 20-84) and the seven classes built on them. *)

(** [ITEMS] *)
Definition items (d : dcls) : list (string * pyval) :=
  match d with
  | DPlain => []
  | DCTD => (* message/tasks.py 24-35 *)
      [("task_id", VStr []); ("subtask_id", VStr []); ("deadline", VInt 0); ("extra_data", VDict DPlain []);
       ("performance", VInt 0); ("docker_images", VNone); ("resources", VList [])]
  | DFileInfo => (* message/concents.py 164-169 *)
      [("path", VStr []); ("checksum", VStr []); ("size", VInt 0); ("category", VEnum EnFileCategory "results")]
  | DPeer => [("address", VNone); ("port", VNone); ("node", VNone)] (* datastructures/p2p.py 102-106 *)
  | DBlockIoEntry => [("major", VInt 0); ("minor", VInt 0); ("op", VNone); ("value", VInt 0)] (* stats.py 10-15 *)
  | DCpuUsage => (* stats.py 41-46 *)
      [("percpu_usage", VList []); ("total_usage", VInt 0); ("usage_in_kernelmode", VInt 0); ("usage_in_usermode", VInt 0)]
  | DThrottling => [("periods", VInt 0); ("throttled_periods", VInt 0); ("throttled_time", VInt 0)] (* stats.py 51-58 *)
  | DMemoryData => [("failcnt", VInt 0); ("limit", VInt 0); ("max_usage", VInt 0); ("usage", VInt 0)] (* stats.py 95-100 *)
  end%string.

(** [getattr(self, 'validate_' + key)] of the ValidatingDict subclasses:
    message/tasks.py 37-47, message/concents.py 171-178, datastructures/p2p.py
    114-133.  On Python 3.6 [value not in Category] is true for non-members. *)
Definition dvalidator (d : dcls) (k : ustr) : option (pyval -> result unit) :=
  match d with
  | DCTD => if ustr_eqb k (u "task_id") then Some (validate_varchar 128 (u "task_id"))
            else if ustr_eqb k (u "subtask_id") then Some (validate_varchar 128 (u "subtask_id"))
            else None
  | DFileInfo =>
      if ustr_eqb k (u "category") then
        Some (fun v => match v with
                       | VEnum EnFileCategory _ => Ok tt
                       | _ => Err (EFieldError (u "category"))
                       end)
      else None
  | DPeer =>
      if ustr_eqb k (u "address") then Some (validate_ipaddress (u "address"))
      else if ustr_eqb k (u "port") then Some (validate_port (u "port"))
      else if ustr_eqb k (u "node") then
        Some (fun v => match v with VObj CNode _ => Ok tt | _ => Err (EFieldError (u "node")) end)
      else None
  | _ => None
  end.

(** [d[k] = v] on an instance of class [d] holding [kvs]
    (datastructures/__init__.py 56-59, 76-84; datastructures/p2p.py 108-112).
    Nothing is stored unless every check passed.  Simplification: a key that is a
    str-enum member selects the validator of its text. *)
Definition dset (d : dcls) (kvs : list (pyval * pyval)) (k v : pyval) : result (list (pyval * pyval)) :=
  match d with
  | DPlain => if hashable k then Ok (dict_set k v kvs) else Err ETypeError
  | _ =>
      do v <- (match d, v with
               | DPeer, VDict _ nkvs =>
                   if py_eq k (skey "node") then do kw <- kwargs_of nkvs; node_new kw else Ok v
               | _, _ => Ok v
               end);
      do _ <- (match str_of k with
               | Some s => match dvalidator d s with Some f => f v | None => Ok tt end
               | None => Ok tt
               end);
      if negb (hashable k) then Err ETypeError
      else if existsb (fun it => py_eq (skey (fst it)) k) (items d) then Ok (dict_set k v kvs)
      else Err EKeyError
  end.

Fixpoint dset_all (d : dcls) (kvs : list (pyval * pyval)) (l : list (pyval * pyval)) : result (list (pyval * pyval)) :=
  match l with
  | [] => Ok kvs
  | (k, v) :: r => do kvs' <- dset d kvs k v; dset_all d kvs' r
  end.

(** [for key, value in args[0]: self[key] = value] over something not a dict
    (datastructures/__init__.py 31-33) *)
Fixpoint dset_iter (d : dcls) (kvs : list (pyval * pyval)) (l : list pyval) : result (list (pyval * pyval)) :=
  match l with
  | [] => Ok kvs
  | x :: r =>
      match py_iter x with
      | None => Err ETypeError
      | Some [k; v] => do kvs' <- dset d kvs k v; dset_iter d kvs' r
      | Some _ => Err EValueError
      end
  end.

(** [_set_defaults] (datastructures/__init__.py 47-50) *)
Fixpoint dset_defaults (d : dcls) (kvs : list (pyval * pyval)) (its : list (string * pyval)) : result (list (pyval * pyval)) :=
  match its with
  | [] => Ok kvs
  | (k, v) :: r =>
      match dict_get (skey k) kvs with
      | Some _ => dset_defaults d kvs r
      | None => do kvs' <- dset d kvs (skey k) v; dset_defaults d kvs' r
      end
  end.

(** [D(arg)]: SetItemDict.__init__ 25-35 then FrozenDict.__init__ 52-54 *)
Definition dict_new (d : dcls) (arg : pyval) : result pyval :=
  do kvs <- (match arg with
             | VDict _ l => dset_all d [] l
             | _ => match py_iter arg with Some l => dset_iter d [] l | None => Err ETypeError end
             end);
  do kvs' <- dset_defaults d kvs (items d);
  Ok (VDict d kvs').
(** [D( **kw)] *)
Definition dict_new_kw (d : dcls) (kw : list (ustr * pyval)) : result pyval :=
  dict_new d (VDict DPlain (map (fun kv => (VStr (fst kv), snd kv)) kw)).

(** ** The containers with hooks *)

(** datastructures/stats.py 74-82: [D( **value) if value else None] *)
Definition cpu_hook (k : string) : option (pyval -> result pyval) :=
  let h d := fun v => if truthy v then do kw <- star_star v; dict_new_kw d kw else Ok VNone in
  if (k =? "cpu_usage")%string then Some (h DCpuUsage)
  else if (k =? "throttling_data")%string then Some (h DThrottling)
  else None.

(** leaf containers: no hook builds another container *)
Definition leaf_hook (c : ccls) : string -> option (pyval -> result pyval) :=
  match c with CCpu => cpu_hook | _ => fun _ => None end.
Definition leaf_new (c : ccls) (kw : list (ustr * pyval)) : result pyval := cinit (leaf_hook c) c kw.

(** datastructures/stats.py 180-194 *)
Definition provider_hook (k : string) : option (pyval -> result pyval) :=
  let h c := fun v => if truthy v then do kw <- star_star v; leaf_new c kw else Ok VNone in
  if (k =? "blkio_stats")%string then Some (h CBlockIo)
  else if (k =? "cpu_stats")%string then Some (h CCpu)
  else if (k =? "memory_stats")%string then Some (h CMemory)
  else if (k =? "pids_stats")%string then Some (h CPid)
  else None.

(** datastructures/tasks.py 98-106, 142-151 *)
Definition header_hook (k : string) : option (pyval -> result pyval) :=
  if (k =? "task_owner")%string then
    Some (fun v => match v with
                   | VObj CNode _ => Ok v
                   | _ => do kw <- star_star v; node_new kw
                   end)
  else if (k =? "mask")%string then
    Some (fun v => match v with VBytes b => Ok (VMask b) | _ => Ok v end)
  else if (k =? "market_type")%string then
    Some (fun v => match enum_call EnMarketType v with Some m => Ok m | None => Err (EFieldError (u "market_type")) end)
  else None.

(** the [deserialize_<key>] methods of every container class *)
Definition chook (c : ccls) : string -> option (pyval -> result pyval) :=
  match c with
  | CTaskHeader => header_hook
  | CProvider => provider_hook
  | CCpu => cpu_hook
  | _ => fun _ => None
  end.
(** [C( **kw)] for any container class *)
Definition cnew (c : ccls) (kw : list (ustr * pyval)) : result pyval := cinit (chook c) c kw.
(** [C( **value)] *)
Definition cnew_star (c : ccls) (v : pyval) : result pyval := do kw <- star_star v; cnew c kw.

(** ** Container.to_dict (datastructures/__init__.py 156-171) *)

(** what [serialize_<key>] does (datastructures/stats.py 84-90, 196-210;
    datastructures/tasks.py 134-140) *)
Inductive ser_hook := SNone | SToDict | SToDictTruthy | STruthy | SMask.
Definition cser_hook (c : ccls) (k : string) : ser_hook :=
  match c with
  | CTaskHeader => if (k =? "task_owner")%string then SToDict else if (k =? "mask")%string then SMask else SNone
  | CCpu => if existsb (String.eqb k) ["cpu_usage"; "throttling_data"]%string then STruthy else SNone
  | CProvider => if existsb (String.eqb k) ["blkio_stats"; "cpu_stats"; "memory_stats"; "pids_stats"]%string
                 then SToDictTruthy else SNone
  | _ => SNone
  end.

Fixpoint assoc_or {A} (d : A) (k : string) (l : list (string * A)) : A :=
  match l with [] => d | (k', v) :: r => if (k' =? k)%string then v else assoc_or d k r end.

(** one entry of the result of [to_dict] of a [c] whose attribute [k] is [v]; a
    hook's AttributeError leaves the value as it is (lines 166-169) *)
Fixpoint ser_entry (c : ccls) (k : string) (v : pyval) {struct v} : result pyval :=
  let v1 := match v with VEnum _ s => VStr (u s) | _ => v end in
  match cser_hook c k with
  | SNone => Ok v1
  | STruthy => Ok (if truthy v1 then v1 else VNone)
  | SMask => match v1 with
             | VMask b => Ok (VBytes b)
             | VInt _ | VBool _ => Err ETypeError (* int.to_bytes() *)
             | _ => Ok v1
             end
  | SToDict | SToDictTruthy =>
      match v with
      | VObj c' a =>
          let entries := map (fun kv => (fst kv, ser_entry c' (fst kv) (snd kv))) a in
          do kvs <- mapM (fun k => do x <- assoc_or (Ok VNone) k entries; Ok (skey k, x)) (cslots c');
          Ok (VDict DPlain kvs)
      | _ => match cser_hook c k with
             | SToDictTruthy => Ok (if truthy v1 then v1 else VNone)
             | _ => Ok v1
             end
      end
  end.

Definition to_dict_kvs (c : ccls) (a : attrs_t) : result (list (pyval * pyval)) :=
  let entries := map (fun kv => (fst kv, ser_entry c (fst kv) (snd kv))) a in
  mapM (fun k => do x <- assoc_or (Ok VNone) k entries; Ok (skey k, x)) (cslots c).
(** [obj.to_dict()]; objects without that method raise AttributeError *)
Definition to_dict (v : pyval) : result pyval :=
  match v with
  | VObj c a => do kvs <- to_dict_kvs c a; Ok (VDict DPlain kvs)
  | _ => Err EAttributeError
  end.

(** ** TaskHeader hash, sign, verify (datastructures/tasks.py 108-132) *)
Definition dict_del (k : string) (kvs : list (pyval * pyval)) : list (pyval * pyval) :=
  filter (fun kv => negb (py_eq (fst kv) (skey k))) kvs.

Definition header_hash (C : crypto) (a : attrs_t) : result bytes :=
  do kvs <- to_dict_kvs CTaskHeader a;
  do b <- dumps (VDict DPlain (dict_del "signature" kvs));
  Ok (sha1 C b).

(** cryptography.py 111-114: [None]s of the primitives stand for coincurve's
    ValueError/TypeError on a bad key, modelled as ValueError *)
Definition ecdsa_sign (C : crypto) (priv msg : bytes) : result bytes :=
  match secret_of C priv with
  | None => Err EValueError
  | Some s => match sign_rec C s (sha3_256 C msg) with Some sig => Ok sig | None => Err EValueError end
  end.

(** cryptography.py 76-78 and 117-128; [pub] and [sig] are arbitrary values.
    [len] of something without a length is a TypeError; [b'\04' + pubkey] of a
    64-item non-bytes value is a TypeError too *)
Definition ecdsa_verify (C : crypto) (pub sig : pyval) (msg : bytes) : result unit :=
  let check p :=
    match sig with
    | VBytes sg =>
        match recover C sg (sha3_256 C msg) with
        | Some k => if bytes_eqb k (x04 :: p) then Ok tt else Err EInvalidSignature
        | None => Err EInvalidSignature
        end
    | _ => Err EInvalidSignature
    end in
  let bad_type n :=
    if Z.of_nat n =? 64 then
      match sig with
      | VBytes sg => match recover C sg (sha3_256 C msg) with Some _ => Err ETypeError | None => Err EInvalidSignature end
      | _ => Err EInvalidSignature
      end
    else Err EInvalidKeys in
  match pub with
  | VBytes p => if blen p =? 64 then check p else Err EInvalidKeys
  | _ => match py_iter pub with Some l => bad_type (List.length l) | None => Err ETypeError end
  end.

(** datastructures/tasks.py 108-112 *)
Definition header_sign (C : crypto) (a : attrs_t) (priv : bytes) : result attrs_t :=
  do h <- header_hash C a;
  do s <- ecdsa_sign C priv h;
  Ok (attr_set "signature" (VBytes s) a).
(** datastructures/tasks.py 114-125 *)
Definition header_verify (C : crypto) (a : attrs_t) (pub : pyval) : result unit :=
  match attr_get_or_none "signature" a with
  | VNone => Err EInvalidSignature
  | sg => do h <- header_hash C a; ecdsa_verify C pub sg h
  end.

(** ** Node (datastructures/p2p.py 41-55) *)
Definition fill_from (pub prv : string) (a : attrs_t) : attrs_t :=
  match attr_get_or_none pub a with
  | VNone => attr_set pub (attr_get_or_none prv a) a
  | _ => a
  end.
Definition update_public_info (a : attrs_t) : attrs_t :=
  fill_from "hyperdrive_pub_port" "hyperdrive_prv_port"
    (fill_from "p2p_pub_port" "p2p_prv_port"
      (fill_from "pub_port" "prv_port"
        (fill_from "pub_addr" "prv_addr" a))).
Definition is_super_node (a : attrs_t) : bool :=
  match attr_get_or_none "pub_addr" a, attr_get_or_none "prv_addr" a with
  | VNone, _ | _, VNone => false
  | x, y => py_eq x y
  end.
