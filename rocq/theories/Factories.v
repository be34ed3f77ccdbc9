(** * The shipped factories: factories/helpers.py, factories/tasks.py,
    factories/datastructures.  Random draws (faker, [uuid4], new key pairs) are
    arguments. *)
From Verif Require Export Wire VersionFacts TaskLogic.

(** factories/helpers.py 18-26: the header is replaced in place; returns the new message *)
Definition override_timestamp (m : pyval) (ts : pyval) : result pyval :=
  match m with
  | VMsg c ty _ enc sig a => Ok (VMsg c ty ts enc sig a)
  | _ => Err EAttributeError
  end.
(** factories/helpers.py 29-38; a header given is not empty, so [or] only tells None apart *)
Definition clone_message (E : env) (now : Z) (m : pyval) (cls : option mcls) (header : option (pyval * pyval * pyval)) : result pyval :=
  match m with
  | VMsg c ty ts enc sig a =>
      do s <- slots c a;
      msg_init E now (match cls with Some d => d | None => c end)
        (Some (match header with Some h => h | None => (ty, ts, enc) end)) sig s []
  | _ => Err EAttributeError
  end.

(** factories/helpers.py 70-83: [rnd] is the random uuid; its fields but the node are kept *)
Definition fake_golem_uuid (rnd : Z) (node_id : pyval) : result ustr :=
  do node <- hex_seed_to_node node_id;
  Ok (uuid_str (rnd / 2 ^ 48 * 2 ^ 48 + node)).
(** factories/helpers.py 86-91 *)
Definition fake_version (major minor patch : Z) : ustr := dec_str major ++ u "." ++ dec_str minor ++ u "." ++ dec_str patch.

(** ** Task headers and the messages around them *)

(** factories/datastructures/p2p.py 8-14; [name] is the made-up name *)
Definition node_factory (key name : ustr) : result pyval :=
  node_new [(u "key", VStr key); (u "node_name", VStr name)].

(** the random draws and clock readings behind one TaskHeader *)
Record header_draws := {
  d_key : ustr;        (** [random_eth_pub_key()] *)
  d_mask : bytes; d_now : Z; d_uuid : Z; d_name : ustr; d_later : Z; d_timeout : Z;
  d_major : Z; d_minor : Z; d_patch : Z; d_memory : Z; d_max_price : Z; d_budget : Z; d_count : Z }.
(** factories/datastructures/tasks.py 17-54, with [requestor_public_key] and
    [sign__privkey] as arguments; the keyword arguments are in declaration order *)
Definition header_factory (C : crypto) (d : header_draws) (key : ustr) (priv : option bytes) : result pyval :=
  do id <- fake_golem_uuid (d_uuid d) (VStr key);
  do n <- node_factory key (d_name d);
  do owner <- to_dict n;
  do h <- cnew CTaskHeader
    [(u "mask", VBytes (d_mask d)); (u "timestamp", VInt (d_now d)); (u "task_id", VStr id);
     (u "market_type", VEnum EnMarketType "Brass"); (u "task_owner", owner); (u "deadline", VInt (d_later d + 3600));
     (u "subtask_timeout", VInt (d_timeout d)); (u "environment", VStr (u "DEFAULT"));
     (u "min_version", VStr (fake_version (d_major d) (d_minor d) (d_patch d))); (u "estimated_memory", VInt (d_memory d));
     (u "max_price", VInt (d_max_price d)); (u "subtask_budget", VInt (d_budget d)); (u "subtasks_count", VInt (d_count d))];
  match priv, h with
  | Some (x :: k), VObj CTaskHeader a => do a' <- header_sign C a (x :: k); Ok (VObj CTaskHeader a')
  | _, _ => Ok h
  end.
(** factories/helpers.py 102-119: an empty key does not sign *)
Definition sign_hook (E : env) (m : pyval) (priv : option bytes) : result pyval :=
  match priv with Some (x :: k) => sign_message E m (x :: k) | _ => Ok m end.
(** factories/tasks.py 20-36; [0.1 * denoms.ether] is the float 1e17 *)
Definition wtct_price : pyval := VFloat 4861130398305394688.
Definition wtct_factory (E : env) (now : Z) (header : pyval) (key : ustr) (priv : option bytes) : result pyval :=
  do addr <- pubkey_to_address (cr E) (VStr key);
  do m <- msg_init E now MWantToComputeTask None VNone (VList [])
    [("provider_public_key", VStr key); ("provider_ethereum_address", VStr addr); ("task_header", header); ("price", wtct_price)]%string;
  sign_hook E m priv.
(** factories/tasks.py 39-51 *)
Definition blender_extra : pyval := VDict DPlain
  [(skey "path_root", VStr []); (skey "start_task", VInt 1); (skey "end_task", VInt 1); (skey "total_tasks", VInt 1);
   (skey "outfilebasename", VStr (u "test task")); (skey "scene_file", VStr (u "/golem/resources/look_to_windward.blend"));
   (skey "script_src", VStr (u "pass")); (skey "frames", VList [VInt 1]); (skey "output_format", VStr (u "PNG"))].
(** factories/tasks.py 54-64 *)
Definition ctd_factory (id1 id2 resource : ustr) (now : Z) : result pyval :=
  dict_new_kw DCTD
    [(u "task_id", VStr id1); (u "subtask_id", VStr id2); (u "deadline", VInt (now + 86400)); (u "extra_data", blender_extra);
     (u "resources", VList [VStr resource])].
(** [ttc.compute_task_def[k] = v]; the dict is the message's own *)
Definition ctd_assign (m : pyval) (k : string) (v : pyval) : result pyval :=
  do d <- getattr "compute_task_def" m;
  match d with
  | VDict dc kvs => do kvs' <- dset dc kvs (skey k) v; set_attr "compute_task_def" (VDict dc kvs') m
  | _ => Err ETypeError
  end.
(** factories/tasks.py 160-180, no id given: AttributeErrors on the way to the owner's key are suppressed *)
Definition header_task_id (m : pyval) : result pyval :=
  do r <- getattr "requestor_id" m;
  let owned := do w <- getattr "want_to_compute_task" m; do h <- getattr "task_header" w; do o <- getattr "task_owner" h;
               do k <- getattr "key" o; if py_eq r k then getattr "task_id" h else Ok VNone in
  match owned with Err EAttributeError => Ok VNone | x => x end.
Definition task_id_hook (m : pyval) (rnd : Z) : result pyval :=
  do t <- header_task_id m;
  do r <- getattr "requestor_id" m;
  do t <- (if truthy t then Ok t else do s <- fake_golem_uuid rnd r; Ok (VStr s));
  ctd_assign m "task_id" t.
(** factories/tasks.py 182-193 *)
Definition subtask_id_hook (m : pyval) (rnd : Z) : result pyval :=
  do r <- getattr "requestor_id" m;
  do s <- fake_golem_uuid rnd r;
  ctd_assign m "subtask_id" (VStr s).
(** factories/tasks.py 195-226 without arguments: a new key pair (private, public) *)
Definition ethsig_hook (E : env) (m : pyval) (eth : bytes * bytes) : result pyval :=
  do k <- getattr "requestor_ethereum_public_key" m;
  if truthy k then Ok m
  else
    do m <- set_attr "requestor_ethereum_public_key" (VStr (hexlify (snd eth))) m;
    match fst eth with [] => Ok m | _ => generate_ethsig E m (fst eth) end.

(** the random draws and clock readings behind one TaskToCompute *)
Record task_draws := {
  d_header : header_draws;
  d_requestor : ustr; d_provider : ustr;      (** [random_eth_pub_key()] *)
  d_id1 : ustr; d_id2 : ustr; d_resource : ustr;   (** [uuid4] *)
  d_ctd_now : Z; d_wtct_now : Z; d_ttc_now : Z;
  d_sha1 : ustr; d_size : Z; d_price : Z;
  d_task : Z; d_subtask : Z;                  (** uuids of [fake_golem_uuid] *)
  d_eth : bytes * bytes }.                    (** [ECCx(None)] *)
(** factories/tasks.py 67-147: [with_signed_nested_messages] with the key pairs of the
    requestor and of the provider, if given, as (private, public), and no further arguments *)
Definition signed_task (E : env) (d : task_draws) (requestor provider : option (bytes * bytes)) : result pyval :=
  let rkey := match requestor with Some p => hexlify (snd p) | None => d_requestor d end in
  let hkey := match requestor with Some p => hexlify (snd p) | None => d_key (d_header d) end in
  let pkey := match provider with Some p => hexlify (snd p) | None => d_provider d end in
  do ctd <- ctd_factory (d_id1 d) (d_id2 d) (d_resource d) (d_ctd_now d);
  do h <- header_factory (cr E) (d_header d) hkey (option_map fst requestor);
  do w <- wtct_factory E (d_wtct_now d) h pkey (option_map fst provider);
  do m <- msg_init E (d_ttc_now d) MTaskToCompute None VNone (VList [])
    [("requestor_id", VStr rkey); ("provider_id", VStr pkey); ("compute_task_def", ctd); ("requestor_public_key", VStr rkey);
     ("want_to_compute_task", w); ("package_hash", VStr (u "sha1:" ++ d_sha1 d)%list); ("size", VInt (d_size d)); ("price", VInt (d_price d));
     ("resources_options", VNone)]%string;
  do m <- task_id_hook m (d_task d);
  do m <- subtask_id_hook m (d_subtask d);
  do m <- ethsig_hook E m (d_eth d);
  sign_hook E m (option_map fst requestor).
