(** * The other shipped factories: tokens attached by the Concent, payments, sessions
    (factories/concents.py 81-94, 148-163, 241-301, 368-372, factories/p2p.py,
    factories/base.py, factories/datastructures/p2p.py 17-23).  As in Replies.v parts,
    draws, clock readings and [sign__privkey] are arguments. *)
From Verif Require Export Replies.
Open Scope Z_scope.

(** factories/concents.py 81-94 *)
Definition ack_verify_factory (E : env) (now : Z) (srv token : pyval) (priv : option bytes) : result pyval :=
  reply E now MAckSubtaskResultsVerify [("subtask_results_verify", srv); ("file_transfer_token", token)]%string priv.
(** factories/concents.py 148-154 *)
Definition upload_factory (E : env) (now : Z) (fgtr token : pyval) (priv : option bytes) : result pyval :=
  reply E now MForceGetTaskResultUpload [("force_get_task_result", fgtr); ("file_transfer_token", token)]%string priv.
(** factories/concents.py 157-163 *)
Definition download_factory (E : env) (now : Z) (fgtr token : pyval) (priv : option bytes) : result pyval :=
  reply E now MForceGetTaskResultDownload [("force_get_task_result", fgtr); ("file_transfer_token", token)]%string priv.
(** factories/concents.py 241-265: [given] are the acceptances passed (none is the same as
    an empty list), [generated] those made for [generate].  The hook runs after [sign] *)
Definition payment_factory (E : env) (now : Z) (given generated : list pyval) (priv : option bytes) : result pyval :=
  do m <- reply E now MForcePayment [] priv;
  match (match given with [] => generated | _ => given end) with
  | [] => Ok m
  | l => set_attr "subtask_results_accepted_list" (VList l) m
  end.
(** factories/concents.py 245-248: one acceptance is generated, unless some are given *)
Definition payment_with_tasks (E : env) (now : Z) (given : list pyval) (one : pyval) (priv : option bytes) : result pyval :=
  payment_factory E now given [one] priv.
(** factories/concents.py 270-281; [owner_key] and [account] are drawn *)
Definition committed_factory (E : env) (now paid : Z) (owner_key account : ustr) (amount : Z) (actor : string) (priv : option bytes) : result pyval :=
  reply E now MForcePaymentCommitted
    [("payment_ts", VInt paid); ("task_owner_key", VStr owner_key); ("provider_eth_account", VStr account); ("amount_paid", VInt amount);
     ("recipient_type", VEnum EnActor actor)]%string priv.
(** factories/concents.py 283-287, 289-293: a recipient passed is overwritten *)
Definition committed_to_provider (E : env) (now paid : Z) (owner_key account : ustr) (amount : Z) (actor : option string) (priv : option bytes) : result pyval :=
  committed_factory E now paid owner_key account amount "provider" priv.
Definition committed_to_requestor (E : env) (now paid : Z) (owner_key account : ustr) (amount : Z) (actor : option string) (priv : option bytes) : result pyval :=
  committed_factory E now paid owner_key account amount "requestor" priv.
(** factories/concents.py 296-301 *)
Definition payment_rejected_factory (E : env) (now : Z) (payment : pyval) (priv : option bytes) : result pyval :=
  reply E now MForcePaymentRejected [("force_payment", payment); ("reason", VEnum EnForcePaymentRejected "no unsettled tasks found")]%string priv.
(** factories/concents.py 368-372 *)
Definition authorization_factory (E : env) (now : Z) (client : bytes) (priv : option bytes) : result pyval :=
  reply E now MClientAuthorization [("client_public_key", VBytes client)]%string priv.
(** factories/datastructures/p2p.py 8-14, the key the factory itself gives *)
Definition default_key : ustr := u "00adbeefdeadbeefdeadbeefdeadbeefdeadbeefdeadbeefdeadbeefdeadbeefdeadbeefdeadbeefdeadbeefdeadbeefdeadbeefdeadbeefdeadbeefdeadbeef".
(** factories/p2p.py 10-16; the names of the two nodes are drawn *)
Definition want_session_factory (E : env) (now : Z) (name conn name' : ustr) (priv : option bytes) : result pyval :=
  do n <- node_factory default_key name;
  do s <- node_factory default_key name';
  reply E now MWantToStartTaskSession [("node_info", n); ("conn_id", VStr conn); ("super_node_info", s)]%string priv.
(** factories/p2p.py 19-26 *)
Definition set_session_factory (E : env) (now : Z) (key name conn name' : ustr) (priv : option bytes) : result pyval :=
  do n <- node_factory default_key name;
  do s <- node_factory default_key name';
  reply E now MSetTaskSession [("key_id", VStr key); ("node_info", n); ("conn_id", VStr conn); ("super_node_info", s)]%string priv.
(** factories/base.py 9-15 *)
Definition hello_factory (E : env) (now rand proto : Z) (name : ustr) (priv : option bytes) : result pyval :=
  do n <- node_factory default_key name;
  reply E now MHello [("rand_val", VInt rand); ("proto_id", VInt proto); ("node_info", n)]%string priv.
(** factories/datastructures/p2p.py 17-23 *)
Definition peer_factory (address : ustr) (port : Z) (name : ustr) : result pyval :=
  do n <- node_factory default_key name;
  dict_new_kw DPeer [(u "address", VStr address); (u "port", VInt port); (u "node", n)].
