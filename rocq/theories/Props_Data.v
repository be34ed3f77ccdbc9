(** * Property theorems: frozen dicts (C32), containers (C33), task headers (C34),
      nodes (C54) *)
From Verif Require Import DictFacts.

(** ** C32 *)
(** whatever was passed to the constructor and assigned later, and whichever of the
    assignments were refused *)
Theorem C32_schema_invariant :
  forall d arg o ops, d <> DPlain -> dict_new d arg = Ok o ->
  exists kvs, o = VDict d kvs /\
    let now := fold_left (fun st op => match dset d st (fst op) (snd op) with Ok st' => st' | Err _ => st end) ops kvs in
    Permutation (map (fun kv => str_of (fst kv)) now) (map (fun k => Some (u k)) (documented_keys d)) /\
    forall k v t, In (k, v) now -> str_of k = Some t -> documented_value d t v.
Proof. exact dict_invariant. Qed.
Print Assumptions C32_schema_invariant.

(** a new dict holds, under each declared key, what was given for it last or, if nothing
    was, the documented value; a Peer must be given all its keys *)
Theorem C32_built :
  forall d dd l kvs k, d <> DPlain -> dict_new d (VDict dd l) = Ok (VDict d kvs) -> In k (documented_keys d) ->
  (forall pre k' v post, l = pre ++ (k', v) :: post -> str_of k' = Some (u k) -> (forall k1 v1, In (k1, v1) post -> str_of k1 <> Some (u k)) ->
     exists w, dict_get (VStr (u k)) kvs = Some w /\ (w = v \/ (d = DPeer /\ k = "node"%string /\ exists n, w = VObj CNode n))) /\
  ((forall k' v, In (k', v) l -> str_of k' <> Some (u k)) -> d <> DPeer /\ dict_get (VStr (u k)) kvs = Some (documented_default k)).
Proof. exact dict_built. Qed.
Print Assumptions C32_built.

(** an accepted assignment changes the named key only; Peer turns a dict under
    "node" into a Node *)
Theorem C32_assignment_effect :
  forall d arg kvs k v kvs', d <> DPlain -> dict_new d arg = Ok (VDict d kvs) -> dset d kvs k v = Ok kvs' ->
  exists t w, str_of k = Some t /\ dict_get (VStr t) kvs' = Some w /\
    (w = v \/ (d = DPeer /\ t = u "node" /\ exists n, w = VObj CNode n)) /\
    forall t', t' <> t -> dict_get (VStr t') kvs' = dict_get (VStr t') kvs.
Proof. exact dict_assignment. Qed.
Print Assumptions C32_assignment_effect.

Theorem C32_undeclared_key_refused :
  forall d kvs k v, d <> DPlain -> (forall t, str_of k = Some t -> ~ In t (map u (documented_keys d))) ->
  exists e, dset d kvs k v = Err e.
Proof. exact dict_undeclared. Qed.
Print Assumptions C32_undeclared_key_refused.

(** rejected task ids *)
Theorem C32_ctd_ids_checked :
  forall kvs k v, k = "task_id"%string \/ k = "subtask_id"%string ->
  (forall s, is_str v s -> 128 < Z.of_nat (List.length s)) -> dset DCTD kvs (skey k) v = Err (EFieldError (u k)).
Proof. exact ctd_ids. Qed.
Print Assumptions C32_ctd_ids_checked.

Example C32_ex :
  (do o <- dict_new DCTD (VDict DPlain [(skey "task_id", VStr (u "t1"))]);
   match o with
   | VDict _ kvs =>
       Ok (is_ok (dset DCTD kvs (skey "subtask_id") (VStr (u "s"))), is_ok (dset DCTD kvs (skey "foo") VNone),
           is_ok (dset DCTD kvs (skey "task_id") (VInt 1)), dict_get (skey "deadline") kvs)
   | _ => Err ETypeError
   end) = Ok (true, false, false, Some (VInt 0)) /\
  is_ok (dict_new DPeer (VDict DPlain [])) = false /\
  is_ok (dict_new DPeer (VDict DPlain [(skey "address", VStr (u "10.0.0.1")); (skey "port", VInt 40102);
                                       (skey "node", VDict DPlain [(skey "node_name", VStr (u "n"))])])) = true.
Proof. split; [|split]; vm_compute; reflexivity. Qed.

(** ** C33 *)
Theorem C33_success_exact :
  forall c kw o,
  cnew c kw = Ok o <->
  (forall k v, In (k, v) kw -> exists s, In s (cslots c) /\ k = u s) /\
  exists a, o = VObj c a /\ map fst a = cslots c /\
    forall k w, In (k, w) a ->
      match kw_get (u k) kw with
      | None => crequired c k = false /\ w = cdefault c k
      | Some v =>
          (v = VNone /\ crequired c k = false /\ w = VNone) \/
          ((v <> VNone \/ crequired c k = true) /\
           Forall (fun f => f (u k) v = Ok tt) (cvalidators c k) /\
           match chook c k with None => w = v | Some h => h v = Ok w end)
      end.
Proof. exact cnew_iff. Qed.
Print Assumptions C33_success_exact.

(** missing required field, unknown field, rejected value: always an error *)
Theorem C33_bad_declaration_fails :
  forall c kw f,
  (exists k, f = u k /\ In k (cslots c) /\ crequired c k = true /\ kw_get f kw = None) \/
  (~ (exists k, f = u k /\ In k (cslots c)) /\ exists v, In (f, v) kw) \/
  (exists k v g, f = u k /\ In k (cslots c) /\ kw_get f kw = Some v /\
     (v <> VNone \/ crequired c k = true) /\ In g (cvalidators c k) /\ g f v <> Ok tt) ->
  exists e, cnew c kw = Err e.
Proof. exact bad_declaration. Qed.
Print Assumptions C33_bad_declaration_fails.

(** an error is FieldError of a badly declared field, or comes from building a
    nested object from an acceptable value: its FieldError, or plain MessageError for anything else *)
Theorem C33_failure_kinds :
  forall c kw e, cnew c kw = Err e ->
  (exists f, e = EFieldError f /\
    ((exists k, f = u k /\ In k (cslots c) /\ crequired c k = true /\ kw_get f kw = None) \/
     (~ (exists k, f = u k /\ In k (cslots c)) /\ exists v, In (f, v) kw) \/
     (exists k v g, f = u k /\ In k (cslots c) /\ kw_get f kw = Some v /\ In g (cvalidators c k) /\ g f v <> Ok tt))) \/
  exists k v h e', In k (cslots c) /\ kw_get (u k) kw = Some v /\ chook c k = Some h /\ h v = Err e' /\
    Forall (fun f => f (u k) v = Ok tt) (cvalidators c k) /\ e = if is_field_error e' then e' else EMessageError.
Proof. exact cnew_err. Qed.
Print Assumptions C33_failure_kinds.

(** for a task header it is FieldError unless the owner is a dict that cannot be keyword
    arguments *)
Theorem C33_header_failure :
  forall kw e, cnew CTaskHeader kw = Err e ->
  (exists f, e = EFieldError f) \/
  (e = EMessageError /\ exists d kvs k v, kw_get (u "task_owner") kw = Some (VDict d kvs) /\ In (k, v) kvs /\
     (str_of k = None \/ str_of k = Some (u "self"))).
Proof. exact header_failure. Qed.
Print Assumptions C33_header_failure.

(** "fails with FieldError" is too strong: a nested dict with a non-string key
    is reported as plain MessageError *)
Theorem C33_always_field_error_refuted :
  exists kw, cnew CProvider kw = Err EMessageError.
Proof. exists [(u "cpu_stats", VDict DPlain [(VInt 1, VNone)])]. vm_compute. reflexivity. Qed.
Print Assumptions C33_always_field_error_refuted.

Theorem C33_header_fields :
  forall kw a, cnew CTaskHeader kw = Ok (VObj CTaskHeader a) ->
  field a "task_id" (fun w => exists s, is_str w s /\ Z.of_nat (List.length s) <= 128) /\
  field a "task_owner" (fun w => exists n, w = VObj CNode n) /\
  field a "subtasks_count" (fun w => exists z, w = VInt z /\ 0 < z) /\
  field a "min_version" (fun w => exists s v, is_str w s /\ spells_version s v) /\
  field a "timestamp" an_int /\
  field a "mask" (opt (fun w => exists b, w = VMask b)) /\
  field a "signature" (opt (fun w => exists b, w = VBytes b)) /\
  field a "deadline" (opt an_int) /\
  field a "subtask_timeout" (opt (fun w => exists z, w = VInt z /\ 0 <= z)) /\
  field a "market_type" (opt (fun w => w = VEnum EnMarketType "Brass" \/ w = VEnum EnMarketType "Usage")) /\
  field a "environment" (opt (fun w => exists s, is_str w s /\ Z.of_nat (List.length s) <= 128)) /\
  field a "environment_prerequisites" (opt (fun w => exists d kvs, w = VDict d kvs)) /\
  field a "estimated_memory" (opt an_int) /\
  field a "max_price" (opt an_int) /\
  field a "subtask_budget" (opt an_int) /\
  field a "concent_enabled" (opt (fun w => exists b, w = VBool b)).
Proof. exact header_fields. Qed.
Print Assumptions C33_header_fields.

Theorem C33_node_fields :
  forall kw a, cnew CNode kw = Ok (VObj CNode a) ->
  field a "node_name" (opt (fun w => exists s, is_str w s)) /\
  field a "key" (opt (fun w => exists s, is_str w s /\ Z.of_nat (List.length s) <= 128)) /\
  (forall k, In k ["prv_port"; "pub_port"; "p2p_prv_port"; "p2p_pub_port"]%string ->
     field a k (opt (fun w => exists z, w = VInt z /\ 1 <= z <= 65534))) /\
  (forall k, In k ["prv_addr"; "pub_addr"]%string -> field a k (opt (fun w => ip_ok w = true))) /\
  (forall k, In k ["hyperdrive_prv_port"; "hyperdrive_pub_port"]%string -> field a k (opt an_int)).
Proof. exact node_fields. Qed.
Print Assumptions C33_node_fields.

(** a built container other than a task header goes to a dict, over the wire and
    back: it can be rebuilt, and what it then sends is the same *)
Theorem C33_roundtrip :
  forall c kw a, c <> CTaskHeader -> cnew c kw = Ok (VObj c a) ->
  exists d a' d', to_dict (VObj c a) = Ok d /\ cnew_star c (norm d) = Ok (VObj c a') /\
    to_dict (VObj c a') = Ok d' /\ norm d' = norm d.
Proof. exact container_roundtrip. Qed.
Print Assumptions C33_roundtrip.

Definition ex_node : list (ustr * pyval) :=
  [(u "node_name", VStr (u "n")); (u "prv_addr", VStr (u "10.0.0.1")); (u "prv_port", VInt 40102)].
Definition ex_header : list (ustr * pyval) :=
  [(u "task_id", VStr (u "t1")); (u "task_owner", VDict DPlain [(skey "node_name", VStr (u "n"))]);
   (u "subtasks_count", VInt 3); (u "min_version", VStr (u "1.2.3")); (u "timestamp", VInt 1500000000);
   (u "mask", VBytes [x01]); (u "market_type", VStr (u "Brass")); (u "max_price", VInt 7)].
Example C33_ex :
  is_ok (cnew CNode ex_node) = true /\ is_ok (cnew CTaskHeader ex_header) = true /\
  cnew CTaskHeader (tl ex_header) = Err (EFieldError (u "task_id")) /\
  cnew CNode ((u "prt", VInt 1) :: ex_node) = Err (EFieldError (u "prt")) /\
  cnew CNode ((u "pub_port", VInt 65535) :: ex_node) = Err (EFieldError (u "pub_port")) /\
  is_ok (cnew CProvider [(u "cpu_stats", VDict DPlain [(skey "cpu_usage", VDict DPlain [(skey "total_usage", VInt 9)])])]) = true.
Proof. repeat split; vm_compute; reflexivity. Qed.

(** ** C34 *)
(** [made C a]: [a] was built by the constructor (its owner a dict or a built Node)
    and then signed any number of times *)
Theorem C34_dict_roundtrip :
  forall C a, made C a ->
  exists d a', to_dict (VObj CTaskHeader a) = Ok d /\ cnew_star CTaskHeader d = Ok (VObj CTaskHeader a') /\
    header_hash C a' = header_hash C a /\ (forall pub, header_verify C a' pub = header_verify C a pub) /\
    (plain_header a -> a' = a).
Proof. exact header_dict_rt. Qed.
Print Assumptions C34_dict_roundtrip.

(** ... and over the wire, for headers whose dict keys stay distinct there *)
Theorem C34_wire_roundtrip :
  forall C a d b depth, made C a -> to_dict (VObj CTaskHeader a) = Ok d -> dumps d = Ok b ->
  wirewf d = true -> (vdepth d < depth)%nat ->
  exists d' a', loads depth b = Ok d' /\ cnew_star CTaskHeader d' = Ok (VObj CTaskHeader a') /\
    header_hash C a' = header_hash C a /\ (forall pub, header_verify C a' pub = header_verify C a pub) /\
    (plain_header a -> a' = a).
Proof. exact header_wire_rt. Qed.
Print Assumptions C34_wire_roundtrip.

Theorem C34_signing_keeps_hash :
  forall C a priv a', made C a -> header_sign C a priv = Ok a' -> header_hash C a' = header_hash C a.
Proof. exact header_sign_hash. Qed.
Print Assumptions C34_signing_keeps_hash.

(** a signed header verifies with exactly the signer's key *)
Theorem C34_signed_verifies_only_with_key :
  forall C a priv sec pub a' p, crypto_ok C -> made C a ->
  secret_of C priv = Some sec -> pub_of C sec = Some pub -> header_sign C a priv = Ok a' ->
  List.length p = 64%nat -> (header_verify C a' (VBytes p) = Ok tt <-> p = pub).
Proof. exact header_signed_verify. Qed.
Print Assumptions C34_signed_verifies_only_with_key.

(** verification accepts exactly signatures of the header's hash recovering to the
    given key *)
Theorem C34_verify_exact :
  forall C a p, List.length p = 64%nat ->
  header_verify C a (VBytes p) = Ok tt <->
  exists sg h, attr_get_or_none "signature" a = VBytes sg /\ header_hash C a = Ok h /\
    recover C sg (sha3_256 C h) = Some (x04 :: p).
Proof. exact header_verify_iff. Qed.
Print Assumptions C34_verify_exact.

Theorem C34_verify_errors :
  forall C a p e, List.length p = 64%nat -> header_verify C a (VBytes p) = Err e ->
  e = EInvalidSignature \/ header_hash C a = Err e.
Proof. exact header_verify_err. Qed.
Print Assumptions C34_verify_errors.

Theorem C34_missing_signature :
  forall C a pub, attr_get_or_none "signature" a = VNone -> header_verify C a pub = Err EInvalidSignature.
Proof. exact header_unsigned. Qed.
Print Assumptions C34_missing_signature.

(** what is hashed determines every field but the signature, as seen on the wire:
    headers with equal hashes differ only by a SHA-1 collision *)
Theorem C34_hash_binds :
  forall C a a' h, made C a -> made C a' -> wire_ok a -> wire_ok a' ->
  header_hash C a = Ok h -> header_hash C a' = Ok h ->
  exists b b', header_bytes a b /\ header_bytes a' b' /\ h = sha1 C b /\ h = sha1 C b' /\
    (b = b' -> forall k w w', k <> "signature"%string -> attr_get k a = Some w -> attr_get k a' = Some w' ->
       exists x x', ser_entry CTaskHeader k w = Ok x /\ ser_entry CTaskHeader k w' = Ok x' /\ norm x = norm x').
Proof. exact header_hash_binds. Qed.
Print Assumptions C34_hash_binds.

Example C34_ex :
  (do o <- cnew CTaskHeader ex_header;
   match o with
   | VObj _ a => do a' <- header_sign toy a (repeat x05 32);
                 Ok (header_verify toy a' (VBytes (repeat x05 64)), header_verify toy a' (VBytes (repeat x06 64)),
                     header_verify toy a (VBytes (repeat x05 64)))
   | _ => Err ETypeError
   end) = Ok (Ok tt, Err EInvalidSignature, Err EInvalidSignature).
Proof. vm_compute. reflexivity. Qed.

(** ** C54 *)
Theorem C54_fills_only_missing :
  forall a, let a' := update_public_info a in
  (forall pub prv, In (pub, prv) [("pub_addr", "prv_addr"); ("pub_port", "prv_port"); ("p2p_pub_port", "p2p_prv_port");
                                  ("hyperdrive_pub_port", "hyperdrive_prv_port")]%string ->
     (attr_get_or_none pub a <> VNone -> attr_get_or_none pub a' = attr_get_or_none pub a) /\
     (attr_get_or_none pub a = VNone -> attr_get_or_none pub a' = attr_get_or_none prv a)) /\
  (forall k, ~ In k ["pub_addr"; "pub_port"; "p2p_pub_port"; "hyperdrive_pub_port"]%string ->
     attr_get_or_none k a' = attr_get_or_none k a).
Proof. exact update_spec. Qed.
Print Assumptions C54_fills_only_missing.

Theorem C54_idempotent :
  forall kw a, cnew CNode kw = Ok (VObj CNode a) ->
  update_public_info (update_public_info a) = update_public_info a.
Proof. exact update_idempotent. Qed.
Print Assumptions C54_idempotent.

(** the updated node is still acceptable to the constructor *)
Theorem C54_stays_valid :
  forall kw a, cnew CNode kw = Ok (VObj CNode a) ->
  exists d a', to_dict (VObj CNode (update_public_info a)) = Ok d /\ cnew_star CNode (norm d) = Ok (VObj CNode a').
Proof. exact update_valid. Qed.
Print Assumptions C54_stays_valid.

(** with a private address known, the updated node is a super node exactly if it had
    no public address or an equal one *)
Theorem C54_super_node :
  forall a, attr_get_or_none "prv_addr" a <> VNone -> py_eq (attr_get_or_none "prv_addr" a) (attr_get_or_none "prv_addr" a) = true ->
  (is_super_node (update_public_info a) = true <->
   attr_get_or_none "pub_addr" a = VNone \/ py_eq (attr_get_or_none "pub_addr" a) (attr_get_or_none "prv_addr" a) = true).
Proof. exact update_super. Qed.
Print Assumptions C54_super_node.

(** in general: both addresses are known and equal *)
Theorem C54_super_node_exact :
  forall a, is_super_node a = true <->
  attr_get_or_none "pub_addr" a <> VNone /\ attr_get_or_none "prv_addr" a <> VNone /\
  py_eq (attr_get_or_none "pub_addr" a) (attr_get_or_none "prv_addr" a) = true.
Proof. exact super_node_iff. Qed.
Print Assumptions C54_super_node_exact.

Example C54_ex :
  (do o <- cnew CNode ((u "pub_port", VInt 5) :: ex_node);
   match o with
   | VObj _ a => let a' := update_public_info a in
       Ok (attr_get_or_none "pub_addr" a', attr_get_or_none "pub_port" a', attr_get_or_none "prv_port" a', is_super_node a')
   | _ => Err ETypeError
   end) = Ok (VStr (u "10.0.0.1"), VInt 5, VInt 40102, true).
Proof. vm_compute. reflexivity. Qed.

Example C34_plain_ex :
  exists a, cnew CTaskHeader ex_header = Ok (VObj CTaskHeader a) /\ plain_header a /\ wire_ok a.
Proof.
  eexists. split; [vm_compute; reflexivity|]. split.
  - intros k w Hin.
    repeat (destruct Hin as [Hin|Hin];
      [injection Hin as <- <-; first [exact I|exact (conj eq_refl eq_refl)
        |intros k w Hin; repeat (destruct Hin as [Hin|Hin]; [injection Hin as <- <-; exact (conj eq_refl eq_refl)|]); destruct Hin]|]).
    destruct Hin.
  - intros d H. apply Ok_inj in H. subst d. vm_compute. reflexivity.
Qed.
