(** * C63: the protocol as a peer sees it, by type numbers and slot names.  The tables
    [unsigned_types], [nested_slots], [enum_slots], [signers], [wire_slots],
    [provider_slots] and [wire_fields] are written out in ProtocolFacts.v. *)
From Verif Require Import ProtocolFacts SampleLoads.

(** the sender's key makes no difference for these types *)
Theorem C63_unsigned_from_anyone :
  forall E now msg decf ct pub, In (be_dec (firstn 2 msg)) unsigned_types ->
  deserialize E now msg decf ct pub = deserialize E now msg decf ct None.
Proof. exact unsigned_sender. Qed.
Print Assumptions C63_unsigned_from_anyone.
(** every other frame loads with one sender's key at most *)
Theorem C63_signed_from_one :
  forall E now msg decf ct k1 k2 m1 m2, ~ In (be_dec (firstn 2 msg)) unsigned_types -> k1 <> [] -> k2 <> [] ->
  deserialize E now msg decf ct (Some k1) = Ok m1 -> deserialize E now msg decf ct (Some k2) = Ok m2 -> k1 = k2.
Proof. exact signed_sender. Qed.
Print Assumptions C63_signed_from_one.
(** at every depth of a loaded message, the slots of the table hold the numbered types *)
Theorem C63_nested :
  forall E now bs decf ct pub m p c ty ts enc sig a k t req il,
  deserialize E now bs decf ct pub = Ok m -> follow p m = Some (VMsg c ty ts enc sig a) -> In (type_of c, k, t, req, il) nested_slots ->
  exists w, attr_get k a = Some w /\
    (w = VNone \/
     (il = false /\ exists d ty' ts' enc' sig' b, type_of d = t /\ w = VMsg d ty' ts' enc' sig' b) \/
     (il = true /\ exists l, w = VList l /\ l <> [] /\
        Forall (fun x => exists d ty' ts' enc' sig' b, type_of d = t /\ x = VMsg d ty' ts' enc' sig' b) l)).
Proof. exact nested_declared. Qed.
Print Assumptions C63_nested.
(** no other slot holds a message or a list with a message in it *)
Theorem C63_nowhere_else :
  forall E now bs decf ct pub m p c ty ts enc sig a k ks w,
  deserialize E now bs decf ct pub = Ok m -> follow p m = Some (VMsg c ty ts enc sig a) -> In (type_of c, ks) wire_slots -> In k ks ->
  attr_get k a = Some w ->
  (forall t req il, ~ In (type_of c, k, t, req, il) nested_slots) ->
  (forall d ty' ts' enc' sig' b, w <> VMsg d ty' ts' enc' sig' b) /\
  (forall l d ty' ts' enc' sig' b, w = VList l -> ~ In (VMsg d ty' ts' enc' sig' b) l).
Proof. exact not_nested_row. Qed.
Print Assumptions C63_nowhere_else.
(** None sent in a required slot is refused (leaving the slot out is not, see C13) *)
Theorem C63_required :
  forall n c s a k t il v, load_attrs n c s = Ok a -> In (type_of c, k, t, true, il) nested_slots ->
  dict_get (skey k) (sent_slots s) = Some v -> attr_get_or_none k (post_init c a) <> VNone.
Proof. exact required_sent. Qed.
Print Assumptions C63_required.
(** and a message with None in a required slot has no serialized form *)
Theorem C63_required_sent :
  forall c a k t il, In (type_of c, k, t, true, il) nested_slots -> attr_get k a = Some VNone -> forall s, slots c a <> Ok s.
Proof. exact required_dumped. Qed.
Print Assumptions C63_required_sent.
(** at every depth, the enumerated slots hold one of the listed values or None *)
Theorem C63_enums :
  forall E now bs decf ct pub m p c ty ts enc sig a k vals,
  deserialize E now bs decf ct pub = Ok m -> follow p m = Some (VMsg c ty ts enc sig a) -> In (type_of c, k, vals) enum_slots ->
  exists w, attr_get k a = Some w /\ (w = VNone \/ exists e s, w = VEnum e s /\ In s vals).
Proof. exact enum_declared. Qed.
Print Assumptions C63_enums.
(** and the member is the one named by the text that was sent *)
Theorem C63_enum_text :
  forall n c s a k vals v, load_attrs n c s = Ok a -> In (type_of c, k, vals) enum_slots ->
  dict_get (skey k) (sent_slots s) = Some v -> (forall e x, v <> VEnum e x) ->
  (v = VNone /\ attr_get_or_none k a = VNone) \/
  exists e x, In x vals /\ v = VStr (u x) /\ attr_get_or_none k a = VEnum e x.
Proof. exact enum_sent. Qed.
Print Assumptions C63_enum_text.
(** an accepted owner signed in one of the roles of the table *)
Theorem C63_signers :
  forall E c ty ts enc sig a concent, a_key concent ->
  let m := VMsg c ty ts enc sig a in
  validate_ownership E m concent = Ok tt ->
  exists os o pk rk, In (type_of c, os) signers /\ chain_keys m pk rk /\ In o os /\ signed_by E m (owner_key pk rk concent o).
Proof. exact owner_declared. Qed.
Print Assumptions C63_signers.
(** and a signature in any of these roles is accepted *)
Theorem C63_signers_accepted :
  forall E c ty ts enc sig a concent pk rk priv sec pub m' os, crypto_ok (cr E) -> a_key concent -> In (type_of c, os) signers ->
  let m := VMsg c ty ts enc sig a in
  chain_keys m pk rk -> (c = MTaskToCompute -> header_signed E m rk) ->
  secret_of (cr E) priv = Some sec -> pub_of (cr E) sec = Some pub -> sign_message E m priv = Ok m' ->
  (forall o, In o os -> key64 (owner_key pk rk concent o)) ->
  (validate_ownership E m' concent = Ok tt <-> exists o, In o os /\ owner_key pk rk concent o = VBytes pub).
Proof. exact owner_signed. Qed.
Print Assumptions C63_signers_accepted.
(** the slots are sent by name in the order of the table, which covers every type *)
Theorem C63_slots_sent :
  forall c a s ks, slots c a = Ok s -> In (type_of c, ks) wire_slots ->
  exists l, s = VList l /\ Forall2 (fun k x => exists v, x = VList [VStr (u k); v]) ks l.
Proof. exact sent_names. Qed.
Print Assumptions C63_slots_sent.
Theorem C63_every_type : forall c, exists ks, In (type_of c, ks) wire_slots /\ forall ks', In (type_of c, ks') wire_slots -> ks' = ks.
Proof. exact one_row. Qed.
Print Assumptions C63_every_type.
(** containers have, and send in order, the fields of the table, which covers every class *)
Theorem C63_container_fields :
  (forall c, exists ks, In (c, ks) wire_fields) /\
  forall c ks, In (c, ks) wire_fields ->
  (forall kw a, cnew c kw = Ok (VObj c a) -> map fst a = ks) /\
  (forall a d, to_dict (VObj c a) = Ok d -> exists kvs, d = VDict DPlain kvs /\ map fst kvs = map skey ks).
Proof. exact (conj (fun c => match field_row c with ex_intro _ ks H => ex_intro _ ks (proj1 H) end) fields_sent). Qed.
Print Assumptions C63_container_fields.
(** where the accessors look for the task, in order *)
Theorem C63_task_source :
  forall c name ty ts enc sig a v ps, In (type_of c, ps) provider_slots -> type_of c <> 2002 ->
  In name chain_names -> ~ In name (slot_names c) ->
  (getattr name (VMsg c ty ts enc sig a) = Ok v <-> first_value name a ps v).
Proof. exact task_source. Qed.
Print Assumptions C63_task_source.
Example C63_ex :
  map (fun bs => (be_dec (firstn 2 bs), is_ok (load0 (Some (pub req_key)) bs), is_ok (load0 (Some (pub prov_key)) bs)))
    [dump0 (signed req_key ex_remove); dump0 (make now0 MPing []); dump0 ex_rct] =
    [(1007, true, false); (1001, true, true); (2004, false, true)] /\
  In (4004, "ack_report_computed_task"%string, 2029, true, false) nested_slots /\
  (match load0 None (dump0 ex_verdict) with Ok (VMsg c _ _ _ _ _) => type_of c | _ => 0 end) = 4004 /\
  validate_ownership E0 ex_srr (VBytes (pub conc_key)) = Ok tt /\
  (match load0 None (dump0 ex_srr) with Ok (VMsg _ _ _ _ _ a) => attr_get_or_none "reason" a | _ => VNone end) = VEnum EnSRR "Results verification negative".
Proof. split; [vm_compute; reflexivity|]. split; [vm_compute; tauto|]. split; [vm_compute; reflexivity|]. split; vm_compute; reflexivity. Qed.
