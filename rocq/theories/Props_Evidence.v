(** * C65: what accepted evidence proves.  [reach m n]: [n] is [m] or a message about a
    task somewhere inside it; [tasks_name m pk rk]: every TaskToCompute inside [m] that
    names keys names [pk] and [rk]; [genuine E k issued m]: the signatures inside [m]
    that verify with [k] were made by signing one of the messages [issued];
    [genuine_frame]: the same of the signature of a frame;
    [sha1_collision E m n]: the bytes hashed for [m] and [n] differ and have one SHA-1;
    [terms]: the slots of TaskToCompute holding plain values. *)
From Verif Require Import EvidenceFacts SampleLoads.

(** if all tasks inside name one provider and one requestor, everything inside is signed
    by them or Concent, each message by a party that may sign it *)
Theorem C65_one_pair :
  forall E now bs decf ct pub m pk rk concent,
  deserialize E now bs decf ct pub = Ok m -> a_key concent -> validate_ownership_chain E m concent = Ok tt -> tasks_name m pk rk ->
  forall n, reach m n -> signed_in_role E n pk rk concent.
Proof. exact one_pair. Qed.
Print Assumptions C65_one_pair.
(** verify_owners is enough for a type with room for one TaskToCompute *)
Theorem C65_one_task :
  forall E now bs decf ct pub c ty ts enc sig a pk rk concent,
  deserialize E now bs decf ct pub = Ok (VMsg c ty ts enc sig a) -> a_key concent -> pk <> [] -> rk <> [] ->
  ~ In (type_of c) several_tasks ->
  verify_owners E (VMsg c ty ts enc sig a) (opt_key (Some pk)) (opt_key (Some rk)) concent = Ok tt ->
  forall n, reach (VMsg c ty ts enc sig a) n -> signed_in_role E n pk rk concent.
Proof. exact one_task_received. Qed.
Print Assumptions C65_one_task.
(** but not for the others: a RejectReportComputedTask accepted as between one provider
    and one requestor may rest on another provider's CannotComputeTask *)
Definition other_key : bytes := repeat x55 32.
Definition other_ttc : pyval := Eval vm_compute in
  match ex_ttc with
  | VMsg c ty ts enc _ a =>
      let w := signed other_key (make now0 MWantToComputeTask
        [("task_header", ex_header_obj); ("provider_public_key", hex (pub other_key)); ("price", VInt 5);
         ("provider_ethereum_address", VStr (u "0x" ++ repeat 97 40)%list)]%string) in
      signed req_key (VMsg c ty ts enc VNone (attr_set "want_to_compute_task" w a))
  | _ => VNone
  end.
Definition other_cannot : pyval := Eval vm_compute in signed other_key (make (now0 + 5) MCannotComputeTask
  [("task_to_compute", other_ttc); ("reason", VEnum EnCannotCompute "WrongCTD")]%string).
Definition mixed : pyval := Eval vm_compute in signed req_key (make (now0 + 15) MRejectReportComputedTask
  [("attached_task_to_compute", ex_ttc); ("cannot_compute_task", other_cannot); ("reason", VEnum EnRejectRCT "GotMessageCannotComputeTask")]%string).
Definition mixed_frame : bytes := Eval vm_compute in dump0 mixed.
Definition mixed_got : pyval := Eval vm_compute in get VNone (load0 None mixed_frame).
Definition cannot_got : pyval := Eval vm_compute in match follow [("cannot_compute_task"%string, 0%nat)] mixed_got with Some n => n | None => VNone end.
Theorem C65_one_pair_refuted :
  exists E now bs m pk rk concent n, crypto_ok (cr E) /\
    deserialize E now bs (fun b => Ok b) true (Some rk) = Ok m /\ a_key concent /\ pk <> [] /\ rk <> [] /\
    verify_owners E m (opt_key (Some pk)) (opt_key (Some rk)) concent = Ok tt /\
    reach m n /\ (exists ty ts enc sig a, n = VMsg MCannotComputeTask ty ts enc sig a) /\
    forall k, signed_by E n (VBytes k) -> k <> pk /\ k <> rk /\ VBytes k <> concent.
Proof.
  exists E0, (now0 * 1000000), mixed_frame, mixed_got, (pub prov_key), (pub req_key), (VBytes (pub conc_key)), cannot_got.
  split; [exact toy_ok|]. split; [vm_compute; reflexivity|]. split; [right; eauto|]. split; [discriminate|]. split; [discriminate|].
  split; [vm_compute; reflexivity|]. split; [|split; [repeat eexists|]].
  - unfold mixed_got. eapply reach_slot with (k := "cannot_compute_task"%string) (w := cannot_got); [reflexivity|right; right; left; reflexivity|reflexivity|reflexivity|constructor].
  - intros k H. assert (S : signed_by E0 cannot_got (VBytes (pub other_key))) by (apply verify_signature_iff; vm_compute; reflexivity).
    rewrite (signed_by_one _ _ _ _ H S). repeat split; discriminate.
Qed.
Print Assumptions C65_one_pair_refuted.

(** every message inside has been signed by a party that may sign it, with this type
    number and timestamp in its header and these slots, or SHA-1 collides on it *)
Theorem C65_evidence :
  forall E now bs decf ct pub m pk rk concent (issued : owner -> pyval -> Prop),
  crypto_ok (cr E) -> deserialize E now bs decf ct pub = Ok m -> a_key concent ->
  validate_ownership_chain E m concent = Ok tt -> tasks_name m pk rk ->
  (forall o k, owner_key pk rk concent o = VBytes k -> genuine E k (issued o) m) ->
  (forall o m0, issued o m0 -> sendable m0) ->
  forall c ty ts enc sig a, reach m (VMsg c ty ts enc sig a) ->
  exists os o c0 ts0 enc0 sig0 a0, In (type_of c, os) signers /\ In o os /\
    issued o (VMsg c0 (VInt (type_of c0)) (VInt ts0) enc0 sig0 a0) /\
    (sha1_collision E (VMsg c0 (VInt (type_of c0)) (VInt ts0) enc0 sig0 a0) (VMsg c ty ts enc sig a) \/
     (ty = VInt (type_of c0) /\ ts = VInt ts0 /\ payload_of c a = payload_of c0 a0 /\
      exists ks, In (type_of c, ks) wire_slots /\ In (type_of c0, ks) wire_slots)).
Proof. exact evidence_rows. Qed.
Print Assumptions C65_evidence.
(** of a TaskToCompute inside: the requestor signed a TaskToCompute with these terms and
    this WantToComputeTask *)
Theorem C65_terms :
  forall E now bs decf ct pub m pk rk concent (issued : owner -> pyval -> Prop),
  crypto_ok (cr E) -> deserialize E now bs decf ct pub = Ok m -> a_key concent ->
  validate_ownership_chain E m concent = Ok tt -> tasks_name m pk rk ->
  (forall o k, owner_key pk rk concent o = VBytes k -> genuine E k (issued o) m) ->
  (forall o m0, issued o m0 -> sendable m0) ->
  forall ty ts enc sig a, reach m (VMsg MTaskToCompute ty ts enc sig a) ->
  exists m0, issued ORequestor m0 /\
    (sha1_collision E m0 (VMsg MTaskToCompute ty ts enc sig a) \/
     exists ts0 enc0 sig0 a0, m0 = VMsg MTaskToCompute (VInt 2002) (VInt ts0) enc0 sig0 a0 /\ ty = VInt 2002 /\ ts = VInt ts0 /\
       (forall k w0, In k terms -> attr_get k a0 = Some w0 -> attr_get k a = Some (norm (enum_value w0))) /\
       (forall kvs, attr_get "compute_task_def" a0 = Some (VDict DCTD kvs) ->
          exists kvs', attr_get "compute_task_def" a = Some (VDict DCTD kvs') /\ norm (VDict DCTD kvs') = norm (VDict DCTD kvs)) /\
       (forall y1 y2 y3 y4 b, attr_get "want_to_compute_task" a0 = Some (VMsg MWantToComputeTask y1 y2 y3 y4 b) ->
          exists z1 z2 z3 z4 b', attr_get "want_to_compute_task" a = Some (VMsg MWantToComputeTask z1 z2 z3 z4 b') /\
            norm y1 = norm z1 /\ norm y2 = norm z2 /\ norm y3 = norm z3 /\ norm y4 = norm z4 /\
            payload_of MWantToComputeTask b = payload_of MWantToComputeTask b')).
Proof. exact terms_issued. Qed.
Print Assumptions C65_terms.
(** a frame accepted from the holder of [k] has the class, the time and the payload of a
    message they signed *)
Theorem C65_sender :
  forall E now msg decf ct k m (issued : pyval -> Prop), crypto_ok (cr E) -> k <> [] ->
  deserialize E now msg decf ct (Some k) = Ok m -> ~ In (be_dec (firstn 2 msg)) unsigned_types ->
  genuine_frame E k issued decf msg ->
  (forall m0, issued m0 -> sendable m0) ->
  exists c ts enc sig a d payload m0, m = VMsg c (VInt (type_of c)) (VInt ts) (VBool enc) (VBytes sig) a /\
    decrypted decf enc (skipn 65 (body c msg)) = Ok payload /\ dumps (VList [VInt (type_of c); VInt ts]) = Ok d /\ issued m0 /\
    ((exists i, hashed_bytes m0 i /\ i <> d ++ payload /\ sha1 (cr E) i = sha1 (cr E) (d ++ payload)) \/
     exists enc0 sig0 a0, m0 = VMsg c (VInt (type_of c)) (VInt ts) enc0 sig0 a0 /\ payload_of c a0 = Ok payload).
Proof. exact sender_issued. Qed.
Print Assumptions C65_sender.
(** a ReportComputedTask in the light of the theorems: what was issued is what arrived *)
Definition rct_frame : bytes := Eval vm_compute in dump0 ex_rct.
Definition rct_got : pyval := Eval vm_compute in get VNone (load0 None rct_frame).
Definition ttc_got : pyval := Eval vm_compute in match follow [("task_to_compute"%string, 0%nat)] rct_got with Some n => n | None => VNone end.
Definition issued_by (o : owner) (m : pyval) : Prop :=
  match o with OProvider => m = rct_got | ORequestor => m = ttc_got | OConcent => False end.
Lemma reached n : reach rct_got n -> n = rct_got \/ n = ttc_got.
Proof.
  assert (B : forall n, reach ttc_got n -> n = ttc_got).
  { intros x R. inversion R as [|c0 ty0 ts0 enc0 sig0 a0 k w n0 T Hk Hw W R' Q]; [reflexivity|exfalso]. subst. cbn [slot_names slot_table map fst In] in Hk.
    repeat (destruct Hk as [<-|Hk]; [vm_compute in Hw; injection Hw as <-; discriminate W|]). destruct Hk. }
  intros R. inversion R as [|c0 ty0 ts0 enc0 sig0 a0 k w n0 T Hk Hw W R' Q]; [left; reflexivity|right]. subst. apply B.
  assert (w = ttc_got); [|subst w; exact R']. clear R'. cbn [slot_names slot_table map fst In] in Hk.
  repeat (destruct Hk as [<-|Hk]; [vm_compute in Hw; injection Hw as <-; first [discriminate W|reflexivity]|]). destruct Hk.
Qed.
Example C65_ex :
  deserialize E0 (now0 * 1000000) rct_frame (fun b => Ok b) true (Some (pub prov_key)) = Ok rct_got /\
  verify_owners E0 rct_got (opt_key (Some (pub prov_key))) (opt_key (Some (pub req_key))) VNone = Ok tt /\
  ~ In 2004 several_tasks /\ ~ In (be_dec (firstn 2 rct_frame)) unsigned_types /\ reach rct_got ttc_got /\ tasks_name rct_got (pub prov_key) (pub req_key) /\
  (forall o k, owner_key (pub prov_key) (pub req_key) VNone o = VBytes k -> genuine E0 k (issued_by o) rct_got) /\
  (forall o m0, issued_by o m0 -> sendable m0) /\
  genuine_frame E0 (pub prov_key) (issued_by OProvider) (fun b => Ok b) rct_frame.
Proof.
  split; [vm_compute; reflexivity|]. split; [vm_compute; reflexivity|].
  split; [vm_compute; intuition discriminate|]. split; [vm_compute; intuition discriminate|].
  assert (K : chain_keys ttc_got (pub prov_key) (pub req_key)) by (apply chain_keys_iff; split; vm_compute; reflexivity).
  split; [|split; [|split; [|split]]].
  - unfold rct_got. eapply reach_slot with (k := "task_to_compute"%string) (w := ttc_got); [reflexivity|slots_in|reflexivity|reflexivity|constructor].
  - intros t p r Rt It Kt. destruct (reached _ Rt) as [->| ->]; [destruct It as (? & ? & ? & ? & ? & It); discriminate It|].
    apply chain_keys_iff in Kt as [A B]. apply chain_keys_iff in K as [C D]. split; congruence.
  - intros o k Hk n h R S Hh.
    assert (Sp : signed_by E0 rct_got (VBytes (pub prov_key))) by (apply verify_signature_iff; vm_compute; reflexivity).
    assert (Sr : signed_by E0 ttc_got (VBytes (pub req_key))) by (apply verify_signature_iff; vm_compute; reflexivity).
    exists n. split; [|exact Hh]. destruct (reached _ R) as [->| ->]; [pose proof (signed_by_one _ _ _ _ S Sp) as Q|pose proof (signed_by_one _ _ _ _ S Sr) as Q];
      subst k; destruct o; cbn [owner_key] in Hk; try discriminate Hk; reflexivity.
  - intros [] m0 Hm; cbn [issued_by] in Hm; [subst m0|subst m0|destruct Hm].
    + apply sendable_check. vm_compute. reflexivity.
    + apply sendable_check. vm_compute. reflexivity.
  - intros c ty ts enc payload d h U Lc P D Hh _. exists rct_got. split; [reflexivity|]. subst h.
    vm_compute in U. injection U as <- <- <-. vm_compute in Lc. injection Lc as <-. vm_compute in P. injection P as <-. vm_compute in D. injection D as <-.
    vm_compute. reflexivity.
Qed.
