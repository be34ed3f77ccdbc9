(** * Property theorems: relaying messages, Hello included (C59). *)
From Verif Require Import RelayFacts Samples.

(** ** C59 *)
(** what was received whole, a Hello too, arrives as the identical message at every node
    further down the line; a Hello only if each of them accepts its version.  (Its
    version survives because an accepted one is ASCII and at most 31 characters long.
    That the signature is whole is automatic unless a Hello was decrypted from nothing.) *)
Theorem C59_whole :
  forall E hs now bs decf ct pub c ty ts enc sg a, crypto_ok (cr E) ->
  deserialize E now bs decf ct pub = Ok (VMsg c ty ts enc (VBytes sg) a) -> complete (VMsg c ty ts enc (VBytes sg) a) = true ->
  List.length sg = 65%nat -> (forall s, slots c a = Ok s -> vsize s < 2 ^ 64) ->
  Forall (fun h => hop_fits E (VMsg c ty ts enc (VBytes sg) a) h /\
    (c = MHello -> forall v, attr_get "_version" a = Some (VStr v) -> verify_version (our_version (h_to h)) v = Ok tt)) hs ->
  pass (VMsg c ty ts enc (VBytes sg) a) hs = Ok (VMsg c ty ts (match hs with [] => enc | _ => VBool false end) (VBytes sg) a).
Proof.
  intros E hs now bs decf ct pub c ty ts enc sg a HC H C L S F. apply (pass_whole E hs HC E now bs decf ct pub c ty ts enc sg a eq_refl H C L S).
  apply (fun I => Forall_impl _ I F). intros h [Fh Gh]. split; [exact Fh|]. unfold gate. destruct c; try exact I. exact (Gh eq_refl).
Qed.
Print Assumptions C59_whole.
(** the version of a received Hello is ASCII, so nothing in it was replaced, and fits the
    frame *)
Theorem C59_version :
  forall E now bs decf ct pub ty ts enc sig a, deserialize E now bs decf ct pub = Ok (VMsg MHello ty ts enc sig a) ->
  exists v, attr_get "_version" a = Some (VStr v) /\ Forall (fun x => 0 <= x < 128) v /\ (List.length v <= 31)%nat.
Proof.
  intros E now bs decf ct pub ty ts enc sig a H. apply deserialize_loaded in H as (c' & t & e & s & v & a0 & Q & L & _ & _ & V & _).
  assert (c' = MHello) by congruence. subst c'. assert (a = full MHello v a0) by congruence. subst a. destruct (V eq_refl) as (V1 & V2 & V3).
  assert (Hf : map fst a0 = slot_names MHello) by (destruct L; assumption). pose proof (version_not_slot MHello) as N. rewrite <- Hf in N.
  exists v. split; [cbn [full]; apply attr_get_last; exact N|]. split; [exact (accepted_ascii _ _ V1 V2)|exact V3].
Qed.
Print Assumptions C59_version.

(** a Hello from 2.12.1 passed along three nodes of 2.12; a node of 2.13 refuses it *)
Definition hello_node : pyval := Eval vm_compute in get VNone (cnew CNode ex_node_kw).
Definition hello0 : pyval := Eval vm_compute in signed prov_key (make now0 MHello [("rand_val", VFloat 4607182418800017408); ("port", VInt 40102); ("node_info", hello_node)]%string).
Definition hello0_got : pyval := Eval vm_compute in get VNone (load0 (Some (pub prov_key)) (dump0 hello0)).
Definition E13 : env := {| cr := toy; our_version := u "2.13.0"; cdepth := 100 |}.
Definition hop0 (E : env) : hop := {| h_from := E0; h_to := E; h_now := now0 * 1000000; h_dec := fun b => Ok b; h_check := true; h_pub := Some (pub prov_key) |}.
Example C59_hello_ex :
  load0 (Some (pub prov_key)) (dump0 hello0) = Ok hello0_got /\ complete hello0_got = true /\
  match hello0_got with VMsg MHello _ _ _ (VBytes sg) a => List.length sg = 65%nat /\ attr_get "_version" a = Some (VStr (u "2.12.1")) | _ => False end /\
  hop_fits E0 hello0_got (hop0 E0) /\ pass hello0_got [hop0 E0; hop0 E0; hop0 E0] = Ok hello0_got /\
  verify_version (u "2.12.1") (u "2.12.1") = Ok tt /\
  hop_fits E0 hello0_got (hop0 E13) /\ pass hello0_got [hop0 E13] = Err EVersionMismatchError.
Proof.
  assert (D : forall s, slots MHello (match hello0_got with VMsg _ _ _ _ _ a => a | _ => [] end) = Ok s -> Nat.ltb (vdepth s) 100 = true).
  { intros s H. vm_compute in H. apply Ok_inj in H. subst s. vm_compute. reflexivity. }
  assert (F : forall E, E = E0 \/ E = E13 -> hop_fits E0 hello0_got (hop0 E)).
  { intros E [-> | ->]; (split; [reflexivity|]; split; [reflexivity|]; split; [intros s Hs; apply Nat.ltb_lt, D, Hs|]; split;
      [intros t Ht _; injection Ht as <-; vm_compute; split; discriminate|intros k Hk _ _; apply Some_inj in Hk; subst k; vm_compute; reflexivity]). }
  split; [vm_compute; reflexivity|]. split; [vm_compute; reflexivity|]. split; [vm_compute; split; reflexivity|]. split; [apply F; left; reflexivity|].
  split; [vm_compute; reflexivity|]. split; [vm_compute; reflexivity|]. split; [apply F; right; reflexivity|vm_compute; reflexivity].
Qed.
