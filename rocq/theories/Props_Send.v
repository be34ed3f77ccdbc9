(** * What can be dumped, and what is raised otherwise *)
From Verif Require Import SerFacts SendFacts Samples.

(** ** C73 *)
(** messages made from keyword arguments have all their slots, and so have the
    messages inside if those given have *)
Theorem C73_formed :
  forall E now c header sig s kw m, s = VNone \/ s = VList [] -> (forall k v, In (k, v) kw -> formed v) ->
  msg_init E now c header sig s kw = Ok m -> formed m.
Proof. exact formed_new. Qed.
Print Assumptions C73_formed.
(** a message has a payload exactly if every slot holds what its kind allows, and
    every message in it does so too *)
Theorem C73_payload :
  forall c ty ts enc sig a, formed (VMsg c ty ts enc sig a) -> (forall s, slots c a = Ok s -> vsize s < 2 ^ 64) ->
  ((exists p, payload_of c a = Ok p) <-> sendable (VMsg c ty ts enc sig a)).
Proof. exact payload_exact. Qed.
Print Assumptions C73_payload.
(** exactly which messages are dumped, given an encryption that does not fail *)
Theorem C73_dump :
  forall E c ty ts enc sig a key encf, crypto_ok (cr E) -> formed (VMsg c ty ts enc sig a) ->
  (forall s, slots c a = Ok s -> vsize s < 2 ^ 64) -> vsize (VList [ty; ts]) < 2 ^ 64 ->
  (forall f p, encf = Some f -> exists q, f p = Ok q) ->
  ((exists bs, snd (serialize E (VMsg c ty ts enc sig a) key encf) = Ok bs) <->
   ~ (key_given key = true /\ truthy sig = true) /\ sendable (VMsg c ty ts enc sig a) /\ is_time ts /\ bytes_or_none sig /\
   (c = MHello -> versioned a) /\
   (key_given key = true -> signs c = true -> sig = VNone -> dumpable ty /\ has_secret (cr E) key)).
Proof. exact dump_exact. Qed.
Print Assumptions C73_dump.
(** what is raised otherwise, and why *)
Theorem C73_errors :
  forall E c ty ts enc sig a key encf, crypto_ok (cr E) -> formed (VMsg c ty ts enc sig a) ->
  (forall s, slots c a = Ok s -> vsize s < 2 ^ 64) -> vsize (VList [ty; ts]) < 2 ^ 64 ->
  forall e, snd (serialize E (VMsg c ty ts enc sig a) key encf) = Err e ->
    (e = ESignatureAlreadyExists /\ key_given key = true /\ truthy sig = true) \/
    (raised_for c (VMsg c ty ts enc sig a) e /\ ~ sendable (VMsg c ty ts enc sig a)) \/
    (e = ESerializationError /\ (~ sendable (VMsg c ty ts enc sig a) \/ ~ dumpable ty \/ ~ is_time ts)) \/
    (e = EValueError /\ ~ has_secret (cr E) key) \/
    (e = EStructError /\ ~ is_time ts) \/
    (e = ETypeError /\ ~ bytes_or_none sig) \/
    (c = MHello /\ e = EAttributeError /\ ~ versioned a) \/
    (exists f p, encf = Some f /\ f p = Err e).
Proof. exact dump_err. Qed.
Print Assumptions C73_errors.
(** slots themselves fail with a FieldError naming a slot of the message or of a
    message in it, except for an integer as a task header's mask and for the lists of
    Peers and Tasks *)
Theorem C73_slots :
  forall c ty ts enc sig a e, slots c a = Err e ->
    (exists c' ty' ts' enc' sig' a' k, within (VMsg c' ty' ts' enc' sig' a') (VMsg c ty ts enc sig a) /\ In k (slot_names c') /\ e = EFieldError (u k)) \/
    (e = ETypeError /\ exists h w, within (VObj CTaskHeader h) (VMsg c ty ts enc sig a) /\ attr_get "mask" h = Some w /\ whole w) \/
    (c = MPeers /\ (e = ETypeError \/ e = EAttributeError \/ e = EKeyError)) \/ (c = MTasks /\ e = EAttributeError).
Proof. exact slots_err. Qed.
Print Assumptions C73_slots.

Definition fails (t : pyval) (c : mcls) (sig : pyval) (kw : attrs_t) (key : option bytes) : option exn :=
  match make now0 c kw with
  | VMsg c ty _ enc _ a => match snd (serialize E0 (VMsg c ty t enc sig a) key None) with Ok _ => None | Err e => Some e end
  | _ => None
  end.
Definition int_mask_header : pyval := match ex_header_obj with VObj c a => VObj c (attr_set "mask" (VInt 7) a) | v => v end.
(** a chain of five nested messages meets the hypotheses and is dumped; every error
    occurs *)
Example C73_ex :
  (match ex_verdict with
   | VMsg c ty ts enc sig a => formed ex_verdict /\ crypto_ok (cr E0) /\ vsize (get VNone (slots c a)) < 2 ^ 64 /\ vsize (VList [ty; ts]) < 2 ^ 64 /\
       sendable ex_verdict /\ is_time ts /\ bytes_or_none sig
   | _ => False
   end) /\
  is_ok (snd (serialize E0 ex_verdict None None)) = true /\
  fails (VInt now0) MPing VNone [] (Some req_key) = None /\
  fails (VInt now0) MRandVal VNone [("rand_val", VTag 0 (VMask []))]%string None = Some ESerializationError /\
  fails (VInt now0) MAckReportComputedTask VNone [("report_computed_task", ex_ttc)]%string None = Some (EFieldError (u "report_computed_task")) /\
  fails (VInt now0) MWantToComputeTask VNone [("task_header", int_mask_header)]%string None = Some ETypeError /\
  fails (VInt now0) MPeers VNone [("peers", VInt 1)]%string None = Some ETypeError /\
  fails (VInt now0) MPeers VNone [("peers", VList [VNone])]%string None = Some EAttributeError /\
  fails (VInt now0) MPeers VNone [("peers", VList [VDict DPeer []])]%string None = Some EKeyError /\
  fails (VInt now0) MTasks VNone [("tasks", VList [VNone])]%string None = Some EAttributeError /\
  fails (VInt (-1)) MRandVal VNone [] None = Some EStructError /\
  fails (VFloat 0) MRandVal VNone [] None = Some EStructError /\
  fails (VInt now0) MRandVal (VStr (u "s")) [] None = Some ETypeError /\
  fails (VInt now0) MRandVal (VBytes [x01]) [] (Some req_key) = Some ESignatureAlreadyExists /\
  fails (VInt now0) MRandVal VNone [] (Some [x01]) = Some EValueError /\
  fails (VMask []) MRandVal VNone [] (Some req_key) = Some ESerializationError /\
  fails (VInt now0) MHello VNone [("_version", VInt 1)]%string None = Some EAttributeError.
Proof.
  split.
  - assert (F : formed ex_verdict) by (apply formedb_sound; vm_compute; reflexivity). unfold ex_verdict at 1. repeat apply conj.
    + exact F.
    + exact toy_ok.
    + vm_compute. reflexivity.
    + vm_compute. reflexivity.
    + apply (payload_exact _ _ _ _ _ _ F); [|eexists; vm_compute; reflexivity]. intros s Hs. vm_compute in Hs. apply Ok_inj in Hs. subst s. vm_compute. reflexivity.
    + constructor. vm_compute. split; [discriminate|reflexivity].
    + right. eexists. reflexivity.
  - repeat (apply conj; [vm_compute; reflexivity|]). vm_compute. reflexivity.
Qed.
