(** * Keyword arguments that are not slots *)
From Verif Require Import SignFacts KwFacts Samples.
From Coq Require Import Permutation.

(** ** C56, continued *)
(** [property_names] lists the properties of a class, [class_names] its methods and
    class attributes *)
Theorem C56_unknown_keyword :
  forall E now c header sig s kw a k v, load_attrs FUEL c s = Ok a -> In (k, v) kw ->
  ~ In k (slot_names c) -> ~ In k (property_names c) -> ~ In k (class_names c) -> (c = MHello -> k <> "_version"%string) ->
  (c = MTaskToCompute -> ~ In "requestor_ethereum_address"%string (map fst kw)) ->
  msg_init E now c header sig s kw = Err EAttributeError.
Proof. exact unknown_keyword. Qed.
Print Assumptions C56_unknown_keyword.
Example C56_unknown_ex :
  msg_init E0 now0 MPing None VNone VNone [("foo", VInt 1)]%string = Err EAttributeError /\
  msg_init E0 now0 MRandVal None VNone VNone [("rand_val", VInt 1); ("_version", VStr [])]%string = Err EAttributeError /\
  msg_init E0 now0 MRandVal None VNone VNone [("timestamp", VInt 1)]%string = Err EAttributeError /\
  msg_init E0 now0 MTaskToCompute None VNone VNone [("node_name", VInt 1)]%string = Err EAttributeError.
Proof. split; [|split; [|split]]; vm_compute; reflexivity. Qed.

(** ** C72 *)
(** naming a method or a class attribute changes nothing, wherever it stands *)
Theorem C72_names :
  forall E now c header sig s kw1 k v kw2, In k (class_names c) ->
  msg_init E now c header sig s (kw1 ++ (k, v) :: kw2) = msg_init E now c header sig s (kw1 ++ kw2).
Proof. exact name_ignored. Qed.
Print Assumptions C72_names.
(** naming a property is ignored if the keywords before it give the property a
    value, and an AttributeError otherwise *)
Theorem C72_properties :
  forall E now c header sig s kw1 k v kw2 m1, In k (property_names c) -> ~ In k (slot_names c) -> k <> "requestor_ethereum_address"%string ->
  msg_init E now c header sig s kw1 = Ok m1 ->
  msg_init E now c header sig s (kw1 ++ (k, v) :: kw2) =
    match acc k m1 with
    | None | Some VNone => Err EAttributeError
    | Some _ => msg_init E now c header sig s (kw1 ++ kw2)
    end.
Proof. exact keyword_property. Qed.
Print Assumptions C72_properties.
(** the requestor's address is computed from the key given before; what that raises
    escapes *)
Theorem C72_address :
  forall E now header sig s kw1 v kw2 m1, msg_init E now MTaskToCompute header sig s kw1 = Ok m1 ->
  msg_init E now MTaskToCompute header sig s (kw1 ++ ("requestor_ethereum_address"%string, v) :: kw2) =
    match requestor_address (cr E) m1 with
    | Ok _ => msg_init E now MTaskToCompute header sig s (kw1 ++ kw2)
    | Err e => Err e
    end.
Proof. exact keyword_address. Qed.
Print Assumptions C72_address.
(** whatever is accepted, only slots count *)
Theorem C72_only_slots :
  forall E now c header sig s kw m, msg_init E now c header sig s kw = Ok m ->
  msg_init E now c header sig s (filter (fun kv => kw_ok c (fst kv)) kw) = Ok m.
Proof. exact only_slots_count. Qed.
Print Assumptions C72_only_slots.
(** the order of slots is irrelevant *)
Theorem C72_order :
  forall E now c header sig s kw kw', Permutation kw kw' -> NoDup (map fst kw) -> (forall k, In k (map fst kw) -> In k (slot_names c)) ->
  msg_init E now c header sig s kw = msg_init E now c header sig s kw'.
Proof. exact keyword_order. Qed.
Print Assumptions C72_order.
(** the order of keywords in general is not *)
Theorem C72_order_refuted :
  exists E c kw kw' m, Permutation kw kw' /\ NoDup (map fst kw) /\
    msg_init E now0 c None VNone VNone kw = Ok m /\ msg_init E now0 c None VNone VNone kw' = Err EAttributeError.
Proof.
  exists E0, MReportComputedTask, [("task_to_compute", ex_ttc); ("task_id", VStr (u "other"))]%string, [("task_id", VStr (u "other")); ("task_to_compute", ex_ttc)]%string,
    (get VNone (msg_init E0 now0 MReportComputedTask None VNone VNone [("task_to_compute", ex_ttc)]%string)).
  split; [apply perm_swap|]. split; [repeat constructor; cbn; intuition discriminate|]. split; vm_compute; reflexivity.
Qed.
Print Assumptions C72_order_refuted.
(** without received slots, nothing but an AttributeError escapes, except where the
    address of a TaskToCompute's requestor is named *)
Theorem C72_errors :
  forall E now c header sig kw e, msg_init E now c header sig VNone kw = Err e ->
  e = EAttributeError \/ (c = MTaskToCompute /\ In "requestor_ethereum_address"%string (map fst kw) /\ (e = ETypeError \/ e = EValueError)).
Proof. exact keyword_errors. Qed.
Print Assumptions C72_errors.
Example C72_ex :
  (do m <- msg_init E0 now0 MReportComputedTask None VNone VNone [("task_to_compute", ex_ttc); ("task_id", VStr (u "other"))]%string; getattr "task_id" m) =
    getattr "task_id" ex_ttc /\
  (exists m, msg_init E0 now0 MPing None VNone VNone [("SIGN", VBool true); ("serialize", VNone)]%string = Ok m) /\
  (exists m, msg_init E0 now0 MTaskToCompute None VNone VNone [("task_to_compute", VInt 3)]%string = Ok m) /\
  msg_init E0 now0 MTaskToCompute None VNone VNone [("provider_public_key", VInt 3)]%string = Err EAttributeError /\
  msg_init E0 now0 MTaskToCompute None VNone VNone [("requestor_ethereum_address", VInt 3)]%string = Err ETypeError /\
  msg_init E0 now0 MTaskToCompute None VNone VNone [("requestor_ethereum_public_key", VStr (u "zz")); ("requestor_ethereum_address", VInt 3)]%string = Err EValueError /\
  msg_init E0 now0 MWantToComputeTask None VNone VNone [("task_id", VInt 3)]%string = Err EAttributeError.
Proof.
  split; [vm_compute; reflexivity|]. split; [eexists; vm_compute; reflexivity|]. split; [eexists; vm_compute; reflexivity|].
  split; [vm_compute; reflexivity|]. split; [vm_compute; reflexivity|]. split; vm_compute; reflexivity.
Qed.
