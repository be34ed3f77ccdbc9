(** * Property theorems: equality of messages that contain messages (C49). *)
From Verif Require Import InsideFacts Samples SampleTrips.

(** ** C49 *)
(** the encrypted flag is ignored only of the messages compared, not of those inside: if a
    message inside is replaced by an equal one, the whole equals what it was exactly if
    the flags of the two are equal.  (That the whole equals itself excludes a NaN in it) *)
Theorem C49_flag_inside :
  forall c ty0 ts0 e0 sig0 a k d n il ty ts e sig b ty' ts' e' sig' b',
  map fst a = slot_names c -> slot_kind c k = KMsg d n il -> attr_get k a = Some (VMsg d ty ts e sig b) ->
  msg_eq (VMsg c ty0 ts0 e0 sig0 a) (VMsg c ty0 ts0 e0 sig0 a) = Ok true ->
  msg_eq (VMsg d ty ts e sig b) (VMsg d ty' ts' e' sig' b') = Ok true ->
  msg_eq (VMsg c ty0 ts0 e0 sig0 a) (VMsg c ty0 ts0 e0 sig0 (attr_set k (VMsg d ty' ts' e' sig' b') a)) = Ok (py_eq e e').
Proof. exact flag_inside. Qed.
Print Assumptions C49_flag_inside.

(** the same in a list of messages *)
Theorem C49_flag_in_list :
  forall c ty0 ts0 e0 sig0 a k d n il p q ty ts e sig b ty' ts' e' sig' b',
  map fst a = slot_names c -> slot_kind c k = KMsg d n il -> attr_get k a = Some (VList (p ++ VMsg d ty ts e sig b :: q)) ->
  msg_eq (VMsg c ty0 ts0 e0 sig0 a) (VMsg c ty0 ts0 e0 sig0 a) = Ok true ->
  msg_eq (VMsg d ty ts e sig b) (VMsg d ty' ts' e' sig' b') = Ok true ->
  msg_eq (VMsg c ty0 ts0 e0 sig0 a) (VMsg c ty0 ts0 e0 sig0 (attr_set k (VList (p ++ VMsg d ty' ts' e' sig' b' :: q)) a)) = Ok (py_eq e e').
Proof. exact flag_in_list. Qed.
Print Assumptions C49_flag_in_list.

Definition flag_set (e : bool) (m : pyval) : pyval := match m with VMsg c ty ts _ sig a => VMsg c ty ts (VBool e) sig a | _ => m end.
Definition inside_set (k : string) (e : bool) (m : pyval) : pyval :=
  match m with VMsg c ty ts f sig a => VMsg c ty ts f sig (attr_set k (flag_set e (attr_get_or_none k a)) a) | _ => m end.
(** so messages made of equal parts need not be equal *)
Theorem C49_equal_parts_refuted :
  exists c ty ts e sig a a', let m := VMsg c ty ts e sig a in let m' := VMsg c ty ts e sig a' in
    msg_eq m m = Ok true /\ map fst a' = map fst a /\
    (forall k, In k (map fst a) -> attr_get k a' = attr_get k a \/
       exists i i', attr_get k a = Some i /\ attr_get k a' = Some i' /\ msg_eq i i' = Ok true) /\
    msg_eq m m' = Ok false.
Proof.
  exists MReportComputedTask, (VInt (type_of MReportComputedTask)), (VInt now0), (VBool false), VNone, (attrs_of ex_rct), (attrs_of (inside_set "task_to_compute" true ex_rct)).
  cbv zeta. split; [vm_compute; reflexivity|]. split; [vm_compute; reflexivity|]. split; [|vm_compute; reflexivity].
  intros k Hk. assert (E : map fst (attrs_of ex_rct) = slot_names MReportComputedTask) by (vm_compute; reflexivity). rewrite E in Hk. clear E.
  destruct (String.eqb_spec k "task_to_compute") as [->|N].
  - right. eexists _, _. split; [vm_compute; reflexivity|]. split; [vm_compute; reflexivity|]. vm_compute. reflexivity.
  - left. apply Py.attr_get_set_other. exact N.
Qed.
Print Assumptions C49_equal_parts_refuted.
Example C49_inside_ex :
  match ex_rct with
  | VMsg c ty ts e sig a => map fst a = slot_names c /\ (exists n il, slot_kind c "task_to_compute" = KMsg MTaskToCompute n il) /\
      msg_eq ex_rct ex_rct = Ok true /\ msg_eq (attr_get_or_none "task_to_compute" a) (flag_set true (attr_get_or_none "task_to_compute" a)) = Ok true /\
      msg_eq ex_rct (inside_set "task_to_compute" true ex_rct) = Ok false /\ msg_eq ex_rct (inside_set "task_to_compute" false ex_rct) = Ok true
  | _ => False
  end.
Proof. vm_compute. split; [reflexivity|]. split; [eexists _, _; reflexivity|]. repeat split; reflexivity. Qed.
(** two removals in one container, the second with its flag set *)
Definition removal (id : string) : pyval := Eval vm_compute in make now0 MRemoveTask [("task_id"%string, VStr (u id))].
Definition removals (l : list pyval) : pyval := make now0 MRemoveTaskContainer [("remove_tasks"%string, VList l)].
Example C49_in_list_ex :
  match removals [removal "a"; removal "b"] with
  | VMsg c ty ts e sig a => map fst a = slot_names c /\ (exists n il, slot_kind c "remove_tasks" = KMsg MRemoveTask n il) /\
      attr_get "remove_tasks" a = Some (VList [removal "a"; removal "b"])
  | _ => False
  end /\
  msg_eq (removals [removal "a"; removal "b"]) (removals [removal "a"; removal "b"]) = Ok true /\
  msg_eq (removal "b") (flag_set true (removal "b")) = Ok true /\
  msg_eq (removals [removal "a"; removal "b"]) (removals [removal "a"; flag_set true (removal "b")]) = Ok false.
Proof. vm_compute. split; [split; [reflexivity|split; [eexists _, _; reflexivity|reflexivity]]|]. repeat split; reflexivity. Qed.
