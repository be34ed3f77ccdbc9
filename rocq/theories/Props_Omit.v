(** * Property theorems: which fields of a container may be left out (C33) *)
From Verif Require Import OmitFacts.

(** Take any arguments that build a container and leave one field out.  Five fields of a
    task header must be given: the construction fails with FieldError naming the field.  Any
    other field of any container may be left out: the object is the same but for that field,
    which holds an empty list or dict (three fields of Node) or None. *)
Theorem C33_left_out :
  forall c k kw o, cnew c kw = Ok o -> In k (cslots c) ->
  (must_give c k -> cnew c (without k kw) = Err (EFieldError (u k))) /\
  (~ must_give c k ->
   exists a a' w, o = VObj c a /\ cnew c (without k kw) = Ok (VObj c a') /\
     attr_get k a' = Some w /\ stands_for c k w /\ forall j, j <> k -> attr_get j a' = attr_get j a).
Proof. exact omitted. Qed.
Print Assumptions C33_left_out.

Example C33_left_out_ex :
  let kw := [(u "task_id", VStr (u "t")); (u "deadline", VInt 5); (u "task_owner", VDict DPlain [(skey "node_name", VStr (u "n"))]);
             (u "subtasks_count", VInt 3); (u "min_version", VStr (u "1.0.0")); (u "timestamp", VInt 7)] in
  is_ok (cnew CTaskHeader kw) = true /\ is_ok (cnew CTaskHeader (without "deadline" kw)) = true /\
  cnew CTaskHeader (without "timestamp" kw) = Err (EFieldError (u "timestamp")).
Proof. split; [|split]; vm_compute; reflexivity. Qed.
