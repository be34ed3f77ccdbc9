(** * Property theorems: the order in which a container is given its fields (C33, C34). *)
From Verif Require Import OrderFacts Samples Props_Data.
Local Open Scope Z_scope.

(** ** C33 *)
(** the order of the keyword arguments, of which no two have one name, makes no
    difference: the container built is the same, and so is the error, except that of
    several arguments that are no slots another one may be named *)
Theorem C33_keyword_order :
  forall c kw kw', Permutation kw kw' -> NoDup (map fst kw) ->
  cnew c kw' = cnew c kw \/
  exists k k', cnew c kw = Err (EFieldError k) /\ cnew c kw' = Err (EFieldError k') /\
    In k (map fst kw) /\ In k' (map fst kw) /\ (~ exists s, In s (cslots c) /\ k = u s) /\ (~ exists s, In s (cslots c) /\ k' = u s).
Proof. exact keyword_order. Qed.
Print Assumptions C33_keyword_order.
Example C33_keyword_order_ex :
  is_ok (cnew CTaskHeader ex_header) = true /\ NoDup (map fst ex_header) /\ rev ex_header <> ex_header /\
  cnew CTaskHeader (rev ex_header) = cnew CTaskHeader ex_header /\
  cnew CNode [(u "a", VNone); (u "b", VNone); (u "node_name", VStr (u "n"))] = Err (EFieldError (u "a")) /\
  cnew CNode [(u "node_name", VStr (u "n")); (u "b", VNone); (u "a", VNone)] = Err (EFieldError (u "b")).
Proof.
  split; [vm_compute; reflexivity|]. split.
  { vm_compute. repeat (apply NoDup_cons; [intros H; repeat (destruct H as [H|H]; [discriminate H|]); exact H|]). apply NoDup_nil. }
  split; [discriminate|]. repeat split; vm_compute; reflexivity.
Qed.

(** ** C34 *)
(** nor does the order of the fields of the owner inside a header that can be built.
    [kw_dict n]: the dict with the pairs of [n] *)
Theorem C34_owner_order :
  forall pre post n n' a, Permutation n n' -> NoDup (map fst n) ->
  cnew CTaskHeader (pre ++ (u "task_owner", kw_dict n) :: post) = Ok a -> cnew CTaskHeader (pre ++ (u "task_owner", kw_dict n') :: post) = Ok a.
Proof. exact owner_order. Qed.
Print Assumptions C34_owner_order.

(** two headers that differ in the order of the prerequisites of their environment *)
Definition ex_order (l : list (pyval * pyval)) : list (ustr * pyval) := (u "environment_prerequisites", VDict DPlain l) :: ex_header.
Definition ex_two : list (pyval * pyval) := [(skey "image", VStr (u "golem/base")); (skey "tag", VStr (u "1.4"))].
Definition ex_made (l : list (pyval * pyval)) : attrs_t := match cnew CTaskHeader (ex_order l) with Ok (VObj _ a) => a | _ => [] end.
(** the docstring of to_dict says that the dict is sorted in order to have the same bytes.
    It is not: two headers whose dicts are equal have different hashes, and the
    signature of one is refused for the other, when a dict inside them is in another order *)
Theorem C34_sorted_refuted :
  exists C a a' d d' priv pub s, crypto_ok C /\ made C a /\ made C a' /\
    to_dict (VObj CTaskHeader a) = Ok d /\ to_dict (VObj CTaskHeader a') = Ok d' /\ py_eq d d' = true /\
    header_hash C a <> header_hash C a' /\ header_sign C a priv = Ok (attr_set "signature" (VBytes s) a) /\
    header_verify C (attr_set "signature" (VBytes s) a) (VBytes pub) = Ok tt /\
    header_verify C (attr_set "signature" (VBytes s) a') (VBytes pub) = Err EInvalidSignature.
Proof.
  exists toy, (ex_made ex_two), (ex_made (rev ex_two)),
    (match to_dict (VObj CTaskHeader (ex_made ex_two)) with Ok d => d | _ => VNone end),
    (match to_dict (VObj CTaskHeader (ex_made (rev ex_two))) with Ok d => d | _ => VNone end), (repeat x05 32), (repeat x05 64),
    (match header_sign toy (ex_made ex_two) (repeat x05 32) with Ok a => match attr_get_or_none "signature" a with VBytes s => s | _ => [] end | _ => [] end).
  split; [exact toy_ok|].
  assert (B : forall l, built_owner (ex_order l)). { intros l n H. discriminate H. }
  split; [apply (made_new toy (ex_order ex_two)); [apply B|vm_compute; reflexivity]|].
  split; [apply (made_new toy (ex_order (rev ex_two))); [apply B|vm_compute; reflexivity]|].
  repeat (split; [vm_compute; reflexivity|]). split; [vm_compute; discriminate|].
  repeat (split; [vm_compute; reflexivity|]). vm_compute. reflexivity.
Qed.
Print Assumptions C34_sorted_refuted.
Example C34_owner_order_ex :
  let n := [(u "node_name", VStr (u "n")); (u "prv_port", VInt 40102)] in
  let others := filter (fun kv : ustr * pyval => negb (ustr_eqb (fst kv) (u "task_owner"))) ex_header in
  Permutation n (rev n) /\ NoDup (map fst n) /\ rev n <> n /\
  exists a, cnew CTaskHeader (others ++ [(u "task_owner", kw_dict n)]) = Ok a /\ cnew CTaskHeader (others ++ [(u "task_owner", kw_dict (rev n))]) = Ok a.
Proof.
  cbv zeta. split; [apply Permutation_rev|]. split; [apply NoDup_cons; [intros [H|[]]; discriminate H|apply NoDup_cons; [intros []|apply NoDup_nil]]|].
  split; [discriminate|]. eexists. split; vm_compute; reflexivity.
Qed.
