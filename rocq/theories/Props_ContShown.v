(** * Property theorems: showing containers (C68) and equality of nodes (C54). *)
From Verif Require Import ContShown Samples Props_Data.
Local Open Scope Z_scope.

(** ** C68 *)
(** every container that was built can be shown and, but for a Node, shows all its slots
    in the order of their declaration, each as it is serialized *)
Theorem C68_container :
  forall c kw a, (c = CTaskHeader -> built_owner kw) -> cnew c kw = Ok (VObj c a) -> c <> CNode ->
  exists l, cont_repr c a = Ok (ShDict c (VDict DPlain (map (fun kx => (VStr (u (fst kx)), snd kx)) l))) /\ map fst l = cslots c /\
    forall k w, attr_get k a = Some w -> exists x, attr_get k l = Some x /\ ser_entry c k w = Ok x.
Proof. exact cont_shown_ok. Qed.
Print Assumptions C68_container.
(** nodes are shown alike exactly if their names and keys are the same *)
Theorem C68_node_shown :
  forall kw kw' a a', cnew CNode kw = Ok (VObj CNode a) -> cnew CNode kw' = Ok (VObj CNode a') ->
  exists n k n' k', attr_get "node_name" a = Some n /\ attr_get "key" a = Some k /\ attr_get "node_name" a' = Some n' /\ attr_get "key" a' = Some k' /\
    (cont_repr CNode a = cont_repr CNode a' <-> n = n' /\ k = k').
Proof. exact node_shown. Qed.
Print Assumptions C68_node_shown.
(** a Node shows its name and its key only: two nodes with different addresses and ports
    are shown alike, though the header of a task shows its owner whole *)
Theorem C68_node_tells_refuted :
  exists kw kw' a a' h h' l l', cnew CNode kw = Ok (VObj CNode a) /\ cnew CNode kw' = Ok (VObj CNode a') /\
    node_eq a (VObj CNode a') = Ok false /\ cont_repr CNode a = cont_repr CNode a' /\
    cnew CTaskHeader (filter (fun kv => negb (ustr_eqb (fst kv) (u "task_owner"))) ex_header ++ [(u "task_owner", VObj CNode a)]) = Ok (VObj CTaskHeader h) /\
    cnew CTaskHeader (filter (fun kv => negb (ustr_eqb (fst kv) (u "task_owner"))) ex_header ++ [(u "task_owner", VObj CNode a')]) = Ok (VObj CTaskHeader h') /\
    cont_repr CTaskHeader h = Ok l /\ cont_repr CTaskHeader h' = Ok l' /\ l <> l'.
Proof.
  exists ((u "pub_addr", VStr (u "10.0.0.1")) :: ex_node), ((u "pub_addr", VStr (u "10.0.0.2")) :: ex_node).
  eexists _, _, _, _, _, _.
  repeat (split; [vm_compute; reflexivity|]). vm_compute. discriminate.
Qed.
Print Assumptions C68_node_tells_refuted.
Example C68_container_ex :
  built_owner ex_header /\
  (do o <- cnew CTaskHeader ex_header;
   match o with
   | VObj c a => do r <- cont_repr c a;
       Ok (match r with ShDict CTaskHeader (VDict _ kvs) => (List.length kvs, dict_get (skey "mask") kvs, dict_get (skey "market_type") kvs) | _ => (0%nat, None, None) end)
   | _ => Err ETypeError
   end) = Ok (16%nat, Some (VBytes [x01]), Some (VStr (u "Brass"))).
Proof. split; [intros n H; discriminate H|vm_compute; reflexivity]. Qed.

(** ** C54 *)
(** two nodes are equal exactly if all their fields are; an enum member counts as its
    value ([unenum]) *)
Theorem C54_equal :
  forall kw kw' a a', cnew CNode kw = Ok (VObj CNode a) -> cnew CNode kw' = Ok (VObj CNode a') ->
  exists b, node_eq a (VObj CNode a') = Ok b /\
    (b = true <-> forall k, In k (cslots CNode) -> py_eq (unenum (attr_get_or_none k a)) (unenum (attr_get_or_none k a')) = true).
Proof. exact built_nodes. Qed.
Print Assumptions C54_equal.
(** comparing a node is not total, as comparing in Python is: a node and None, which an
    owner left out would be, cannot be compared *)
Theorem C54_comparable_refuted :
  exists kw a, cnew CNode kw = Ok (VObj CNode a) /\ node_eq a (VObj CNode a) = Ok true /\ node_eq a VNone = Err ETypeError.
Proof. exists ex_node. eexists. repeat (split; [vm_compute; reflexivity|]). vm_compute. reflexivity. Qed.
Print Assumptions C54_comparable_refuted.
Example C54_equal_ex :
  (do o <- cnew CNode ex_node; do o' <- cnew CNode (rev ex_node); do o2 <- cnew CNode ((u "pub_port", VInt 5) :: ex_node);
   match o, o' , o2 with VObj _ a, VObj _ _, VObj _ _ => do b <- node_eq a o'; do b2 <- node_eq a o2; Ok (b, b2) | _, _, _ => Err ETypeError end) = Ok (true, false).
Proof. vm_compute. reflexivity. Qed.
