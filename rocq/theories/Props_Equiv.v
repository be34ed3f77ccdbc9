(** * Property theorems: equality of messages is symmetric and transitive (C49).

    [proper_msg m]: no dict in the header, the signature, a Hello's version or the serialized
    slots of [m] holds one key twice.  Python's dicts never do; the model keeps a dict
    as a list of pairs, so it has to be said. *)
From Verif Require Import EquivFacts Samples.

(** whatever the comparison answers, it answers the other way round as well *)
Theorem C49_symmetric :
  forall m m' b, proper_msg m -> proper_msg m' -> msg_eq m m' = Ok b -> msg_eq m' m = Ok b.
Proof. exact msg_eq_symm. Qed.
Print Assumptions C49_symmetric.
Theorem C49_transitive :
  forall m1 m2 m3, proper_msg m1 -> proper_msg m2 -> proper_msg m3 ->
  msg_eq m1 m2 = Ok true -> msg_eq m2 m3 = Ok true -> msg_eq m1 m3 = Ok true.
Proof. exact msg_eq_trans. Qed.
Print Assumptions C49_transitive.
(** received messages need no such condition: the decoder makes no dict with one key twice *)
Theorem C49_received :
  forall m1 m2 m3, received m1 -> received m2 -> received m3 ->
  (forall b, msg_eq m1 m2 = Ok b -> msg_eq m2 m1 = Ok b) /\
  (msg_eq m1 m2 = Ok true -> msg_eq m2 m3 = Ok true -> msg_eq m1 m3 = Ok true).
Proof. exact received_equiv. Qed.
Print Assumptions C49_received.

(** three messages that differ in the order of a dict and in how a number is written *)
Definition gossip_of (l : list (pyval * pyval)) : pyval :=
  VMsg MGossip (VInt (type_of MGossip)) (VInt now0) (VBool false) (VBytes (zeros 65)) [("gossip"%string, VList [VDict DPlain l])].
Definition gossip1 : pyval := gossip_of [(VStr (u "a"), VInt 1); (VInt 0, VTuple [VNone; VBool true])].
Definition gossip2 : pyval := gossip_of [(VBool false, VTuple [VNone; VInt 1]); (VStr (u "a"), VBool true)].
Definition gossip3 : pyval := gossip_of [(VStr (u "a"), VInt 1); (VInt 0, VTuple [VNone; VInt 1])].
Example C49_ex_equiv :
  proper_msg gossip1 /\ proper_msg gossip2 /\ proper_msg gossip3 /\ gossip1 <> gossip2 /\ gossip2 <> gossip3 /\ gossip1 <> gossip3 /\
  msg_eq gossip1 gossip2 = Ok true /\ msg_eq gossip2 gossip1 = Ok true /\ msg_eq gossip2 gossip3 = Ok true /\ msg_eq gossip1 gossip3 = Ok true /\
  msg_eq gossip1 ex_remove = Ok false /\ msg_eq ex_remove gossip1 = Ok false /\ proper_msg ex_remove.
Proof.
  assert (P : forall m, match m with VMsg c ty ts _ sig a => proper ty && proper ts && proper sig && proper (attr_get_or_none "_version" a) &&
      match slots c a with Ok s => proper s | Err _ => true end | _ => false end = true -> proper_msg m).
  { intros [| | | | | | | | | | | |c ty ts enc sig a|] H; try discriminate H. cbn [proper_msg]. rewrite !andb_true_iff in H. destruct H as ((((? & ?) & ?) & ?) & H).
    do 3 (split; [assumption|]). split; [intros _; assumption|]. intros s Hs. rewrite Hs in H. exact H. }
  assert (D : forall m m', bytes_eqb (dump0 m) (dump0 m') = false -> m <> m').
  { intros m m' H ->. rewrite bytes_eqb_refl in H. discriminate H. }
  split; [apply P; vm_compute; reflexivity|]. split; [apply P; vm_compute; reflexivity|]. split; [apply P; vm_compute; reflexivity|].
  split; [apply D; vm_compute; reflexivity|]. split; [apply D; vm_compute; reflexivity|]. split; [apply D; vm_compute; reflexivity|].
  split; [vm_compute; reflexivity|]. split; [vm_compute; reflexivity|]. split; [vm_compute; reflexivity|]. split; [vm_compute; reflexivity|].
  split; [vm_compute; reflexivity|]. split; [vm_compute; reflexivity|]. apply P. vm_compute. reflexivity.
Qed.
Example C49_ex_received :
  let r m := get VNone (load0 None (dump0 m)) in
  received (r gossip1) /\ received (r gossip2) /\ received (r gossip3) /\
  bytes_eqb (dump0 (r gossip1)) (dump0 (r gossip2)) = false /\ msg_eq (r gossip1) (r gossip2) = Ok true /\ msg_eq (r gossip2) (r gossip3) = Ok true.
Proof.
  cbv zeta. assert (R : forall m, (match load0 None (dump0 m) with Ok _ => true | Err _ => false end) = true -> received (get VNone (load0 None (dump0 m)))).
  { intros m H. unfold load0 in *. do 6 eexists. destruct (deserialize _ _ _ _ _ _) eqn:D; [exact D|discriminate H]. }
  split; [apply R; vm_compute; reflexivity|]. split; [apply R; vm_compute; reflexivity|]. split; [apply R; vm_compute; reflexivity|].
  split; [|split]; vm_compute; reflexivity.
Qed.
