(** * Showing containers: repr() of the datastructures and equality of nodes (C68, C54) *)
From Verif Require Export OrderFacts EquivFacts.
Local Open Scope Z_scope.

(** the parts of the text [repr(obj)] is made of *)
Inductive cont_shown :=
| ShNode (name key : pyval) (* '<Node name, (key: key)>' *)
| ShDict (c : ccls) (d : pyval). (* '<class: dict>' *)
(** datastructures/__init__.py 173-176 and, for a Node, datastructures/p2p.py 57-58.
    Simplification: the parts are not turned into text; an attribute that was never set
    counts as None (a container that was built has all of them) *)
Definition cont_repr (c : ccls) (a : attrs_t) : result cont_shown :=
  match c with
  | CNode => Ok (ShNode (attr_get_or_none "node_name" a) (attr_get_or_none "key" a))
  | _ => do d <- to_dict (VObj c a); Ok (ShDict c d)
  end.

Lemma built_ok c kw a : (c = CTaskHeader -> built_owner kw) -> cnew c kw = Ok (VObj c a) -> cont_ok c a.
Proof.
  intros HB H. destruct (cnew_cont_ok _ _ _ H) as (a0 & E & HO); [|assert (a0 = a) by congruence; subst; exact HO].
  intros n -> Hn. destruct (HB eq_refl n Hn) as (nkw & Hk). apply cnew_leaf_ok in Hk as (n0 & E & Hl); [|reflexivity].
  assert (n0 = n) by congruence. subst. exact Hl.
Qed.
Lemma cont_shown_ok c kw a : (c = CTaskHeader -> built_owner kw) -> cnew c kw = Ok (VObj c a) -> c <> CNode ->
  exists l, cont_repr c a = Ok (ShDict c (VDict DPlain (map (fun kx => (VStr (u (fst kx)), snd kx)) l))) /\ map fst l = cslots c /\
    forall k w, attr_get k a = Some w -> exists x, attr_get k l = Some x /\ ser_entry c k w = Ok x.
Proof.
  intros HB H N. pose proof (built_ok c kw a HB H) as K. assert (V : view (fun x => x)) by (left; reflexivity).
  destruct (container_rt _ c a V K) as (l & a' & l' & D & F & _). exists l. split; [|split; [exact F|]].
  - destruct c; try congruence; cbn [cont_repr to_dict]; rewrite D; reflexivity.
  - intros k w Hw. pose proof (to_dict_get _ _ _ k (proj1 K) D) as G. rewrite Hw in G. exact G.
Qed.

(** two nodes are shown alike exactly if their names and their keys are the same *)
Lemma node_shown kw kw' a a' : cnew CNode kw = Ok (VObj CNode a) -> cnew CNode kw' = Ok (VObj CNode a') ->
  exists n k n' k', attr_get "node_name" a = Some n /\ attr_get "key" a = Some k /\ attr_get "node_name" a' = Some n' /\ attr_get "key" a' = Some k' /\
    (cont_repr CNode a = cont_repr CNode a' <-> n = n' /\ k = k').
Proof.
  intros H H'.
  assert (G : forall kw a, cnew CNode kw = Ok (VObj CNode a) -> exists n k, attr_get "node_name" a = Some n /\ attr_get "key" a = Some k).
  { clear. intros kw a H. assert (K : cont_ok CNode a) by (apply (built_ok CNode kw a); [discriminate|exact H]).
    assert (F : map fst a = cslots CNode) by (destruct K as [K _]; exact K).
    destruct (attr_get "node_name" a) as [n|] eqn:N; [|exfalso; apply attr_get_none in N; apply N; rewrite F; vm_compute; tauto].
    destruct (attr_get "key" a) as [k|] eqn:Q; [|exfalso; apply attr_get_none in Q; apply Q; rewrite F; vm_compute; tauto]. eauto. }
  destruct (G _ _ H) as (n & k & N & K). destruct (G _ _ H') as (n' & k' & N' & K'). exists n, k, n', k'. repeat (split; [assumption|]).
  cbn [cont_repr]. unfold attr_get_or_none. rewrite N, K, N', K'. split; [intros Q; split; congruence|intros [-> ->]; reflexivity].
Qed.

(** ** Equality of nodes *)
(** [node == v], datastructures/p2p.py 60-65 *)
Definition node_eq (a : attrs_t) (v : pyval) : result bool :=
  match v with
  | VObj CNode b => do d <- to_dict (VObj CNode a); do d' <- to_dict (VObj CNode b); Ok (py_eq d d')
  | _ => Err ETypeError
  end.
(** an enum member counts as its value *)
Definition unenum (v : pyval) : pyval := match v with VEnum _ s => VStr (u s) | _ => v end.

Lemma dfind_kvl k v l : dfind (skey k) v (kvl l) = match attr_get k l with Some w => py_eq v w | None => false end.
Proof.
  induction l as [|[k' w] l IH]; [reflexivity|]. cbn [kvl map dfind attr_get fst snd]. rewrite py_eq_skey, String.eqb_sym.
  destruct (k' =? k)%string; [reflexivity|exact IH].
Qed.
Lemma dsub_kvl l l' : dsub (kvl l) (kvl l') = true <->
  forall k x, In (k, x) l -> exists w, attr_get k l' = Some w /\ py_eq x w = true.
Proof.
  induction l as [|[k x] l IH]; [split; [intros _ ? ? []|reflexivity]|]. cbn [kvl map dsub fst snd]. rewrite dfind_kvl, andb_true_iff. fold (kvl l). rewrite IH.
  split.
  - intros [H1 H2] k0 x0 [E|I]; [|exact (H2 _ _ I)]. injection E as <- <-. destruct (attr_get k l') as [w|]; [eauto|discriminate].
  - intros H. split; [|intros k0 x0 I; apply H; right; exact I]. destruct (H k x (or_introl eq_refl)) as (w & -> & E). exact E.
Qed.
Lemma node_entry k w : ser_entry CNode k w = Ok (unenum w).
Proof. destruct w; reflexivity. Qed.
Lemma node_dict a : map fst a = cslots CNode -> to_dict (VObj CNode a) = Ok (VDict DPlain (kvl (map (fun kx => (fst kx, unenum (snd kx))) a))).
Proof.
  intros Ha. cbn [to_dict]. rewrite to_dict_kvs_own by exact Ha. clear Ha.
  assert (X : forall l : list (string * pyval), mapM (fun kv => do x <- ser_entry CNode (fst kv) (snd kv); Ok (skey (fst kv), x)) l = Ok (kvl (map (fun kx => (fst kx, unenum (snd kx))) l))).
  { induction l as [|[k x] l IH]; [reflexivity|]. cbn [mapM fst snd]. rewrite node_entry, IH. reflexivity. }
  rewrite X. reflexivity.
Qed.
Lemma attr_get_unenum k a : attr_get k (map (fun kx => (fst kx, unenum (snd kx))) a) = option_map unenum (attr_get k a).
Proof. induction a as [|[k' w] a IH]; [reflexivity|]. cbn [map attr_get fst snd]. destruct (k' =? k)%string; [reflexivity|exact IH]. Qed.
Lemma attr_get_has k (a : attrs_t) : In k (map fst a) -> exists w, attr_get k a = Some w.
Proof.
  induction a as [|[k' w] a IH]; [intros []|]. cbn [map fst attr_get In]. destruct (String.eqb_spec k' k) as [->|N]; [eauto|].
  intros [H|H]; [congruence|exact (IH H)].
Qed.
Lemma attr_get_nodup k w (a : attrs_t) : NoDup (map fst a) -> In (k, w) a -> attr_get k a = Some w.
Proof.
  induction a as [|[k' w'] a IH]; [intros _ []|]. cbn [map fst attr_get In]. intros N [H|H].
  - injection H as -> ->. rewrite String.eqb_refl. reflexivity.
  - apply NoDup_cons_iff in N as [N1 N]. destruct (String.eqb_spec k' k) as [->|_]; [|exact (IH N H)].
    exfalso. apply N1. apply (in_map fst) in H. exact H.
Qed.
Lemma node_slots_nodup : NoDup (cslots CNode).
Proof. cbn [cslots]. repeat (apply NoDup_cons; [intros H; repeat (destruct H as [H|H]; [discriminate H|]); exact H|]). apply NoDup_nil. Qed.
Lemma nodes_equal a a' : map fst a = cslots CNode -> map fst a' = cslots CNode ->
  exists b, node_eq a (VObj CNode a') = Ok b /\
    (b = true <-> forall k, In k (cslots CNode) -> py_eq (unenum (attr_get_or_none k a)) (unenum (attr_get_or_none k a')) = true).
Proof.
  intros Ha Ha'. unfold node_eq. rewrite !node_dict by assumption. cbn [bind]. eexists. split; [reflexivity|].
  rewrite py_eq_dict. unfold kvl at 1 2. rewrite !map_length, <- (map_length fst a), <- (map_length fst a'), Ha, Ha', Nat.eqb_refl. cbn [andb].
  rewrite dsub_kvl. split.
  - intros H k Hk. rewrite <- Ha in Hk. destruct (attr_get_has _ _ Hk) as (w & Hw). pose proof (attr_get_in _ _ _ Hw) as I.
    destruct (H k (unenum w)) as (x & Hx & E). { apply in_map_iff. exists (k, w). auto. }
    rewrite attr_get_unenum in Hx. unfold attr_get_or_none. rewrite Hw. destruct (attr_get k a') as [w'|]; [|discriminate].
    cbn [option_map] in Hx. apply Some_inj in Hx. subst x. exact E.
  - intros H k x I. apply in_map_iff in I as ([k0 w] & E & I). cbn [fst snd] in E. injection E as -> <-.
    assert (Hk : In k (cslots CNode)) by (rewrite <- Ha; apply (in_map fst) in I; exact I). pose proof (H k Hk) as Q.
    rewrite <- Ha' in Hk. destruct (attr_get_has _ _ Hk) as (w' & Hw'). exists (unenum w'). rewrite attr_get_unenum, Hw'. split; [reflexivity|].
    unfold attr_get_or_none in Q. rewrite Hw' in Q. rewrite (attr_get_nodup k w a) in Q; [exact Q| |exact I]. rewrite Ha. exact node_slots_nodup.
Qed.
Lemma built_nodes kw kw' a a' : cnew CNode kw = Ok (VObj CNode a) -> cnew CNode kw' = Ok (VObj CNode a') ->
  exists b, node_eq a (VObj CNode a') = Ok b /\
    (b = true <-> forall k, In k (cslots CNode) -> py_eq (unenum (attr_get_or_none k a)) (unenum (attr_get_or_none k a')) = true).
Proof.
  intros H H'. apply nodes_equal.
  - apply (built_ok CNode kw a) in H; [apply H|discriminate].
  - apply (built_ok CNode kw' a') in H'; [apply H'|discriminate].
Qed.
