(** * What can be dumped, and what is raised otherwise *)
From Verif Require Import NestFacts ValidFacts KwFacts.

(** [x] is [v] or sits somewhere in its slots, fields or elements *)
Inductive within : pyval -> pyval -> Prop :=
| W_self v : within v v
| W_msg x c ty ts enc sig a k w : In (k, w) a -> within x w -> within x (VMsg c ty ts enc sig a)
| W_obj x c a k w : In (k, w) a -> within x w -> within x (VObj c a)
| W_list x l w : In w l -> within x w -> within x (VList l).
(** every message in [v] has all its slots, as constructors ensure *)
Definition formed (v : pyval) : Prop :=
  forall c ty ts enc sig a k, within (VMsg c ty ts enc sig a) v -> In k (slot_names c) -> attr_get k a <> None.

(** a message that can be carried in a slot for messages of class [d] *)
Inductive carried (R : pyval -> Prop) (d : mcls) : pyval -> Prop :=
| Carried ty ts enc sig a : dumpable ty -> dumpable ts -> dumpable enc -> dumpable sig -> R (VMsg d ty ts enc sig a) ->
    carried R d (VMsg d ty ts enc sig a).
Inductive as_dict : pyval -> Prop := As_dict v d : to_dict v = Ok d -> dumpable d -> as_dict v.
Inductive as_peer : pyval -> Prop := As_peer v d : peer_serialize v = Ok d -> dumpable d -> as_peer v.
Definition as_it_is (kd : skind) : bool := match kd with KMsg _ _ _ | KNode | KPeers | KTasks => false | _ => true end.
(** what a slot may hold *)
Inductive slot_holds (R : pyval -> Prop) : skind -> pyval -> Prop :=
| H_member d an il e s : slot_holds R (KMsg d an il) (VEnum e s)
| H_none d il : slot_holds R (KMsg d true il) VNone
| H_msg d an il m : carried R d m -> slot_holds R (KMsg d an il) m
| H_list d an il l : Forall (carried R d) l -> slot_holds R (KMsg d an il) (VList l)
| H_no_node v : truthy v = false -> dumpable v -> slot_holds R KNode v
| H_node v : truthy v = true -> as_dict v -> slot_holds R KNode v
| H_peers v l : py_iter v = Some l -> Forall as_peer l -> slot_holds R KPeers v
| H_tasks l : Forall as_dict l -> slot_holds R KTasks (VList l)
| H_header a : as_dict (VObj CTaskHeader a) -> slot_holds R KHeader (VObj CTaskHeader a)
| H_stats a : as_dict (VObj CProvider a) -> slot_holds R KStats (VObj CProvider a)
| H_enum kd e s : as_it_is kd = true -> slot_holds R kd (VEnum e s)
| H_value kd v : as_it_is kd = true -> dumpable v -> slot_holds R kd v.
Inductive sendable : pyval -> Prop :=
| Sendable c ty ts enc sig a : (forall k, In k (slot_names c) -> slot_holds sendable (slot_kind c k) (attr_get_or_none k a)) ->
    sendable (VMsg c ty ts enc sig a).

(** ** Slots *)
Lemma text_u s : dumpable (VStr (u s)).
Proof. apply encb_iff. exact (u_scalar s). Qed.
Lemma dumpable_list l : dumpable (VList l) <-> Forall dumpable l.
Proof. split; [intros H; inversion H; assumption|apply D_List]. Qed.
Lemma dumpable_tuple l : dumpable (VTuple l) <-> Forall dumpable l.
Proof. split; [intros H; inversion H; assumption|apply D_Tuple]. Qed.
Definition yields (r : result pyval) : Prop := exists x, r = Ok x /\ dumpable x.
Lemma yields_ok x : yields (Ok x) <-> dumpable x.
Proof. split; [intros (y & H & D); apply Ok_inj in H; subst; exact D|intros D; exists x; auto]. Qed.
Lemma yields_err e : yields (Err e) <-> False.
Proof. split; [intros (y & H & _); discriminate|tauto]. Qed.
Lemma collect_yields {A} (f : A -> result pyval) l :
  (exists r, collect (map f l) = Ok r /\ Forall dumpable r) <-> Forall (fun x => yields (f x)) l.
Proof.
  induction l as [|x l IH]; cbn [map collect].
  - split; [constructor|intros _; exists []; split; [reflexivity|constructor]].
  - split.
    + intros (r & H & D). apply bind_ok in H as (y & Hy & H). apply bind_ok in H as (r' & Hr & H). apply Ok_inj in H. subst r.
      inversion D; subst. constructor; [exists y; auto|]. apply IH. exists r'. auto.
    + intros F. inversion F as [|? ? [y [Hy Dy]] Fr]; subst. apply IH in Fr as (r & Hr & Dr). exists (y :: r). rewrite Hy, Hr. split; [reflexivity|constructor; assumption].
Qed.
Lemma slots_yield c a : (forall k, In k (slot_names c) -> attr_get k a <> None) ->
  (yields (slots c a) <-> forall k, In k (slot_names c) -> yields (ser_slot c k (attr_get_or_none k a))).
Proof.
  intros F. unfold slots, slot_list. rewrite <- Forall_forall.
  assert (G : forall l, (forall k, In k l -> attr_get k a <> None) ->
    ((exists r, collect (map (fun k => do x <- assoc_or (Ok VNone) k (map (fun kv => (fst kv, ser_slot c (fst kv) (snd kv))) a); Ok (VList [skey k; x])) l) = Ok r /\ Forall dumpable r) <->
     Forall (fun k => yields (ser_slot c k (attr_get_or_none k a))) l)).
  { intros l Fl. rewrite collect_yields, !Forall_forall. split; intros H k Hk; specialize (H k Hk); specialize (Fl k Hk).
    - destruct H as (y & Hy & D). apply bind_ok in Hy as (x & Hx & Hy). apply Ok_inj in Hy. subst y. rewrite assoc_attr in Hx. unfold attr_get_or_none.
      destruct (attr_get k a) as [w|]; [|congruence]. exists x. split; [exact Hx|]. apply dumpable_list in D. inversion D as [|? ? _ D2]; subst. inversion D2; assumption.
    - destruct H as (x & Hx & D). rewrite assoc_attr. unfold attr_get_or_none in Hx. destruct (attr_get k a) as [w|]; [|congruence]. rewrite Hx. cbn [bind].
      eexists. split; [reflexivity|]. apply dumpable_list. constructor; [apply text_u|]. constructor; [exact D|constructor]. }
  rewrite <- (G _ F). split.
  - intros (s & H & D). apply bind_ok in H as (l & Hl & H). apply Ok_inj in H. subst s. exists l. split; [exact Hl|]. apply dumpable_list. exact D.
  - intros (l & Hl & D). rewrite Hl. exists (VList l). split; [reflexivity|]. apply dumpable_list. exact D.
Qed.

(** the exact condition on one slot, given it for the messages in it *)
Definition exact_for (v : pyval) : Prop := forall c ty ts enc sig a, v = VMsg c ty ts enc sig a -> (yields (slots c a) <-> sendable v).
Lemma single_yields d k v : exact_for v -> (yields (ser_single wire d k v) <-> carried sendable d v).
Proof.
  intros X. split.
  - intros H. destruct v as [| | | | | | | | | | | |c ty ts enc sig a|]; cbn [ser_single] in H; try (apply yields_err in H; destruct H).
    destruct (mcls_eqb c d) eqn:Q; [|apply yields_err in H; destruct H]. apply mcls_eqb_eq in Q. subst d. rewrite wire_msg in H.
    destruct H as (x & Hx & D). apply bind_ok in Hx as (s & Hs & Hx). apply Ok_inj in Hx. subst x. apply dumpable_tuple in D.
    inversion D as [|? ? D1 D']; subst. inversion D' as [|? ? D2 D'']; subst. inversion D'' as [|? ? D3 _]; subst.
    apply dumpable_tuple in D1. inversion D1 as [|? ? T1 D1']; subst. inversion D1' as [|? ? T2 D1'']; subst. inversion D1'' as [|? ? T3 _]; subst.
    constructor; try assumption. apply (X _ _ _ _ _ _ eq_refl). exists s. auto.
  - intros H. destruct H as [ty ts enc sig a D1 D2 D3 D4 S]. cbn [ser_single]. rewrite (proj2 (mcls_eqb_eq d d) eq_refl), wire_msg.
    apply (X _ _ _ _ _ _ eq_refl) in S as (s & Hs & D). rewrite Hs. eexists. split; [reflexivity|]. apply dumpable_tuple.
    repeat constructor; try assumption. 
Qed.
Lemma map_yields {A} (f : A -> result pyval) (g : list pyval -> pyval) l : (forall r, dumpable (g r) <-> Forall dumpable r) ->
  (yields (do r <- collect (map f l); Ok (g r)) <-> Forall (fun x => yields (f x)) l).
Proof.
  intros G. rewrite <- collect_yields. split.
  - intros (x & Hx & D). apply bind_ok in Hx as (r & Hr & Hx). apply Ok_inj in Hx. subst x. exists r. split; [exact Hr|]. apply G. exact D.
  - intros (r & Hr & D). rewrite Hr. exists (g r). split; [reflexivity|]. apply G. exact D.
Qed.
Lemma as_dict_yields v : yields (to_dict v) <-> as_dict v.
Proof. split; [intros (d & H & D); exact (As_dict v d H D)|intros H; destruct H as [v d H D]; exists d; auto]. Qed.
Lemma as_peer_yields v : yields (peer_serialize v) <-> as_peer v.
Proof. split; [intros (d & H & D); exact (As_peer v d H D)|intros H; destruct H as [v d H D]; exists d; auto]. Qed.
Lemma enum_yields v : yields (Ok (enum_value v)) <-> dumpable v \/ exists e s, v = VEnum e s.
Proof.
  rewrite yields_ok. destruct v; cbn [enum_value]; (split; [|intros [D|(e' & s' & Q)]; try discriminate Q; try exact D]); auto.
  - intros _. right. eauto.
  - apply text_u.
  - apply text_u.
Qed.
Lemma plain_yields kd k v : (forall d an il, kd <> KMsg d an il) -> (yields (ser_plain kd k v) <-> slot_holds sendable kd v).
Proof.
  intros N. assert (P : as_it_is kd = true -> ((dumpable v \/ exists e s, v = VEnum e s) -> slot_holds sendable kd v)).
  { intros A [D|(e & s & ->)]; [apply H_value; assumption|apply H_enum; exact A]. }
  assert (P' : as_it_is kd = true -> slot_holds sendable kd v -> (dumpable v \/ exists e s, v = VEnum e s) \/ (exists a, kd = KHeader /\ v = VObj CTaskHeader a /\ as_dict v) \/ (exists a, kd = KStats /\ v = VObj CProvider a /\ as_dict v)).
  { intros A H. inversion H; subst; try discriminate A; eauto 8. }
  assert (NO : forall c a, ~ (dumpable (VObj c a) \/ exists e s, VObj c a = VEnum e s)).
  { intros c a [D|(e & s & Q)]; [inversion D|discriminate]. }
  destruct kd; cbn [ser_plain]; try (rewrite enum_yields; split; [exact (P eq_refl)|]; intros H; destruct (P' eq_refl H) as [X|[(a & X & _)|(a & X & _)]]; [exact X|discriminate|discriminate]).
  - destruct (N d allow_none is_list eq_refl).
  - destruct (truthy v) eqn:T.
    + assert (Y : yields match to_dict v with Ok d => Ok d | Err _ => Err (EFieldError (u k)) end <-> yields (to_dict v)).
      { destruct (to_dict v); [reflexivity|rewrite !yields_err; reflexivity]. }
      rewrite Y, as_dict_yields. split; [apply H_node; exact T|]. intros H. inversion H; subst; try congruence; discriminate.
    + rewrite yields_ok. split; [apply H_no_node; exact T|]. intros H. inversion H; subst; try congruence; discriminate.
  - destruct (py_iter v) as [l|] eqn:I.
    + rewrite (map_yields peer_serialize VList l dumpable_list). split.
      * intros F. apply (H_peers _ v l I). apply Forall_forall. rewrite Forall_forall in F. intros x Hx. apply as_peer_yields, F, Hx.
      * intros H. inversion H as [| | | | | |v' l' I' F| | | | |]; subst; try discriminate. assert (l' = l) by congruence. subst. apply Forall_forall. rewrite Forall_forall in F.
        intros x Hx. apply as_peer_yields, F, Hx.
    + rewrite yields_err. split; [tauto|]. intros H. inversion H; subst; try discriminate. congruence.
  - assert (Q : yields (match v with VList l => do r <- collect (map to_dict l); Ok (VList r) | _ => Err (EFieldError (u "tasks")) end) <-> exists l, v = VList l /\ Forall as_dict l).
    { destruct v; try (rewrite yields_err; split; [tauto|intros (l0 & Q & _); discriminate]). rewrite (map_yields to_dict VList l dumpable_list). split.
      - intros F. exists l. split; [reflexivity|]. apply Forall_forall. rewrite Forall_forall in F. intros x Hx. apply as_dict_yields, F, Hx.
      - intros (l' & E & F). assert (l' = l) by congruence. subst. apply Forall_forall. rewrite Forall_forall in F. intros x Hx. apply as_dict_yields, F, Hx. }
    rewrite Q. split; [intros (l & -> & F); apply H_tasks; exact F|]. intros H. inversion H; subst; try discriminate. eauto.
  - assert (Q : (exists a, v = VObj CTaskHeader a) \/ (match v with VObj CTaskHeader _ => to_dict v | _ => Ok (enum_value v) end = Ok (enum_value v) /\ forall a, v <> VObj CTaskHeader a)).
    { destruct v; try (right; split; [reflexivity|discriminate]). destruct c; try (right; split; [reflexivity|discriminate]). left. eauto. }
    destruct Q as [[a ->]|[-> Nh]].
    + rewrite as_dict_yields. split; [apply H_header|]. intros H. destruct (P' eq_refl H) as [X|[(a' & _ & _ & X)|(a' & X & _)]]; [destruct (NO _ _ X)|exact X|discriminate].
    + rewrite enum_yields. split; [exact (P eq_refl)|]. intros H. destruct (P' eq_refl H) as [X|[(a' & _ & X & _)|(a' & X & _)]]; [exact X|destruct (Nh _ X)|discriminate].
  - assert (Q : (exists a, v = VObj CProvider a) \/ (match v with VObj CProvider _ => to_dict v | _ => Ok (enum_value v) end = Ok (enum_value v) /\ forall a, v <> VObj CProvider a)).
    { destruct v; try (right; split; [reflexivity|discriminate]). destruct c; try (right; split; [reflexivity|discriminate]). left. eauto. }
    destruct Q as [[a ->]|[-> Nh]].
    + rewrite as_dict_yields. split; [apply H_stats|]. intros H. destruct (P' eq_refl H) as [X|[(a' & X & _)|(a' & _ & _ & X)]]; [destruct (NO _ _ X)|discriminate|exact X].
    + rewrite enum_yields. split; [exact (P eq_refl)|]. intros H. destruct (P' eq_refl H) as [X|[(a' & X & _)|(a' & _ & X & _)]]; [exact X|discriminate|destruct (Nh _ X)].
Qed.
Lemma pair_tuple b x : dumpable (VTuple [VBool b; x]) <-> dumpable x.
Proof. rewrite dumpable_tuple. split; [intros H; inversion H as [|? ? _ H']; subst; inversion H'; assumption|intros H; repeat constructor; exact H]. Qed.
Lemma slot_yields c k v : exact_for v -> (forall l, v = VList l -> Forall exact_for l) ->
  (yields (ser_slot c k v) <-> slot_holds sendable (slot_kind c k) v).
Proof.
  intros X XL. unfold ser_slot, ser_slot_with. destruct (slot_kind c k) as [| |d an il| | | | | | | | | |] eqn:K; try (apply plain_yields; discriminate).
  assert (S : forall v, exact_for v -> (yields (do r <- ser_single wire d k v; Ok (VTuple [VBool false; r])) <-> carried sendable d v)).
  { intros w Xw. rewrite <- (single_yields d k w Xw). split.
    - intros (x & Hx & D). apply bind_ok in Hx as (r & Hr & Hx). apply Ok_inj in Hx. subst x. exists r. split; [exact Hr|]. apply pair_tuple in D. exact D.
    - intros (r & Hr & D). rewrite Hr. eexists. split; [reflexivity|]. apply pair_tuple. exact D. }
  assert (C : forall w, carried sendable d w -> exists ty ts enc sig a, w = VMsg d ty ts enc sig a) by (intros w H; inversion H; subst; eauto 8).
  destruct v; try (rewrite (S _ X); split; [apply H_msg|]; intros H; inversion H; subst; try discriminate; assumption).
  - destruct an.
    + rewrite yields_ok. split; [intros _; apply H_none|]. intros _. apply pair_tuple. constructor.
    + rewrite yields_err. split; [tauto|]. intros H. inversion H as [| |? ? ? ? Hc| | | | | | | | |]; subst; try discriminate. destruct (C _ Hc) as (? & ? & ? & ? & ? & Q). discriminate.
  - rewrite (map_yields (ser_single wire d k) (fun r => VTuple [VBool true; VList r]) l).
    + specialize (XL l eq_refl). rewrite Forall_forall in XL. split.
      * intros F. apply H_list. rewrite Forall_forall in *. intros x Hx. apply (single_yields d k x (XL x Hx)), F, Hx.
      * intros H. inversion H as [| |? ? ? ? Hc|? ? ? ? Hl| | | | | | | |]; subst; try discriminate.
        -- destruct (C _ Hc) as (? & ? & ? & ? & ? & Q). discriminate.
        -- rewrite Forall_forall in *. intros x Hx. apply (single_yields d k x (XL x Hx)), Hl, Hx.
    + intros r. rewrite pair_tuple. apply dumpable_list.
  - rewrite yields_ok. split; [intros _; apply H_member|]. intros _. apply text_u.
Qed.
Lemma formed_attr c ty ts enc sig a k w : formed (VMsg c ty ts enc sig a) -> In (k, w) a -> formed w.
Proof. intros F I. intros c' ty' ts' enc' sig' a' k' W. apply F with (1 := W_msg _ _ _ _ _ _ _ _ _ I W). Qed.
Lemma formed_elem l w : formed (VList l) -> In w l -> formed w.
Proof. intros F I. intros c' ty' ts' enc' sig' a' k' W. apply F with (1 := W_list _ _ _ I W). Qed.
Lemma exact_all v : formed v -> exact_for v /\ (forall l, v = VList l -> Forall exact_for l).
Proof.
  induction v as [| | | | | |l H|l H|kc kvs H| |oc oa H| |c ty ts enc sig a H1 H2 H3 H4 H|] using pyval_ind'; intros F; try (split; [intros ? ? ? ? ? ? Q; discriminate|intros l0 Q; discriminate]).
  - split; [intros ? ? ? ? ? ? Q; discriminate|]. intros l' Q. assert (l' = l) by congruence. subst l'. rewrite Forall_forall in *. intros x Hx.
    apply (H x Hx), (formed_elem l); assumption.
  - split; [|intros l0 Q; discriminate]. intros c' ty' ts' enc' sig' a' Q. symmetry in Q. inversion Q; subst c' ty' ts' enc' sig' a'. clear Q.
    rewrite slots_yield by (intros k Hk; exact (F _ _ _ _ _ _ k (W_self _) Hk)).
    assert (Y : forall k, In k (slot_names c) -> (yields (ser_slot c k (attr_get_or_none k a)) <-> slot_holds sendable (slot_kind c k) (attr_get_or_none k a))).
    { intros k Hk. assert (G : exists w, attr_get k a = Some w) by (pose proof (F c ty ts enc sig a k (W_self _) Hk); destruct (attr_get k a); [eauto|congruence]).
      destruct G as [w G]. unfold attr_get_or_none. rewrite G. apply attr_get_in in G. rewrite Forall_forall in H.
      pose proof (formed_attr _ _ _ _ _ _ _ _ F G) as Fw. destruct (H _ G Fw) as [X1 X2]. apply slot_yields; assumption. }
    split; [intros A; constructor; intros k Hk; apply Y; auto|]. intros S k Hk. inversion S as [? ? ? ? ? ? S']; subst. apply Y; auto.
Qed.

(** ** The payload *)
Lemma payload_exact c ty ts enc sig a : formed (VMsg c ty ts enc sig a) -> (forall s, slots c a = Ok s -> vsize s < 2 ^ 64) ->
  ((exists p, payload_of c a = Ok p) <-> sendable (VMsg c ty ts enc sig a)).
Proof.
  intros F S. rewrite <- (proj1 (exact_all _ F) _ _ _ _ _ _ eq_refl). unfold payload_of. split.
  - intros (p & H). apply bind_ok in H as (s & Hs & H). exists s. split; [exact Hs|].
    destruct (dumps_exact s (S s Hs)) as [[D _]|[_ E]]; [exact D|congruence].
  - intros (s & Hs & D). rewrite Hs. cbn [bind]. destruct (dumps_exact s (S s Hs)) as [[_ [b E]]|[N _]]; [eauto|contradiction].
Qed.

(** ** What is raised *)
Definition whole (v : pyval) : Prop := match v with VInt _ | VBool _ => True | _ => False end.
(** some task header in [v] has an integer for its mask *)
Definition int_mask (v : pyval) : Prop := exists a w, within (VObj CTaskHeader a) v /\ attr_get "mask" a = Some w /\ whole w.
Lemma assoc_gen (f : string -> pyval -> result pyval) (a : attrs_t) k :
  assoc_or (Ok VNone) k (map (fun kv => (fst kv, f (fst kv) (snd kv))) a) = match attr_get k a with Some w => f k w | None => Ok VNone end.
Proof.
  induction a as [|[k0 w] a IH]; [reflexivity|]. cbn [map assoc_or attr_get fst snd]. rewrite IH.
  destruct (String.eqb_spec k0 k) as [->|N]; reflexivity.
Qed.
Lemma mask_hook c k : cser_hook c k = SMask -> c = CTaskHeader /\ k = "mask"%string.
Proof.
  destruct c; cbn [cser_hook]; try discriminate.
  - destruct (k =? "task_owner")%string; [discriminate|]. destruct (String.eqb_spec k "mask"); [auto|discriminate].
  - destruct existsb; discriminate.
  - destruct existsb; discriminate.
Qed.
Lemma kvs_err (P : Prop) c a e : (forall k w, In (k, w) a -> attr_get k a = Some w -> ser_entry c k w = Err e -> P) -> to_dict_kvs c a = Err e -> P.
Proof.
  intros G H. unfold to_dict_kvs in H. apply mapM_err in H as (k & _ & H). rewrite (assoc_gen (ser_entry c)) in H.
  destruct (attr_get k a) as [w|] eqn:A; [|discriminate]. destruct (ser_entry c k w) as [x|e'] eqn:Q; [discriminate|].
  cbn [bind] in H. assert (e' = e) by congruence. subst. exact (G k w (attr_get_in _ _ _ A) A Q).
Qed.
Lemma int_mask_in c a k w : In (k, w) a -> int_mask w -> int_mask (VObj c a).
Proof. intros I (a' & w' & W & H). exists a', w'. split; [exact (W_obj _ _ _ _ _ I W)|exact H]. Qed.
Lemma entry_err v : forall c k e, ser_entry c k v = Err e -> e = ETypeError /\ ((c = CTaskHeader /\ k = "mask"%string /\ whole v) \/ int_mask v).
Proof.
  assert (L : forall v, (forall oc oa, v <> VObj oc oa) -> forall c k e, ser_entry c k v = Err e ->
    e = ETypeError /\ ((c = CTaskHeader /\ k = "mask"%string /\ whole v) \/ int_mask v)).
  { intros v0 N c k e H. destruct v0; try (destruct (N _ _ eq_refl)); cbn [ser_entry] in H; destruct (cser_hook c k) eqn:K; try discriminate;
      (split; [congruence|left]); destruct (mask_hook _ _ K) as [-> ->]; cbn [whole]; auto. }
  induction v as [| | | | | |l H|l H|kc kvs H| |oc oa H| |mc ty ts enc sig a H1 H2 H3 H4 H|] using pyval_ind'; try (apply L; discriminate).
  intros c k e Q. cbn [ser_entry] in Q.
  assert (D : (do kvs <- to_dict_kvs oc oa; Ok (VDict DPlain kvs)) = Err e -> e = ETypeError /\ int_mask (VObj oc oa)).
  { intros X. destruct (to_dict_kvs oc oa) as [kvs|e'] eqn:D; [discriminate|]. cbn [bind] in X. assert (e' = e) by congruence. subst e'.
    revert D. apply kvs_err. intros k' w I A R. rewrite Forall_forall in H. destruct (H _ I _ _ _ R) as [-> [(-> & -> & Hw)|M]].
    - split; [reflexivity|]. exists oa, w. split; [constructor|auto].
    - split; [reflexivity|]. exact (int_mask_in _ _ _ _ I M). }
  destruct (cser_hook c k) eqn:K; try discriminate; destruct (D Q) as [-> M]; auto.
Qed.
Lemma dict_err v e : to_dict v = Err e -> (e = EAttributeError /\ forall c a, v <> VObj c a) \/ (e = ETypeError /\ int_mask v).
Proof.
  destruct v; try (intros H; left; split; [cbn in H; congruence|discriminate]). cbn [to_dict]. intros H. right.
  destruct (to_dict_kvs c attrs) as [kvs|e'] eqn:D; [discriminate|]. cbn [bind] in H. assert (e' = e) by congruence. subst e'.
  revert D. apply kvs_err. intros k w I A R. destruct (entry_err _ _ _ _ R) as [-> [(-> & -> & Hw)|M]].
  - split; [reflexivity|]. exists attrs, w. split; [constructor|auto].
  - split; [reflexivity|]. exact (int_mask_in _ _ _ _ I M).
Qed.
(** an error names a slot of a message in [m] *)
Definition names_slot (e : exn) (m : pyval) : Prop :=
  exists c ty ts enc sig a k, within (VMsg c ty ts enc sig a) m /\ In k (slot_names c) /\ e = EFieldError (u k).
Definition raised (m : pyval) (e : exn) : Prop :=
  names_slot e m \/ (e = ETypeError /\ int_mask m).
Definition raised_for (c : mcls) (m : pyval) (e : exn) : Prop :=
  raised m e \/ (c = MPeers /\ (e = ETypeError \/ e = EAttributeError \/ e = EKeyError)) \/ (c = MTasks /\ e = EAttributeError).
Lemma raised_up c ty ts enc sig a k w e : In (k, w) a -> raised w e -> raised (VMsg c ty ts enc sig a) e.
Proof.
  intros I [(c' & ty' & ts' & enc' & sig' & a' & k' & W & H)|(E & a' & w' & W & H)].
  - left. exists c', ty', ts', enc', sig', a', k'. split; [exact (W_msg _ _ _ _ _ _ _ _ _ I W)|exact H].
  - right. split; [exact E|]. exists a', w'. split; [exact (W_msg _ _ _ _ _ _ _ _ _ I W)|exact H].
Qed.
Lemma raised_elem l w e : In w l -> raised w e -> raised (VList l) e.
Proof.
  intros I [(c' & ty' & ts' & enc' & sig' & a' & k' & W & H)|(E & a' & w' & W & H)].
  - left. exists c', ty', ts', enc', sig', a', k'. split; [exact (W_list _ _ _ I W)|exact H].
  - right. split; [exact E|]. exists a', w'. split; [exact (W_list _ _ _ I W)|exact H].
Qed.
Lemma never_nested c k d an il : slot_kind c k = KMsg d an il -> d <> MPeers /\ d <> MTasks.
Proof.
  intros K. assert (F : forallb (fun c => forallb (fun p => match snd p with KMsg d _ _ => negb (mcls_eqb d MPeers) && negb (mcls_eqb d MTasks) | _ => true end) (slot_table c)) all_classes = true)
    by (vm_compute; reflexivity).
  pose proof (for_all_classes _ F c) as G. cbv beta in G. rewrite forallb_forall in G.
  destruct (slot_kind_cases c k) as [I|I]; [|rewrite (slot_kind_default _ _ I) in K; discriminate]. specialize (G _ I). cbn [snd] in G. rewrite K in G.
  apply andb_prop in G as [G1 G2]. apply negb_true_iff in G1, G2. split; intros ->; [vm_compute in G1|vm_compute in G2]; discriminate.
Qed.
Lemma peers_only c k : slot_kind c k = KPeers -> c = MPeers.
Proof.
  intros K. assert (F : forallb (fun c => mcls_eqb c MPeers || forallb (fun p => match snd p with KPeers => false | _ => true end) (slot_table c)) all_classes = true)
    by (vm_compute; reflexivity).
  pose proof (for_all_classes _ F c) as G. cbv beta in G. apply orb_prop in G as [G|G]; [apply mcls_eqb_eq; exact G|]. rewrite forallb_forall in G.
  destruct (slot_kind_cases c k) as [I|I]; [|rewrite (slot_kind_default _ _ I) in K; discriminate]. specialize (G _ I). cbn [snd] in G. rewrite K in G. discriminate.
Qed.
Lemma tasks_only c k : slot_kind c k = KTasks -> c = MTasks /\ k = "tasks"%string.
Proof.
  intros K. assert (F : forallb (fun c => forallb (fun p => match snd p with KTasks => mcls_eqb c MTasks && (fst p =? "tasks")%string | _ => true end) (slot_table c)) all_classes = true)
    by (vm_compute; reflexivity).
  pose proof (for_all_classes _ F c) as G. cbv beta in G. rewrite forallb_forall in G.
  destruct (slot_kind_cases c k) as [I|I]; [|rewrite (slot_kind_default _ _ I) in K; discriminate]. specialize (G _ I). cbn [fst snd] in G. rewrite K in G.
  apply andb_prop in G as [G1 G2]. split; [apply mcls_eqb_eq; exact G1|apply String.eqb_eq; exact G2].
Qed.
Definition errs (v : pyval) : Prop := forall c ty ts enc sig a e, v = VMsg c ty ts enc sig a -> slots c a = Err e -> raised_for c v e.
Lemma single_err d k v e : errs v -> d <> MPeers -> d <> MTasks -> ser_single wire d k v = Err e -> e = EFieldError (u k) \/ raised v e.
Proof.
  intros X N1 N2 H. destruct v as [| | | | | | | | | | | |c ty ts enc sig a|]; cbn [ser_single] in H; try (left; congruence).
  destruct (mcls_eqb c d) eqn:Q; [|left; congruence]. apply mcls_eqb_eq in Q. subst d. rewrite wire_msg in H.
  destruct (slots c a) as [s|e'] eqn:S; [discriminate|]. cbn [bind] in H. assert (e' = e) by congruence. subst e'.
  destruct (X _ _ _ _ _ _ _ eq_refl S) as [R|[[R _]|[R _]]]; [auto|contradiction|contradiction].
Qed.
Lemma slot_err c k v e : In k (slot_names c) -> errs v -> (forall l, v = VList l -> Forall errs l) -> ser_slot c k v = Err e ->
  e = EFieldError (u k) \/ raised v e \/ (c = MPeers /\ (e = ETypeError \/ e = EAttributeError \/ e = EKeyError)) \/ (c = MTasks /\ e = EAttributeError).
Proof.
  intros Hk X XL H. unfold ser_slot, ser_slot_with in H. destruct (slot_kind c k) as [| |d an il| | | | | | | | | |] eqn:K; cbn [ser_plain] in H; try discriminate.
  - destruct (never_nested _ _ _ _ _ K) as [N1 N2].
    assert (S : (do r <- ser_single wire d k v; Ok (VTuple [VBool false; r])) = Err e -> e = EFieldError (u k) \/ raised v e).
    { intros Q. destruct (ser_single wire d k v) as [r|e'] eqn:R; [discriminate|]. cbn [bind] in Q. assert (e' = e) by congruence. subst. apply (single_err d k v e); assumption. }
    destruct v; try (destruct (S H) as [?|?]; auto; fail); try discriminate.
    + destruct an; [discriminate|]. left. congruence.
    + rewrite collect_map in H. destruct (mapM (ser_single wire d k) l) as [r|e'] eqn:R; [discriminate|]. cbn [bind] in H. assert (e' = e) by congruence. subst e'.
      apply mapM_err in R as (x & Hx & R). specialize (XL l eq_refl). rewrite Forall_forall in XL. destruct (single_err d k x e (XL x Hx) N1 N2 R) as [?|?]; [auto|].
      right. left. exact (raised_elem _ _ _ Hx H0).
  - destruct (truthy v); [|discriminate]. destruct (to_dict v); [discriminate|]. left. congruence.
  - right. right. left. split; [exact (peers_only _ _ K)|]. destruct (py_iter v) as [l|]; [|left; congruence]. rewrite collect_map in H.
    destruct (mapM peer_serialize l) as [r|e'] eqn:R; [discriminate|]. cbn [bind] in H. assert (e' = e) by congruence. subst e'. apply mapM_err in R as (x & Hx & R).
    unfold peer_serialize in R. destruct x; try (right; left; congruence). destruct c0; try (right; left; congruence).
    destruct (dict_get (skey "node") kvs) as [n|]; [|right; right; congruence]. destruct (to_dict n) as [y|e'] eqn:T; [discriminate|]. cbn [bind] in R. assert (e' = e) by congruence. subst e'.
    destruct (dict_err _ _ T) as [[-> _]|[-> _]]; auto.
  - destruct (tasks_only _ _ K) as [-> ->]. destruct v; try (left; congruence). rewrite collect_map in H.
    destruct (mapM to_dict l) as [r|e'] eqn:R; [discriminate|]. cbn [bind] in H. assert (e' = e) by congruence. subst e'. apply mapM_err in R as (x & Hx & R).
    destruct (dict_err _ _ R) as [[-> _]|[-> M]]; [auto 6|]. right. left. apply (raised_elem _ _ _ Hx). right. auto.
  - destruct v; try discriminate. destruct c0; try discriminate. destruct (dict_err _ _ H) as [[_ N]|[-> M]]; [destruct (N _ _ eq_refl)|]. right. left. right. auto.
  - destruct v; try discriminate. destruct c0; try discriminate. destruct (dict_err _ _ H) as [[_ N]|[-> M]]; [destruct (N _ _ eq_refl)|]. right. left. right. auto.
Qed.
Lemma errs_all v : errs v /\ (forall l, v = VList l -> Forall errs l).
Proof.
  induction v as [| | | | | |l H|l H|kc kvs H| |oc oa H| |c ty ts enc sig a H1 H2 H3 H4 H|] using pyval_ind';
    try (split; [intros ? ? ? ? ? ? ? Q; discriminate|intros l0 Q; discriminate]).
  - split; [intros ? ? ? ? ? ? ? Q; discriminate|]. intros l' Q. assert (l' = l) by congruence. subst l'. rewrite Forall_forall in *. intros x Hx. apply (H x Hx).
  - split; [|intros l0 Q; discriminate]. intros c' ty' ts' enc' sig' a' e Q S. symmetry in Q. inversion Q; subst c' ty' ts' enc' sig' a'. clear Q.
    unfold slots, slot_list in S. rewrite collect_map in S. destruct (mapM _ (slot_names c)) as [r|e'] eqn:R in S; [discriminate|]. cbn [bind] in S. assert (e' = e) by congruence. subst e'.
    apply mapM_err in R as (k & Hk & R). rewrite assoc_attr in R. destruct (attr_get k a) as [w|] eqn:A; [|discriminate].
    destruct (ser_slot c k w) as [x|e'] eqn:Z; [discriminate|]. cbn [bind] in R. assert (e' = e) by congruence. subst e'. apply attr_get_in in A.
    rewrite Forall_forall in H. destruct (H _ A) as [X XL]. cbn [snd] in X, XL. destruct (slot_err _ _ _ _ Hk X XL Z) as [->|[Rz|[Rz|Rz]]].
    + left. left. exists c, ty, ts, enc, sig, a, k. split; [constructor|auto].
    + left. exact (raised_up _ _ _ _ _ _ _ _ _ A Rz).
    + right. left. exact Rz.
    + right. right. exact Rz.
Qed.
Lemma slots_err c ty ts enc sig a e : slots c a = Err e ->
  names_slot e (VMsg c ty ts enc sig a) \/ (e = ETypeError /\ int_mask (VMsg c ty ts enc sig a)) \/
  (c = MPeers /\ (e = ETypeError \/ e = EAttributeError \/ e = EKeyError)) \/ (c = MTasks /\ e = EAttributeError).
Proof. intros H. destruct (proj1 (errs_all (VMsg c ty ts enc sig a)) _ _ _ _ _ _ _ eq_refl H) as [[R|R]|[R|R]]; auto. Qed.
Lemma payload_err c ty ts enc sig a e : payload_of c a = Err e -> raised_for c (VMsg c ty ts enc sig a) e \/ (e = ESerializationError /\ exists s, slots c a = Ok s).
Proof.
  unfold payload_of. destruct (slots c a) as [s|e'] eqn:S; cbn [bind]; intros H.
  - right. split; [|eauto]. unfold dumps in H. destruct (Cbor.enc s); congruence.
  - assert (e' = e) by congruence. subst. left. exact (proj1 (errs_all _) _ _ _ _ _ _ _ eq_refl S).
Qed.

(** ** Dumping *)
Inductive is_time : pyval -> Prop :=
| T_int z : 0 <= z < 2 ^ 64 -> is_time (VInt z)
| T_bool b : is_time (VBool b).
Lemma pack_time ty ts enc : 0 <= ty < 2 ^ 16 -> ((exists b, pack_header ty ts enc = Ok b) <-> is_time ts) /\ (~ is_time ts -> pack_header ty ts enc = Err EStructError).
Proof.
  intros T. unfold pack_header. replace ((0 <=? ty) && (ty <? 2 ^ 16)) with true by lia. cbn [bind].
  assert (P : forall z, (0 <= z < 2 ^ 64 /\ (if (0 <=? z) && (z <? 2 ^ 64) then Ok (be_enc 8 z) else Err EStructError) = Ok (be_enc 8 z)) \/
    (~ 0 <= z < 2 ^ 64 /\ (if (0 <=? z) && (z <? 2 ^ 64) then Ok (be_enc 8 z) else Err EStructError) = Err EStructError)).
  { intros z. destruct ((0 <=? z) && (z <? 2 ^ 64)) eqn:Q; [left|right]; (split; [lia|reflexivity]). }
  destruct ts; cbn [pack_u64]; try (split; [split; [intros (b0 & H); discriminate|intros H; inversion H]|reflexivity]).
  - split; [split; [intros _; constructor|]|].
    + intros _. destruct b; cbn [bind]; eexists; reflexivity.
    + intros N. destruct N. constructor.
  - destruct (P z) as [[R ->]|[R ->]]; cbn [bind].
    + split; [split; [intros _; constructor; exact R|intros _; eexists; reflexivity]|]. intros N. destruct N. constructor. exact R.
    + split; [split; [intros (b & H); discriminate|intros H; inversion H; contradiction]|reflexivity].
Qed.
Definition textual (v : pyval) : Prop := (exists s, v = VStr s) \/ (exists e s, v = VEnum e s /\ is_string_enum e = true).
Definition versioned (a : attrs_t) : Prop := exists v, attr_get "_version" a = Some v /\ textual v.
Lemma version_total a : (versioned a -> exists b, version_bytes a = Ok b) /\ (~ versioned a -> version_bytes a = Err EAttributeError) /\ (versioned a \/ ~ versioned a).
Proof.
  unfold versioned, version_bytes. destruct (attr_get "_version" a) as [v|]; [|split; [intros (v & H & _); discriminate|split; [reflexivity|right; intros (v & H & _); discriminate]]].
  assert (T : textual v <-> exists s, str_of v = Some s).
  { unfold textual. destruct v; cbn [str_of]; (split; [intros [(s' & Q)|(e' & s' & Q & R)]; try discriminate; eauto|intros (s' & Q)]); try discriminate Q; eauto.
    - assert (e' = e) by congruence. subst. rewrite R. eauto.
    - destruct (is_string_enum e) eqn:R; [|discriminate]. right. eauto. }
  destruct (str_of v) as [s|] eqn:S.
  - assert (V : exists v0, Some v = Some v0 /\ textual v0) by (exists v; split; [reflexivity|apply T; eauto]). split; [eauto|]. split; [contradiction|auto].
  - assert (V : ~ exists v0, Some v = Some v0 /\ textual v0).
    { intros (v0 & Q & X). assert (v0 = v) by congruence. subst. apply T in X as (s & X). discriminate. }
    split; [contradiction|]. split; [reflexivity|auto].
Qed.
Definition bytes_or_none (v : pyval) : Prop := v = VNone \/ exists b, v = VBytes b.
Definition has_secret (C : crypto) (key : option bytes) : Prop := exists k s, key = Some k /\ secret_of C k = Some s.
Lemma key_cases C key : crypto_ok C -> key_given key = true -> forall h,
  (has_secret C key /\ exists s, ecdsa_sign C (match key with Some k => k | None => [] end) h = Ok s) \/
  (~ has_secret C key /\ ecdsa_sign C (match key with Some k => k | None => [] end) h = Err EValueError).
Proof.
  intros OK G h. destruct key as [k|]; [|discriminate]. destruct (secret_of C k) as [s|] eqn:S.
  - left. split; [exists k, s; auto|]. exact (ecdsa_sign_total C k h s OK S).
  - right. split; [intros (k' & s & Q & R); congruence|]. unfold ecdsa_sign. rewrite S. reflexivity.
Qed.
Lemma hash_cases E c ty ts a p : vsize (VList [ty; ts]) < 2 ^ 64 -> is_time ts -> (c = MHello -> versioned a) ->
  (dumpable ty /\ exists h, hash_payload E c ty ts a p = Ok h) \/ (~ dumpable ty /\ hash_payload E c ty ts a p = Err ESerializationError).
Proof.
  intros S T V. assert (Dt : dumpable ts) by (destruct T; constructor). unfold hash_payload.
  destruct (dumps_exact _ S) as [[D [b Hb]]|[N Hb]]; rewrite Hb; cbn [bind].
  - left. apply dumpable_list in D. inversion D; subst. split; [assumption|]. destruct c; eauto. destruct (proj1 (version_total a) (V eq_refl)) as [vb ->]. cbn [bind]. eauto.
  - right. split; [|reflexivity]. intros D. apply N, dumpable_list. repeat constructor; assumption.
Qed.
Lemma hash_err E c ty ts a p e : vsize (VList [ty; ts]) < 2 ^ 64 -> hash_payload E c ty ts a p = Err e ->
  (e = ESerializationError /\ ~ dumpable (VList [ty; ts])) \/ (c = MHello /\ e = EAttributeError /\ ~ versioned a).
Proof.
  intros S. unfold hash_payload. destruct (dumps_exact _ S) as [[D [b Hb]]|[N Hb]]; rewrite Hb; cbn [bind].
  - intros H. right. destruct c; try discriminate H. split; [reflexivity|]. destruct (version_total a) as (V1 & V2 & [V|V]).
    + destruct (V1 V) as [vb Hv]. rewrite Hv in H. discriminate H.
    + rewrite (V2 V) in H. cbn [bind] in H. split; [congruence|exact V].
  - intros H. left. split; [congruence|exact N].
Qed.
Section Dump.
  Variables (E : env) (c : mcls) (ty ts enc sig : pyval) (a : attrs_t) (key : option bytes) (encf : option (bytes -> result bytes)).
  Hypothesis OK : crypto_ok (cr E).
  Hypothesis F : formed (VMsg c ty ts enc sig a).
  Hypothesis SZ : forall s, slots c a = Ok s -> vsize s < 2 ^ 64.
  Hypothesis SH : vsize (VList [ty; ts]) < 2 ^ 64.
  Let m := VMsg c ty ts enc sig a.
  (** the last step *)
  Let tail : result bytes := match c with MHello => do v <- version_bytes a; Ok (pack32p v) | _ => Ok [] end.
  Let finish enc' p sg :=
    do p <- (match encf with Some f => if encrypts c then f p else Ok p | None => Ok p end);
    do h <- pack_header (type_of c) ts enc';
    do s <- (match sg with VBytes s => Ok s | _ => Err ETypeError end);
    do v <- tail;
    Ok (h ++ s ++ p ++ v).
  Lemma tail_cases : (c = MHello /\ tail = do v <- version_bytes a; Ok (pack32p v)) \/ (c <> MHello /\ tail = Ok []).
  Proof. unfold tail. clear. destruct c; auto; right; (split; [discriminate|reflexivity]). Qed.
  Lemma finish_ok enc' p sg : (forall f p, encf = Some f -> exists q, f p = Ok q) ->
    ((exists bs, finish enc' p sg = Ok bs) <-> is_time ts /\ (exists b, sg = VBytes b) /\ (c = MHello -> versioned a)).
  Proof.
    intros T. unfold finish.
    assert (P : exists q, (match encf with Some f => if encrypts c then f p else Ok p | None => Ok p end) = Ok q).
    { destruct encf as [f|]; [|eauto]. destruct (encrypts c); [exact (T f p eq_refl)|eauto]. }
    destruct P as [q ->]. cbn [bind]. pose proof (pack_time (type_of c) ts enc' (type_of_range c)) as [PT _]. split.
    - intros (bs & H). apply bind_ok in H as (h & Hh & H). apply bind_ok in H as (s & Hs & H). apply bind_ok in H as (v & Hv & H).
      split; [apply PT; eauto|]. split; [clear - Hs; destruct sg; try discriminate Hs; eauto|]. intros Hc. destruct (version_total a) as (_ & V2 & [V|V]); [exact V|].
      destruct tail_cases as [[_ Hl]|[Hl _]]; [rewrite Hl, (V2 V) in Hv; discriminate Hv|contradiction].
    - intros (T1 & (s & ->) & V). apply PT in T1 as [h ->]. cbn [bind].
      destruct (tail_cases) as [[Hc ->]|[_ ->]]; [|cbn [bind]; eauto].
      destruct (proj1 (version_total a) (V Hc)) as [vb ->]. cbn [bind]. eauto.
  Qed.
  Lemma dump_exact : (forall f p, encf = Some f -> exists q, f p = Ok q) ->
    ((exists bs, snd (serialize E m key encf) = Ok bs) <->
     ~ (key_given key = true /\ truthy sig = true) /\ sendable m /\ is_time ts /\ bytes_or_none sig /\ (c = MHello -> versioned a) /\
     (key_given key = true -> signs c = true -> sig = VNone -> dumpable ty /\ has_secret (cr E) key)).
  Proof.
    intros T. pose proof (payload_exact c ty ts enc sig a F SZ) as PE. subst m. unfold serialize.
    destruct (key_given key && truthy sig) eqn:KS.
    { apply andb_prop in KS. split; [intros (bs & H); discriminate|]. intros (N & _). contradiction. }
    assert (N : ~ (key_given key = true /\ truthy sig = true)) by (intros [A B]; rewrite A, B in KS; discriminate).
    destruct (payload_of c a) as [p|e].
    2:{ split; [intros (bs & H); discriminate|]. intros (_ & S & _). apply PE in S as (q & Q). discriminate. }
    assert (S : sendable (VMsg c ty ts enc sig a)) by (apply PE; eauto). clear PE.
    set (enc' := VBool _).
    assert (FO : forall sg, (exists bs, snd (VMsg c ty ts enc' sg a, finish enc' p sg) = Ok bs) <-> is_time ts /\ (exists b, sg = VBytes b) /\ (c = MHello -> versioned a))
      by (intros sg; cbn [snd]; apply finish_ok; exact T).
    unfold finish, tail in FO. destruct (is_none sig) eqn:NS.
    - assert (sig = VNone) by (destruct sig; try discriminate; reflexivity). subst sig. destruct (key_given key && signs c) eqn:G.
      + apply andb_prop in G as [G1 G2]. split.
        * intros (bs & H).
          destruct (hash_payload E c ty ts a p) as [h|e] eqn:HP; [|discriminate]. cbn [bind] in H.
          destruct (key_cases (cr E) key OK G1 h) as [[HK [s Hs]]|[_ Hs]]; rewrite Hs in H; [|discriminate]. cbn [bind] in H.
          destruct (proj1 (FO (VBytes s)) (ex_intro _ bs H)) as (T1 & _ & V). refine (conj N (conj S (conj T1 (conj (or_introl eq_refl) (conj V _))))). intros _ _ _. split; [|exact HK].
          destruct (hash_cases E c ty ts a p SH T1 V) as [[D _]|[_ Q]]; [exact D|congruence].
        * intros (_ & _ & T1 & _ & V & Sg). destruct (Sg G1 G2 eq_refl) as [D HK].
          destruct (hash_cases E c ty ts a p SH T1 V) as [[_ [h ->]]|[D' _]]; [|contradiction]. cbn [bind].
          destruct (key_cases (cr E) key OK G1 h) as [[_ [s ->]]|[HK' _]]; [|contradiction]. cbn [bind]. apply FO. eauto.
      + assert (NG : ~ (key_given key = true /\ signs c = true)) by (intros [A B]; rewrite A, B in G; discriminate).
        etransitivity; [apply FO|]. split.
        * intros (T1 & _ & V). refine (conj N (conj S (conj T1 (conj (or_introl eq_refl) (conj V _))))). intros X Y. destruct NG. auto.
        * intros (_ & _ & T1 & _ & V & _). eauto.
    - assert (sig <> VNone) by (intros ->; discriminate). etransitivity; [apply FO|]. split.
      + intros (T1 & B & V). refine (conj N (conj S (conj T1 (conj (or_intror B) (conj V _))))). contradiction.
      + intros (_ & _ & T1 & [B|B] & V & _); [contradiction|]. auto.
  Qed.
  Lemma dump_err e : snd (serialize E m key encf) = Err e ->
    (e = ESignatureAlreadyExists /\ key_given key = true /\ truthy sig = true) \/
    (raised_for c m e /\ ~ sendable m) \/
    (e = ESerializationError /\ (~ sendable m \/ ~ dumpable ty \/ ~ is_time ts)) \/
    (e = EValueError /\ ~ has_secret (cr E) key) \/
    (e = EStructError /\ ~ is_time ts) \/
    (e = ETypeError /\ ~ bytes_or_none sig) \/
    (c = MHello /\ e = EAttributeError /\ ~ versioned a) \/
    (exists f p, encf = Some f /\ f p = Err e).
  Proof.
    pose proof (payload_exact c ty ts enc sig a F SZ) as PE. subst m. unfold serialize.
    destruct (key_given key && truthy sig) eqn:KS.
    { apply andb_prop in KS as [A B]. cbn [snd]. intros H. left. split; [congruence|auto]. }
    destruct (payload_of c a) as [p|e'] eqn:P.
    2:{ cbn [snd]. intros H. assert (e' = e) by congruence. subst e'. assert (N : ~ sendable (VMsg c ty ts enc sig a)) by (intros S; apply PE in S as (q & Q); discriminate).
        destruct (payload_err c ty ts enc sig a e P) as [R|[-> _]]; auto 6. }
    clear PE. set (enc' := VBool _).
    assert (FE : forall sg, ((exists b, sg = VBytes b) \/ (sg = sig /\ sig <> VNone)) -> snd (VMsg c ty ts enc' sg a, finish enc' p sg) = Err e ->
      (e = EStructError /\ ~ is_time ts) \/ (e = ETypeError /\ ~ bytes_or_none sig) \/ (c = MHello /\ e = EAttributeError /\ ~ versioned a) \/ (exists f p, encf = Some f /\ f p = Err e)).
    { intros sg Hsg. cbn [snd]. unfold finish. pose proof (pack_time (type_of c) ts enc' (type_of_range c)) as [PT PN].
      assert (Q : (exists q, (match encf with Some f => if encrypts c then f p else Ok p | None => Ok p end) = Ok q) \/
        (exists f e', encf = Some f /\ f p = Err e' /\ (match encf with Some f => if encrypts c then f p else Ok p | None => Ok p end) = Err e')).
      { destruct encf as [f|]; [|eauto]. destruct (encrypts c); [|eauto]. destruct (f p) as [q|e'] eqn:Q; [eauto|]. right. exists f, e'. auto. }
      destruct Q as [[q ->]|(f & e' & Hf & Hp & ->)]; cbn [bind]; intros H.
      2:{ right. right. right. exists f, p. split; [exact Hf|]. clear - H Hp. congruence. }
      destruct (pack_header (type_of c) ts enc') as [h|e'] eqn:PH.
      2:{ left. assert (NT : ~ is_time ts) by (intros X; apply PT in X as [b X]; clear - X; discriminate X). split; [|exact NT]. specialize (PN NT). clear - H PN. cbn [bind] in H. congruence. }
      cbn [bind] in H. destruct Hsg as [[b ->]|[-> NS]].
      - cbn [bind] in H. destruct (tail_cases) as [[Hc Hh]|[_ Hh]]; rewrite Hh in H; [|clear - H; discriminate H].
        right. right. left. split; [exact Hc|]. destruct (version_total a) as (V1 & V2 & [V|V]).
        + destruct (V1 V) as [vb Hv]. rewrite Hv in H. clear - H. discriminate H.
        + rewrite (V2 V) in H. split; [clear - H; cbn [bind] in H; congruence|exact V].
      - assert (D : (exists b, sig = VBytes b) \/ ((forall b, sig <> VBytes b) /\ (match sig with VBytes s => Ok s | _ => Err ETypeError end) = Err ETypeError))
          by (clear; destruct sig; eauto; right; (split; [discriminate|reflexivity])).
        destruct D as [[b Hb]|[Nb Hb]]; rewrite Hb in H.
        + cbn [bind] in H. destruct (tail_cases) as [[Hc Hh]|[_ Hh]]; rewrite Hh in H; [|clear - H; discriminate H].
          right. right. left. split; [exact Hc|]. destruct (version_total a) as (V1 & V2 & [V|V]).
          * destruct (V1 V) as [vb Hv]. rewrite Hv in H. clear - H. discriminate H.
          * rewrite (V2 V) in H. split; [clear - H; cbn [bind] in H; congruence|exact V].
        + right. left. split; [clear - H; cbn [bind] in H; congruence|]. intros [X|[b X]]; [exact (NS X)|exact (Nb b X)]. }
    unfold finish, tail in FE. destruct (is_none sig) eqn:NS.
    - assert (HN : sig = VNone) by (clear - NS; destruct sig; try discriminate NS; reflexivity).
      destruct (key_given key && signs c) eqn:G.
      + apply andb_prop in G as [G1 G2].
        destruct (hash_payload E c ty ts a p) as [h|e'] eqn:HP; cbn [bind].
        * destruct (key_cases (cr E) key OK G1 h) as [[HK [s Hs]]|[HK Hs]]; rewrite Hs; cbn [bind].
          -- intros H. destruct (FE (VBytes s) (or_introl (ex_intro _ s eq_refl)) H) as [X|[X|[X|X]]]; auto 10.
          -- cbn [snd]. intros H. right. right. right. left. split; [clear - H; congruence|exact HK].
        * cbn [snd]. intros H. assert (e' = e) by (clear - H; congruence). subst e'. clear H FE. 
          destruct (hash_err _ _ _ _ _ _ _ SH HP) as [[He ND]|HH]; [|auto 10]. right. right. left. split; [exact He|]. right.
             assert (DD : dumpable ty \/ ~ dumpable ty) by (clear; destruct (encb ty) eqn:Q; [left; apply encb_iff; exact Q|right; intros X; apply encb_iff in X; congruence]).
             destruct DD as [D|D]; [right|left; exact D]. intros T. apply ND, dumpable_list. repeat constructor; [exact D|]. destruct T; constructor.
      + intros H. destruct (FE _ (or_introl (ex_intro _ _ eq_refl)) H) as [X|[X|[X|X]]]; auto 10.
    - assert (HN : sig <> VNone) by (intros ->; discriminate NS). intros H.
      destruct (FE sig (or_intror (conj eq_refl HN)) H) as [X|[X|[X|X]]]; auto 10.
  Qed.
End Dump.

(** ** What constructors make *)
Definition no_msg (v : pyval) : Prop := match v with VMsg _ _ _ _ _ _ | VObj _ _ | VList (_ :: _) => False | _ => True end.
Lemma formed_plain v : no_msg v -> formed v.
Proof.
  intros N c ty ts enc sig a k W. inversion W; subst; cbn [no_msg] in N; try contradiction. destruct l; [|contradiction]. destruct H.
Qed.
Lemma attr_set_val k v (a : attrs_t) k' w : In (k', w) (attr_set k v a) -> w = v \/ In (k', w) a.
Proof.
  induction a as [|[k0 v0] a IH]; cbn [attr_set In]; [intros [H|[]]; left; congruence|].
  destruct (k0 =? k)%string; cbn [In]; [intros [H|H]; [left; congruence|auto]|]. intros [H|H]; [auto|]. destruct (IH H); auto.
Qed.
Definition filled (c : mcls) (a : attrs_t) : Prop := (forall k, In k (slot_names c) -> attr_get k a <> None) /\ (forall k w, In (k, w) a -> formed w).
Lemma filled_set c k v a : filled c a -> formed v -> filled c (attr_set k v a).
Proof.
  intros [F1 F2] Fv. split.
  - intros k' Hk. destruct (string_dec k' k) as [->|N]; [rewrite Py.attr_get_set_same; discriminate|rewrite Py.attr_get_set_other by exact N; auto].
  - intros k' w H. apply attr_set_val in H as [->|H]; [exact Fv|eauto].
Qed.
Lemma filled_get c a k : filled c a -> formed (attr_get_or_none k a).
Proof.
  intros [_ F]. unfold attr_get_or_none. destruct (attr_get k a) as [w|] eqn:A; [|apply formed_plain; exact I]. apply attr_get_in in A. eauto.
Qed.
Lemma filled_upd c k f a : filled c a -> (forall v, formed v -> formed (f v)) -> filled c (upd k f a).
Proof. intros F G. apply filled_set; [exact F|]. apply G, (filled_get c), F. Qed.
Lemma filled_kwargs C c kw : (forall k v, In (k, v) kw -> formed v) -> forall a a', filled c a -> apply_kwargs C c kw a = Ok a' -> filled c a'.
Proof.
  induction kw as [|[k v] kw IH]; intros FK a a' F H; cbn [apply_kwargs] in H; [apply Ok_inj in H; subst; exact F|].
  apply bind_ok in H as (n & _ & H). assert (FK' : forall k v, In (k, v) kw -> formed v) by (intros; eapply FK; right; eassumption).
  destruct n; [|exact (IH FK' _ _ F H)]. destruct (kw_ok c k); [|discriminate]. apply (IH FK' _ _ (filled_set c k v a F (FK k v (or_introl eq_refl))) H).
Qed.
Lemma filled_post c a : filled c a -> filled c (post_init c a).
Proof.
  assert (O : forall v, formed v -> formed (or_empty v)) by (intros v F; unfold or_empty; destruct (truthy v); [exact F|apply formed_plain; exact I]).
  assert (T : forall v, formed v -> formed (is_true v)) by (intros v F; apply formed_plain; exact I).
  intros F. destruct c; cbn [post_init]; try exact F; repeat (apply filled_upd; auto); intros v Fv; destruct (is_none v); auto; apply formed_plain; exact I.
Qed.
Lemma formed_new E now c header sig s kw m : s = VNone \/ s = VList [] -> (forall k v, In (k, v) kw -> formed v) -> msg_init E now c header sig s kw = Ok m -> formed m.
Proof.
  intros Hs FK H. unfold msg_init in H. apply bind_ok in H as (a & Ha & H). apply bind_ok in H as (a' & Ha' & H).
  assert (T : forallb (fun c => match load_attrs FUEL c s with Ok a => forallb (fun kv => is_none (snd kv)) a | Err _ => true end) all_classes = true)
    by (destruct Hs as [-> | ->]; vm_compute; reflexivity).
  pose proof (for_all_classes _ T c) as G. cbv beta in G. rewrite Ha in G. rewrite forallb_forall in G.
  assert (F : filled c a).
  { split.
    - intros k Hk. rewrite <- (load_attrs_keys _ _ _ _ Ha) in Hk. intros N. apply attr_get_none in N. contradiction.
    - intros k w Hin. specialize (G _ Hin). cbn [snd] in G. destruct w; try discriminate. apply formed_plain. exact I. }
  apply (filled_kwargs _ _ _ FK _ _ F) in Ha'. apply filled_post in Ha'.
  assert (V : filled c (set_version E c (post_init c a'))).
  { destruct c; try exact Ha'. cbn [set_version]. destruct (attr_get "_version" _); [exact Ha'|]. apply filled_set; [exact Ha'|apply formed_plain; exact I]. }
  assert (M : exists ty ts enc, m = VMsg c ty ts enc sig (set_version E c (post_init c a'))) by (destruct header as [[[ty ts] enc]|]; apply Ok_inj in H; subst m; eauto).
  destruct M as (ty & ts & enc & ->). clear H. revert V. generalize (set_version E c (post_init c a')). intros b [V1 V2].
  intros c' ty' ts' enc' sig' a0 k W Hk. inversion W as [|? ? ? ? ? ? ? ? ? I1 I2| |]; subst; [exact (V1 k Hk)|]. exact (V2 _ _ I1 _ _ _ _ _ _ _ I2 Hk).
Qed.
Fixpoint formedb (v : pyval) : bool :=
  match v with
  | VMsg c _ _ _ _ a => forallb (fun k => match attr_get k a with Some _ => true | None => false end) (slot_names c) && forallb (fun kv => formedb (snd kv)) a
  | VObj _ a => forallb (fun kv => formedb (snd kv)) a
  | VList l => forallb formedb l
  | _ => true
  end.
Lemma formedb_sound v : formedb v = true -> formed v.
Proof.
  assert (G : forall x v, within x v -> formedb v = true -> formedb x = true).
  { intros x w W. induction W as [v0|x c ty ts enc sig a k w I W IH|x c a k w I W IH|x l w I W IH]; auto; cbn [formedb]; intros H.
    - apply andb_prop in H as [_ H]. rewrite forallb_forall in H. apply IH, (H (k, w) I).
    - rewrite forallb_forall in H. apply IH, (H (k, w) I).
    - rewrite forallb_forall in H. apply IH, (H w I). }
  intros H c ty ts enc sig a k W Hk. specialize (G _ _ W H). cbn [formedb] in G. apply andb_prop in G as [G _]. rewrite forallb_forall in G.
  specialize (G k Hk). cbv beta in G. destruct (attr_get k a); [discriminate|discriminate].
Qed.
