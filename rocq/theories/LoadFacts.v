(** * What loading yields: the shape of every message made from decoded bytes *)
From Coq Require Import Permutation.
From Verif Require Export SerFacts FrameRT.

(** ** Decoded values hold only what cbor can produce *)
Fixpoint pure (v : pyval) : bool :=
  match v with
  | VNone | VBool _ | VInt _ | VBytes _ => true
  | VFloat b => (0 <=? b) && (b <? 2 ^ 64)
  | VStr s => forallb scalar s
  | VList l => forallb pure l
  | VDict DPlain kvs =>
      forallb (fun kv => pure (fst kv) && pure (snd kv)) kvs && forallb (fun kv => hashable (fst kv)) kvs && nodup_keys (map fst kvs)
  | VTag n w => (0 <=? n) && (n <? 2 ^ 64) && negb (n =? 2) && negb (n =? 3) && pure w
  | _ => false
  end.
Definition pures (kvs : list (pyval * pyval)) : Prop :=
  (forall k v, In (k, v) kvs -> pure k = true /\ pure v = true) /\ (forall k v, In (k, v) kvs -> hashable k = true) /\ nodup_keys (map fst kvs) = true.

Lemma pure_dict kvs : pure (VDict DPlain kvs) = true <-> pures kvs.
Proof.
  cbn [pure]. rewrite !andb_true_iff, !forallb_forall. split.
  - intros [[H H1] H2]. split; [|split; [|exact H2]]; intros k v Hin; [specialize (H _ Hin); apply andb_true_iff in H; exact H|exact (H1 _ Hin)].
  - intros (H & H1 & H2). split; [split|exact H2]; intros [k v] Hin; [|exact (H1 _ _ Hin)].
    destruct (H _ _ Hin) as [P1 P2]. cbn [fst snd]. rewrite P1, P2. reflexivity.
Qed.
Lemma pure_list l : pure (VList l) = true <-> forall x, In x l -> pure x = true.
Proof. cbn [pure]. apply forallb_forall. Qed.
Lemma pure_norm v : pure v = true -> norm v = v.
Proof.
  induction v using pyval_ind'; intros P; try reflexivity; try discriminate P.
  - cbn [norm]. f_equal. rewrite pure_list in P. rewrite Forall_forall in H.
    transitivity (map (fun x => x) l); [|apply map_id]. apply map_ext_in. intros x Hx. auto.
  - destruct c; try discriminate P. cbn [norm]. f_equal. apply pure_dict in P. rewrite Forall_forall in H.
    transitivity (map (fun x => x) kvs); [|apply map_id]. apply map_ext_in. intros [k v] Hx.
    destruct (proj1 P _ _ Hx) as [P1 P2]. destruct (H _ Hx) as [H1 H2]. cbn [fst snd] in *. rewrite H1, H2; auto.
  - cbn [norm pure] in *. apply andb_true_iff in P as [_ P]. rewrite IHv; auto.
Qed.
Lemma pure_deenum v : pure v = true -> deenum v = v.
Proof. destruct v; try reflexivity. discriminate. Qed.
Lemma pure_wire v : pure v = true -> wire_plain v.
Proof. intros H. split; [apply pure_deenum|apply pure_norm]; exact H. Qed.
Lemma pure_iter v l : pure v = true -> py_iter v = Some l -> forall x, In x l -> pure x = true.
Proof.
  intros P H x Hx. destruct v; cbn [py_iter] in H; try discriminate; apply Some_inj in H; subst l.
  - apply in_map_iff in Hx as (y & <- & Hy). cbn [pure] in *. rewrite forallb_forall in P. cbn [forallb]. rewrite (P _ Hy). reflexivity.
  - apply in_map_iff in Hx as (? & <- & _). reflexivity.
  - rewrite pure_list in P. auto.
  - destruct c; try discriminate P. apply in_map_iff in Hx as ([k v] & <- & Hx). apply pure_dict in P. apply (proj1 P _ _ Hx).
Qed.
Lemma in_dict_set k v kvs k0 v0 : In (k0, v0) (dict_set k v kvs) ->
  In (k0, v0) kvs \/ (v0 = v /\ (k0 = k \/ (py_eq k0 k = true /\ exists v1, In (k0, v1) kvs))).
Proof.
  induction kvs as [|[k' v'] r IH]; cbn [dict_set In].
  - intros [H|[]]. assert (k0 = k /\ v0 = v) as [-> ->] by (split; congruence). auto.
  - destruct (py_eq k' k) eqn:E.
    + intros [H|H]; [|auto]. assert (k0 = k' /\ v0 = v) as [-> ->] by (split; congruence). right. split; [reflexivity|]. right. split; [exact E|]. eauto.
    + intros [H|H]; [auto|]. destruct (IH H) as [H'|[-> [->|[E' [v1 H']]]]]; eauto 8.
Qed.
Lemma dict_set_same k v kvs v' : nodup_keys (map fst kvs) = true -> py_eq k k = true -> In (k, v') (dict_set k v kvs) -> v' = v.
Proof.
  intros N R. induction kvs as [|[a b] r IH]; cbn [dict_set].
  - intros [H|[]]. congruence.
  - cbn [map fst nodup_keys] in N. apply andb_true_iff in N as [N1 N2]. destruct (py_eq a k) eqn:Q.
    + intros [H|H]; [congruence|]. exfalso. rewrite forallb_forall in N1. apply (in_map fst) in H. specialize (N1 _ H). cbn [fst] in N1. rewrite Q in N1. discriminate.
    + intros [H|H]; [|auto]. assert (a = k) by congruence. congruence.
Qed.
Lemma pures_set k v kvs : pures kvs -> pure k = true -> pure v = true -> hashable k = true -> pures (dict_set k v kvs).
Proof.
  intros (H & H1 & H2) Hk Hv Hh. split; [|split; [|apply nodup_set, H2]].
  2:{ intros k0 v0 Hin. destruct (in_dict_set _ _ _ _ _ Hin) as [H'|[-> [->|[_ [v1 H']]]]]; eauto. }
  intros k0 v0 Hin. destruct (in_dict_set _ _ _ _ _ Hin) as [H'|[-> [->|[_ [v1 H']]]]]; [auto|auto|]. split; [apply (H _ _ H')|exact Hv]. Qed.
Lemma pures_pairs l : (forall x, In x l -> pure x = true) -> forall acc kvs, pures acc -> dict_of_pairs l acc = Some kvs -> pures kvs.
Proof.
  induction l as [|x l IH]; intros Hl acc kvs Ha H; cbn [dict_of_pairs] in H.
  - apply Some_inj in H. subst. exact Ha.
  - destruct (py_iter x) as [[|k [|v [|]]]|] eqn:E; try discriminate. destruct (hashable k) eqn:Hk; [|discriminate].
    assert (Px : pure x = true) by (apply Hl; left; reflexivity).
    apply (IH (fun y Hy => Hl y (or_intror Hy)) _ _) in H; [exact H|].
    apply pures_set; [exact Ha| | |exact Hk]; apply (pure_iter _ _ Px E); cbn [In]; auto.
Qed.
Lemma pures_dict_of v kvs : pure v = true -> py_dict_of v = Some kvs -> pures kvs.
Proof.
  intros P H.
  assert (G : (match py_iter v with Some l => dict_of_pairs l [] | None => None end) = Some kvs -> pures kvs).
  { destruct (py_iter v) as [l|] eqn:E; [|discriminate]. intros G. eapply pures_pairs; [apply (pure_iter _ _ P E)| |exact G]. split; [intros ? ? []|split; [intros ? ? []|reflexivity]]. }
  destruct v; try (exact (G H)). destruct c; try discriminate P. cbn [py_dict_of] in H. apply Some_inj in H. subst. apply pure_dict, P.
Qed.
Lemma dict_get_in k kvs v : dict_get k kvs = Some v -> exists k', In (k', v) kvs.
Proof.
  induction kvs as [|[k' v'] r IH]; cbn [dict_get]; [discriminate|]. destruct (py_eq k' k).
  - intros H. apply Some_inj in H. subst. exists k'. left. reflexivity.
  - intros H. destruct (IH H) as [k0 H0]. exists k0. right. exact H0.
Qed.

Lemma pures_nil : pures [].
Proof. split; [intros ? ? []|split; [intros ? ? []|reflexivity]]. Qed.
(** the decoder *)
Lemma good_pure v : encb v = true -> wirewf v = true -> norm v = v -> pure v = true.
Proof.
  assert (In_eq : forall A (f : A -> A) l, map f l = l -> forall x, In x l -> f x = x).
  { intros A f. induction l as [|y l IH]; intros E x []; injection E as E1 E2; subst; auto. }
  induction v using pyval_ind'; intros He Hw Hn; try exact He; try discriminate.
  - apply pure_list. cbn [encb wirewf norm] in *. rewrite forallb_forall in He, Hw. rewrite Forall_forall in H.
    assert (E : map norm l = l) by congruence. intros x Hx. apply (H _ Hx); auto. apply (In_eq _ _ _ E _ Hx).
  - cbn [norm] in Hn. destruct c; try discriminate Hn. cbn [encb wirewf] in *.
    assert (E : map (fun kv => (norm (fst kv), norm (snd kv))) kvs = kvs) by congruence. clear Hn.
    apply andb_true_iff in Hw as [Hw W3]. apply andb_true_iff in Hw as [W1 W2]. rewrite forallb_forall in He, W1, W3. rewrite Forall_forall in H.
    assert (N : forall k v, In (k, v) kvs -> norm k = k /\ norm v = v).
    { intros k v Hin. pose proof (In_eq _ _ _ E _ Hin) as Q. cbn [fst snd] in Q. split; congruence. }
    apply pure_dict. split; [|split].
    + intros k v Hin. destruct (H _ Hin) as [H1 H2]. destruct (N _ _ Hin). specialize (He _ Hin). specialize (W3 _ Hin). cbn [fst snd] in *.
      apply andb_true_iff in He as [? ?]. apply andb_true_iff in W3 as [? ?]. auto.
    + intros k v Hin. specialize (W1 _ Hin). cbn [fst] in W1. rewrite (proj1 (N _ _ Hin)) in W1. exact W1.
    + replace (map fst kvs) with (map (fun kv => norm (fst kv)) kvs); [exact W2|]. apply map_ext_in. intros [k v] Hin. apply (N _ _ Hin).
  - cbn [encb norm] in *. rewrite He in Hn. discriminate Hn.
  - cbn [encb wirewf norm pure] in *. apply andb_true_iff in He as [He1 He2]. apply andb_true_iff in Hw as [Hw1 Hw2].
    apply andb_true_iff in Hw1 as [Hw0 Hw1]. rewrite He1, Hw0, Hw1, IHv; auto. congruence.
Qed.
Lemma pure_clean v : pure v = true -> encb v = true /\ wirewf v = true.
Proof.
  intros P. pose proof (pure_norm _ P) as Hn. revert P Hn.
  induction v using pyval_ind'; intros P Hn; try discriminate P; try (split; [exact P|reflexivity]); try (split; reflexivity).
  - rewrite pure_list in P. cbn [encb wirewf]. rewrite !forallb_forall. rewrite Forall_forall in H.
    split; intros x Hx; destruct (H _ Hx (P _ Hx) (pure_norm _ (P _ Hx))); assumption.
  - destruct c; try discriminate P. apply pure_dict in P as (P & P1 & P2). cbn [encb wirewf]. rewrite Forall_forall in H.
    assert (G : forall k v, In (k, v) kvs -> (encb k = true /\ wirewf k = true) /\ (encb v = true /\ wirewf v = true) /\ norm k = k).
    { intros k v Hin. destruct (P _ _ Hin) as [Q1 Q2]. destruct (H _ Hin) as [H1 H2]. pose proof (pure_norm _ Q1). pose proof (pure_norm _ Q2). cbn [fst snd] in *. auto. }
    split; [|rewrite !andb_true_iff; split; [split|]].
    + apply forallb_forall. intros [k v] Hin. destruct (G _ _ Hin) as ([A _] & [B _] & _). cbn [fst snd]. rewrite A, B. reflexivity.
    + apply forallb_forall. intros [k v] Hin. destruct (G _ _ Hin) as (_ & _ & E). cbn [fst]. rewrite E. eapply P1, Hin.
    + replace (map (fun kv => norm (fst kv)) kvs) with (map fst kvs); [exact P2|]. apply map_ext_in. intros [k v] Hin. symmetry. apply (G _ _ Hin).
    + apply forallb_forall. intros [k v] Hin. destruct (G _ _ Hin) as ([_ A] & [_ B] & _). cbn [fst snd]. rewrite A, B. reflexivity.
  - cbn [encb wirewf norm pure] in *. rewrite !andb_true_iff in P. destruct P as ((((P1 & P2) & P3) & P4) & P5).
    destruct IHv as [-> ->]; [exact P5|apply pure_norm, P5|]. rewrite P1, P2, P3, P4. auto.
Qed.
Lemma loads_pure d bs v : loads d bs = Ok v -> pure v = true.
Proof.
  unfold loads. destruct (dec d bs) as [[w r]|] eqn:E; [|discriminate]. intros H. apply Ok_inj in H. subst.
  destruct (dec_good _ _ _ _ E) as [(? & ? & ? & _) _]. apply good_pure; assumption.
Qed.

(** ** Values that can be dumped, whatever their size *)
Definition clean (v : pyval) : Prop := encb v = true /\ wirewf v = true.
Lemma clean_pure v : pure v = true -> clean v.
Proof. apply pure_clean. Qed.
Lemma u_scalar s : forallb scalar (u s) = true.
Proof.
  induction s as [|a s IH]; [reflexivity|]. cbn [u forallb]. rewrite IH, andb_true_r.
  destruct a as [[|] [|] [|] [|] [|] [|] [|] [|]]; reflexivity.
Qed.
Lemma clean_str s : clean (VStr (u s)).
Proof. split; [apply u_scalar|reflexivity]. Qed.
Lemma clean_list l : (forall x, In x l -> clean x) -> clean (VList l).
Proof. intros H. split; cbn [encb wirewf]; apply forallb_forall; intros x Hx; apply (H _ Hx). Qed.
Lemma clean_tuple l : (forall x, In x l -> clean x) -> clean (VTuple l).
Proof. intros H. split; cbn [encb wirewf]; apply forallb_forall; intros x Hx; apply (H _ Hx). Qed.
(** a dict whose keys are distinct texts from the code *)
Definition namedkeys (kvs : list (pyval * pyval)) : Prop :=
  (forall k v, In (k, v) kvs -> exists s, k = skey s) /\ nodup_keys (map fst kvs) = true.
Lemma clean_dict d kvs : namedkeys kvs -> (forall k v, In (k, v) kvs -> clean v) -> clean (VDict d kvs).
Proof.
  intros [K N] H. assert (E : map (fun kv => norm (fst kv)) kvs = map fst kvs).
  { apply map_ext_in. intros [k v] Hin. destruct (K _ _ Hin) as [s ->]. reflexivity. }
  split; cbn [encb wirewf].
  - apply forallb_forall. intros [k v] Hin. destruct (K _ _ Hin) as [s ->]. cbn [fst snd]. rewrite (proj1 (H _ _ Hin)), andb_true_r. apply u_scalar.
  - rewrite E, N, andb_true_r. apply andb_true_iff. split; apply forallb_forall; intros [k v] Hin; destruct (K _ _ Hin) as [s ->]; cbn [fst snd]; [reflexivity|].
    rewrite (proj2 (H _ _ Hin)). reflexivity.
Qed.
Lemma skeys_nodup l : NoDup l -> nodup_keys (map skey l) = true.
Proof.
  induction 1 as [|s l N _ IH]; [reflexivity|]. cbn [map nodup_keys]. rewrite IH, andb_true_r. apply forallb_forall. intros k Hk.
  apply in_map_iff in Hk as (s' & <- & Hs). unfold skey. rewrite py_eq_str. destruct (ustr_eqb (u s) (u s')) eqn:Q; [|reflexivity].
  apply ustr_eqb_eq, u_inj in Q. subst. contradiction.
Qed.
(** every attribute serializes to something that can be dumped *)
Definition cclean (c : ccls) (a : attrs_t) : Prop := forall k w x, In (k, w) a -> ser_entry c k w = Ok x -> clean x.
Lemma entries_clean c a kvs : cclean c a ->
  mapM (fun k => do x <- assoc_or (Ok VNone) k (map (fun kv => (fst kv, ser_entry c (fst kv) (snd kv))) a); Ok (skey k, x)) (cslots c) = Ok kvs ->
  clean (VDict DPlain kvs).
Proof.
  intros H M. apply mapM_ok in M.
  assert (G : forall l r, Forall2 (fun k kv => (do x <- assoc_or (Ok VNone) k (map (fun kv => (fst kv, ser_entry c (fst kv) (snd kv))) a); Ok (skey k, x)) = Ok kv) l r ->
    map fst r = map skey l /\ forall k v, In (k, v) r -> clean v).
  { induction 1 as [|k [k' v] l r Hk _ [IH1 IH2]]; [split; [reflexivity|intros ? ? []]|]. apply bind_ok in Hk as (x & Hx & Hk). apply Ok_inj in Hk.
    assert (k' = skey k /\ v = x) as [-> ->] by (split; congruence). split; [cbn [map fst]; congruence|]. intros k1 v1 [Q|Q]; [|eauto].
    assert (v1 = x) by congruence. subst v1. clear - Hx H. unfold cclean in H. induction a as [|[k0 w0] a IH]; cbn [map assoc_or fst snd] in Hx.
    - apply Ok_inj in Hx. subst. split; reflexivity.
    - destruct (k0 =? k)%string; [eapply H; [left; reflexivity|exact Hx]|]. apply IH; [|exact Hx]. intros k2 w2 x2 H2. apply H. right. exact H2. }
  destruct (G _ _ M) as [G1 G2]. apply clean_dict; [|exact G2]. split; [|rewrite G1; apply skeys_nodup, cslots_NoDup].
  intros k v Hin. apply (in_map fst) in Hin. rewrite G1 in Hin. apply in_map_iff in Hin as (s0 & E & _). exists s0. auto.
Qed.
Lemma to_dict_clean c a x : cclean c a -> to_dict (VObj c a) = Ok x -> clean x.
Proof.
  intros H D. cbn [to_dict] in D. apply bind_ok in D as (kvs & Hk & D). apply Ok_inj in D. subst x. exact (entries_clean _ _ _ H Hk).
Qed.
Lemma entry_pure c k w x : pure w = true -> ser_entry c k w = Ok x -> clean x.
Proof.
  intros P H. assert (G : x = w \/ x = VNone).
  { destruct w; try discriminate P; cbn [ser_entry] in H; destruct (cser_hook c k);
      repeat match type of H with context [if ?b then _ else _] => destruct b end; try discriminate H; apply Ok_inj in H; subst; auto. }
  destruct G as [->| ->]; [apply clean_pure, P|split; reflexivity].
Qed.

(** ** Dictionaries and containers made from decoded values *)

(** what a ValidatingDict holds after construction from decoded values *)
Definition ditem (d : dcls) (k v : pyval) : Prop :=
  (exists t, k = VStr t) /\
  (pure v = true \/ (d = DPeer /\ k = skey "node" /\ exists a, v = VObj CNode a /\ cont_ok CNode a /\ cont_wire CNode a /\ cclean CNode a) \/
   (d = DFileInfo /\ k = skey "category" /\ exists s, v = VEnum EnFileCategory s /\ In s (members EnFileCategory))).
Definition din (d : dcls) (k v : pyval) : Prop :=
  pure v = true \/ (d = DFileInfo /\ k = skey "category" /\ exists s, v = VEnum EnFileCategory s /\ In s (members EnFileCategory)).
Lemma pure_kwargs kvs kw : kwargs_of kvs = Ok kw -> (forall k v, In (k, v) kvs -> pure k = true /\ pure v = true) -> forall k v, In (k, v) kw -> pure v = true.
Proof.
  revert kw. induction kvs as [|[k0 v0] r IH]; intros kw H P k v Hin; cbn [kwargs_of] in H.
  - apply Ok_inj in H. subst. destruct Hin.
  - destruct (str_of k0) as [s|]; [|discriminate]. destruct (ustr_eqb s (u "self")); [discriminate|].
    apply bind_ok in H as (r' & Hr & H). apply Ok_inj in H. subst kw. destruct Hin as [E|Hin].
    + assert (v0 = v) by congruence. subst. apply (P k0 v). left. reflexivity.
    + eapply IH; [exact Hr| |exact Hin]. intros k1 v1 H1. apply P. right. exact H1.
Qed.
Lemma kw_get_in k kw v : kw_get k kw = Some v -> exists k', In (k', v) kw.
Proof.
  induction kw as [|[k' v'] r IH]; cbn [kw_get]; [discriminate|]. destruct (ustr_eqb k' k).
  - intros H. apply Some_inj in H. subst. exists k'. left. reflexivity.
  - intros H. destruct (IH H) as [k0 H0]. exists k0. right. exact H0.
Qed.
Lemma pure_star v kw : pure v = true -> star_star v = Ok kw -> forall k v, In (k, v) kw -> pure v = true.
Proof.
  intros P H. destruct v; try discriminate H. destruct c; try discriminate P. cbn [star_star] in H.
  eapply pure_kwargs; [exact H|]. apply pure_dict in P. apply P.
Qed.
Lemma pure_default c k : pure (cdefault c k) = true.
Proof. destruct c; try reflexivity. cbn [cdefault]. repeat match goal with |- context [if ?b then _ else _] => destruct b end; reflexivity. Qed.
Lemma slot_outcome_pure c kw k w : (forall k v, In (k, v) kw -> pure v = true) -> slot_outcome c kw k w ->
  pure w = true \/ exists v, pure v = true /\ Forall (fun f => f (u k) v = Ok tt) (cvalidators c k) /\ converted c k v w.
Proof.
  intros P H. unfold slot_outcome in H. destruct (kw_get (u k) kw) as [v|] eqn:E.
  - apply kw_get_in in E as (k' & E). apply P in E. destruct H as [(-> & _ & ->)|(_ & Hv & Hc)]; [left; reflexivity|]. right. eauto.
  - destruct H as [_ ->]. left. apply pure_default.
Qed.
Lemma node_wire kw a : cnew CNode kw = Ok (VObj CNode a) -> (forall k v, In (k, v) kw -> pure v = true) -> leaf_wire CNode a.
Proof.
  intros H P. apply cnew_iff in H as (_ & a' & E & Ha & H). assert (a' = a) by congruence. subst a'.
  intros k w Hin. cbn [leaf_wire_attr]. apply pure_wire. destruct (slot_outcome_pure _ _ _ _ P (H _ _ Hin)) as [Hw|(v & Hv & _ & Hc)]; [exact Hw|].
  unfold converted in Hc. cbn [chook] in Hc. subst. exact Hv.
Qed.
Lemma node_clean kw a : cnew CNode kw = Ok (VObj CNode a) -> (forall k v, In (k, v) kw -> pure v = true) -> cclean CNode a.
Proof.
  intros H P. apply cnew_iff in H as (_ & a' & E & Ha & H). assert (a' = a) by congruence. subst a'.
  intros k w x Hin. apply entry_pure. destruct (slot_outcome_pure _ _ _ _ P (H _ _ Hin)) as [Hw|(v & Hv & _ & Hc)]; [exact Hw|].
  unfold converted in Hc. cbn [chook] in Hc. subst. exact Hv.
Qed.
Definition plainkey (k : pyval) : bool := match k with VEnum _ _ => false | _ => true end.
Lemma pure_plainkey k : pure k = true -> plainkey k = true.
Proof. destruct k; try reflexivity. discriminate. Qed.
Lemma pure_text k t : plainkey k = true -> str_of k = Some t -> k = VStr t.
Proof. destruct k; cbn [str_of]; try discriminate. intros _ H. apply Some_inj in H. subst. reflexivity. Qed.
Lemma pure_key s k : plainkey k = true -> py_eq (skey s) k = true -> k = skey s.
Proof. intros P H. apply py_eq_skey_l in H. apply pure_text; assumption. Qed.
Lemma pure_key_r s k : plainkey k = true -> py_eq k (skey s) = true -> k = skey s.
Proof. intros P H. destruct k; try discriminate P; try discriminate H. unfold skey in *. rewrite py_eq_str in H. apply ustr_eqb_eq in H. congruence. Qed.
Lemma item_pure d s w : In (s, w) (items d) -> din d (skey s) w.
Proof.
  intros H. destruct d; cbn [items In] in H;
    repeat (destruct H as [H|H]; [match type of H with (_, ?x) = _ => assert (w = x) by congruence; subst w; try (left; reflexivity) end|]);
    try contradiction.
  right. split; [reflexivity|]. split; [assert (s = "category"%string) by congruence; subst s; reflexivity|]. exists "results"%string. split; [reflexivity|]. left. reflexivity.
Qed.
Lemma dset_items d kvs k v kvs' : d <> DPlain -> plainkey k = true -> din d k v ->
  dset d kvs k v = Ok kvs' -> (forall k v, In (k, v) kvs -> ditem d k v) -> forall k v, In (k, v) kvs' -> ditem d k v.
Proof.
  intros Nd Pk Dv H HI.
  assert (G : exists v', ditem d k v' /\ kvs' = dict_set k v' kvs).
  { assert (K : forall v', (do _ <- (match str_of k with
               | Some s => match dvalidator d s with Some f => f v' | None => Ok tt end
               | None => Ok tt
               end);
      if negb (hashable k) then Err ETypeError
      else if existsb (fun it => py_eq (skey (fst it)) k) (items d) then Ok (dict_set k v' kvs)
      else Err EKeyError) = Ok kvs' -> (exists t, k = VStr t) /\ kvs' = dict_set k v' kvs).
    { intros v' K. apply bind_ok in K as ([] & _ & K). destruct (negb (hashable k)); [discriminate|].
      destruct (existsb _ _) eqn:E; [|discriminate]. apply existsb_exists in E as (it & _ & E). apply pure_key in E; [|exact Pk].
      split; [unfold skey in E; eauto|]. apply Ok_inj in K. auto. }
    assert (V : (exists v', (match d, v with
               | DPeer, VDict _ nkvs =>
                   if py_eq k (skey "node") then do kw <- kwargs_of nkvs; node_new kw else Ok v
               | _, _ => Ok v
               end) = Ok v' /\ (exists t, k = VStr t) /\ kvs' = dict_set k v' kvs)).
    { unfold dset in H. destruct d; try congruence; apply bind_ok in H as (v' & Hv & H); exists v'; (split; [exact Hv|apply K, H]). }
    destruct V as (v' & Hv & Hk & ->). exists v'. split; [|reflexivity]. split; [exact Hk|].
    assert (S : v' = v -> pure v' = true \/ (d = DPeer /\ k = skey "node" /\ exists a, v' = VObj CNode a /\ cont_ok CNode a /\ cont_wire CNode a /\ cclean CNode a) \/
        (d = DFileInfo /\ k = skey "category" /\ exists s, v' = VEnum EnFileCategory s /\ In s (members EnFileCategory))).
    { intros ->. destruct Dv; auto. }
    destruct d; try (apply S; congruence); destruct v; try (apply S; congruence).
    destruct (py_eq k (skey "node")) eqn:Kn; [|apply S; congruence]. right. left. split; [reflexivity|]. split; [apply pure_key_r; assumption|].
    destruct Dv as [Dv|[Dv _]]; [|discriminate]. destruct c; try discriminate Dv. apply pure_dict in Dv.
    apply bind_ok in Hv as (kw & Hkw & Hv). change (node_new kw) with (cnew CNode kw) in Hv.
    pose proof (pure_kwargs _ _ Hkw (proj1 Dv)) as Pkw.
    destruct (cnew_cont_ok _ _ _ Hv) as (a & -> & Ha); [discriminate|]. exists a. split; [reflexivity|]. split; [exact Ha|].
    split; [intros k0 w0 H0; exact (node_wire _ _ Hv Pkw _ _ H0)|exact (node_clean _ _ Hv Pkw)]. }
  destruct G as (v' & Hv' & ->). intros k0 v0 Hin. destruct (in_dict_set _ _ _ _ _ Hin) as [H0|[-> [->|[Q [v1 H0]]]]]; [auto|exact Hv'|].
  destruct (HI _ _ H0) as [(t & ->) _]. destruct Hv' as [(t' & ->) Hv']. rewrite py_eq_str in Q. apply ustr_eqb_eq in Q. subst t'.
  split; [eauto|exact Hv'].
Qed.
Lemma dset_all_items d l : d <> DPlain -> (forall k v, In (k, v) l -> plainkey k = true /\ din d k v) -> forall kvs kvs',
  dset_all d kvs l = Ok kvs' -> (forall k v, In (k, v) kvs -> ditem d k v) -> forall k v, In (k, v) kvs' -> ditem d k v.
Proof.
  intros Nd. induction l as [|[k v] l IH]; intros P kvs kvs' H HI; cbn [dset_all] in H.
  - apply Ok_inj in H. subst. exact HI.
  - apply bind_ok in H as (kvs1 & H1 & H). eapply IH; [|exact H|].
    + intros k0 v0 H0. apply P. right. exact H0.
    + eapply dset_items; [exact Nd| | |exact H1|exact HI]; apply (P k v); left; reflexivity.
Qed.
Lemma dset_iter_items d l : d <> DPlain -> (forall x, In x l -> pure x = true) -> forall kvs kvs',
  dset_iter d kvs l = Ok kvs' -> (forall k v, In (k, v) kvs -> ditem d k v) -> forall k v, In (k, v) kvs' -> ditem d k v.
Proof.
  intros Nd. induction l as [|x l IH]; intros P kvs kvs' H HI; cbn [dset_iter] in H.
  - apply Ok_inj in H. subst. exact HI.
  - destruct (py_iter x) as [[|k [|v [|]]]|] eqn:E; try discriminate. apply bind_ok in H as (kvs1 & H1 & H).
    assert (Px : pure x = true) by (apply P; left; reflexivity). pose proof (pure_iter _ _ Px E) as Pi.
    eapply IH; [|exact H|].
    + intros y Hy. apply P. right. exact Hy.
    + eapply dset_items; [exact Nd| | |exact H1|exact HI]; [apply pure_plainkey|left]; apply Pi; cbn [In]; auto.
Qed.
Lemma dset_defaults_items d its : d <> DPlain -> (forall s w, In (s, w) its -> din d (skey s) w) -> forall kvs kvs',
  dset_defaults d kvs its = Ok kvs' -> (forall k v, In (k, v) kvs -> ditem d k v) -> forall k v, In (k, v) kvs' -> ditem d k v.
Proof.
  intros Nd. induction its as [|[s w] l IH]; intros P kvs kvs' H HI; cbn [dset_defaults] in H.
  - apply Ok_inj in H. subst. exact HI.
  - assert (P' : forall s w, In (s, w) l -> din d (skey s) w) by (intros s0 w0 H0; apply (P s0 w0); right; exact H0).
    destruct (dict_get (skey s) kvs).
    + eapply IH; eassumption.
    + apply bind_ok in H as (kvs1 & H1 & H). eapply IH; [exact P'|exact H|].
      eapply (dset_items d kvs (skey s) w kvs1); [exact Nd|reflexivity| |exact H1|exact HI]. apply (P s w). left. reflexivity.
Qed.
Lemma dict_new_items d arg o : d <> DPlain ->
  (pure arg = true \/ exists e kvs, arg = VDict e kvs /\ forall k v, In (k, v) kvs -> plainkey k = true /\ din d k v) ->
  dict_new d arg = Ok o -> exists kvs, o = VDict d kvs /\ schema d kvs /\ forall k v, In (k, v) kvs -> ditem d k v.
Proof.
  intros Nd Pa H. destruct (dict_new_schema _ _ _ Nd H) as (kvs & -> & S). exists kvs. split; [reflexivity|]. split; [exact S|].
  unfold dict_new in H. apply bind_ok in H as (k1 & H1 & H). apply bind_ok in H as (k2 & H2 & H). apply Ok_inj in H.
  assert (k2 = kvs) by congruence. subst k2. eapply dset_defaults_items; [exact Nd|apply item_pure|exact H2|].
  assert (N0 : forall k v, In (k, v) (@nil (pyval * pyval)) -> ditem d k v) by (intros ? ? []).
  assert (G : forall l, (forall x, In x l -> pure x = true) -> dset_iter d [] l = Ok k1 -> forall k v, In (k, v) k1 -> ditem d k v)
    by (intros l Pl Hl; exact (dset_iter_items d l Nd Pl _ _ Hl N0)).
  destruct Pa as [Pa|(e & l & -> & Pl)].
  - destruct arg; try (match type of H1 with match ?i with _ => _ end = _ => destruct i as [l0|] eqn:E end; [|discriminate];
      exact (G _ (pure_iter _ _ Pa E) H1)).
    destruct c; try discriminate Pa. apply pure_dict in Pa. eapply dset_all_items; [exact Nd| |exact H1|exact N0].
    intros k v Hin. destruct (proj1 Pa _ _ Hin). split; [apply pure_plainkey; assumption|left; assumption].
  - eapply dset_all_items; [exact Nd|exact Pl|exact H1|exact N0].
Qed.
Lemma dict_kw_items d kw o : d <> DPlain -> (forall k v, In (k, v) kw -> pure v = true) ->
  dict_new_kw d kw = Ok o -> exists kvs, o = VDict d kvs /\ schema d kvs /\ forall k v, In (k, v) kvs -> ditem d k v.
Proof.
  intros Nd P H. unfold dict_new_kw in H. eapply dict_new_items; [exact Nd| |exact H]. right. do 2 eexists. split; [reflexivity|].
  intros k v Hin. apply in_map_iff in Hin as ([k' v'] & E & Hin). cbn [fst snd] in E.
  assert (k = VStr k' /\ v = v') as [-> ->] by (split; congruence). split; [reflexivity|]. left. eapply P, Hin.
Qed.

Lemma leaf_new_wire c kw a : is_leaf c = true -> cnew c kw = Ok (VObj c a) -> (forall k v, In (k, v) kw -> pure v = true) -> leaf_wire c a.
Proof.
  intros L H P. apply cnew_iff in H as (_ & a' & E & Ha & H). assert (a' = a) by congruence. subst a'.
  intros k w Hin. assert (Hk : In k (cslots c)) by (rewrite <- Ha; apply (in_map fst) in Hin; exact Hin).
  destruct (slot_outcome_pure _ _ _ _ P (H _ _ Hin)) as [Hw|(v & Hv & Hval & Hc)].
  - destruct c; try discriminate L; cbn [leaf_wire_attr]; try (apply pure_wire; exact Hw).
    pose proof (cpu_slot_ok _ _ _ Hk (H _ _ Hin)) as [->|(kvs & -> & _)]; [left; reflexivity|].
    unfold cpu_dict in Hw. destruct (k =? "cpu_usage")%string; discriminate Hw.
  - destruct c; try discriminate L; cbn [leaf_wire_attr]; try (unfold converted in Hc; cbn [chook] in Hc; subst; apply pure_wire; exact Hv).
    assert (Hh : (if truthy v then do kw <- star_star v; dict_new_kw (cpu_dict k) kw else Ok VNone) = Ok w).
    { unfold converted in Hc. cbn [cslots In] in Hk. destruct Hk as [<-|[<-|[]]]; exact Hc. }
    destruct (truthy v); [|apply Ok_inj in Hh; left; auto]. apply bind_ok in Hh as (kw' & Hkw & Hh).
    pose proof (pure_star _ _ Hv Hkw) as Pkw. right.
    assert (Nd : cpu_dict k <> DPlain) by (unfold cpu_dict; destruct (k =? "cpu_usage")%string; discriminate).
    destruct (dict_kw_items _ _ _ Nd Pkw Hh) as (kvs & -> & _ & HI). do 2 eexists. split; [reflexivity|].
    intros k0 v0 H0. destruct (HI _ _ H0) as [Ht [Hp|[[Hd _]|[Hd _]]]]; [split; [exact Ht|apply pure_norm, Hp]| |];
      unfold cpu_dict in Hd; destruct (k =? "cpu_usage")%string; discriminate.
Qed.
(** the keys of a schema dict are the declared texts *)
Lemma schema_named d kvs : schema d kvs -> (forall k v, In (k, v) kvs -> exists t, k = VStr t) -> namedkeys kvs.
Proof.
  intros [Pm _] T. split.
  - intros k v Hin. destruct (T _ _ Hin) as [t ->].
    assert (Q : In (Some t) (map (fun it => Some (u (fst it))) (items d))).
    { eapply Permutation_in; [exact Pm|]. apply (in_map (fun kv => str_of (fst kv))) in Hin. exact Hin. }
    apply in_map_iff in Q as ([s0 w0] & Q & _). cbn [fst] in Q. exists s0. unfold skey. congruence.
  - assert (N : NoDup (key_texts kvs)) by (eapply Permutation_NoDup; [apply Permutation_sym, Pm|apply items_NoDup]).
    clear Pm. unfold key_texts in N. induction kvs as [|[k v] r IH]; [reflexivity|]. cbn [map fst nodup_keys] in *. inversion N as [|? ? N1 N2]; subst.
    rewrite IH; [|intros k1 v1 H1; eapply T; right; exact H1|exact N2]. rewrite andb_true_r. apply forallb_forall. intros k' Hk'.
    apply in_map_iff in Hk' as ([k2 v2] & <- & Hin). cbn [fst]. destruct (T _ _ (or_introl eq_refl)) as [t ->]. destruct (T _ _ (or_intror Hin)) as [t2 ->].
    rewrite py_eq_str. destruct (ustr_eqb t t2) eqn:Q; [|reflexivity]. apply ustr_eqb_eq in Q. subst t2. exfalso. apply N1.
    apply in_map_iff. exists (VStr t, v2). auto.
Qed.
Lemma schema_clean d e kvs : schema d kvs -> (forall k v, In (k, v) kvs -> ditem d k v) -> d <> DPeer -> clean (VDict e kvs).
Proof.
  intros S H Nd. apply clean_dict; [eapply schema_named; [exact S|]; intros k v Hin; apply (H _ _ Hin)|].
  intros k v Hin. destruct (H _ _ Hin) as [_ [Hp|[[Q _]|(_ & _ & s0 & -> & _)]]]; [apply clean_pure, Hp|contradiction|]. split; reflexivity.
Qed.
Lemma leaf_new_clean c kw a : is_leaf c = true -> cnew c kw = Ok (VObj c a) -> (forall k v, In (k, v) kw -> pure v = true) -> cclean c a.
Proof.
  intros L H P. apply cnew_iff in H as (_ & a' & E & Ha & H). assert (a' = a) by congruence. subst a'.
  intros k w x Hin Hx. assert (Hk : In k (cslots c)) by (rewrite <- Ha; apply (in_map fst) in Hin; exact Hin).
  destruct (slot_outcome_pure _ _ _ _ P (H _ _ Hin)) as [Hw|(v & Hv & Hval & Hc)]; [eapply entry_pure; eassumption|].
  destruct c; try discriminate L; try (unfold converted in Hc; cbn [chook] in Hc; subst; eapply entry_pure; eassumption).
  assert (Hh : (if truthy v then do kw <- star_star v; dict_new_kw (cpu_dict k) kw else Ok VNone) = Ok w).
  { unfold converted in Hc. cbn [cslots In] in Hk. destruct Hk as [<-|[<-|[]]]; exact Hc. }
  destruct (truthy v); [|apply Ok_inj in Hh; subst w; eapply entry_pure; [|exact Hx]; reflexivity]. apply bind_ok in Hh as (kw' & Hkw & Hh).
  pose proof (pure_star _ _ Hv Hkw) as Pkw.
  assert (Nd : cpu_dict k <> DPlain /\ cpu_dict k <> DPeer) by (unfold cpu_dict; destruct (k =? "cpu_usage")%string; split; discriminate).
  destruct (dict_kw_items _ _ _ (proj1 Nd) Pkw Hh) as (kvs & -> & S & HI).
  assert (G : x = VDict (cpu_dict k) kvs \/ x = VNone).
  { cbn [ser_entry] in Hx. cbn [cslots In] in Hk. destruct Hk as [<-|[<-|[]]]; cbn in Hx; destruct kvs; apply Ok_inj in Hx; subst; auto. }
  destruct G as [->| ->]; [|split; reflexivity]. eapply schema_clean; [exact S|exact HI|apply Nd].
Qed.
Lemma cnew_clean c kw a : cnew c kw = Ok (VObj c a) -> (forall k v, In (k, v) kw -> pure v = true) -> cclean c a.
Proof.
  intros H P. destruct (is_leaf c) eqn:L; [eapply leaf_new_clean; eassumption|].
  apply cnew_iff in H as (_ & a' & E & Hf & H). assert (a' = a) by congruence. subst a'.
  intros k w x Hin Hx. assert (Hk : In k (cslots c)) by (rewrite <- Hf; apply (in_map fst) in Hin; exact Hin).
  destruct (slot_outcome_pure _ _ _ _ P (H _ _ Hin)) as [Hw|(v & Hv & Hval & Hc)]; [eapply entry_pure; eassumption|].
  unfold converted in Hc. destruct c; try discriminate L.
  - destruct (chook CTaskHeader k) as [h|] eqn:Hh; [|subst; eapply entry_pure; eassumption]. cbn [chook] in Hh. unfold header_hook in Hh.
    destruct (String.eqb_spec k "task_owner") as [->|N1]; [|destruct (String.eqb_spec k "mask") as [->|N2]; [|destruct (String.eqb_spec k "market_type") as [->|N3]; [|discriminate]]];
      apply Some_inj in Hh; subst h; cbv beta in Hc.
    + assert (G : (do kw <- star_star v; node_new kw) = Ok w) by (destruct v; try discriminate Hv; exact Hc).
      apply bind_ok in G as (kw' & Hkw & G). change (node_new kw') with (cnew CNode kw') in G.
      destruct (cnew_cont_ok _ _ _ G) as (b & -> & _); [discriminate|]. pose proof (node_clean _ _ G (pure_star _ _ Hv Hkw)) as C.
      cbn [ser_entry] in Hx. cbn [cser_hook] in Hx. change ("task_owner" =? "task_owner")%string with true in Hx. cbv iota in Hx.
      apply bind_ok in Hx as (kvs & Hk2 & Hx). apply Ok_inj in Hx. subst x. exact (entries_clean _ _ _ C Hk2).
    + assert (G : pure w = true \/ exists b, w = VMask b).
      { destruct v; try discriminate Hv; apply Ok_inj in Hc; subst w; eauto. }
      destruct G as [G|[b ->]]; [eapply entry_pure; eassumption|]. cbn in Hx. apply Ok_inj in Hx. subst x. split; reflexivity.
    + destruct (enum_call EnMarketType v) as [m|] eqn:Em; [|discriminate]. apply Ok_inj in Hc. subst m. apply enum_call_member in Em as (s0 & -> & _).
      cbn in Hx. apply Ok_inj in Hx. subst x. apply clean_str.
  - assert (Hh : (if truthy v then do kw <- star_star v; leaf_new (sub_of k) kw else Ok VNone) = Ok w /\ is_leaf (sub_of k) = true /\ cser_hook CProvider k = SToDictTruthy).
    { cbn [cslots In] in Hk. destruct Hk as [<-|[<-|[<-|[<-|[]]]]]; (split; [exact Hc|split; reflexivity]). }
    destruct Hh as (Hh & L' & Hs). destruct (truthy v); [|apply Ok_inj in Hh; subst w; eapply entry_pure; [|exact Hx]; reflexivity].
    apply bind_ok in Hh as (kw' & Hkw & Hh).
    assert (Hn : cnew (sub_of k) kw' = Ok w).
    { rewrite <- Hh. unfold cnew, leaf_new. unfold sub_of. repeat match goal with |- context [if ?b then _ else _] => destruct b end; reflexivity. }
    destruct (cnew_leaf_ok _ _ _ L' Hn) as (b & -> & _). pose proof (leaf_new_clean _ _ _ L' Hn (pure_star _ _ Hv Hkw)) as C.
    cbn [ser_entry] in Hx. rewrite Hs in Hx. apply bind_ok in Hx as (kvs & Hk2 & Hx). apply Ok_inj in Hx. subst x. exact (entries_clean _ _ _ C Hk2).
Qed.
Lemma cnew_pure c kw o : cnew c kw = Ok o -> (forall k v, In (k, v) kw -> pure v = true) ->
  exists a, o = VObj c a /\ cont_ok c a /\ cont_wire c a /\ cclean c a.
Proof.
  intros H P. destruct (cnew_cont_ok _ _ _ H) as (a & -> & Ha).
  { intros n _ E. apply kw_get_in in E as (k & E). apply P in E. discriminate E. }
  exists a. split; [reflexivity|]. split; [exact Ha|]. split; [|eapply cnew_clean; eassumption]. destruct (is_leaf c) eqn:L.
  { pose proof (leaf_new_wire _ _ _ L H P) as W. intros k w Hin. specialize (W _ _ Hin). destruct c; try discriminate L; exact W. }
  apply cnew_iff in H as (_ & a' & E & Hf & H). assert (a' = a) by congruence. subst a'.
  intros k w Hin. assert (Hk : In k (cslots c)) by (rewrite <- Hf; apply (in_map fst) in Hin; exact Hin).
  pose proof (slot_outcome_pure _ _ _ _ P (H _ _ Hin)) as O. destruct c; try discriminate L; cbn [wire_attr].
  - destruct (String.eqb_spec k "task_owner") as [->|N1].
    { destruct w as [| | | | | | | | | |c' a0| | |]; try exact I. destruct O as [Hw|(v & Hv & Hval & Hc)]; [discriminate|].
      unfold converted in Hc. change (chook CTaskHeader "task_owner") with
        (Some (fun v => match v with VObj CNode _ => Ok v | _ => do kw <- star_star v; node_new kw end)) in Hc. cbv beta iota in Hc.
      assert (G : (do kw <- star_star v; node_new kw) = Ok (VObj c' a0)) by (destruct v; try discriminate Hv; exact Hc).
      apply bind_ok in G as (kw' & Hkw & G). change (node_new kw') with (cnew CNode kw') in G.
      destruct (cnew_cont_ok _ _ _ G) as (b & E' & _); [discriminate|]. assert (c' = CNode /\ a0 = b) as [-> ->] by (split; congruence).
      eapply node_wire; [exact G|]. eapply pure_star; eassumption. }
    destruct (String.eqb_spec k "mask"); [exact I|]. destruct (String.eqb_spec k "market_type"); [exact I|].
    apply pure_wire. destruct O as [Hw|(v & Hv & Hval & Hc)]; [exact Hw|].
    assert (N : chook CTaskHeader k = None).
    { cbn [chook]. unfold header_hook. destruct (String.eqb_spec k "task_owner"); [contradiction|].
      destruct (String.eqb_spec k "mask"); [contradiction|]. destruct (String.eqb_spec k "market_type"); [contradiction|]. reflexivity. }
    unfold converted in Hc. rewrite N in Hc. subst. exact Hv.
  - destruct w as [| | | | | | | | | |c' a0| | |]; try exact I. destruct O as [Hw|(v & Hv & Hval & Hc)]; [discriminate|].
    assert (Hh : (if truthy v then do kw <- star_star v; leaf_new (sub_of k) kw else Ok VNone) = Ok (VObj c' a0) /\ is_leaf (sub_of k) = true).
    { unfold converted in Hc. cbn [cslots In] in Hk. destruct Hk as [<-|[<-|[<-|[<-|[]]]]]; (split; [exact Hc|reflexivity]). }
    destruct Hh as [Hh L']. destruct (truthy v); [|discriminate]. apply bind_ok in Hh as (kw' & Hkw & Hh).
    assert (Hn : cnew (sub_of k) kw' = Ok (VObj c' a0)).
    { rewrite <- Hh. unfold cnew, leaf_new. unfold sub_of. repeat match goal with |- context [if ?b then _ else _] => destruct b end; reflexivity. }
    destruct (cnew_leaf_ok _ _ _ L' Hn) as (b & E' & _). assert (Ec : sub_of k = c' /\ b = a0) by (split; congruence). destruct Ec as [Ec ->].
    rewrite <- Ec in Hn |- *. eapply leaf_new_wire; [exact L'|exact Hn|]. eapply pure_star; eassumption.
Qed.
Lemma star_pure c v o : pure v = true -> cnew_star c v = Ok o -> exists a, o = VObj c a /\ cont_ok c a /\ cont_wire c a /\ cclean c a.
Proof. intros P H. unfold cnew_star in H. apply bind_ok in H as (kw & Hk & H). eapply cnew_pure; [exact H|]. eapply pure_star; eassumption. Qed.

(** ** Slots that hold no message *)
(** what the slot serializes to can be dumped *)
Definition ser_clean (kd : skind) (w : pyval) : Prop :=
  match kd with KMsg _ _ _ => True | _ => forall k x, ser_plain kd k w = Ok x -> clean x end.
Lemma clean_enum_value w : pure w = true \/ (exists e s, w = VEnum e s) -> clean (enum_value w).
Proof.
  intros [P|(e & s & ->)]; [|apply clean_str]. replace (enum_value w) with w; [apply clean_pure, P|]. destruct w; try reflexivity. discriminate P.
Qed.
Lemma ser_clean_value kd w : pure w = true \/ (exists e s, w = VEnum e s) ->
  match kd with KPlain | KEnum _ | KCpu | KNum | KCtd | KInt | KFiles | KHeader | KStats => True | _ => False end -> ser_clean kd w.
Proof.
  intros P K. assert (G : forall k x, ser_plain kd k w = Ok x -> x = enum_value w).
  { intros k x H. destruct kd; try contradiction; cbn [ser_plain] in H; try (apply Ok_inj in H; auto);
      (destruct w as [| | | | | | | | | |c a| | |]; [..|destruct P as [P|(e & s & P)]; discriminate P| | |]; apply Ok_inj in H; auto). }
  destruct kd; try contradiction; intros k x H; rewrite (G _ _ H); apply clean_enum_value, P.
Qed.
Lemma ser_clean_none kd : ser_clean kd VNone.
Proof. destruct kd; try exact I; intros k x H; try discriminate H; apply Ok_inj in H; subst; split; reflexivity. Qed.
Definition loaded_val (kd : skind) (w : pyval) : Prop :=
  (w = VNone \/ val_ok kd w \/ (kd = KNode /\ truthy w = false)) /\ val_wire kd w /\ ser_clean kd w.
Lemma val_wire_none kd : val_wire kd VNone.
Proof. destruct kd; try exact I; cbn; try (intros; contradiction). apply pure_wire. reflexivity. Qed.
Lemma mapM_each {A B} (f : A -> result B) (P : A -> Prop) (Q : B -> Prop) l r :
  (forall a b, P a -> f a = Ok b -> Q b) -> (forall a, In a l -> P a) -> mapM f l = Ok r -> Forall Q r.
Proof.
  intros H HP HM. apply mapM_ok in HM. induction HM as [|a b l r Hab _ IH]; constructor.
  - eapply H; [apply HP; left; reflexivity|exact Hab].
  - apply IH. intros x Hx. apply HP. right. exact Hx.
Qed.
Lemma file_loaded f w : pure f = true -> deser_file f = Ok w ->
  exists kvs, w = VDict DFileInfo kvs /\ schema DFileInfo kvs /\ forall k v, In (k, v) kvs -> ditem DFileInfo k v.
Proof.
  intros P H. destruct f; try discriminate H. destruct c; try discriminate P. apply pure_dict in P as [P _]. cbn [deser_file] in H. cbv zeta in H.
  eapply dict_new_items; [discriminate| |exact H]. right. do 2 eexists. split; [reflexivity|].
  intros k v Hin. destruct (enum_call EnFileCategory _) as [m|] eqn:E.
  - apply enum_call_member in E as (s & -> & Hs). destruct (in_dict_set _ _ _ _ _ Hin) as [H0|[-> [->|[Q [v1 H0]]]]].
    + split; [apply pure_plainkey, (P _ _ H0)|left; apply (P _ _ H0)].
    + split; [reflexivity|right; eauto].
    + pose proof (pure_plainkey _ (proj1 (P _ _ H0))) as Pk. apply pure_key_r in Q; [|exact Pk]. subst k. split; [exact Pk|right; eauto].
  - split; [apply pure_plainkey, (P _ _ Hin)|left; apply (P _ _ Hin)].
Qed.
Lemma loaded_plain kd k v w : (forall d an il, kd <> KMsg d an il) -> pure v = true -> deser_plain kd k v = Ok w -> loaded_val kd w.
Proof.
  intros NM P H. destruct kd; cbn [deser_plain] in H.
  - (* KPlain *) apply Ok_inj in H. subst w. split; [right; left; exact I|split; [apply pure_wire, P|apply ser_clean_value; auto]].
  - (* KEnum *) destruct (is_none v) eqn:N. { apply is_none_true in N. apply Ok_inj in H. subst. split; [left; reflexivity|split; [exact I|apply ser_clean_none]]. }
    destruct (enum_call e v) as [m|] eqn:E; [|discriminate]. apply Ok_inj in H. subst w. apply enum_call_member in E. split; [right; left; right; exact E|].
    split; [exact I|]. destruct E as (s & -> & _). apply ser_clean_value; [right; eauto|exact I].
  - exfalso. eapply NM. reflexivity.
  - (* KNode *) destruct (truthy v) eqn:T.
    + apply bind_ok in H as ([] & _ & H). destruct (star_pure _ _ _ P H) as (a & -> & Ha & Hw & Hc). split; [right; left; right; eauto|]. split; [exact Hw|].
      intros k1 x Hx. cbn [ser_plain truthy] in Hx. destruct (to_dict (VObj CNode a)) as [d|] eqn:D; [|discriminate]. apply Ok_inj in Hx. subst d.
      eapply to_dict_clean; eassumption.
    + apply Ok_inj in H. subst w. split; [right; right; auto|]. split; [destruct v; try exact I; discriminate P|].
      intros k1 x Hx. cbn [ser_plain] in Hx. rewrite T in Hx. apply Ok_inj in Hx. subst x. apply clean_pure, P.
  - (* KPeers *) destruct v; try discriminate H. apply bind_ok in H as (r & Hr & H). apply Ok_inj in H. subst w.
    rewrite pure_list in P.
    assert (F : Forall (fun p => exists kvs, p = VDict DPeer kvs /\ schema DPeer kvs /\ forall k v, In (k, v) kvs -> ditem DPeer k v) r).
    { eapply (mapM_each _ (fun x => pure x = true)); [|exact P|exact Hr]. intros x y Px Hy. eapply dict_new_items; [discriminate|left; exact Px|exact Hy]. }
    rewrite Forall_forall in F. split.
    + right. left. exists r. split; [reflexivity|]. apply Forall_forall. intros p Hp. destruct (F _ Hp) as (kvs & -> & S & I).
      exists kvs. split; [reflexivity|]. split; [exact S|]. intros k0 n Hin Hk. pose proof (proj2 S _ _ _ Hin Hk) as V.
      unfold validated in V. change (dvalidator DPeer (u "node")) with
        (Some (fun v => match v with VObj CNode _ => Ok tt | _ => Err (EFieldError (u "node")) end)) in V. cbv beta iota in V.
      destruct (I _ _ Hin) as [_ [Hp0|[(_ & Kn & a & -> & Ha & _)|[Hd _]]]]; [|eauto|discriminate].
      destruct n as [| | | | | | | | | |c0 a0| | |]; try discriminate V. discriminate Hp0.
    + split.
      2:{ intros k1 x Hx. cbn [ser_plain py_iter] in Hx. rewrite collect_map in Hx. apply bind_ok in Hx as (q & Hq & Hx). apply Ok_inj in Hx. subst x.
          apply clean_list. apply Forall_forall. eapply (mapM_each _ (fun p => In p r)); [| |exact Hq]; [|intros p Hp; exact Hp]. intros p y Hp Hy.
          destruct (F _ Hp) as (kvs & -> & S & HI). cbn [peer_serialize] in Hy. destruct (dict_get (skey "node") kvs) as [n|] eqn:Hg; [|discriminate].
          apply bind_ok in Hy as (d & Hd & Hy). apply Ok_inj in Hy. subst y.
          assert (Cd : clean d).
          { apply dict_get_in in Hg as (kn & Hg). destruct (HI _ _ Hg) as [_ [Hp0|[(_ & Kn & a & -> & _ & _ & Hc)|[Q _]]]]; [|eapply to_dict_clean; eassumption|discriminate].
            destruct n; try discriminate Hd. discriminate Hp0. }
          destruct (schema_named _ _ S) as [K N]; [intros k2 v2 H2; apply (HI _ _ H2)|].
          apply clean_dict; [split; [|apply nodup_set, N]|]; intros k2 v2 H3; pose proof H3 as H2; apply in_dict_set in H2 as [H2|[Ev [Ek|[_ [v1 H2]]]]].
          - exact (K _ _ H2).
          - exists "node"%string. exact Ek.
          - exact (K _ _ H2).
          - destruct (HI _ _ H2) as [_ [Hp0|[(_ & -> & _)|[Q _]]]]; [apply clean_pure, Hp0| |discriminate].
            rewrite (dict_set_same (skey "node") _ _ _ N eq_refl H3). exact Cd.
          - subst. exact Cd.
          - subst. exact Cd. }
      cbn [val_wire]. intros kvs k0 v0 Hl Hin. destruct (F _ Hl) as (kvs' & E & _ & I). assert (kvs' = kvs) by congruence. subst kvs'.
      destruct (I _ _ Hin) as [Ht [Hp0|[(_ & Kn & a & -> & _ & Ha & _)|[Hd _]]]]; [|split; [exact Ht|exact Ha]|discriminate].
      split; [exact Ht|]. destruct v0 as [| | | | | | | | | |c0 a0| | |]; try (apply pure_norm; exact Hp0). discriminate Hp0.
  - (* KTasks *) destruct v; try discriminate H. apply bind_ok in H as (r & Hr & H). apply Ok_inj in H. subst w. rewrite pure_list in P.
    assert (F : Forall (fun h => exists a, h = VObj CTaskHeader a /\ cont_ok CTaskHeader a /\ cont_wire CTaskHeader a /\ cclean CTaskHeader a) r).
    { eapply (mapM_each _ (fun x => pure x = true)); [|exact P|exact Hr]. intros x y Px Hy. cbv beta in Hy. apply bind_ok in Hy as ([] & _ & Hy). eapply star_pure; eassumption. }
    rewrite Forall_forall in F. split.
    + right. left. exists r. split; [reflexivity|]. apply Forall_forall. intros h Hh. destruct (F _ Hh) as (a & -> & Ha & _). eauto.
    + split.
      2:{ intros k1 x Hx. cbn [ser_plain] in Hx. rewrite collect_map in Hx. apply bind_ok in Hx as (q & Hq & Hx). apply Ok_inj in Hx. subst x.
          apply clean_list. apply Forall_forall. eapply (mapM_each _ (fun p => In p r)); [| |exact Hq]; [|intros p Hp; exact Hp]. intros p y Hp Hy.
          destruct (F _ Hp) as (a & -> & _ & _ & Hc). eapply to_dict_clean; eassumption. }
      cbn [val_wire]. intros c a Hin. destruct (F _ Hin) as (a' & E & _ & Ha & _). assert (c = CTaskHeader /\ a = a') as [-> ->] by (split; congruence). exact Ha.
  - (* KHeader *) destruct (is_none v) eqn:N. { apply is_none_true in N. apply Ok_inj in H. subst. split; [left; reflexivity|split; [exact I|apply ser_clean_none]]. }
    destruct (star_pure _ _ _ P H) as (a & -> & Ha & Hw & Hc). split; [right; left; right; eauto|]. split; [exact Hw|].
    intros k1 x Hx. eapply to_dict_clean; [exact Hc|exact Hx].
  - (* KCpu *) destruct (is_none v) eqn:N. { apply is_none_true in N. apply Ok_inj in H. subst. split; [left; reflexivity|split; [exact I|apply ser_clean_none]]. }
    apply bind_ok in H as ([] & Hi & H). apply integer_iff in Hi as (z & ->). destruct (z <? 0) eqn:E; [discriminate|].
    apply Ok_inj in H. subst w. split; [right; left; right; exists z; split; [reflexivity|apply Z.ltb_ge, E]|].
    split; [exact I|apply ser_clean_value; [left; reflexivity|exact I]].
  - (* KNum *) apply bind_ok in H as ([] & Hi & H). apply Ok_inj in H. subst w. apply positive_iff in Hi as (z & -> & Hz).
    split; [right; left; exists z; split; [reflexivity|lia]|]. split; [exact I|apply ser_clean_value; [left; reflexivity|exact I]].
  - (* KCtd *) destruct (dict_new_items DCTD v w) as (kvs & -> & S & HI); [discriminate|left; exact P|exact H|].
    split; [right; left; exists kvs; auto|]. split.
    2:{ intros k1 x Hx. apply Ok_inj in Hx. subst x. eapply schema_clean; [exact S|exact HI|discriminate]. }
    cbn [val_wire]. intros k0 v0 Hin.
    destruct (HI _ _ Hin) as [Ht [Hp|[[Hd _]|[Hd _]]]]; try discriminate. split; [exact Ht|apply pure_norm, Hp].
  - (* KInt *) apply bind_ok in H as ([] & Hi & H). apply Ok_inj in H. subst w. apply integer_iff in Hi. split; [right; left; exact Hi|].
    split; [exact I|]. destruct Hi as [z ->]. apply ser_clean_value; [left; reflexivity|exact I].
  - (* KStats *) destruct (is_none v) eqn:N. { apply is_none_true in N. apply Ok_inj in H. subst. split; [left; reflexivity|split; [exact I|apply ser_clean_none]]. }
    destruct (star_pure _ _ _ P H) as (a & -> & Ha & Hw & Hc). split; [right; left; right; eauto|]. split; [exact Hw|].
    intros k1 x Hx. eapply to_dict_clean; [exact Hc|exact Hx].
  - (* KFiles *) destruct (py_iter v) as [l|] eqn:El; [|discriminate]. apply bind_ok in H as (r & Hr & H). apply Ok_inj in H. subst w.
    pose proof (pure_iter _ _ P El) as Pl.
    assert (F : Forall (fun f => exists kvs, f = VDict DFileInfo kvs /\ schema DFileInfo kvs /\ forall k v, In (k, v) kvs -> ditem DFileInfo k v) r).
    { eapply (mapM_each _ (fun x => pure x = true)); [|exact Pl|exact Hr]. intros x y Px Hy. eapply file_loaded; eassumption. }
    rewrite Forall_forall in F.
    assert (C : forall kvs k v, In (VDict DFileInfo kvs) r -> In (k, v) kvs -> str_of k = Some (u "category") ->
       exists s, v = VEnum EnFileCategory s /\ In s (members EnFileCategory)).
    { intros kvs k0 v0 Hf Hin Hk. destruct (F _ Hf) as (kvs' & E & S & HI). assert (kvs' = kvs) by congruence. subst kvs'.
      pose proof (proj2 S _ _ _ Hin Hk) as V. unfold validated in V. change (dvalidator DFileInfo (u "category")) with
        (Some (fun v => match v with VEnum EnFileCategory _ => Ok tt | _ => Err (EFieldError (u "category")) end)) in V. cbv beta iota in V.
      destruct (HI _ _ Hin) as [_ [Hp0|[[Hd _]|[_ [_ Hs]]]]]; [|discriminate|exact Hs].
      destruct v0 as [| | | | | | | | |e0 s0| | | |]; try discriminate V. discriminate Hp0. }
    split.
    + right. left. exists r. split; [reflexivity|]. apply Forall_forall. intros f Hf. destruct (F _ Hf) as (kvs & -> & S & _).
      exists kvs. split; [reflexivity|]. split; [exact S|]. intros k0 m Hin Hk. eapply C; eassumption.
    + split.
      2:{ intros k1 x Hx. apply Ok_inj in Hx. subst x. cbn [enum_value]. apply clean_list. intros f Hf. destruct (F _ Hf) as (kvs & -> & S & HI).
          eapply schema_clean; [exact S|exact HI|discriminate]. }
      cbn [val_wire]. intros kvs k0 v0 Hf Hin. destruct (F _ Hf) as (kvs' & E & S & HI). assert (kvs' = kvs) by congruence. subst kvs'.
      destruct (HI _ _ Hin) as [(t & ->) Hv]. split; [eauto|]. intros Nk. destruct Hv as [Hp|[[Hd _]|[_ [Hc _]]]]; [apply pure_norm, Hp|discriminate|]. contradiction.
Qed.

(** ** Messages *)

(** what the constructors guarantee about a slot, whatever was received *)
Definition loaded_init (c : mcls) (k : string) (w : pyval) : Prop :=
  match c with
  | MPeers | MTasks => w <> VNone
  | MResourcePeers | MGossip => w = VList [] \/ truthy w = true
  | MWantToComputeTask => (k = "concent_enabled"%string -> exists b, w = VBool b) /\ (k = "num_subtasks"%string -> w <> VNone)
  | MTaskToCompute => k = "concent_enabled"%string -> exists b, w = VBool b
  | MTaskFailure => k = "reason"%string -> w <> VNone
  | MStartSessionResponse => w = VNone
  | _ => True
  end.
(** a received nested message: the slot's class, header and signature as decoded *)
Definition loaded_one (P : mcls -> attrs_t -> Prop) (d : mcls) (m : pyval) : Prop :=
  exists ty ts enc sig b, m = VMsg d ty ts enc sig b /\
    pure ty = true /\ pure ts = true /\ pure enc = true /\ pure sig = true /\ P d b.
Definition loaded_nested (P : mcls -> attrs_t -> Prop) (d : mcls) (an il : bool) (w : pyval) : Prop :=
  (w = VNone /\ an = true) \/ (il = false /\ loaded_one P d w) \/
  (il = true /\ exists l, w = VList l /\ l <> [] /\ Forall (loaded_one P d) l).
(** [loaded c a]: [a] are attributes of a received message of class [c]; a slot is
    None when it was missing from what was received *)
Inductive loaded (c : mcls) (a : attrs_t) : Prop :=
| loaded_intro : map fst a = slot_names c ->
    (forall k w, In (k, w) a -> loaded_init c k w /\ loaded_val (slot_kind c k) w) ->
    (forall k w d an il, In (k, w) a -> slot_kind c k = KMsg d an il -> w = VNone \/ loaded_nested loaded d an il w) ->
    loaded c a.

Lemma list_slots_required c k d an il : slot_kind c k = KMsg d an il -> il = true -> an = false.
Proof.
  intros H ->. destruct (slot_kind_cases c k) as [Hin|Hn]; [|rewrite (slot_kind_default _ _ Hn) in H; discriminate].
  rewrite H in Hin.
  assert (F : forallb (fun c => forallb (fun p => match snd p with KMsg _ true true => false | _ => true end) (slot_table c)) all_classes = true)
    by (vm_compute; reflexivity).
  pose proof (for_all_classes _ F c) as G. cbv beta in G. rewrite forallb_forall in G. specialize (G _ Hin). cbn [snd] in G.
  destruct an; [discriminate|reflexivity].
Qed.

Lemma eq_bool_truthy b il : py_eq b (VBool il) = true -> truthy b = il.
Proof.
  destruct b as [|b|z|b| | | | | |e t| | | |]; try discriminate; try (cbn; destruct (is_string_enum e); discriminate).
  - intros H. destruct b, il; (reflexivity || discriminate H).
  - change (py_eq (VInt z) (VBool il)) with (z * 2 ^ (0 - Z.min 0 0) =? (if il then 1 else 0) * 2 ^ (0 - Z.min 0 0)).
    change (2 ^ (0 - Z.min 0 0)) with 1. rewrite !Z.mul_1_r. intros H. apply Z.eqb_eq in H. subst z. destruct il; reflexivity.
  - change (py_eq (VFloat b) (VBool il)) with (fl_eqb (fl_of_bits b) (FFin (if il then 1 else 0) 0)). cbn [truthy].
    destruct il; [|intros ->; reflexivity]. intros H. apply negb_true_iff. destruct (fl_eqb (fl_of_bits b) (FFin 0 0)) eqn:Q; [|reflexivity].
    destruct (fl_of_bits b) as [| |m e]; try discriminate. cbn [fl_eqb] in H, Q. cbv zeta in H, Q. apply Z.eqb_eq in H, Q.
    rewrite Q in H. rewrite Z.mul_0_l, Z.mul_1_l in H. symmetry in H. apply Z.pow_eq_0_iff in H. lia.
Qed.
Lemma falsy_iter v : truthy v = false -> is_none v = false -> py_iter v = None \/ py_iter v = Some [].
Proof.
  destruct v as [| | | |l|l|l|l|d l| | | | |]; try discriminate; cbn [truthy py_iter]; auto.
  all: destruct l; [right; reflexivity|discriminate].
Qed.

Section Nested.
  Variable rec : mcls -> pyval -> result attrs_t.
  Variable P : mcls -> attrs_t -> Prop.
  Hypothesis Hrec : forall d s a, pure s = true -> rec d s = Ok a -> P d (post_init d a).
  Lemma single_loaded d an k v w : pure v = true -> deser_single rec d an k v = Ok w ->
    (w = VNone /\ an = true) \/ loaded_one P d w.
  Proof.
    intros Pv H. unfold deser_single in H. destruct (is_none v) eqn:N.
    { destruct an; [|discriminate]. apply Ok_inj in H. left. auto. }
    destruct (py_iter v) as [[|h [|sig [|s [|]]]]|] eqn:E; try discriminate. pose proof (pure_iter _ _ Pv E) as Pi.
    assert (Ph : pure h = true) by (apply Pi; cbn; auto). assert (Psig : pure sig = true) by (apply Pi; cbn; auto).
    assert (Ps : pure s = true) by (apply Pi; cbn; auto).
    assert (G : exists ty ts enc a, py_iter h = Some [ty; ts; enc] /\ rec d s = Ok a /\ w = VMsg d ty ts enc sig (post_init d a)).
    { destruct (py_iter h) as [[|ty [|ts [|enc [|]]]]|]; try (cbn in H; discriminate).
      destruct (rec d s) as [a|e]; cbn [bind as_field_error] in H.
      - apply Ok_inj in H. exists ty, ts, enc, a. auto.
      - exfalso. destruct e; cbn in H; discriminate. }
    destruct G as (ty & ts & enc & a & Eh & Ha & ->). pose proof (pure_iter _ _ Ph Eh) as Phi.
    right. exists ty, ts, enc, sig, (post_init d a). split; [reflexivity|].
    split; [apply Phi; cbn; auto|]. split; [apply Phi; cbn; auto|]. split; [apply Phi; cbn; auto|]. split; [exact Psig|].
    eapply Hrec; eassumption.
  Qed.
  Lemma message_loaded d an il k v w : (il = true -> an = false) -> pure v = true -> deser_message rec d an il k v = Ok w ->
    loaded_nested P d an il w.
  Proof.
    intros Hil Pv H. unfold deser_message in H. destruct (py_iter v) as [[|b [|v' [|]]]|] eqn:E; try discriminate.
    pose proof (pure_iter _ _ Pv E) as Pi. assert (Pv' : pure v' = true) by (apply Pi; cbn; auto).
    destruct (truthy v') eqn:T; cbn [andb] in H.
    - destruct (py_eq b (VBool il)) eqn:Eb; cbn [negb] in H; [|discriminate]. apply eq_bool_truthy in Eb. rewrite Eb in H.
      destruct il.
      + destruct v' as [| | | | | |l| | | | | | |]; try discriminate H. apply bind_ok in H as (r & Hr & H). apply Ok_inj in H. subst w.
        right. right. split; [reflexivity|]. exists r. split; [reflexivity|]. rewrite pure_list in Pv'. split.
        * destruct l; [discriminate T|]. intros ->. apply mapM_ok in Hr. inversion Hr.
        * eapply (mapM_each _ (fun x => pure x = true)); [|exact Pv'|exact Hr]. intros x y Px Hy.
          destruct (single_loaded _ _ _ _ _ Px Hy) as [[_ Q]|Q]; [|exact Q]. rewrite (Hil eq_refl) in Q. discriminate.
      + destruct (single_loaded _ _ _ _ _ Pv' H) as [Q|Q]; [left; exact Q|right; left; auto].
    - unfold deser_single in H. destruct (is_none v') eqn:N; [destruct an; [|discriminate]; apply Ok_inj in H; left; auto|].
      exfalso. rewrite (falsy_iter _ T N) in H || (destruct (falsy_iter _ T N) as [Q|Q]; rewrite Q in H); discriminate.
  Qed.
  Lemma slot_loaded c k v w : pure v = true -> deser_slot rec c k v = Ok w ->
    loaded_val (slot_kind c k) w /\ forall d an il, slot_kind c k = KMsg d an il -> loaded_nested P d an il w.
  Proof.
    intros Pv H. unfold deser_slot in H. destruct (slot_kind c k) as [|e|d an il| | | | | | | | | |] eqn:K;
      try (split; [eapply loaded_plain; [discriminate|exact Pv|exact H]|discriminate]).
    split; [split; [right; left; exact I|split; exact I]|]. intros d' an' il' Q. assert (d = d' /\ an = an' /\ il = il') as (<- & <- & <-) by (repeat split; congruence).
    eapply message_loaded; [|exact Pv|exact H]. eapply list_slots_required, K.
  Qed.
  (** one slot before [post_init] *)
  Definition raw_slot (c : mcls) (kw : string * pyval) : Prop :=
    snd kw = VNone \/ (c <> MStartSessionResponse /\ loaded_val (slot_kind c (fst kw)) (snd kw) /\
      forall d an il, slot_kind c (fst kw) = KMsg d an il -> loaded_nested P d an il (snd kw)).
  Lemma slots_loaded c s a : pure s = true -> load_slots rec c s = Ok a ->
    map fst a = slot_names c /\ Forall (raw_slot c) a.
  Proof.
    intros Ps H. split; [eapply load_slots_keys; exact H|].
    set (kvs := match py_dict_of s with Some kvs => kvs | None => [] end).
    assert (Pk : pures kvs).
    { unfold kvs. destruct (py_dict_of s) eqn:E; [eapply pures_dict_of; eassumption|apply pures_nil]. }
    assert (G : c = MStartSessionResponse /\ a = [("conn_id"%string, VNone)] \/ c <> MStartSessionResponse /\ mapM (load_slot rec c kvs) (slot_names c) = Ok a).
    { unfold load_slots in H. fold kvs in H. destruct c; try (right; split; [discriminate|];
        destruct (mapM _ _) as [r|e]; [exact H|destruct e; cbn in H; discriminate]).
      left. split; [reflexivity|]. apply Ok_inj in H. auto. }
    destruct G as [[-> ->]|[Nc G]].
    - constructor; [left; reflexivity|constructor].
    - eapply (mapM_each _ (fun _ => True)); [|intros; exact I|exact G]. intros k [k' w] _ Hl. unfold load_slot in Hl.
      destruct (dict_get (skey k) kvs) as [v|] eqn:E.
      + apply dict_get_in in E as (k0 & E). destruct (proj1 Pk _ _ E) as [_ Pv]. apply bind_ok in Hl as (w' & Hw & Hl). apply Ok_inj in Hl.
        assert (k' = k /\ w' = w) as [-> ->] by (split; congruence). right. split; [exact Nc|]. cbn [fst snd]. eapply slot_loaded; eassumption.
      + left. apply Ok_inj in Hl. cbn [snd]. congruence.
  Qed.
End Nested.
Arguments raw_slot P c kw : clear implicits.

(** [post_init] *)
Lemma attr_set_in k v a : forall k' w, NoDup (map fst a) -> In (k', w) (attr_set k v a) ->
  (k' = k /\ w = v) \/ (k' <> k /\ In (k', w) a).
Proof.
  induction a as [|[k0 v0] a IH]; intros k' w N H; cbn [attr_set In map fst] in *.
  - destruct H as [H|[]]. left. split; congruence.
  - inversion N as [|? ? N1 N2]; subst. destruct (String.eqb_spec k0 k) as [->|Q].
    + destruct H as [H|H]; [left; split; congruence|]. right. split; [|right; exact H]. intros ->. apply N1. apply (in_map fst) in H. exact H.
    + destruct H as [H|H]; [|destruct (IH _ _ N2 H) as [?|[? ?]]; auto]. right. split; [congruence|left; exact H].
Qed.
Lemma attr_set_fst k v a : In k (map fst a) -> map fst (attr_set k v a) = map fst a.
Proof.
  induction a as [|[k0 v0] a IH]; cbn [attr_set In map fst]; [intros []|]. destruct (String.eqb_spec k0 k) as [->|Q]; [reflexivity|].
  intros [?|H]; [congruence|]. cbn [map fst]. rewrite IH by exact H. reflexivity.
Qed.
Lemma upd_fst k f a : In k (map fst a) -> map fst (upd k f a) = map fst a.
Proof. apply attr_set_fst. Qed.
Lemma upd_in k f a k' w : In k (map fst a) -> NoDup (map fst a) -> In (k', w) (upd k f a) ->
  (k' = k /\ exists w0, In (k, w0) a /\ w = f w0) \/ (k' <> k /\ In (k', w) a).
Proof.
  intros Hk N H. unfold upd in H. apply attr_set_in in H; [|exact N]. destruct H as [[-> ->]|H]; [|auto].
  left. split; [reflexivity|]. apply in_map_iff in Hk as ([k0 w0] & <- & Hin). cbn [fst]. exists w0. split; [exact Hin|].
  unfold attr_get_or_none. rewrite (attr_get_nodup _ _ _ N Hin). reflexivity.
Qed.
Lemma or_empty_val kd w : (kd = KPeers \/ kd = KTasks) -> w = VNone \/ loaded_val kd w -> or_empty w <> VNone /\ loaded_val kd (or_empty w).
Proof.
  intros K H. unfold or_empty. destruct (truthy w) eqn:T.
  - split; [intros ->; discriminate|]. destruct H as [->|H]; [discriminate|exact H].
  - split; [discriminate|]. destruct K as [-> | ->]; (split; [right; left; exists []; split; [reflexivity|constructor]|]; split; [cbn; intros; contradiction|]; intros k1 x Hx; apply Ok_inj in Hx; subst; split; reflexivity).
Qed.
Lemma loaded_none kd : loaded_val kd VNone.
Proof. split; [left; reflexivity|split; [apply val_wire_none|apply ser_clean_none]]. Qed.
Lemma is_true_val w : loaded_val KPlain (is_true w).
Proof. split; [right; left; exact I|split; [apply pure_wire; reflexivity|apply ser_clean_value; [left; reflexivity|exact I]]]. Qed.

Lemma post_init_loaded c a : map fst a = slot_names c -> Forall (raw_slot loaded c) a -> loaded c (post_init c a).
Proof.
  intros Hf Hr. rewrite Forall_forall in Hr. pose proof (slot_names_NoDup c) as N. rewrite <- Hf in N.
  assert (V : forall k w, In (k, w) a -> w = VNone \/ loaded_val (slot_kind c k) w).
  { intros k w Hin. destruct (Hr _ Hin) as [H|(_ & H & _)]; cbn [fst snd] in *; auto. }
  assert (V' : forall k w, In (k, w) a -> loaded_val (slot_kind c k) w).
  { intros k w Hin. destruct (V _ _ Hin) as [->|H]; [apply loaded_none|exact H]. }
  assert (M : forall k w d an il, In (k, w) a -> slot_kind c k = KMsg d an il -> w = VNone \/ loaded_nested loaded d an il w).
  { intros k w d an il Hin K. destruct (Hr _ Hin) as [H|(_ & _ & H)]; cbn [fst snd] in *; auto. }
  assert (Id : post_init c a = a -> (forall k w, In (k, w) a -> loaded_init c k w) -> loaded c (post_init c a)).
  { intros -> HI. constructor; [exact Hf|intros k w Hin; split; auto|exact M]. }
  (* one updated slot that is not a message slot *)
  assert (One : forall k f, In k (slot_names c) -> (forall d an il, slot_kind c k <> KMsg d an il) -> post_init c a = upd k f a ->
     (forall k' w, In (k', w) a -> k' <> k -> loaded_init c k' w) ->
     (forall w, In (k, w) a -> loaded_init c k (f w) /\ loaded_val (slot_kind c k) (f w)) -> loaded c (post_init c a)).
  { intros k f Hk NK -> HO HU. rewrite <- Hf in Hk. constructor.
    - rewrite upd_fst by exact Hk. exact Hf.
    - intros k' w Hin. destruct (upd_in _ _ _ _ _ Hk N Hin) as [(-> & w0 & H0 & ->)|[Q H0]]; [apply HU, H0|]. split; [apply HO; assumption|auto].
    - intros k' w d an il Hin K. destruct (upd_in _ _ _ _ _ Hk N Hin) as [(-> & _)|[Q H0]]; [exfalso; eapply NK, K|]. eapply M; eassumption. }
  destruct c; try (apply Id; [reflexivity|intros; exact I]).
  - (* Peers *) apply (One "peers"%string or_empty); [left; reflexivity|discriminate|reflexivity| |].
    + intros k' w Hin Q. apply (in_map fst) in Hin. rewrite Hf in Hin. destruct Hin as [Hin|[]]. cbn [fst] in Hin. congruence.
    + intros w Hin. apply or_empty_val; [left; reflexivity|apply V, Hin].
  - (* Tasks *) apply (One "tasks"%string or_empty); [left; reflexivity|discriminate|reflexivity| |].
    + intros k' w Hin Q. apply (in_map fst) in Hin. rewrite Hf in Hin. destruct Hin as [Hin|[]]. cbn [fst] in Hin. congruence.
    + intros w Hin. apply or_empty_val; [right; reflexivity|apply V, Hin].
  - (* ResourcePeers *) apply (One "resource_peers"%string or_empty); [left; reflexivity|discriminate|reflexivity| |].
    + intros k' w Hin Q. apply (in_map fst) in Hin. rewrite Hf in Hin. destruct Hin as [Hin|[]]. cbn [fst] in Hin. congruence.
    + intros w Hin. pose proof (V' _ _ Hin) as Hw. cbn [loaded_init]. unfold or_empty. destruct (truthy w) eqn:T; [auto|].
      split; [left; reflexivity|]. split; [right; left; exact I|split; [apply pure_wire; reflexivity|apply ser_clean_value; [left; reflexivity|exact I]]].
  - (* Gossip *) apply (One "gossip"%string or_empty); [left; reflexivity|discriminate|reflexivity| |].
    + intros k' w Hin Q. apply (in_map fst) in Hin. rewrite Hf in Hin. destruct Hin as [Hin|[]]. cbn [fst] in Hin. congruence.
    + intros w Hin. pose proof (V' _ _ Hin) as Hw. cbn [loaded_init]. unfold or_empty. destruct (truthy w) eqn:T; [auto|].
      split; [left; reflexivity|]. split; [right; left; exact I|split; [apply pure_wire; reflexivity|apply ser_clean_value; [left; reflexivity|exact I]]].
  - (* WantToComputeTask *)
    cbn [post_init]. set (a1 := upd "concent_enabled" is_true a). set (f := fun v => if is_none v then VInt 1 else v).
    assert (Hc : In "concent_enabled"%string (map fst a)) by (rewrite Hf; vm_compute; tauto).
    assert (F1 : map fst a1 = map fst a) by (apply upd_fst, Hc).
    assert (Hn : In "num_subtasks"%string (map fst a1)) by (rewrite F1, Hf; vm_compute; tauto).
    assert (N1 : NoDup (map fst a1)) by (rewrite F1; exact N).
    constructor.
    + rewrite upd_fst by exact Hn. congruence.
    + intros k w Hin. destruct (upd_in _ _ _ _ _ Hn N1 Hin) as [(-> & w0 & H0 & ->)|[Q H0]].
      * destruct (upd_in _ _ _ _ _ Hc N H0) as [(Q & _)|[_ H1]]; [discriminate|]. pose proof (V' _ _ H1) as Hw. unfold f. cbn [loaded_init].
        destruct (is_none w0) eqn:Nw.
        -- split; [split; [discriminate|discriminate]|]. split; [right; left; exists 1; split; [reflexivity|lia]|split; [exact I|apply ser_clean_value; [left; reflexivity|exact I]]].
        -- split; [split; [discriminate|intros _ ->; discriminate]|exact Hw].
      * destruct (upd_in _ _ _ _ _ Hc N H0) as [(-> & w0 & H1 & ->)|[Q1 H1]]; cbn [loaded_init].
        -- split; [split; [intros _; unfold is_true; eauto|discriminate]|apply is_true_val].
        -- split; [split; [intros; contradiction|intros; contradiction]|apply V', H1].
    + intros k w d an il Hin K. destruct (slot_kind_cases MWantToComputeTask k) as [H|H]; [|rewrite (slot_kind_default _ _ H) in K; discriminate].
      rewrite K in H. cbn [slot_table In] in H. exfalso. repeat (destruct H as [H|H]; [discriminate|]). exact H.
  - (* TaskToCompute *) apply (One "concent_enabled"%string is_true); [vm_compute; tauto|discriminate|reflexivity| |].
    + intros k' w Hin Q. cbn [loaded_init]. intros; contradiction.
    + intros w Hin. split; [intros _; unfold is_true; eauto|apply is_true_val].
  - (* TaskFailure *) apply (One "reason"%string (fun v => if is_none v then VEnum EnTaskFailure "ComputationError" else v));
      [vm_compute; tauto|discriminate|reflexivity| |].
    + intros k' w Hin Q. cbn [loaded_init]. intros; contradiction.
    + intros w Hin. pose proof (V' _ _ Hin) as Hw. cbv beta. cbn [loaded_init]. destruct (is_none w) eqn:Nw.
      * split; [discriminate|]. split; [|split; [exact I|apply ser_clean_value; [right; eauto|exact I]]]. right. left. right. exists "ComputationError"%string. split; [reflexivity|left; reflexivity].
      * split; [intros _ ->; discriminate|exact Hw].
  - (* StartSessionResponse *) apply Id; [reflexivity|]. intros k w Hin. destruct (Hr _ Hin) as [H|(H & _)]; [exact H|contradiction].
Qed.
Theorem load_attrs_loaded n : forall c s a, pure s = true -> load_attrs n c s = Ok a -> loaded c (post_init c a).
Proof.
  induction n as [|n IH]; intros c s a P H; [discriminate|]. cbn [load_attrs] in H.
  destruct (slots_loaded _ _ IH c s a P H) as [Hf Hr]. apply post_init_loaded; assumption.
Qed.

(** ** Received messages are well-formed once nothing required is missing *)
Definition slot_complete (c : mcls) (k : string) (w : pyval) : bool :=
  match slot_kind c k with
  | KInt | KCtd | KFiles | KNum | KMsg _ false _ => negb (is_none w)
  | KNode => match w with VNone | VObj _ _ => true | _ => false end
  | KPlain => match c with MResourcePeers | MGossip => match w with VList _ => true | _ => false end | _ => true end
  | _ => true
  end.
(** no required part is missing, at any depth *)
Fixpoint complete (v : pyval) : bool :=
  match v with
  | VMsg c _ _ _ _ a => forallb (fun kw => slot_complete c (fst kw) (snd kw) && complete (snd kw)) a
  | VList l => forallb complete l
  | _ => true
  end.
Definition complete_attrs (c : mcls) (a : attrs_t) : bool :=
  forallb (fun kw => slot_complete c (fst kw) (snd kw) && complete (snd kw)) a.

Lemma loaded_mok n : forall c a, (rank c < n)%nat -> loaded c a -> complete_attrs c a = true -> mok c a.
Proof.
  induction n as [|n IH]; intros c a R [Hf HV HM] HC; [lia|]. unfold complete_attrs in HC. rewrite forallb_forall in HC.
  assert (C : forall k w, In (k, w) a -> slot_complete c k w = true /\ complete w = true).
  { intros k w Hin. specialize (HC _ Hin). apply andb_true_iff in HC. exact HC. }
  constructor; [exact Hf| |].
  - intros k w Hin. destruct (HV _ _ Hin) as [HI [HL _]]. destruct (C _ _ Hin) as [HS _]. unfold slot_complete in HS.
    assert (Hk : In k (slot_names c)) by (rewrite <- Hf; apply (in_map fst) in Hin; exact Hin).
    split.
    + destruct c; cbn [loaded_init init_ok] in *; try exact I; try tauto;
        destruct Hk as [<-|[]]; cbn in HS; destruct w; try discriminate HS; eauto.
    + destruct HL as [->|[HL|[K T]]]; [|exact HL|].
      * destruct (slot_kind c k) eqn:K; cbn [val_ok]; try exact I; try (left; reflexivity); try discriminate HS.
        -- (* KPeers *) exfalso. destruct (slot_kind_cases c k) as [H|H]; [|rewrite (slot_kind_default _ _ H) in K; discriminate].
           rewrite K in H. destruct c; cbn [slot_table In] in H; repeat (destruct H as [H|H]; [try discriminate H|]); try destruct H.
           cbn [loaded_init] in HI. congruence.
        -- exfalso. destruct (slot_kind_cases c k) as [H|H]; [|rewrite (slot_kind_default _ _ H) in K; discriminate].
           rewrite K in H. destruct c; cbn [slot_table In] in H; repeat (destruct H as [H|H]; [try discriminate H|]); try destruct H.
           cbn [loaded_init] in HI. congruence.
      * rewrite K in *. cbn [val_ok]. destruct w; try discriminate; auto.
  - intros k w d an il Hin K. destruct (C _ _ Hin) as [HS HCw]. pose proof (rank_decreases _ _ _ _ _ K) as Rd.
    assert (O : forall m, loaded_one loaded d m -> complete m = true -> exists ty ts enc sig b, m = VMsg d ty ts enc sig b /\ mok d b).
    { intros m (ty & ts & enc & sig & b & -> & _ & _ & _ & _ & Hb) Hc. exists ty, ts, enc, sig, b. split; [reflexivity|].
      apply IH; [lia|exact Hb|exact Hc]. }
    unfold slot_complete in HS. rewrite K in HS.
    destruct (HM _ _ _ _ _ Hin K) as [->|[[-> ->]|[[-> H]|[-> (l & -> & Hne & Hl)]]]].
    + left. split; [reflexivity|]. destruct an; [reflexivity|discriminate].
    + left. auto.
    + right. left. split; [reflexivity|]. apply O; assumption.
    + right. right. split; [reflexivity|]. exists l. split; [reflexivity|]. split; [exact Hne|].
      cbn [complete] in HCw. rewrite forallb_forall in HCw. rewrite Forall_forall in Hl |- *. intros m Hm. apply O; auto.
Qed.
Lemma loaded_mwire n : forall c a, (rank c < n)%nat -> loaded c a -> mwire c a.
Proof.
  induction n as [|n IH]; intros c a R [Hf HV HM]; [lia|]. constructor.
  - intros k w Hin. destruct (HV _ _ Hin) as (_ & _ & W & _). exact W.
  - intros k w d an il Hin K. pose proof (rank_decreases _ _ _ _ _ K) as Rd.
    assert (O : forall ty ts enc sig b, loaded_one loaded d (VMsg d ty ts enc sig b) ->
        norm ty = ty /\ norm ts = ts /\ norm enc = enc /\ norm sig = sig /\ mwire d b).
    { intros ty ts enc sig b (ty' & ts' & enc' & sig' & b' & E & P1 & P2 & P3 & P4 & Hb).
      assert (ty' = ty /\ ts' = ts /\ enc' = enc /\ sig' = sig /\ b' = b) as (-> & -> & -> & -> & ->) by (repeat split; congruence).
      repeat (split; [apply pure_norm; assumption|]). apply IH; [lia|exact Hb]. }
    intros ty ts enc sig b Hin'. destruct (HM _ _ _ _ _ Hin K) as [->|[[-> _]|[[_ H]|[_ (l & -> & _ & Hl)]]]].
    + cbn in Hin'. destruct Hin' as [Hin'|[]]. discriminate.
    + cbn in Hin'. destruct Hin' as [Hin'|[]]. discriminate.
    + apply O. destruct H as (ty' & ts' & enc' & sig' & b' & E & Hr). subst w. cbn in Hin'. destruct Hin' as [Hin'|[]].
      rewrite <- Hin'. do 5 eexists. split; [reflexivity|exact Hr].
    + apply O. rewrite Forall_forall in Hl. apply Hl, Hin'.
Qed.
Lemma loaded_ok c a : loaded c a -> complete_attrs c a = true -> mok c a /\ mwire c a.
Proof. intros H C. pose proof (rank_bound c) as R. split; [eapply loaded_mok|eapply loaded_mwire]; eassumption. Qed.

(** ** Every message that is accepted *)
Theorem base_loaded E c ty ts enc data decf pub kw m :
  base_load E c ty ts enc data decf pub kw = Ok m -> (kw = [] /\ c <> MHello \/ c = MHello /\ exists v, kw = [("_version"%string, VStr v)]) ->
  exists v a, m = VMsg c (VInt ty) (VInt ts) (VBool enc) (VBytes (firstn 65 data)) (full c v a) /\ loaded c a /\
    (c = MHello -> kw = [("_version"%string, VStr v)]).
Proof.
  intros H K. apply base_load_ok in H as (payload & s & a & a' & _ & Hs & Ha & Ha' & -> & _).
  pose proof (load_attrs_loaded _ _ _ _ (loads_pure _ _ _ Hs) Ha) as L. destruct K as [[-> N]|[-> [v ->]]].
  - cbn [apply_kwargs] in Ha'. apply Ok_inj in Ha'. subst a'. exists [], (post_init c a). split; [|split; [exact L|contradiction]].
    destruct c; try congruence; reflexivity.
  - exists v, a. split; [|split; [exact L|reflexivity]]. cbn [post_init] in L.
    assert (N : ~ In "_version"%string (map fst a)) by (rewrite (load_attrs_keys _ _ _ _ Ha); apply version_not_slot).
    cbn [apply_kwargs] in Ha'. rewrite (unset_slot _ MHello) in Ha' by reflexivity. unfold attr_get_or_none in Ha'. rewrite (proj2 (attr_get_none _ _)) in Ha' by exact N. cbn [bind is_none] in Ha'.
    change (kw_ok MHello "_version") with true in Ha'. cbv iota in Ha'. apply Ok_inj in Ha'. subst a'.
    cbn [post_init set_version]. rewrite attr_get_set_same. rewrite attr_set_last by exact N. reflexivity.
Qed.
Theorem deserialize_loaded E now bs decf ct pub m : deserialize E now bs decf ct pub = Ok m ->
  exists c t enc sig v a, m = VMsg c (VInt (type_of c)) (VInt t) (VBool enc) (VBytes sig) (full c v a) /\ loaded c a /\
    1262304000 < t < 32819212800 /\ (c <> MHello \/ enc = false -> List.length sig = 65%nat) /\
    (c = MHello -> verify_version (our_version E) v = Ok tt /\ (forall x, In x v -> 0 <= x < 128 \/ x = 65533) /\ (List.length v <= 31)%nat) /\
    (c <> MHello -> vet E c m = Ok tt).
Proof.
  intros H. apply deserialize_ok in H as (L & ty & ts & enc & c & _ & T & Hc & _ & H). apply registry_number in Hc. subst ty.
  destruct (mcls_eqb c MHello) eqn:Q.
  - apply mcls_eqb_eq in Q. subst c. apply class_load_hello in H as (v & Hv & Hg & H).
    pose proof H as H0. apply base_loaded in H0; [|right; eauto]. destruct H0 as (v' & a & -> & La & Hkw).
    specialize (Hkw eq_refl). assert (v' = ascii_decode v) by congruence. subst v'.
    exists MHello, ts, enc, (firstn 65 (firstn (List.length (skipn 11 bs) - 32) (skipn 11 bs))), (ascii_decode v), a.
    split; [reflexivity|]. split; [exact La|]. split; [exact T|]. split; [|split; [|congruence]].
    + intros [N|Henc]; [congruence|]. subst enc. apply base_load_ok in H as (p & s & _ & _ & Hp & Hs & _). cbn [decrypted] in Hp. apply Ok_inj in Hp. subst p.
      set (d := firstn _ (skipn 11 bs)) in *. rewrite firstn_length. assert (skipn 65 d <> []).
      { intros Hd. rewrite Hd in Hs. unfold loads in Hs. destruct (cdepth E); discriminate Hs. }
      assert (0 < List.length (skipn 65 d))%nat by (destruct (skipn 65 d); [congruence|cbn [List.length]; lia]).
      rewrite skipn_length in *. lia.
    + intros _. split; [exact Hg|]. split.
      * intros x Hx. unfold ascii_decode in Hx. apply in_map_iff in Hx as (b & <- & _). pose proof (b2z_range b). destruct (b2z b <? 128) eqn:R; [left|right; reflexivity].
        apply Z.ltb_lt in R. lia.
      * unfold ascii_decode. rewrite map_length. unfold unpack32p in Hv. destruct (negb _); [discriminate|].
        destruct (slice_last 32 (skipn 11 bs)) as [|n r]; [discriminate|]. apply Ok_inj in Hv. subst v. rewrite firstn_length. lia.
  - assert (N : c <> MHello) by (intros ->; discriminate Q). rewrite class_load_split in H by exact N.
    apply bind_ok in H as (m' & H & H'). apply bind_ok in H' as ([] & Hv & H'). apply Ok_inj in H'. subst m'.
    apply base_loaded in H; [|left; auto]. destruct H as (v & a & -> & La & _).
    exists c, ts, enc, (firstn 65 (skipn 11 bs)), v, a. split; [reflexivity|]. split; [exact La|]. split; [exact T|].
    split; [|split; [intros; contradiction|intros _; exact Hv]].
    intros _. rewrite firstn_length, skipn_length. lia.
Qed.
