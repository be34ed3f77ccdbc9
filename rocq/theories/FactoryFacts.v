(** * Facts about the shipped factories (C67) *)
From Verif Require Export Factories TextFacts HonestFacts.

(** ** Clones *)
(** slot contents that building from [slots()] gives back as they were: plain slots hold
    no enum members, data structures are in the form they are loaded in *)
Definition val_kept (kd : skind) (w : pyval) : Prop :=
  match kd with
  | KPlain => deenum w = w
  | KNode | KHeader | KStats => match w with VObj c a => cont_wire c a | _ => True end
  | KPeers => forall kvs k c a, In (VDict DPeer kvs) (match w with VList l => l | _ => [] end) -> In (k, VObj c a) kvs -> cont_wire c a
  | KTasks => forall c a, In (VObj c a) (match w with VList l => l | _ => [] end) -> cont_wire c a
  | _ => True
  end.
Inductive kept (c : mcls) (a : attrs_t) : Prop :=
| kept_intro :
    (forall k w, In (k, w) a -> val_kept (slot_kind c k) w) ->
    (forall k w d an il ty ts enc sig b, In (k, w) a -> slot_kind c k = KMsg d an il ->
       In (VMsg d ty ts enc sig b) (match w with VList l => l | _ => [w] end) -> kept d b) ->
    kept c a.

Lemma cont_again c a : cont_ok c a -> cont_wire c a ->
  exists nk kw, to_dict (VObj c a) = Ok (VDict DPlain nk) /\ nk <> [] /\ kwargs_of nk = Ok kw /\ cnew c kw = Ok (VObj c a).
Proof.
  intros H W. destruct (container_rt (fun v => v) c a view_id H) as (l & a' & l' & H1 & H2 & H3 & H4 & H5 & H6 & H7).
  assert (G : gl (fun v => v) l = l). { unfold gl. rewrite <- (map_id l) at 2. apply map_ext. intros [k v]. reflexivity. }
  rewrite G in H3. rewrite (H7 W) in H3. exists (kvl l), (kwl l). unfold to_dict. rewrite H1. split; [reflexivity|]. split.
  - destruct l; [destruct c; discriminate|]. cbn. discriminate.
  - split; [|exact H3]. apply kwargs_of_kvl. rewrite H2. apply cslots_no_self.
Qed.
Lemma mapM_back (f g : pyval -> result pyval) l : forall r,
  (forall w x, In w l -> f w = Ok x -> g x = Ok w) -> mapM f l = Ok r -> mapM g r = Ok l.
Proof.
  induction l as [|w l IH]; intros r H M; cbn [mapM] in M; [apply Ok_inj in M; subst; reflexivity|].
  apply bind_ok in M as (x & Hx & M). apply bind_ok in M as (r0 & Hr & M). apply Ok_inj in M. subst r. cbn [mapM].
  rewrite (H w x) by (try left; auto). cbn [bind]. rewrite (IH r0); [reflexivity| |exact Hr]. intros w0 x0 Hin. apply H. right. exact Hin.
Qed.
Lemma dict_set_get k v kvs : dict_get k kvs = Some v -> dict_set k v kvs = kvs.
Proof.
  induction kvs as [|[k0 v0] kvs IH]; cbn [dict_get dict_set]; [discriminate|]. destruct (py_eq k0 k); [congruence|]. intros H. rewrite IH by exact H. reflexivity.
Qed.
Lemma peer_again kvs x : peer_ok kvs -> (forall k c a, In (k, VObj c a) kvs -> cont_wire c a) -> peer_serialize (VDict DPeer kvs) = Ok x ->
  dict_new DPeer x = Ok (VDict DPeer kvs).
Proof.
  intros [S C] W Hx. pose proof (dinv_keys _ _ (schema_dinv _ _ S)) as Hk. pose proof (schema_dinv _ _ S) as [N _].
  destruct (schema_get _ _ "node" S) as (kn & n & Hg & Hin & Ht); [cbn; auto|].
  destruct (C _ _ Hin Ht) as (a & -> & Ha).
  destruct (cont_again _ _ Ha (W _ _ _ Hin)) as (nk & kw & D1 & D3 & D4 & D5).
  unfold peer_serialize in Hx. rewrite Hg, D1 in Hx. cbn [bind] in Hx. apply Ok_inj in Hx. subst x.
  unfold skey. rewrite dict_set_present; [|exact N|exact Hk|apply (schema_has _ _ _ S); cbn; auto].
  unfold dict_new. rewrite (dset_all_ext DPeer _ kvs).
  - change (dict_new DPeer (VDict DPlain kvs) = Ok (VDict DPeer kvs)). apply dict_new_again; [discriminate|exact S|].
    intros _ k v Hi Htk. destruct (C _ _ Hi Htk) as (? & -> & _). reflexivity.
  - assert (F : forall l, (forall kv, In kv l -> In kv kvs) ->
      Forall2 (fun kv kw0 : pyval * pyval => forall s, dset DPeer s (fst kv) (snd kv) = dset DPeer s (fst kw0) (snd kw0))
       (map (fun kv => (fst kv, if ustr_eqb (text (fst kv)) (u "node") then VDict DPlain nk else snd kv)) l) l); [|apply F; auto].
    induction l as [|[k v] l IH]; intros Hl; cbn [map]; constructor; [|apply IH; intros; apply Hl; right; assumption]. intros s. cbn [fst snd].
    destruct (ustr_eqb (text k) (u "node")) eqn:Q; [|reflexivity]. apply ustr_eqb_eq in Q.
    rewrite Forall_forall in Hk. pose proof (Hl (k, v) (or_introl eq_refl)) as Hi. destruct (Hk _ Hi) as [t Htk]. cbn [fst] in Htk. rewrite (text_of _ _ Htk) in Q. subst t.
    rewrite (schema_unique _ _ _ _ _ _ _ S Hi Hin Htk Ht). unfold dset.
    assert (PE : py_eq k (skey "node") = true) by (rewrite (py_eq_both k (skey "node") _ _ Htk eq_refl); apply ustr_eqb_refl).
    rewrite PE, D4. cbn [bind]. change (node_new kw) with (cnew CNode kw). rewrite D5. reflexivity.
Qed.
Lemma file_again kvs : file_ok kvs -> deser_file (VDict DFileInfo kvs) = Ok (VDict DFileInfo kvs).
Proof.
  intros [S C]. destruct (schema_get _ _ "category" S) as (k & v & Hg & Hin & Ht); [cbn; auto|].
  destruct (C _ _ Hin Ht) as (s & -> & Hs). unfold deser_file. rewrite Hg.
  assert (EC : enum_call EnFileCategory (VEnum EnFileCategory s) = Some (VEnum EnFileCategory s)).
  { cbn [members In] in Hs. repeat (destruct Hs as [<-|Hs]; [reflexivity|]). easy. }
  rewrite EC, (dict_set_get _ _ _ Hg). apply dict_new_again; [discriminate|exact S|discriminate].
Qed.
Lemma plain_again kd k w x : (forall d an il, kd <> KMsg d an il) -> val_ok kd w -> val_kept kd w -> ser_plain kd k w = Ok x ->
  deser_plain kd k x = Ok w.
Proof.
  intros Hkd Hok W Hx. destruct kd; cbn [val_ok val_kept ser_plain deser_plain] in *.
  - apply Ok_inj in Hx. subst x. change (enum_value w) with (deenum w). rewrite W. reflexivity.
  - apply Ok_inj in Hx. subst x. destruct Hok as [->|(s & -> & Hs)]; [reflexivity|]. cbn [enum_value is_none]. rewrite (enum_call_str _ _ Hs). reflexivity.
  - exfalso. eapply Hkd; reflexivity.
  - destruct Hok as [->|(a & -> & Ha)]; [cbn in Hx; apply Ok_inj in Hx; subst; reflexivity|].
    destruct (cont_again _ _ Ha W) as (nk & kw & D1 & D3 & D4 & D5). cbn [truthy] in Hx. rewrite D1 in Hx. apply Ok_inj in Hx. subst x.
    assert (T : truthy (VDict DPlain nk) = true) by (destruct nk; [congruence|reflexivity]). rewrite T.
    change (validate_dict (u k) (VDict DPlain nk)) with (Ok tt). cbn [bind]. unfold cnew_star, star_star. rewrite D4. cbn [bind]. exact D5.
  - destruct Hok as (l & -> & Hl). cbn [py_iter] in Hx. rewrite collect_map in Hx. apply bind_ok in Hx as (r & Hr & Hx). apply Ok_inj in Hx. subst x.
    rewrite (mapM_back peer_serialize (dict_new DPeer) l r); [reflexivity| |exact Hr]. intros p y Hin Hy. rewrite Forall_forall in Hl.
    destruct (Hl p Hin) as (kvs & -> & Hp). apply peer_again; [exact Hp| |exact Hy]. intros k0 c a Hka. eapply W; eauto.
  - destruct Hok as (l & -> & Hl). rewrite collect_map in Hx. apply bind_ok in Hx as (r & Hr & Hx). apply Ok_inj in Hx. subst x.
    rewrite (mapM_back to_dict (fun h => do _ <- validate_dict (u "tasks") h; cnew_star CTaskHeader h) l r); [reflexivity| |exact Hr].
    intros p y Hin Hy. rewrite Forall_forall in Hl. destruct (Hl p Hin) as (a & -> & Ha).
    destruct (cont_again _ _ Ha (W _ _ Hin)) as (nk & kw & D1 & D3 & D4 & D5). rewrite D1 in Hy. apply Ok_inj in Hy. subst y.
    change (validate_dict (u "tasks") (VDict DPlain nk)) with (Ok tt). cbn [bind]. unfold cnew_star, star_star. rewrite D4. cbn [bind]. exact D5.
  - destruct Hok as [->|(a & -> & Ha)]; [cbn in Hx; apply Ok_inj in Hx; subst; reflexivity|].
    destruct (cont_again _ _ Ha W) as (nk & kw & D1 & D3 & D4 & D5). rewrite D1 in Hx. apply Ok_inj in Hx. subst x. cbn [is_none].
    unfold cnew_star, star_star. rewrite D4. cbn [bind]. exact D5.
  - apply Ok_inj in Hx. subst x. destruct Hok as [->|(z & -> & Hz)]; [reflexivity|]. cbn [enum_value is_none].
    change (validate_integer (u k) (VInt z)) with (Ok tt). cbn [bind]. replace (z <? 0) with false by (symmetry; apply Z.ltb_ge; lia). reflexivity.
  - apply Ok_inj in Hx. subst x. destruct Hok as (z & -> & Hz). cbn [enum_value].
    assert (V : validate_positive_integer (u k) (VInt z) = Ok tt).
    { unfold validate_positive_integer. cbn. replace (z <? 1) with false by (symmetry; apply Z.ltb_ge; lia). reflexivity. }
    rewrite V. reflexivity.
  - apply Ok_inj in Hx. subst x. destruct Hok as (kvs & -> & S). cbn [enum_value]. apply dict_new_again; [discriminate|exact S|discriminate].
  - apply Ok_inj in Hx. subst x. destruct Hok as (z & ->). reflexivity.
  - destruct Hok as [->|(a & -> & Ha)]; [cbn in Hx; apply Ok_inj in Hx; subst; reflexivity|].
    destruct (cont_again _ _ Ha W) as (nk & kw & D1 & D3 & D4 & D5). rewrite D1 in Hx. apply Ok_inj in Hx. subst x. cbn [is_none].
    unfold cnew_star, star_star. rewrite D4. cbn [bind]. exact D5.
  - apply Ok_inj in Hx. subst x. destruct Hok as (l & -> & Hl). cbn [enum_value py_iter].
    rewrite (mapM_back (fun f => Ok f) deser_file l l); [reflexivity| |clear; induction l as [|a l IH]; cbn [mapM bind]; [reflexivity|rewrite IH; reflexivity]].
    intros f y Hin Hy. apply Ok_inj in Hy. subst y. rewrite Forall_forall in Hl. destruct (Hl f Hin) as (kvs & -> & Hf). apply file_again. exact Hf.
Qed.

(** the slots as [slots()] returns them, before any trip over the wire *)
Definition again_n (n : nat) (c : mcls) (a : attrs_t) : Prop := forall s, slots c a = Ok s -> load_attrs n c s = Ok a.
Lemma single_again n d an k x ty ts enc sig b : again_n n d b -> post_init d b = b -> ser_single wire d k (VMsg d ty ts enc sig b) = Ok x ->
  deser_single (load_attrs n) d an k x = Ok (VMsg d ty ts enc sig b) /\ truthy x = true.
Proof.
  intros H P Hx. unfold ser_single in Hx. rewrite mcls_eqb_refl, wire_msg in Hx. apply bind_ok in Hx as (s & Hs & Hx). apply Ok_inj in Hx. subst x.
  split; [|reflexivity]. unfold deser_single. cbn [is_none py_iter]. rewrite (H s Hs). cbn [bind as_field_error]. rewrite P. reflexivity.
Qed.
Lemma mok_post c a : mok c a -> post_init c a = a.
Proof. intros M. apply mok_good in M as [F G]. apply post_init_ok; [exact F|]. intros k w Hin. apply (G k w Hin). Qed.
Lemma slot_again n c k w x : In k (slot_names c) -> slot_good c k w -> val_kept (slot_kind c k) w ->
  (forall d an il ty ts enc sig b, slot_kind c k = KMsg d an il -> In (VMsg d ty ts enc sig b) (match w with VList l => l | _ => [w] end) -> mok d b -> again_n n d b) ->
  ser_slot c k w = Ok x -> deser_slot (load_attrs n) c k x = Ok w.
Proof.
  intros Hin [[Hi Hv] Hm] W H Hx. destruct (slot_kind c k) as [|e|d an il| | | | | | | | | |] eqn:Hk.
  3:{ specialize (Hm _ _ _ eq_refl). unfold ser_slot, ser_slot_with, deser_slot in *. rewrite Hk in *.
      destruct Hm as [[-> ->]|[(-> & ty & ts & enc & sig & b & -> & Hb)|(-> & l & -> & Hne & Hl)]].
      - apply Ok_inj in Hx. subst x. reflexivity.
      - apply bind_ok in Hx as (r & Hr & Hx). apply Ok_inj in Hx. subst x.
        destruct (single_again n d an k r ty ts enc sig b) as [D T]; [eapply H; [reflexivity|left; reflexivity|exact Hb]|apply mok_post; exact Hb|exact Hr|].
        unfold deser_message. cbn [py_iter]. change (py_eq (VBool false) (VBool false)) with true. cbn [negb]. rewrite andb_false_r. cbn [truthy].
        rewrite andb_false_r. exact D.
      - rewrite collect_map in Hx. apply bind_ok in Hx as (r & Hr & Hx). apply Ok_inj in Hx. subst x.
        assert (r <> []). { intros ->. apply mapM_ok in Hr. inversion Hr. congruence. }
        unfold deser_message. cbn [py_iter]. destruct r as [|x0 r]; [congruence|]. cbn [truthy].
        change (py_eq (VBool true) (VBool true)) with true. cbn [negb andb].
        rewrite (mapM_back (ser_single wire d k) (deser_single (load_attrs n) d an k) l (x0 :: r)); [reflexivity| |exact Hr].
        intros w y Hw Hy. rewrite Forall_forall in Hl. destruct (Hl w Hw) as (ty & ts & enc & sig & b & -> & Hb).
        apply single_again; [eapply H; [reflexivity|exact Hw|exact Hb]|apply mok_post; exact Hb|exact Hy]. }
  all: rewrite <- Hk in Hv, W; assert (Hnk : forall d an il, slot_kind c k <> KMsg d an il) by (intros; rewrite Hk; discriminate);
    unfold ser_slot, ser_slot_with in Hx; unfold deser_slot; rewrite Hk in *; eapply plain_again; [intros; discriminate|eassumption|eassumption|exact Hx].
Qed.
Lemma dict_of_pairs l : NoDup (map fst l) -> py_dict_of (pairs l) = Some (kv_of_attrs l).
Proof. intros N. unfold pairs, py_dict_of. cbn [py_iter]. apply (dict_of_pairs_fresh l []). exact N. Qed.
Lemma slots_again n : forall c a, (rank c < n)%nat -> mok c a -> kept c a -> again_n n c a.
Proof.
  induction n as [|n IH]; intros c a Hr Hm [K1 K2] s Hs; [lia|].
  pose proof (proj1 (mok_good c a) Hm) as [Hf Hg]. pose proof (slot_names_NoDup c) as N.
  apply (slots_inv c a s Hf) in Hs as (l & -> & Hl). pose proof (Forall2_fsts _ _ _ Hl) as Hfl.
  cbn [load_attrs]. unfold load_slots. rewrite dict_of_pairs by (rewrite Hfl, Hf; exact N).
  assert (M : c <> MStartSessionResponse -> mapM (load_slot (load_attrs n) c (kv_of_attrs l)) (slot_names c) = Ok a).
  { intros _. rewrite <- Hf, mapM_map. apply mapM_ok.
    assert (Nl : NoDup (map fst l)) by (rewrite Hfl, Hf; exact N).
    assert (G : forall a0 l0, (forall kw, In kw a0 -> In kw a) -> (forall kx, In kx l0 -> In kx l) ->
      Forall2 (fun kw kx => fst kx = fst kw /\ ser_slot c (fst kw) (snd kw) = Ok (snd kx)) a0 l0 ->
      Forall2 (fun kw kw' => load_slot (load_attrs n) c (kv_of_attrs l) (fst kw) = Ok kw') a0 a0).
    { intros a0 l0 Ia Il F. induction F as [|[k w] [k' x] a0 l0 [H1 H2] F IHF]; constructor.
      - cbn [fst snd] in *. subst k'. unfold load_slot. rewrite dict_get_kv, (attr_get_nodup k x l Nl) by (apply Il; left; reflexivity).
        pose proof (Ia (k, w) (or_introl eq_refl)) as Hin.
        rewrite (slot_again n c k w x); [reflexivity| | | | |exact H2].
        + rewrite <- Hf. apply (in_map fst) in Hin. exact Hin.
        + apply Hg. exact Hin.
        + apply K1. exact Hin.
        + intros d an il ty ts enc sig b Hk Hb Mb. apply IH; [apply rank_decreases in Hk; lia|exact Mb|]. eapply K2; eauto.
      - apply IHF; [intros; apply Ia; right; assumption|intros; apply Il; right; assumption]. }
    apply (G a l); auto. }
  destruct (mcls_eq_dec c MStartSessionResponse) as [->|Hc].
  - f_equal. destruct a as [|[k w] [|]]; try discriminate. cbn in Hf. assert (k = "conn_id"%string) as -> by congruence.
    destruct (Hg "conn_id"%string w) as [[Hi _] _]; [left; reflexivity|]. cbn in Hi. subst. reflexivity.
  - rewrite (M Hc). destruct c; try reflexivity. congruence.
Qed.
Lemma wire_kept : forall n c a, (rank c < n)%nat -> mok c a -> mwire c a -> kept c a.
Proof.
  induction n as [|n IH]; intros c a Hr Hm W; [lia|]. destruct W as [W1 W2]. constructor.
  - intros k w Hin. specialize (W1 k w Hin). destruct (slot_kind c k); cbn [val_wire val_kept] in *; try exact I; try exact W1.
    + apply W1.
    + intros kvs k0 c0 a0 H1 H2. destruct (W1 kvs k0 _ H1 H2) as [_ Q]. exact Q.
  - intros k w d an il ty ts enc sig b Hin Hk Hb. specialize (W2 k w d an il Hin Hk). destruct (W2 ty ts enc sig b Hb) as (_ & _ & _ & _ & Wb).
    apply IH; [apply rank_decreases in Hk; lia| |exact Wb]. destruct Hm as [_ _ Hn]. destruct (Hn k w d an il Hin Hk) as [[-> _]|[(_ & t1 & t2 & t3 & t4 & b0 & -> & Mb)|(_ & l & -> & _ & Hl)]].
    + destruct Hb as [Hb|[]]. discriminate Hb.
    + destruct Hb as [Hb|[]]. assert (b0 = b) by congruence. subst. exact Mb.
    + rewrite Forall_forall in Hl. destruct (Hl _ Hb) as (t1 & t2 & t3 & t4 & b0 & Eb & Mb). assert (b0 = b) by congruence. subst. exact Mb.
Qed.

Lemma clone_exact E now c ty ts enc sig v a s : mok c a -> kept c a -> slots c a = Ok s ->
  clone_message E now (VMsg c ty ts enc sig (full c v a)) None None = Ok (VMsg c ty ts enc sig (full c (our_version E) a)).
Proof.
  intros M K Hs. pose proof (proj1 (mok_good c a) M) as [Hf _]. unfold clone_message. rewrite (slots_full c v a Hf), Hs. cbn [bind].
  unfold msg_init. rewrite (slots_again FUEL c a (rank_bound c) M K s Hs). cbn [bind apply_kwargs]. rewrite (mok_post c a M). f_equal. f_equal.
  destruct c; try reflexivity. cbn [set_version full]. pose proof (version_not_slot MHello) as Nv. rewrite <- Hf in Nv.
  rewrite (proj2 (attr_get_none _ _) Nv). apply attr_set_last. exact Nv.
Qed.
(** what was received and is complete is cloned as it is; a Hello gets the own version *)
Lemma clone_received E now bs decf ct pub E' now' c ty ts enc sig a0 :
  deserialize E now bs decf ct pub = Ok (VMsg c ty ts enc sig a0) -> complete (VMsg c ty ts enc sig a0) = true ->
  exists a1, clone_message E' now' (VMsg c ty ts enc sig a0) None None = Ok (VMsg c ty ts enc sig a1) /\
    (c <> MHello -> a1 = a0) /\ (c = MHello -> a1 = attr_set "_version" (VStr (our_version E')) a0).
Proof.
  intros H C. destruct (received_ok _ _ _ _ _ _ _ _ _ _ _ _ H C) as (t & e' & s' & v & a & -> & -> & -> & -> & -> & M & W & _).
  destruct (slots_total c a M) as [s Hs]. exists (full c (our_version E') a).
  split; [exact (clone_exact _ _ _ _ _ _ _ _ _ _ M (wire_kept FUEL c a (rank_bound c) M W) Hs)|].
  split.
  - intros N. rewrite !full_not_hello by exact N. reflexivity.
  - intros ->. cbn [full]. pose proof (version_not_slot MHello) as Nv. pose proof (proj1 (mok_good MHello a) M) as [Hf _]. rewrite <- Hf in Nv.
    clear -Nv. induction a as [|[k w] a IH]; [reflexivity|]. cbn [map fst In] in Nv. cbn [app attr_set].
    destruct (k =? "_version")%string eqn:Q; [apply String.eqb_eq in Q; tauto|]. rewrite <- IH by tauto. reflexivity.
Qed.
Lemma clone_mok E now c ty ts enc sig v a : mok c a -> kept c a ->
  clone_message E now (VMsg c ty ts enc sig (full c v a)) None None = Ok (VMsg c ty ts enc sig (full c (our_version E) a)).
Proof. intros M K. destruct (slots_total c a M) as [s Hs]. eapply clone_exact; eassumption. Qed.

(** a made-up id passes for its node and for no other *)
Lemma fake_uuid_checks rnd b : 0 <= rnd < 2 ^ 128 ->
  exists id, fake_golem_uuid rnd (VStr (hexlify b)) = Ok id /\
    (forall seed, check_id_seed (VStr id) seed = Ok (be_dec (firstn 6 seed) =? be_dec (firstn 6 b))) /\
    exists z, py_uuid (VStr id) = Ok z /\ z / 2 ^ 48 = rnd / 2 ^ 48.
Proof.
  intros R. unfold fake_golem_uuid. rewrite node_of_hex_seed. cbn [bind]. pose proof (seed_to_node_range b) as N. unfold seed_to_node in N. change SEED_LEN with 6%nat in N.
  set (n := be_dec (firstn 6 b)) in *. eexists. split; [reflexivity|].
  assert (Rz : 0 <= rnd / 2 ^ 48 * 2 ^ 48 + n < 2 ^ 128).
  { assert (0 <= rnd / 2 ^ 48 < 2 ^ 80) by (split; [apply Z.div_pos; lia|apply Z.div_lt_upper_bound; [lia|]; rewrite <- Z.pow_add_r by lia; exact (proj2 R)]).
    split; [nia|]. change (2 ^ 128) with (2 ^ 80 * 2 ^ 48). nia. }
  split.
  - intros seed. rewrite (check_id_seed_str _ seed Rz). unfold uuid_node. rewrite Z.add_comm, Z_mod_plus_full, Z.mod_small by exact N. reflexivity.
  - eexists. unfold py_uuid. rewrite (uuid_parse_str _ Rz). split; [reflexivity|].
    rewrite Z.add_comm, Z.div_add by lia. rewrite (Z.div_small n) by exact N. reflexivity.
Qed.
Lemma fake_version_parses a b c : 0 <= a -> 0 <= b -> 0 <= c ->
  ver_parse (fake_version a b c) = Some {| v_major := a; v_minor := b; v_patch := c; v_pre := []; v_build := [] |}.
Proof.
  intros Ha Hb Hc. apply ver_parse_iff. set (v := {| v_major := a; v_minor := b; v_patch := c; v_pre := []; v_build := [] |}).
  assert (E : fake_version a b c = ver_print v) by (unfold ver_print, fake_version, v; cbn [v_major v_minor v_patch v_pre v_build ver_ids]; rewrite !app_nil_r; reflexivity).
  rewrite E. apply spells_print. repeat split; cbn; try assumption; constructor.
Qed.
(** a message with another timestamp is another message *)
Lemma timestamp_hash E c t enc sig a t' m' h : crypto_ok (cr E) ->
  override_timestamp (VMsg c (VInt (type_of c)) (VInt t) enc sig a) (VInt t') = Ok m' -> t' <> t ->
  short_hash E (VMsg c (VInt (type_of c)) (VInt t) enc sig a) = Ok h -> short_hash E m' = Ok h ->
  sha1_collision E (VMsg c (VInt (type_of c)) (VInt t) enc sig a) m'.
Proof.
  intros HC Ho N H1 H2. cbn [override_timestamp] in Ho. apply Ok_inj in Ho. subst m'.
  destruct (hash_binds E c t enc sig a c t' enc sig a h HC H1 H2) as (d1 & d2 & p1 & p2 & s1 & s2 & D1 & S1 & P1 & D2 & S2 & P2 & Hh & [X|X]).
  - exists (d1 ++ p1), (d2 ++ p2). repeat split; try assumption.
    + exists c, (VInt (type_of c)), (VInt t), enc, sig, a, d1, p1. unfold payload_of. rewrite S1. auto.
    + exists c, (VInt (type_of c)), (VInt t'), enc, sig, a, d2, p2. unfold payload_of. rewrite S2. auto.
  - destruct X as (_ & X & _). congruence.
Qed.
