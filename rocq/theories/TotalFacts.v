(** * Well-formed messages can always be serialized (C12, C60) *)
From Verif Require Export ErrFacts TaskFacts TripFacts.

Lemma mapM_total {A B} (f : A -> result B) l : Forall (fun x => exists y, f x = Ok y) l -> exists r, mapM f l = Ok r.
Proof.
  induction 1 as [|x l [y Hy] F (r & Hr)]; [exists []; reflexivity|]. exists (y :: r). cbn [mapM]. rewrite Hy. cbn [bind]. rewrite Hr. reflexivity.
Qed.
Lemma cont_total c a : cont_ok c a -> exists d, to_dict (VObj c a) = Ok d.
Proof. intros H. destruct (cont_slot _ _ H) as (d & _ & _ & D & _). eauto. Qed.
Lemma peer_total kvs : peer_ok kvs -> exists x, peer_serialize (VDict DPeer kvs) = Ok x.
Proof.
  intros [S C]. destruct (schema_get _ _ "node" S) as (kn & n & Hg & Hin & Ht); [cbn; auto|].
  destruct (C _ _ Hin Ht) as (a & -> & Ha). destruct (cont_total _ _ Ha) as [d D]. unfold peer_serialize. rewrite Hg, D. cbn [bind]. eauto.
Qed.
Lemma plain_total kd k w : (forall d an il, kd <> KMsg d an il) -> val_ok kd w -> exists x, ser_plain kd k w = Ok x.
Proof.
  intros Hkd Hok. destruct kd; cbn [val_ok ser_plain] in *; eauto.
  - destruct Hok as [->|(a & -> & Ha)]; [cbn; eauto|]. destruct (cont_total _ _ Ha) as [d D]. cbn [truthy]. rewrite D. eauto.
  - destruct Hok as (l & -> & Hl). cbn [py_iter]. rewrite collect_map. destruct (mapM_total peer_serialize l) as [r Hr].
    + eapply Forall_impl; [|exact Hl]. intros p (kvs & -> & Hp). apply peer_total, Hp.
    + rewrite Hr. cbn [bind]. eauto.
  - destruct Hok as (l & -> & Hl). rewrite collect_map. destruct (mapM_total to_dict l) as [r Hr].
    + eapply Forall_impl; [|exact Hl]. intros h (a & -> & Ha). apply cont_total, Ha.
    + rewrite Hr. cbn [bind]. eauto.
  - destruct Hok as [->|(a & -> & Ha)]; [cbn; eauto|]. apply cont_total, Ha.
  - destruct Hok as [->|(a & -> & Ha)]; [cbn; eauto|]. apply cont_total, Ha.
Qed.
Lemma slots_total_n n : forall c a, (rank c < n)%nat -> mok c a -> exists s, slots c a = Ok s.
Proof.
  induction n as [|n IH]; intros c a R M; [lia|]. pose proof (proj1 (mok_good c a) M) as [Hf Hg].
  rewrite slots_own by exact Hf.
  assert (F : Forall (fun kw => exists x, (do x <- ser_slot c (fst kw) (snd kw); Ok (fst kw, x)) = Ok x) a).
  { apply Forall_forall. intros [k w] Hin. cbn [fst snd]. destruct (Hg _ _ Hin) as [[_ Hv] Hm].
    assert (G : exists x, ser_slot c k w = Ok x).
    { unfold ser_slot, ser_slot_with. destruct (slot_kind c k) as [| |d an il| | | | | | | | | |] eqn:K; try (apply plain_total; [discriminate|exact Hv]).
      pose proof (rank_decreases _ _ _ _ _ K) as Rd.
      assert (One : forall m, one_ok d m -> exists x, ser_single wire d k m = Ok x).
      { intros m (ty & ts & enc & sig & b & -> & Hb). unfold ser_single. rewrite mcls_eqb_refl, wire_msg.
        destruct (IH d b ltac:(lia) Hb) as [s ->]. cbn [bind]. eauto. }
      destruct (Hm _ _ _ eq_refl) as [[-> ->]|[(-> & ty & ts & enc & sig & b & -> & Hb)|(-> & l & -> & _ & Hl)]]; [eauto| |].
      - destruct (One (VMsg d ty ts enc sig b)) as [x ->]; [exists ty, ts, enc, sig, b; auto|]. cbn [bind]. eauto.
      - rewrite collect_map. destruct (mapM_total (ser_single wire d k) l) as [r ->]; [|cbn [bind]; eauto].
        eapply Forall_impl; [|exact Hl]. exact One. }
    destruct G as [x ->]. cbn [bind]. eauto. }
  destruct (mapM_total _ _ F) as [r ->]. cbn [bind]. eauto.
Qed.
Lemma slots_total c a : mok c a -> exists s, slots c a = Ok s.
Proof. intros M. exact (slots_total_n FUEL c a (rank_bound c) M). Qed.

(** ** The checks of the three delicate classes *)
Lemma mok_nested c a k d : mok c a -> slot_kind c k = KMsg d false false ->
  exists ty ts enc sig b, attr_get_or_none k a = VMsg d ty ts enc sig b /\ mok d b.
Proof.
  intros M Hk. assert (Hin : In k (slot_names c)).
  { destruct (slot_kind_cases c k) as [H|H]; [rewrite Hk in H; apply (in_map fst) in H; exact H|rewrite (slot_kind_default _ _ H) in Hk; discriminate]. }
  pose proof (mok_slot c a k M Hin) as Hi. apply mok_good in M as [_ G]. destruct (G _ _ Hi) as [_ N].
  destruct (N _ _ _ Hk) as [(_ & E)|[(_ & ty & ts & enc & sig & b & E & Mb)|(E & _)]]; try discriminate E. eauto 10.
Qed.
Lemma verdict_err ty ts enc sig a e : mok MVerdictReportComputedTask a ->
  verdict_valid (VMsg MVerdictReportComputedTask ty ts enc sig a) = Err e -> e = EValidationError.
Proof.
  intros M. unfold verdict_valid. rewrite !(getattr_slot MVerdictReportComputedTask) by slots_in. cbn [bind].
  destruct (mok_nested _ _ "ack_report_computed_task" _ M eq_refl) as (y1 & t1 & e1 & s1 & b1 & -> & M1).
  destruct (mok_nested _ _ "force_report_computed_task" _ M eq_refl) as (y2 & t2 & e2 & s2 & b2 & -> & M2).
  rewrite (getattr_slot MAckReportComputedTask) by slots_in. rewrite (getattr_slot MForceReportComputedTask) by slots_in. cbn [bind].
  destruct (mok_nested _ _ "report_computed_task" _ M1 eq_refl) as (y3 & t3 & e3 & s3 & b3 & -> & M3).
  destruct (mok_nested _ _ "report_computed_task" _ M2 eq_refl) as (y4 & t4 & e4 & s4 & b4 & -> & M4).
  rewrite !(getattr_slot MReportComputedTask) by slots_in. cbn [bind].
  destruct (mok_nested _ _ "task_to_compute" _ M3 eq_refl) as (y5 & t5 & e5 & s5 & b5 & -> & M5).
  destruct (mok_nested _ _ "task_to_compute" _ M4 eq_refl) as (y6 & t6 & e6 & s6 & b6 & -> & M6).
  cbn [val_eq msg_eq]. destruct (slots_total _ _ M5) as [q5 ->], (slots_total _ _ M6) as [q6 ->]. cbn [bind].
  destruct (slots_total _ _ M) as [q Hq]. unfold msg_repr. rewrite Hq. cbn [bind].
  destruct (_ && _); cbn [bind]; [destruct (py_eq q6 q5)|]; cbn [bind]; congruence.
Qed.
Lemma hash_err E m e : (forall c ty ts enc sig a, m = VMsg c ty ts enc sig a -> c <> MHello /\ exists s, slots c a = Ok s) ->
  (exists c ty ts enc sig a, m = VMsg c ty ts enc sig a) -> short_hash E m = Err e -> is_message_error e = true.
Proof.
  intros H (c & ty & ts & enc & sig & a & ->). destruct (H _ _ _ _ _ _ eq_refl) as [N [s Hs]]. cbn [short_hash]. unfold payload_of. rewrite Hs. cbn [bind].
  destruct (dumps s) as [p|e0] eqn:D; cbn [bind].
  - intros Q. apply hash_payload_err in Q; [subst; reflexivity|]. intros; contradiction.
  - intros Q. assert (e0 = e) by congruence. subst. unfold dumps in D. destruct (Cbor.enc s); [discriminate|]. assert (e = ESerializationError) by congruence. subst. reflexivity.
Qed.
Lemma ctd_id a name : mok MTaskToCompute a -> id_name name ->
  exists x t, ctd_item (attr_get_or_none "compute_task_def" a) name = Ok x /\ str_of x = Some t.
Proof.
  intros M Hn. destruct (slots_total _ _ M) as [s Hs]. destruct (slots_rt FUEL _ _ (rank_bound _) M s Hs) as (a' & _ & _ & _ & AR & _).
  destruct (ctd_ids a a' name M AR Hn) as (d & x & t & E & H1 & H2 & _). rewrite E. eauto.
Qed.
Lemma taskid_err ty ts enc sig a name e b : mok MTaskToCompute a -> id_name name -> decode_hex (attr_get_or_none "requestor_id" a) = Ok b ->
  validate_taskid_key (VMsg MTaskToCompute ty ts enc sig a) name = Err e -> is_message_error e = true.
Proof.
  intros M Hn Hb. unfold validate_taskid_key. rewrite !(getattr_slot MTaskToCompute) by slots_in. cbn [bind].
  destruct (ctd_id a name M Hn) as (x & t & -> & Ht). cbn [bind]. unfold check_id_hex_seed. rewrite Hb. cbn [bind]. unfold check_id_seed.
  rewrite (py_uuid_text _ _ Ht). cbn [py_uuid]. destruct (uuid_parse t); cbn [bind]; [destruct (_ =? _)|]; intros Q; try discriminate Q;
    assert (e = EFieldError (u name)) by congruence; subst; reflexivity.
Qed.
Lemma ttc_err E ty ts enc sig a e k b : mok MTaskToCompute a ->
  decode_hex (attr_get_or_none "requestor_ethereum_public_key" a) = Ok k -> decode_hex (attr_get_or_none "requestor_id" a) = Ok b ->
  vet E MTaskToCompute (VMsg MTaskToCompute ty ts enc sig a) = Err e -> is_message_error e = true.
Proof.
  intros M Hk Hb. unfold vet. cbn [is_task_message is_valid bind]. destruct (verify_ethsig _ _) as [[]|e0] eqn:V; cbn [bind].
  - unfold validate_taskid. destruct (validate_taskid_key _ "task_id") as [[]|e0] eqn:T; cbn [bind].
    + intros Q. eapply taskid_err; [exact M|right; reflexivity|exact Hb|exact Q].
    + intros Q. assert (e0 = e) by congruence. subst. eapply taskid_err; [exact M|left; reflexivity|exact Hb|exact T].
  - intros Q. assert (e0 = e) by congruence. subst. unfold verify_ethsig in V. rewrite !(getattr_slot MTaskToCompute) in V by slots_in. cbn [bind] in V.
    destruct (mok_nested _ _ "want_to_compute_task" _ M eq_refl) as (y1 & t1 & e1 & s1 & b1 & E1 & M1). rewrite E1, Hk in V. cbn [bind] in V.
    destruct (short_hash E _) as [h|e0] eqn:H; cbn [bind] in V.
    + apply ecdsa_verify_err in V as [->| ->]; reflexivity.
    + assert (e0 = e) by congruence. subst. eapply hash_err; [| |exact H]; [|eauto 10]. intros c ty' ts' enc' sig' a' Q'.
      assert (c = MWantToComputeTask /\ a' = b1) as [-> ->] by (split; congruence). split; [discriminate|apply slots_total, M1].
Qed.
(** exactly what about the contents of those three classes can let another exception out *)
Definition hex_ok (v : pyval) : Prop := exists b, decode_hex v = Ok b.
Definition careless (c : mcls) (a : attrs_t) : Prop :=
  match c with
  | MSubtaskResultsAccepted => ~ exists z, attr_get_or_none "payment_ts" a = VInt z /\ - 2 ^ 1023 < z
  | MVerdictReportComputedTask => complete_attrs c a = false
  | MTaskToCompute => complete_attrs c a = false \/ ~ hex_ok (attr_get_or_none "requestor_ethereum_public_key" a) \/
                      ~ hex_ok (attr_get_or_none "requestor_id" a)
  | _ => False
  end.
Lemma vet_careless E c t enc sig a e : 1262304000 < t < 32819212800 -> loaded c a -> delicate c = true ->
  vet E c (VMsg c (VInt (type_of c)) (VInt t) enc sig a) = Err e -> is_message_error e = true \/ careless c a.
Proof.
  intros T L D V. destruct c; try discriminate D.
  - (* TTC *) destruct (complete_attrs MTaskToCompute a) eqn:C; [|right; left; exact C].
    destruct (decode_hex (attr_get_or_none "requestor_ethereum_public_key" a)) as [k|ek] eqn:H1.
    2:{ right. right. left. intros [b Hb]. congruence. }
    destruct (decode_hex (attr_get_or_none "requestor_id" a)) as [b|eb] eqn:H2.
    2:{ right. right. right. intros [b Hb]. congruence. }
    left. exact (ttc_err E _ _ _ _ a e k b (proj1 (loaded_ok _ _ L C)) H1 H2 V).
  - (* SRA *) destruct (attr_get_or_none "payment_ts" a) eqn:P; try (right; cbn [careless]; intros (z0 & Q & _); congruence).
    destruct (Z.ltb_spec (- 2 ^ 1023) z) as [Hz|Hz].
    2:{ right. cbn [careless]. intros (z0 & Q & Q'). rewrite P in Q. assert (z0 = z) by congruence. subst. lia. }
    left. unfold vet in V. cbn [is_task_message is_valid] in V. rewrite P in V. rewrite sra_valid_int in V; [|split; [lia|]|exact Hz].
    2:{ eapply Z.lt_trans; [apply T|reflexivity]. }
    destruct (_ && _); cbn [bind] in V; [discriminate|]. assert (e = EValidationError) by congruence. subst. reflexivity.
  - (* Verdict *) destruct (complete_attrs MVerdictReportComputedTask a) eqn:C; [|right; exact C]. left.
    unfold vet in V. cbn [is_task_message is_valid] in V. destruct (verdict_valid _) as [[]|e0] eqn:W; cbn [bind] in V; [discriminate|].
    assert (e0 = e) by congruence. subst. rewrite (verdict_err _ _ _ _ a e (proj1 (loaded_ok _ _ L C)) W). reflexivity.
Qed.

(** ** Showing messages *)
Definition field_only {A} (r : result A) : Prop := (exists x, r = Ok x) \/ exists f, r = Err (EFieldError f).
Lemma field_bind {A B} (r : result A) (f : A -> result B) : field_only r -> (forall x, r = Ok x -> field_only (f x)) -> field_only (bind r f).
Proof. intros [[x ->]|[e ->]] H; [apply H; reflexivity|right; exists e; reflexivity]. Qed.
Lemma mapM_field {A B} (f : A -> result B) l : Forall (fun x => field_only (f x)) l -> field_only (mapM f l).
Proof.
  induction 1 as [|x l H _ IH]; [left; exists []; reflexivity|]. cbn [mapM]. apply field_bind; [exact H|]. intros y _.
  apply field_bind; [exact IH|]. intros r _. left. eauto.
Qed.
Lemma plain_field kd c k w : (forall d an il, kd <> KMsg d an il) -> slot_kind c k = kd -> In k (slot_names c) -> loaded_init c k w -> loaded_val kd w -> field_only (ser_plain kd k w).
Proof.
  intros Hkd Hk Hin Hi [[->|[H|[-> T]]] _].
  - destruct kd; cbn [ser_plain truthy]; try (left; eauto; fail); cbn [py_iter].
    + (* KPeers *) exfalso. revert Hi. assert (Q : c = MPeers); [|subst c; intros Hi; apply Hi; reflexivity].
      clear - Hk Hin. destruct c; try reflexivity; exfalso; revert Hk; vm_compute in Hin; repeat (destruct Hin as [<-|Hin]; [vm_compute; discriminate|]); contradiction.
    + right. eauto.
  - left. apply plain_total; assumption.
  - cbn [ser_plain]. rewrite T. left. eauto.
Qed.
Lemma slots_field_n n : forall c a, (rank c < n)%nat -> loaded c a -> field_only (slots c a).
Proof.
  induction n as [|n IH]; intros c a R L; [lia|]. destruct L as [Hf Hv Hn]. rewrite slots_own by exact Hf.
  apply field_bind; [|intros; left; eauto]. apply mapM_field, Forall_forall. intros [k w] Hin. cbn [fst snd].
  assert (Hk : In k (slot_names c)) by (rewrite <- Hf; apply (in_map fst) in Hin; exact Hin).
  destruct (Hv _ _ Hin) as [Hi Hw]. apply field_bind; [|intros; left; eauto].
  unfold ser_slot, ser_slot_with. destruct (slot_kind c k) as [| |d an il| | | | | | | | | |] eqn:K; try (eapply plain_field; eauto; discriminate).
  pose proof (rank_decreases _ _ _ _ _ K) as Rd.
  assert (One : forall m, loaded_one loaded d m -> field_only (ser_single wire d k m)).
  { intros m (ty & ts & enc & sig & b & -> & _ & _ & _ & _ & Hb). unfold ser_single. rewrite mcls_eqb_refl, wire_msg.
    apply field_bind; [apply IH; [lia|exact Hb]|]. intros; left; eauto. }
  assert (None_ : field_only (if an then Ok (VTuple [VBool false; VNone]) else Err (EFieldError (u k)))) by (destruct an; [left|right]; eauto).
  destruct (Hn _ _ _ _ _ Hin K) as [->|[[-> _]|[[_ Hm]|(_ & l & -> & _ & Hl)]]]; try exact None_.
  - pose proof (One w Hm) as O. destruct Hm as (ty & ts & enc & sig & b & -> & _). apply field_bind; [exact O|]. intros; left; eauto.
  - rewrite collect_map. apply field_bind; [|intros; left; eauto]. apply mapM_field. eapply Forall_impl; [|exact Hl]. exact One.
Qed.
(** whatever was received, [slots()] fails with a FieldError only *)
Lemma slots_field c a : loaded c a -> field_only (slots c a).
Proof. exact (slots_field_n FUEL c a (rank_bound c)). Qed.
Lemma repr_loaded c ty ts enc sig a : loaded c a -> exists r, msg_repr (VMsg c ty ts enc sig a) = Ok r.
Proof. intros L. cbn [msg_repr]. destruct (slots_field c a L) as [[s ->]|[f ->]]; eauto. Qed.
