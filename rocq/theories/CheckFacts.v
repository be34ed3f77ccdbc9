(** * What the checks of a class raise for a message that was read *)
From Verif Require Export AcceptFacts.
From Verif Require Import TotalFacts CleanFacts.

(** ** The rules *)
Definition a_number (v : pyval) : Prop := (exists b, v = VBool b) \/ (exists z, v = VInt z) \/ exists b, v = VFloat b.
(** two TaskToCompute messages with the same header and signature *)
Definition same_envelope (m n : pyval) (a b : attrs_t) : Prop :=
  exists ty ts enc sig ty' ts' enc' sig', m = VMsg MTaskToCompute ty ts enc sig a /\ n = VMsg MTaskToCompute ty' ts' enc' sig' b /\
    py_eq ty ty' = true /\ py_eq ts ts' = true /\ py_eq sig sig' = true.
(** both have the same envelope, and one has no WantToComputeTask *)
Definition incomparable (m n : pyval) : Prop :=
  exists a b, same_envelope m n a b /\
    (attr_get_or_none "want_to_compute_task" a = VNone \/ attr_get_or_none "want_to_compute_task" b = VNone).
(** what the check of the id under [name] raises *)
Inductive bad_id (a : attrs_t) (name : string) : exn -> Prop :=
| Bi_missing : attr_get_or_none "compute_task_def" a = VNone -> bad_id a name ETypeError
| Bi_requestor e : attr_get_or_none "compute_task_def" a <> VNone -> decode_hex (attr_get_or_none "requestor_id" a) = Err e -> bad_id a name e
| Bi_other r : attr_get_or_none "compute_task_def" a <> VNone -> decode_hex (attr_get_or_none "requestor_id" a) = Ok r -> ~ id_of a name ->
    bad_id a name (EFieldError (u name)).
(** the signature in [a] over the hash of [w] is [k]'s *)
Definition eth_signed (E : env) (a : attrs_t) (w : pyval) (k : bytes) : Prop :=
  exists h sg, short_hash E w = Ok h /\ attr_get_or_none "ethsig" a = VBytes sg /\ recover (cr E) sg (sha3_256 (cr E) h) = Some (x04 :: k).
Inductive bad_task (E : env) (a : attrs_t) : exn -> Prop :=
| Bt_want : attr_get_or_none "want_to_compute_task" a = VNone -> bad_task E a EAttributeError
| Bt_key e : attr_get_or_none "want_to_compute_task" a <> VNone ->
    decode_hex (attr_get_or_none "requestor_ethereum_public_key" a) = Err e -> bad_task E a e
  (* more than 2 ^ 64 bytes *)
| Bt_huge k : let w := attr_get_or_none "want_to_compute_task" a in w <> VNone ->
    decode_hex (attr_get_or_none "requestor_ethereum_public_key" a) = Ok k -> (forall h, short_hash E w <> Ok h) -> bad_task E a ESerializationError
| Bt_length k h : let w := attr_get_or_none "want_to_compute_task" a in
    decode_hex (attr_get_or_none "requestor_ethereum_public_key" a) = Ok k -> short_hash E w = Ok h -> List.length k <> 64%nat -> bad_task E a EInvalidKeys
| Bt_signed k h : let w := attr_get_or_none "want_to_compute_task" a in
    decode_hex (attr_get_or_none "requestor_ethereum_public_key" a) = Ok k -> short_hash E w = Ok h -> List.length k = 64%nat ->
    ~ eth_signed E a w k -> bad_task E a EInvalidSignature
| Bt_task_id k e : let w := attr_get_or_none "want_to_compute_task" a in
    decode_hex (attr_get_or_none "requestor_ethereum_public_key" a) = Ok k -> List.length k = 64%nat -> eth_signed E a w k ->
    bad_id a "task_id" e -> bad_task E a e
| Bt_subtask_id k e : let w := attr_get_or_none "want_to_compute_task" a in
    decode_hex (attr_get_or_none "requestor_ethereum_public_key" a) = Ok k -> List.length k = 64%nat -> eth_signed E a w k ->
    id_of a "task_id" -> bad_id a "subtask_id" e -> bad_task E a e.
Inductive unchecked (E : env) : pyval -> exn -> Prop :=
| Uc_payment ty ts enc sig a : ~ a_number (attr_get_or_none "payment_ts" a) -> unchecked E (VMsg MSubtaskResultsAccepted ty ts enc sig a) ETypeError
| Uc_payment_bool ty ts enc sig a b : attr_get_or_none "payment_ts" a = VBool b ->
    unchecked E (VMsg MSubtaskResultsAccepted ty ts enc sig a) EValidationError
| Uc_payment_int ty t enc sig a z : attr_get_or_none "payment_ts" a = VInt z -> ~ t - 900 <= z <= t -> ~ unfloatable z ->
    unchecked E (VMsg MSubtaskResultsAccepted ty (VInt t) enc sig a) EValidationError
| Uc_payment_huge ty ts enc sig a z : attr_get_or_none "payment_ts" a = VInt z -> unfloatable z ->
    unchecked E (VMsg MSubtaskResultsAccepted ty ts enc sig a) EOverflowError
| Uc_payment_float ty t enc sig a b : attr_get_or_none "payment_ts" a = VFloat b -> ~ recent t (fl_of_bits b) ->
    unchecked E (VMsg MSubtaskResultsAccepted ty (VInt t) enc sig a) EValidationError
| Uc_rejected ty ts enc sig a : let m := VMsg MSubtaskResultsRejected ty ts enc sig a in ~ checked E m -> unchecked E m EValidationError
| Uc_verdict_part ty ts enc sig a k : let m := VMsg MVerdictReportComputedTask ty ts enc sig a in
    In k ["ack_report_computed_task"; "force_report_computed_task"]%string -> (forall w, ~ via m k w) -> unchecked E m EAttributeError
| Uc_verdict_want ty ts enc sig a w w' : let m := VMsg MVerdictReportComputedTask ty ts enc sig a in
    via m "ack_report_computed_task" w -> via m "force_report_computed_task" w' -> incomparable w' w ->
    unchecked E m (EFieldError (u "want_to_compute_task"))
| Uc_verdict ty ts enc sig a w w' : let m := VMsg MVerdictReportComputedTask ty ts enc sig a in
    via m "ack_report_computed_task" w -> via m "force_report_computed_task" w' -> ~ incomparable w' w -> ~ ttc_equal w' w ->
    unchecked E m EValidationError
| Uc_task ty ts enc sig a e : bad_task E a e -> unchecked E (VMsg MTaskToCompute ty ts enc sig a) e.

(** ** Proofs *)
Lemma plain_fine kd k w : (forall d an il, kd <> KMsg d an il) -> kd <> KTasks -> kd <> KPeers -> loaded_val kd w -> exists x, ser_plain kd k w = Ok x.
Proof.
  intros Hkd N1 N2 [[->|[H|[-> T]]] _].
  - destruct kd; try (exfalso; eapply Hkd; reflexivity); try congruence; cbn [ser_plain truthy]; eauto.
  - apply plain_total; assumption.
  - cbn [ser_plain]. rewrite T. eauto.
Qed.
Lemma mapM_fails {A B} (f : A -> result B) l e : mapM f l = Err e -> exists x, In x l /\ f x = Err e.
Proof.
  induction l as [|x l IH]; cbn [mapM]; [discriminate|]. destruct (f x) as [y|e0] eqn:F; cbn [bind].
  - destruct (mapM f l) as [r|e1]; cbn [bind]; [discriminate|]. intros H. assert (e1 = e) by congruence. subst e1.
    destruct (IH eq_refl) as (x' & Hin & Hx). exists x'. split; [right; exact Hin|exact Hx].
  - intros H. exists x. split; [left; reflexivity|congruence].
Qed.
Lemma want_slots a : loaded MWantToComputeTask a -> exists s, slots MWantToComputeTask a = Ok s.
Proof.
  intros [Hf Hv _]. rewrite slots_own by exact Hf. destruct (mapM _ a) as [r|e] eqn:M; cbn [bind]; [eauto|]. exfalso.
  apply mapM_fails in M as ([k w] & Hin & H). cbn [fst snd] in H.
  assert (Hk : In k (slot_names MWantToComputeTask)) by (rewrite <- Hf; apply (in_map fst) in Hin; exact Hin).
  destruct (Hv _ _ Hin) as [_ Hw]. assert (G : exists x, ser_slot MWantToComputeTask k w = Ok x); [|destruct G as [x G]; rewrite G in H; discriminate H].
  unfold ser_slot, ser_slot_with. clear H Hin. vm_compute in Hk.
  repeat (destruct Hk as [<-|Hk]; [|]); try contradiction;
    match goal with |- context [slot_kind ?c ?k] => let x := eval vm_compute in (slot_kind c k) in change (slot_kind c k) with x in * end;
    cbv iota; apply plain_fine; try discriminate; exact Hw.
Qed.
Lemma ttc_slots a : loaded MTaskToCompute a ->
  (attr_get_or_none "want_to_compute_task" a <> VNone /\ exists s, slots MTaskToCompute a = Ok s) \/
  (attr_get_or_none "want_to_compute_task" a = VNone /\ slots MTaskToCompute a = Err (EFieldError (u "want_to_compute_task"))).
Proof.
  intros [Hf Hv Hn]. rewrite slots_own by exact Hf.
  assert (ND : NoDup (map fst a)) by (rewrite Hf; apply slot_names_NoDup).
  assert (O : forall k w, In (k, w) a -> k <> "want_to_compute_task"%string -> exists x, ser_slot MTaskToCompute k w = Ok x).
  { intros k w Hin N. assert (Hk : In k (slot_names MTaskToCompute)) by (rewrite <- Hf; apply (in_map fst) in Hin; exact Hin).
    destruct (Hv _ _ Hin) as [_ Hw]. unfold ser_slot, ser_slot_with. clear Hin. vm_compute in Hk.
    repeat (destruct Hk as [<-|Hk]; [|]); try contradiction; try congruence;
      match goal with |- context [slot_kind ?c ?k] => let x := eval vm_compute in (slot_kind c k) in change (slot_kind c k) with x in * end;
      cbv iota; apply plain_fine; try discriminate; exact Hw. }
  assert (Hi : In "want_to_compute_task"%string (map fst a)) by (rewrite Hf; slots_in).
  destruct (attr_get_some _ _ Hi) as (v & Hg & Hin). unfold attr_get_or_none. rewrite Hg.
  assert (W : (v <> VNone /\ exists x, ser_slot MTaskToCompute "want_to_compute_task" v = Ok x) \/
              (v = VNone /\ ser_slot MTaskToCompute "want_to_compute_task" v = Err (EFieldError (u "want_to_compute_task")))).
  { unfold ser_slot, ser_slot_with. destruct (Hn _ _ _ _ _ Hin eq_refl) as [->|[[-> Q]|[[_ Hm]|(Q & _)]]]; try discriminate Q.
    - right. split; reflexivity.
    - left. destruct Hm as (y1 & y2 & y3 & y4 & b & -> & _ & _ & _ & _ & Lb). split; [discriminate|].
      change (slot_kind MTaskToCompute "want_to_compute_task") with (KMsg MWantToComputeTask false false). cbv iota.
      unfold ser_single. rewrite mcls_eqb_refl, wire_msg. destruct (want_slots b Lb) as [s ->]. cbn [bind]. eauto. }
  assert (U : forall w, In ("want_to_compute_task"%string, w) a -> w = v).
  { intros w Hw. assert (Q : attr_get "want_to_compute_task" a = Some w) by (apply attr_get_nodup; assumption). congruence. }
  destruct W as [[N [x X]]|[-> X]].
  - left. split; [exact N|]. destruct (mapM _ a) as [r|e] eqn:M; cbn [bind]; [eauto|]. exfalso.
    apply mapM_fails in M as ([k w] & Hin' & H). cbn [fst snd] in H.
    destruct (string_dec k "want_to_compute_task") as [->|Nk]; [rewrite (U _ Hin') in H|destruct (O _ _ Hin' Nk) as [z Z]; rewrite Z in H; discriminate H].
    rewrite X in H. discriminate H.
  - right. split; [reflexivity|]. destruct (mapM _ a) as [r|e] eqn:M; cbn [bind].
    + exfalso. apply mapM_ok in M. clear - M Hin X. induction M as [|[k w] y l r Hxy _ IH]; [destruct Hin|]. destruct Hin as [Q|Hin]; [|exact (IH Hin)].
      inversion Q; subst. cbn [fst snd] in Hxy. rewrite X in Hxy. discriminate Hxy.
    + apply mapM_fails in M as ([k w] & Hin' & H). cbn [fst snd] in H.
      destruct (string_dec k "want_to_compute_task") as [->|Nk]; [rewrite (U _ Hin') in H|destruct (O _ _ Hin' Nk) as [z Z]; rewrite Z in H; discriminate H].
      rewrite X in H. cbn [bind] in H. congruence.
Qed.
Lemma read_loaded c s a : pure s = true -> read c s a -> loaded c a.
Proof. intros P R. apply read_is_load in R as (a0 & H & ->); [|exact P]. eapply load_attrs_loaded; eassumption. Qed.
Lemma dumps_or v : (exists b, dumps v = Ok b) \/ dumps v = Err ESerializationError.
Proof. unfold dumps. destruct (Cbor.enc v); eauto. Qed.
Lemma want_hash E ty ts enc sig b : loaded MWantToComputeTask b -> let w := VMsg MWantToComputeTask ty ts enc sig b in
  (exists h, short_hash E w = Ok h) \/ short_hash E w = Err ESerializationError.
Proof.
  intros L. cbn [short_hash]. unfold payload_of. destruct (want_slots b L) as [s ->]. cbn [bind].
  destruct (dumps_or s) as [[p ->]| ->]; cbn [bind]; [|auto]. unfold hash_payload. destruct (dumps_or (VList [ty; ts])) as [[h ->]| ->]; cbn [bind]; eauto.
Qed.
Lemma loaded_slot c a k : loaded c a -> In k (slot_names c) -> loaded_val (slot_kind c k) (attr_get_or_none k a) /\
  forall d an il, slot_kind c k = KMsg d an il -> attr_get_or_none k a = VNone \/ loaded_nested loaded d an il (attr_get_or_none k a).
Proof.
  intros [Hf Hv Hn] Hk. rewrite <- Hf in Hk. destruct (attr_get_some _ _ Hk) as (w & Hg & Hin). unfold attr_get_or_none. rewrite Hg.
  split; [apply (Hv _ _ Hin)|]. intros d an il K. exact (Hn _ _ _ _ _ Hin K).
Qed.
(** the ids of a received definition are texts *)
Lemma ctd_text a name : loaded MTaskToCompute a -> id_name name -> attr_get_or_none "compute_task_def" a = VNone \/
  exists kvs x t, attr_get_or_none "compute_task_def" a = VDict DCTD kvs /\ dict_get (skey name) kvs = Some x /\ str_of x = Some t.
Proof.
  intros L Hn. destruct (loaded_slot _ _ "compute_task_def" L ltac:(slots_in)) as [[[V|[V|[V _]]] _] _]; [auto| |discriminate V].
  right. cbn [val_ok] in V. change (slot_kind MTaskToCompute "compute_task_def") with KCtd in V. cbn [val_ok] in V. destruct V as (kvs & Q & Sc).
  destruct (schema_get DCTD kvs name Sc) as (k & x & G1 & G2 & G3); [destruct Hn as [-> | ->]; cbn; tauto|].
  assert (exists t, str_of x = Some t) as [t Ht].
  { destruct Sc as [_ Sc]. specialize (Sc _ _ _ G2 G3). unfold validated in Sc. unfold dvalidator in Sc.
    destruct Hn as [-> | ->]; cbn in Sc; unfold validate_varchar in Sc; destruct (str_of x); eauto; discriminate. }
  eauto 8.
Qed.
Lemma id_fate ty ts enc sig a name : loaded MTaskToCompute a -> id_name name -> let r := validate_taskid_key (VMsg MTaskToCompute ty ts enc sig a) name in
  (r = Ok tt /\ id_of a name) \/ exists e, r = Err e /\ bad_id a name e.
Proof.
  intros L Hn r. pose proof (id_exact ty ts enc sig a name) as X. fold r in X. destruct r as [[]|e] eqn:R; [left; split; [reflexivity|apply X; reflexivity]|].
  right. exists e. split; [reflexivity|]. unfold r, validate_taskid_key in R. rewrite !(getattr_slot MTaskToCompute) in R by slots_in. cbn [bind] in R.
  destruct (ctd_text a name L Hn) as [Q|(kvs & x & t & Q & G & Ht)].
  { rewrite Q in R. cbn [ctd_item bind] in R. assert (e = ETypeError) by congruence. subst. apply Bi_missing, Q. }
  assert (N : attr_get_or_none "compute_task_def" a <> VNone) by (rewrite Q; discriminate).
  rewrite Q in R. cbn [ctd_item] in R. rewrite G in R. cbn [bind] in R. unfold check_id_hex_seed in R.
  destruct (decode_hex (attr_get_or_none "requestor_id" a)) as [seed|e0] eqn:D; cbn [bind] in R.
  2:{ assert (e0 = e) by congruence. subst. apply Bi_requestor; assumption. }
  unfold check_id_seed in R. rewrite (py_uuid_text _ _ Ht) in R. cbn [py_uuid] in R.
  assert (e = EFieldError (u name)).
  { destruct (uuid_parse t); cbn [bind] in R; [destruct (_ =? _) in R|]; congruence. }
  subst e. eapply Bi_other; [exact N|exact D|]. intros I. apply X in I. discriminate I.
Qed.
Lemma bad_id_sound ty ts enc sig a name e : loaded MTaskToCompute a -> id_name name -> bad_id a name e ->
  validate_taskid_key (VMsg MTaskToCompute ty ts enc sig a) name = Err e.
Proof.
  intros L Hn B. destruct (id_fate ty ts enc sig a name L Hn) as [[_ I]|(e' & -> & B')].
  - exfalso. inversion B as [Q|e0 _ Q|r _ Q N]; subst; [| |exact (N I)]; destruct I as (seed & d & kvs & x & t & z & H1 & H2 & _); congruence.
  - f_equal. inversion B as [Q|e0 N Q|r N Q I]; inversion B' as [Q'|e1 N' Q'|r' N' Q' I']; subst; congruence.
Qed.

Lemma task_fate E ty ts enc sig a : loaded MTaskToCompute a -> let r := vet E MTaskToCompute (VMsg MTaskToCompute ty ts enc sig a) in
  r = Ok tt \/ exists e, r = Err e /\ bad_task E a e.
Proof.
  intros L. unfold vet. cbn [is_task_message is_valid bind]. unfold verify_ethsig. rewrite !(getattr_slot MTaskToCompute) by slots_in. cbn [bind].
  destruct (loaded_slot _ _ "want_to_compute_task" L ltac:(slots_in)) as [_ N]. specialize (N _ _ _ eq_refl).
  destruct (attr_get_or_none "want_to_compute_task" a) eqn:W; try (right; exists EAttributeError; split; [reflexivity|apply Bt_want; exact W]; fail);
    try (exfalso; destruct N as [N|[[N _]|[[_ (? & ? & ? & ? & ? & N & _)]|(N & _)]]]; discriminate N).
  assert (NW : attr_get_or_none "want_to_compute_task" a <> VNone) by (rewrite W; discriminate).
  destruct N as [N|[[N _]|[[_ (y1 & y2 & y3 & y4 & b & N & _ & _ & _ & _ & Lb)]|(N & _)]]]; try discriminate N. rewrite N in *. clear N.
  destruct (decode_hex (attr_get_or_none "requestor_ethereum_public_key" a)) as [k|e] eqn:K; cbn [bind].
  2:{ right. exists e. split; [reflexivity|]. apply Bt_key; assumption. }
  destruct (want_hash E y1 y2 y3 y4 b Lb) as [[h H]|H]; rewrite H; cbn [bind].
  2:{ right. exists ESerializationError. split; [reflexivity|]. eapply Bt_huge; [exact NW|exact K|]. rewrite W, H. discriminate. }
  assert (HW : short_hash E (attr_get_or_none "want_to_compute_task" a) = Ok h) by (rewrite W; exact H).
  destruct (ecdsa_verify (cr E) (VBytes k) (attr_get_or_none "ethsig" a) h) as [[]|e] eqn:V; cbn [bind].
  - apply ecdsa_verify_ok in V as (Lk & sg & Q & R). assert (ES : eth_signed E a (attr_get_or_none "want_to_compute_task" a) k) by (exists h, sg; auto).
    unfold validate_taskid. destruct (id_fate ty ts enc sig a "task_id" L (or_introl eq_refl)) as [[-> I]|(e & -> & B)]; cbn [bind].
    + destruct (id_fate ty ts enc sig a "subtask_id" L (or_intror eq_refl)) as [[-> I']|(e & -> & B)]; [auto|].
      right. exists e. split; [reflexivity|]. eapply Bt_subtask_id; eassumption.
    + right. exists e. split; [reflexivity|]. eapply Bt_task_id; eassumption.
  - right. exists e. split; [reflexivity|]. destruct (Nat.eq_dec (List.length k) 64) as [Lk|Lk].
    + assert (e = EInvalidSignature).
      { unfold ecdsa_verify, blen in V. rewrite Lk in V. change (Z.of_nat 64 =? 64) with true in V. cbv iota in V.
        destruct (attr_get_or_none "ethsig" a); try congruence. destruct (recover _ _ _); [|congruence]. destruct (bytes_eqb _ _); congruence. }
      subst e. eapply Bt_signed; [exact K|exact HW|exact Lk|]. intros (h' & sg & H' & Q & R). assert (h' = h) by congruence. subst h'.
      assert (G : ecdsa_verify (cr E) (VBytes k) (attr_get_or_none "ethsig" a) h = Ok tt) by (apply ecdsa_verify_ok; eauto). congruence.
    + assert (e = EInvalidKeys).
      { unfold ecdsa_verify, blen in V. destruct (Z.eqb_spec (Z.of_nat (List.length k)) 64) as [Q|Q]; [lia|congruence]. }
      subst e. eapply Bt_length; eassumption.
Qed.
Lemma eth_verified E a w k h : short_hash E w = Ok h -> List.length k = 64%nat -> eth_signed E a w k ->
  ecdsa_verify (cr E) (VBytes k) (attr_get_or_none "ethsig" a) h = Ok tt.
Proof. intros H L (h' & sg & H' & Q & R). assert (h' = h) by congruence. subst h'. apply ecdsa_verify_ok. eauto. Qed.
(** the rules exclude each other *)
Lemma bad_id_unique a name e e' : bad_id a name e -> bad_id a name e' -> e = e'.
Proof. intros B B'. inversion B as [Q|e0 N Q|r N Q I]; inversion B' as [Q'|e1 N' Q'|r' N' Q' I']; subst; congruence. Qed.
Lemma bad_id_not a name e : bad_id a name e -> ~ id_of a name.
Proof.
  intros B I. inversion B as [Q|e0 _ Q|r _ Q N]; subst; [| |exact (N I)]; destruct I as (seed & d & kvs & x & t & z & H1 & H2 & _); congruence.
Qed.
Lemma bad_task_unique E a e e' : bad_task E a e -> bad_task E a e' -> e = e'.
Proof.
  assert (NW : forall h, short_hash E (attr_get_or_none "want_to_compute_task" a) = Ok h -> attr_get_or_none "want_to_compute_task" a <> VNone).
  { intros h H Q. rewrite Q in H. discriminate H. }
  assert (SW : forall k, eth_signed E a (attr_get_or_none "want_to_compute_task" a) k -> exists h, short_hash E (attr_get_or_none "want_to_compute_task" a) = Ok h).
  { intros k (h & sg & H & _). eauto. }
  intros B B'.
  inversion B as [W|e0 W K|k w W K H|k h w K H Lk|k h w K H Lk S|k e0 w K Lk S I|k e0 w K Lk S I I2];
  inversion B' as [W'|e1 W' K'|k' w' W' K' H'|k' h' w' K' H' Lk'|k' h' w' K' H' Lk' S'|k' e1 w' K' Lk' S' I'|k' e1 w' K' Lk' S' I' I2']; subst;
    try reflexivity; try congruence; try subst w; try subst w';
    repeat match goal with K1 : decode_hex ?x = Ok ?k, K2 : decode_hex ?x = Ok ?k' |- _ => assert (k' = k) by congruence; subst k'; clear K2 end;
    repeat match goal with S : eth_signed E a _ _ |- _ => let h := fresh "h" in destruct (SW _ S) as [h ?]; revert S end; intros;
    try (exfalso; eauto; fail); try (exfalso; eapply NW; eassumption);
    try match goal with B : bad_id ?a ?n _, I : id_of ?a ?n |- _ => exfalso; exact (bad_id_not _ _ _ B I) end;
    try (eapply bad_id_unique; eassumption); try congruence.
Qed.
Lemma bad_task_not E ty ts enc sig a e : bad_task E a e -> ~ checked E (VMsg MTaskToCompute ty ts enc sig a).
Proof.
  intros B C. inversion C as [c0 ? ? ? ? ? Ns| | | | |? ? ? ? ? k' h' sg w' m Hw Hh Hk Lk' Hs Hr I1 I2']; subst.
  { apply Ns. unfold special. auto. }
  destruct Hw as (c0 & y1 & y2 & y3 & y4 & b0 & Q & W'). assert (b0 = a) by (unfold m in Q; congruence). subst b0 w'. clear Q m.
  assert (S' : eth_signed E a (attr_get_or_none "want_to_compute_task" a) k') by (exists h', sg; auto).
  inversion B as [W|e0 W K|k w W K H|k h w K H Lk|k h w K H Lk S|k e0 w K Lk S I|k e0 w K Lk S I I2]; subst; try subst w.
  - rewrite W in Hh. discriminate Hh.
  - congruence.
  - exact (H _ Hh).
  - congruence.
  - apply S. assert (k = k') by congruence. subst. exact S'.
  - exact (bad_id_not _ _ _ I I1).
  - exact (bad_id_not _ _ _ I2 I2').
Qed.

Lemma holds_unique m k w w' : holds m k w -> holds m k w' -> w = w'.
Proof. intros (? & ? & ? & ? & ? & ? & -> & <-) (? & ? & ? & ? & ? & ? & Q & <-). inversion Q. reflexivity. Qed.
Lemma via_unique m k w w' : via m k w -> via m k w' -> w = w'.
Proof.
  intros (x & y & H1 & H2 & H3) (x' & y' & H1' & H2' & H3'). assert (x' = x) by (eapply holds_unique; eassumption). subst.
  assert (y' = y) by (eapply holds_unique; eassumption). subst. eapply holds_unique; eassumption.
Qed.
Lemma unchecked_unique E m e e' : unchecked E m e -> unchecked E m e' -> e = e'.
Proof.
  intros U U'. inversion U as [? ? ? ? ? P|? ? ? ? ? b P|? ? ? ? ? z P W F|? ? ? ? ? z P F|? ? ? ? ? b P W|? ? ? ? ? m0 C|? ? ? ? ? k m0 K N|? ? ? ? ? w w' m0 V V' I|? ? ? ? ? w w' m0 V V' I Q|? ? ? ? ? ? B]; subst; try subst m0;
  inversion U' as [? ? ? ? ? P'|? ? ? ? ? b' P'|? ? ? ? ? z' P' W' F'|? ? ? ? ? z' P' F'|? ? ? ? ? b' P' W'|? ? ? ? ? m0' C'|? ? ? ? ? k' m0' K' N'|? ? ? ? ? v v' m0' X X' I'|? ? ? ? ? v v' m0' X X' I' Q'|? ? ? ? ? ? B']; subst; try subst m0';
    try reflexivity; try congruence;
    try (exfalso; match goal with H : ~ a_number _ |- _ => apply H end; unfold a_number; rewrite ?P, ?P'; eauto; fail);
    try (exfalso; assert (z' = z) by congruence; subst z'; contradiction);
    try (exfalso; destruct K as [<-|[<-|[]]]; eapply N; eassumption); try (exfalso; destruct K' as [<-|[<-|[]]]; eapply N'; eassumption);
    try (exfalso; assert (v = w) by (eapply via_unique; eassumption); assert (v' = w') by (eapply via_unique; eassumption); subst; contradiction).
  eapply bad_task_unique; eassumption.
Qed.
Lemma incomparable_not m n : incomparable m n -> (forall a, (exists ty ts enc sig, m = VMsg MTaskToCompute ty ts enc sig a \/ n = VMsg MTaskToCompute ty ts enc sig a) -> loaded MTaskToCompute a) -> ~ ttc_equal m n.
Proof.
  intros (a & b & (y1 & y2 & y3 & y4 & z1 & z2 & z3 & z4 & -> & -> & _) & I) L [[Q _]|(? & ? & ? & ? & a' & ? & ? & ? & ? & b' & s & s' & Q & Q' & _ & _ & _ & S & S' & _)]; [discriminate Q|].
  assert (a' = a) by congruence. assert (b' = b) by congruence. subst a' b'.
  destruct I as [I|I].
  - destruct (ttc_slots a) as [[N _]|[_ N]]; [apply L; eauto 8|contradiction|congruence].
  - destruct (ttc_slots b) as [[N _]|[_ N]]; [apply L; eauto 8|contradiction|congruence].
Qed.

Lemma verdict_want c s a k d an : pure s = true -> read c s a -> slot_kind c k = KMsg d an false -> (forall w, kept c k w = w) -> c <> MStartSessionResponse ->
  d = MAckReportComputedTask \/ d = MForceReportComputedTask -> forall ty ts enc sig,
  ((do x <- Ok (attr_get_or_none k a); do y <- getattr "report_computed_task" x; getattr "task_to_compute" y) = Err EAttributeError /\
   forall w, ~ via (VMsg c ty ts enc sig a) k w) \/
  exists x y w, attr_get_or_none k a = x /\ getattr "report_computed_task" x = Ok y /\ getattr "task_to_compute" y = Ok w /\ none_or_ttc w /\
    via (VMsg c ty ts enc sig a) k w /\ forall ty ts enc sig b, w = VMsg MTaskToCompute ty ts enc sig b -> loaded MTaskToCompute b.
Proof.
  intros Pu R K Q N D ty ts enc sig. pose proof (read_loaded _ _ _ Pu R) as L.
  destruct (verdict_chain c s a k d an R K Q N D ty ts enc sig) as [[[e H] NV]|(x & y & w & A1 & A2 & A3 & A4 & A5)].
  - left. split; [|exact NV]. rewrite H. f_equal. cbn [bind] in H.
    destruct (read_msg _ _ _ k _ _ R K Q N) as [A|(y1 & y2 & y3 & y4 & b & s1 & A & R1)]; rewrite A in H; [cbn in H; congruence|].
    assert (G : getattr "report_computed_task" (VMsg d y1 y2 y3 y4 b) = Ok (attr_get_or_none "report_computed_task" b) /\
      (attr_get_or_none "report_computed_task" b = VNone \/ exists z1 z2 z3 z4 e s', attr_get_or_none "report_computed_task" b = VMsg MReportComputedTask z1 z2 z3 z4 e /\ read MReportComputedTask s' e)).
    { destruct D as [-> | ->]; (split; [apply getattr_slot; slots_in|]); eapply read_msg; try eassumption; try reflexivity; discriminate. }
    destruct G as (G & [B|(z1 & z2 & z3 & z4 & e1 & s2 & B & R2)]); rewrite G, B in H; cbn [bind] in H; [cbn in H; congruence|].
    rewrite (getattr_slot MReportComputedTask) in H by slots_in. discriminate H.
  - right. exists x, y, w. repeat (split; [assumption|]). split; [apply A5; reflexivity|].
    intros y1 y2 y3 y4 b ->.
    assert (Nest : forall d0 v c0 k0 a0 an0, loaded c0 a0 -> slot_kind c0 k0 = KMsg d0 an0 false -> attr_get_or_none k0 a0 = v ->
      v = VNone \/ exists z1 z2 z3 z4 b0, v = VMsg d0 z1 z2 z3 z4 b0 /\ loaded d0 b0).
    { intros d0 v c0 k0 a0 an0 L0 K0 <-. destruct (loaded_slot c0 a0 k0 L0 (msg_slot_name _ _ _ _ _ K0)) as [_ H]. destruct (H _ _ _ K0) as [V|[[V _]|[[_ V]|(V & _)]]]; auto; [|discriminate V].
      destruct V as (z1 & z2 & z3 & z4 & b0 & V & _ & _ & _ & _ & Lb). right. eauto 8. }
    destruct (Nest d _ c k a an L K A1) as [X|(z1 & z2 & z3 & z4 & b1 & X & L1)]; rewrite X in A2; [discriminate A2|].
    assert (G : getattr "report_computed_task" (VMsg d z1 z2 z3 z4 b1) = Ok (attr_get_or_none "report_computed_task" b1) /\
       (y = VNone \/ exists z1 z2 z3 z4 b0, y = VMsg MReportComputedTask z1 z2 z3 z4 b0 /\ loaded MReportComputedTask b0)).
    { assert (G : getattr "report_computed_task" (VMsg d z1 z2 z3 z4 b1) = Ok (attr_get_or_none "report_computed_task" b1)) by (destruct D as [-> | ->]; apply getattr_slot; slots_in).
      split; [exact G|]. rewrite G in A2. apply Ok_inj in A2. destruct D as [-> | ->]; eapply Nest; try eassumption; reflexivity. }
    destruct G as [_ [->|(w1 & w2 & w3 & w4 & b2 & -> & L2)]]; [discriminate A3|].
    rewrite (getattr_slot MReportComputedTask) in A3 by slots_in. apply Ok_inj in A3.
    destruct (Nest MTaskToCompute _ _ "task_to_compute"%string _ _ L2 eq_refl A3) as [V|(v1 & v2 & v3 & v4 & b3 & V & L3)]; [discriminate V|].
    assert (b3 = b) by congruence. subst b3. exact L3.
Qed.
Lemma ttc_compare w w' : none_or_ttc w -> none_or_ttc w' ->
  (forall ty ts enc sig b, w = VMsg MTaskToCompute ty ts enc sig b -> loaded MTaskToCompute b) ->
  (forall ty ts enc sig b, w' = VMsg MTaskToCompute ty ts enc sig b -> loaded MTaskToCompute b) ->
  (val_eq w w' = Ok true /\ ttc_equal w w') \/ (val_eq w w' = Ok false /\ ~ ttc_equal w w' /\ ~ incomparable w w') \/
  (val_eq w w' = Err (EFieldError (u "want_to_compute_task")) /\ incomparable w w').
Proof.
  intros N N' L L'. pose proof (val_eq_ttc w w' N N') as X.
  destruct (val_eq w w') as [[|]|e] eqn:V.
  - left. split; [reflexivity|apply X; reflexivity].
  - right. left. split; [reflexivity|]. split; [intros Q; apply X in Q; discriminate Q|].
    intros (a & b & (y1 & y2 & y3 & y4 & z1 & z2 & z3 & z4 & -> & -> & P1 & P2 & P3) & I). cbn [val_eq msg_eq] in V.
    rewrite mcls_eqb_refl, P1, P2, P3 in V. cbn [andb] in V.
    destruct (ttc_slots a (L _ _ _ _ _ eq_refl)) as [[W [s S]]|[W S]]; rewrite S in V; cbn [bind] in V; [|discriminate V].
    destruct (ttc_slots b (L' _ _ _ _ _ eq_refl)) as [[W' [s' S']]|[W' S']]; rewrite S' in V; cbn [bind] in V; [|discriminate V].
    destruct I; contradiction.
  - right. right. destruct N as [->|(y1 & y2 & y3 & y4 & a & ->)], N' as [->|(z1 & z2 & z3 & z4 & b & ->)]; try discriminate V.
    cbn [val_eq msg_eq] in V. rewrite mcls_eqb_refl in V. cbn [andb] in V.
    destruct (py_eq y1 z1) eqn:P1; [|discriminate V]. destruct (py_eq y2 z2) eqn:P2; [|discriminate V]. destruct (py_eq y4 z4) eqn:P3; [|discriminate V]. cbn [andb] in V.
    assert (SE : same_envelope (VMsg MTaskToCompute y1 y2 y3 y4 a) (VMsg MTaskToCompute z1 z2 z3 z4 b) a b) by (exists y1, y2, y3, y4, z1, z2, z3, z4; auto 8).
    destruct (ttc_slots a (L _ _ _ _ _ eq_refl)) as [[W [s S]]|[W S]]; rewrite S in V; cbn [bind] in V.
    + destruct (ttc_slots b (L' _ _ _ _ _ eq_refl)) as [[W' [s' S']]|[W' S']]; rewrite S' in V; cbn [bind] in V; [discriminate V|].
      split; [congruence|]. exists a, b. auto.
    + split; [congruence|]. exists a, b. auto.
Qed.

Theorem vet_fate E c ty t enc sig s a : pure s = true -> read c s a -> 1262304000 < t < 32819212800 -> let m := VMsg c ty (VInt t) enc sig a in
  (vet E c m = Ok tt /\ checked E m) \/ exists e, vet E c m = Err e /\ unchecked E m e /\ ~ checked E m.
Proof.
  intros Pu R T m. pose proof (vet_exact E c ty t enc sig s a R T) as V. cbv zeta in V. fold m in V.
  destruct (vet E c m) as [[]|e] eqn:X; [left; split; [reflexivity|apply V; reflexivity]|].
  right. exists e. split; [reflexivity|]. assert (NC : ~ checked E m) by (intros C; apply V in C; discriminate C). split; [|exact NC].
  assert (D : special c) by (destruct c; try discriminate X; unfold special; auto).
  assert (Ht : 0 < t < 2 ^ 52) by (change (2 ^ 52) with 4503599627370496; lia).
  unfold vet, m in X. destruct D as [->|[->|[->| ->]]]; cbn [is_task_message] in X.
  - assert (X' : sra_valid (attr_get_or_none "payment_ts" a) (VInt t) = Err e) by (cbn [is_valid] in X; destruct (sra_valid _ _) as [[]|]; cbn [bind] in X; congruence).
    clear X. destruct (attr_get_or_none "payment_ts" a) as [|b|z|b| | | | | | | | | |] eqn:P;
      try (cbn in X'; assert (e = ETypeError) by congruence; subst e; apply Uc_payment; rewrite P; intros [[? Q]|[[? Q]|[? Q]]]; discriminate Q).
    + assert (X2 : sra_valid (VInt (if b then 1 else 0)) (VInt t) = Err e) by exact X'.
      destruct (sra_int_exact (if b then 1 else 0) t ltac:(lia)) as [[Q _]|[[Q _]|[Q U]]]; [congruence| |].
      * assert (e = EValidationError) by congruence. subst e. eapply Uc_payment_bool. exact P.
      * exfalso. revert U. unfold unfloatable. destruct b; apply Z.lt_nge; reflexivity.
    + destruct (sra_int_exact z t ltac:(lia)) as [[Q _]|[(Q & W & F)|[Q U]]]; [congruence| |]; rewrite Q in X'.
      * assert (e = EValidationError) by congruence. subst e. eapply Uc_payment_int; eassumption.
      * assert (e = EOverflowError) by congruence. subst e. eapply Uc_payment_huge; eassumption.
    + destruct (sra_float_exact t b Ht) as [[Q _]|[Q W]]; [congruence|]. assert (e = EValidationError) by congruence. subst e. eapply Uc_payment_float; eassumption.
  - assert (e = EValidationError).
    { apply (srr_error ty (VInt t) enc sig a e).
      - destruct (read_slot _ _ _ "reason" R) as (w & -> & H); [discriminate|slots_in|]. cbn [kept].
        destruct H as [->|[v H]]; [left; reflexivity|]. change (slot_kind MSubtaskResultsRejected "reason") with (KEnum EnSRR) in H.
        inversion H as [kd v0 w0 P| | |]; subst. inversion P; subst; [left; reflexivity|right; eauto].
      - destruct (read_msg _ _ _ "force_get_task_result_failed" _ _ R eq_refl ltac:(reflexivity) ltac:(discriminate)) as [->|(y1 & y2 & y3 & y4 & b & s' & -> & _)];
          [left; reflexivity|right; eauto 8].
      - destruct (is_valid _) as [[]|]; cbn [bind] in X; congruence. }
    subst e. apply Uc_rejected. exact NC.
  - assert (X' : verdict_valid (VMsg MVerdictReportComputedTask ty (VInt t) enc sig a) = Err e) by (cbn [is_valid] in X; destruct (verdict_valid _) as [[]|]; cbn [bind] in X; congruence).
    clear X. unfold verdict_valid in X'. rewrite !(getattr_slot MVerdictReportComputedTask) in X' by slots_in. cbn [bind] in X'.
    destruct (verdict_want _ _ _ "ack_report_computed_task" _ _ Pu R eq_refl ltac:(reflexivity) ltac:(discriminate) ltac:(auto) ty (VInt t) enc sig)
      as [[Q NV]|(x & y & w & A1 & A2 & A3 & A4 & A5 & A6)].
    { assert (e = EAttributeError).
      { cbn [bind] in Q. destruct (getattr "report_computed_task" _) as [y|]; cbn [bind] in Q, X'; [|congruence].
        destruct (getattr "task_to_compute" y); cbn [bind] in Q, X'; congruence. }
      subst e. eapply Uc_verdict_part; [left; reflexivity|exact NV]. }
    rewrite A1, A2 in X'. cbn [bind] in X'. rewrite A3 in X'. cbn [bind] in X'.
    destruct (verdict_want _ _ _ "force_report_computed_task" _ _ Pu R eq_refl ltac:(reflexivity) ltac:(discriminate) ltac:(auto) ty (VInt t) enc sig)
      as [[Q NV]|(x' & y' & w' & F1 & F2 & F3 & F4 & F5 & F6)].
    { assert (e = EAttributeError).
      { cbn [bind] in Q. destruct (getattr "report_computed_task" (attr_get_or_none "force_report_computed_task" a)) as [y'|]; cbn [bind] in Q, X'; [|congruence].
        destruct (getattr "task_to_compute" y'); cbn [bind] in Q, X'; congruence. }
      subst e. eapply Uc_verdict_part; [right; left; reflexivity|exact NV]. }
    rewrite F1, F2 in X'. cbn [bind] in X'. rewrite F3 in X'. cbn [bind] in X'.
    destruct (ttc_compare w' w F4 A4 F6 A6) as [[Q _]|[(Q & N1 & N2)|[Q I]]]; rewrite Q in X'; cbn [bind] in X'.
    + discriminate X'.
    + destruct (repr_loaded _ ty (VInt t) enc sig a (read_loaded _ _ _ Pu R)) as [r Hr]. rewrite Hr in X'. cbn [bind] in X'.
      assert (e = EValidationError) by congruence. subst e. eapply Uc_verdict; eassumption.
    + assert (e = EFieldError (u "want_to_compute_task")) by congruence. subst e. eapply Uc_verdict_want; eassumption.
  - destruct (task_fate E ty (VInt t) enc sig a (read_loaded _ _ _ Pu R)) as [Q|(e' & Q & B)]; unfold vet in Q; cbn [is_task_message] in Q; rewrite Q in X; [discriminate X|].
    assert (e' = e) by congruence. subst e'. apply Uc_task. exact B.
Qed.
(** a message that fails by a rule is not checked *)
Lemma checked_verdict E ty ts enc sig a : let m := VMsg MVerdictReportComputedTask ty ts enc sig a in checked E m -> exists w w',
  via m "ack_report_computed_task" w /\ via m "force_report_computed_task" w' /\ ttc_equal w' w.
Proof.
  intros m H. inversion H as [c0 ? ? ? ? ? Ns| | | |? ? ? ? ? ack ar at_ force fr ft m0 H1 H2 H3 H4 H5 H6 Q|]; subst.
  - exfalso. apply Ns. unfold special. auto.
  - exists at_, ft. split; [exists ack, ar; auto|]. split; [exists force, fr; auto|exact Q].
Qed.
Lemma checked_paid E ty t enc sig a : checked E (VMsg MSubtaskResultsAccepted ty (VInt t) enc sig a) ->
  (exists z, attr_get_or_none "payment_ts" a = VInt z /\ t - 900 <= z <= t) \/ (exists b, attr_get_or_none "payment_ts" a = VFloat b /\ recent t (fl_of_bits b)).
Proof.
  intros H. inversion H as [c0 ? ? ? ? ? Ns|? ? ? ? ? z P W|? ? ? ? ? b P W| | |]; subst; [|left; eauto|right; eauto].
  exfalso. apply Ns. unfold special. auto.
Qed.
Lemma unchecked_not E c ty t enc sig s a e : pure s = true -> read c s a -> 0 <= t -> let m := VMsg c ty (VInt t) enc sig a in
  unchecked E m e -> ~ checked E m.
Proof.
  intros Pu R T m U C. unfold m in *.
  inversion U as [? ? ? ? ? P|? ? ? ? ? b P|? ? ? ? ? z P W F|? ? ? ? ? z P F|? ? ? ? ? b P W|? ? ? ? ? m0 NC|? ? ? ? ? k m0 K N|? ? ? ? ? w w' m0 V V' I|? ? ? ? ? w w' m0 V V' I Q|? ? ? ? ? ? B]; subst; try subst m0.
  - apply P. apply checked_paid in C as [(z & -> & _)|(b & -> & _)]; unfold a_number; eauto.
  - apply checked_paid in C as [(z & Q & _)|(b0 & Q & _)]; congruence.
  - apply checked_paid in C as [(z0 & Q & G)|(b0 & Q & _)]; [|congruence]. assert (z0 = z) by congruence. subst z0. contradiction.
  - apply checked_paid in C as [(z0 & Q & G)|(b0 & Q & _)]; [|congruence]. assert (z0 = z) by congruence. subst z0.
    unfold unfloatable in F. assert (X : - (2 ^ 1024 - 2 ^ 970) < - 900) by reflexivity. set (M := 2 ^ 1024 - 2 ^ 970) in *. clearbody M. lia.
  - apply checked_paid in C as [(z0 & Q & G)|(b0 & Q & G)]; [congruence|]. assert (b0 = b) by congruence. subst b0. contradiction.
  - contradiction.
  - apply checked_verdict in C as (w & w' & V & V' & _). destruct K as [<-|[<-|[]]]; eapply N; eassumption.
  - apply checked_verdict in C as (v & v' & X & X' & Q).
    assert (v = w) by (eapply via_unique; eassumption). assert (v' = w') by (eapply via_unique; eassumption). subst v v'.
    destruct (verdict_want _ _ _ "ack_report_computed_task" _ _ Pu R eq_refl ltac:(reflexivity) ltac:(discriminate) ltac:(auto) ty (VInt t) enc sig)
      as [[_ NV]|(? & ? & w0 & _ & _ & _ & _ & A5 & A6)]; [exact (NV _ V)|].
    destruct (verdict_want _ _ _ "force_report_computed_task" _ _ Pu R eq_refl ltac:(reflexivity) ltac:(discriminate) ltac:(auto) ty (VInt t) enc sig)
      as [[_ NV]|(? & ? & w0' & _ & _ & _ & _ & F5 & F6)]; [exact (NV _ V')|].
    assert (w0 = w) by (eapply via_unique; eassumption). assert (w0' = w') by (eapply via_unique; eassumption). subst w0 w0'.
    revert Q. apply incomparable_not; [exact I|]. intros b (y1 & y2 & y3 & y4 & [Q| Q]); [eapply F6|eapply A6]; exact Q.
  - apply checked_verdict in C as (v & v' & X & X' & Q0).
    assert (v = w) by (eapply via_unique; eassumption). assert (v' = w') by (eapply via_unique; eassumption). subst v v'. contradiction.
  - eapply bad_task_not; eassumption.
Qed.
(** what is raised is what the rules say *)
Theorem vet_error E c ty t enc sig s a e : pure s = true -> read c s a -> 1262304000 < t < 32819212800 -> let m := VMsg c ty (VInt t) enc sig a in
  vet E c m = Err e <-> unchecked E m e.
Proof.
  intros Pu R T m. destruct (vet_fate E c ty t enc sig s a Pu R T) as [[V C]|(e' & V & U & C)]; fold m in V, C; rewrite V.
  - split; [discriminate|]. intros U. exfalso. exact (unchecked_not E c ty t enc sig s a e Pu R ltac:(lia) U C).
  - fold m in U. split.
    + intros Q. assert (e' = e) by congruence. subst e'. exact U.
    + intros U'. rewrite (unchecked_unique _ _ _ _ U U'). reflexivity.
Qed.

(** ** When it is none of the library's own exceptions *)
Inductive foreign (E : env) : pyval -> Prop :=
| Fo_payment ty ts enc sig a : ~ a_number (attr_get_or_none "payment_ts" a) -> foreign E (VMsg MSubtaskResultsAccepted ty ts enc sig a)
| Fo_huge ty ts enc sig a z : attr_get_or_none "payment_ts" a = VInt z -> unfloatable z -> foreign E (VMsg MSubtaskResultsAccepted ty ts enc sig a)
| Fo_verdict ty ts enc sig a k : let m := VMsg MVerdictReportComputedTask ty ts enc sig a in
    In k ["ack_report_computed_task"; "force_report_computed_task"]%string -> (forall w, ~ via m k w) -> foreign E m
| Fo_want ty ts enc sig a : attr_get_or_none "want_to_compute_task" a = VNone -> foreign E (VMsg MTaskToCompute ty ts enc sig a)
| Fo_key ty ts enc sig a : attr_get_or_none "want_to_compute_task" a <> VNone ->
    (forall k, decode_hex (attr_get_or_none "requestor_ethereum_public_key" a) <> Ok k) -> foreign E (VMsg MTaskToCompute ty ts enc sig a)
| Fo_ids ty ts enc sig a k : decode_hex (attr_get_or_none "requestor_ethereum_public_key" a) = Ok k -> List.length k = 64%nat ->
    eth_signed E a (attr_get_or_none "want_to_compute_task" a) k ->
    attr_get_or_none "compute_task_def" a = VNone \/ (forall r, decode_hex (attr_get_or_none "requestor_id" a) <> Ok r) ->
    foreign E (VMsg MTaskToCompute ty ts enc sig a).
Lemma hex_foreign v e : decode_hex v = Err e -> is_message_error e = false.
Proof.
  unfold decode_hex. cbv zeta. intros H. destruct v as [| | | |s|b| | | |e0 s| | | |]; try (inversion H; reflexivity).
  - destruct (is_ascii s); [destruct (unhex _)|]; inversion H; reflexivity.
  - destruct (unhex _); inversion H; reflexivity.
  - destruct (is_string_enum e0); [destruct (unhex _)|]; inversion H; reflexivity.
Qed.
Lemma hex_not v e : decode_hex v = Err e -> forall k, decode_hex v <> Ok k.
Proof. congruence. Qed.
Lemma hex_or v : (exists k, decode_hex v = Ok k) \/ exists e, decode_hex v = Err e.
Proof. destruct (decode_hex v); eauto. Qed.
Lemma foreign_exact E m : (exists e, unchecked E m e /\ is_message_error e = false) <-> foreign E m.
Proof.
  split.
  - intros (e & U & F).
    inversion U as [? ? ? ? ? P|? ? ? ? ? b P|? ? ? ? ? z P W Fl|? ? ? ? ? z P Fl|? ? ? ? ? b P W|? ? ? ? ? m0 NC|? ? ? ? ? k m0 K N|? ? ? ? ? w w' m0 V V' I|? ? ? ? ? w w' m0 V V' I Q|? ? ? ? ? ? B]; subst; try discriminate F.
    + apply Fo_payment, P.
    + eapply Fo_huge; eassumption.
    + eapply Fo_verdict; eassumption.
    + inversion B as [W|e0 W K|k w W K H|k h w K H Lk|k h w K H Lk S|k e0 w K Lk S I|k e0 w K Lk S I I2]; subst; try discriminate F.
      * apply Fo_want, W.
      * apply Fo_key; [exact W|exact (hex_not _ _ K)].
      * eapply Fo_ids; [exact K|exact Lk|exact S|]. inversion I as [Q|e1 N Q|r N Q J]; subst; [left; exact Q|right; exact (hex_not _ _ Q)|discriminate F].
      * eapply Fo_ids; [exact K|exact Lk|exact S|]. inversion I2 as [Q|e1 N Q|r N Q J]; subst; [left; exact Q|right; exact (hex_not _ _ Q)|discriminate F].
  - intros F. inversion F as [? ? ? ? ? P|? ? ? ? ? z P U|? ? ? ? ? k m0 K N|? ? ? ? ? W|? ? ? ? ? W K|? ? ? ? ? k K L S H]; subst; try subst m0.
    + exists ETypeError. split; [apply Uc_payment, P|reflexivity].
    + exists EOverflowError. split; [eapply Uc_payment_huge; eassumption|reflexivity].
    + exists EAttributeError. split; [eapply Uc_verdict_part; eassumption|reflexivity].
    + exists EAttributeError. split; [apply Uc_task, Bt_want, W|reflexivity].
    + destruct (hex_or (attr_get_or_none "requestor_ethereum_public_key" a)) as [[k Q]|[e Q]]; [exfalso; exact (K _ Q)|].
      exists e. split; [apply Uc_task, Bt_key; assumption|exact (hex_foreign _ _ Q)].
    + assert (C : attr_get_or_none "compute_task_def" a = VNone \/ attr_get_or_none "compute_task_def" a <> VNone)
        by (destruct (attr_get_or_none "compute_task_def" a); auto; right; discriminate).
      destruct C as [C|C].
      * exists ETypeError. split; [apply Uc_task; eapply Bt_task_id; [exact K|exact L|exact S|apply Bi_missing, C]|reflexivity].
      * destruct H as [H|H]; [contradiction|]. destruct (hex_or (attr_get_or_none "requestor_id" a)) as [[r Q]|[e Q]]; [exfalso; exact (H _ Q)|].
        exists e. split; [apply Uc_task; eapply Bt_task_id; [exact K|exact L|exact S|apply Bi_requestor; assumption]|exact (hex_foreign _ _ Q)].
Qed.
Theorem vet_foreign E c ty t enc sig s a : pure s = true -> read c s a -> 1262304000 < t < 32819212800 -> let m := VMsg c ty (VInt t) enc sig a in
  (exists e, vet E c m = Err e /\ is_message_error e = false) <-> foreign E m.
Proof.
  intros Pu R T m. rewrite <- foreign_exact. split; intros (e & H & F); exists e; (split; [|exact F]); apply (vet_error E c ty t enc sig s a e Pu R T); exact H.
Qed.
(** hashing the WantToComputeTask fails for more than 2 ^ 64 bytes only *)
Theorem hash_fails E ty ts enc sig b : pure ty = true -> pure ts = true -> loaded MWantToComputeTask b -> let w := VMsg MWantToComputeTask ty ts enc sig b in
  (forall h, short_hash E w <> Ok h) -> vsize (VList [ty; ts]) >= 2 ^ 64 \/ exists s, slots MWantToComputeTask b = Ok s /\ vsize s >= 2 ^ 64.
Proof.
  intros P1 P2 L w H. destruct (want_slots b L) as [s S]. destruct (loaded_clean _ _ _ L S) as [C _].
  destruct (Z.ltb_spec (vsize s) (2 ^ 64)) as [G|G]; [|right; exists s; split; [exact S|lia]].
  destruct (Z.ltb_spec (vsize (VList [ty; ts])) (2 ^ 64)) as [G2|G2]; [|left; lia]. exfalso.
  destruct (enc_total s C G) as [p Hp].
  assert (C2 : encb (VList [ty; ts]) = true) by (apply (clean_list [ty; ts]); intros x [<-|[<-|[]]]; apply clean_pure; assumption).
  destruct (enc_total _ C2 G2) as [h Hh].
  unfold w in H. cbn [short_hash] in H. unfold payload_of in H. rewrite S in H. cbn [bind] in H. unfold dumps in H. rewrite Hp in H. cbn [bind] in H.
  unfold hash_payload, dumps in H. rewrite Hh in H. cbn [bind] in H. eapply H. reflexivity.
Qed.
