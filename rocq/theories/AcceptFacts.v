(** * Which frames are accepted, and as which message *)
From Verif Require Export ReadExact ValidFacts PayFacts.
From Verif Require Import CborSpec.

(** ** What is required beyond the shape, by class *)
Definition holds (m : pyval) (k : string) (w : pyval) : Prop :=
  exists c ty ts enc sig a, m = VMsg c ty ts enc sig a /\ attr_get_or_none k a = w.
Definition special (c : mcls) : Prop :=
  c = MSubtaskResultsAccepted \/ c = MSubtaskResultsRejected \/ c = MVerdictReportComputedTask \/ c = MTaskToCompute.
(** the id under [name] is that of a UUID whose node number starts the requestor's id *)
Definition id_of (a : attrs_t) (name : string) : Prop :=
  exists seed d kvs x t z, decode_hex (attr_get_or_none "requestor_id" a) = Ok seed /\
    attr_get_or_none "compute_task_def" a = VDict d kvs /\ dict_get (skey name) kvs = Some x /\
    str_of x = Some t /\ uuid_parse t = Some z /\ z mod 2 ^ 48 = be_dec (firstn 6 seed).
Inductive checked (E : env) : pyval -> Prop :=
| Ck_other c ty ts enc sig a : ~ special c -> checked E (VMsg c ty ts enc sig a)
| Ck_paid ty t enc sig a z : attr_get_or_none "payment_ts" a = VInt z -> t - 900 <= z <= t ->
    checked E (VMsg MSubtaskResultsAccepted ty (VInt t) enc sig a)
| Ck_paid_float ty t enc sig a b : attr_get_or_none "payment_ts" a = VFloat b -> recent t (fl_of_bits b) ->
    checked E (VMsg MSubtaskResultsAccepted ty (VInt t) enc sig a)
| Ck_rejected ty ts enc sig a reason f : let m := VMsg MSubtaskResultsRejected ty ts enc sig a in
    holds m "reason" reason -> holds m "force_get_task_result_failed" f -> reason <> VNone -> (f <> VNone -> same_task m f) ->
    (reason = ForcedResourcesFailure -> f <> VNone) -> checked E m
| Ck_verdict ty ts enc sig a ack ack_rct ack_ttc force force_rct force_ttc : let m := VMsg MVerdictReportComputedTask ty ts enc sig a in
    holds m "ack_report_computed_task" ack -> holds ack "report_computed_task" ack_rct -> holds ack_rct "task_to_compute" ack_ttc ->
    holds m "force_report_computed_task" force -> holds force "report_computed_task" force_rct -> holds force_rct "task_to_compute" force_ttc ->
    ttc_equal force_ttc ack_ttc -> checked E m
| Ck_task ty ts enc sig a k h sg w : let m := VMsg MTaskToCompute ty ts enc sig a in
    holds m "want_to_compute_task" w -> short_hash E w = Ok h ->
    decode_hex (attr_get_or_none "requestor_ethereum_public_key" a) = Ok k -> List.length k = 64%nat ->
    attr_get_or_none "ethsig" a = VBytes sg -> recover (cr E) sg (sha3_256 (cr E) h) = Some (x04 :: k) ->
    id_of a "task_id" -> id_of a "subtask_id" -> checked E m.

Lemma read_slot c s a k : read c s a -> c <> MStartSessionResponse -> In k (slot_names c) ->
  exists w, attr_get_or_none k a = kept c k w /\ (w = VNone \/ exists v, slot_as (slot_kind c k) v w).
Proof.
  intros R N Hk. inversion R as [s0 E1 E2|c0 s0 a0 _ F G E1 E2 E3]; subst; [congruence|].
  rewrite <- F in Hk. destruct (attr_get_some _ _ Hk) as (w & Hw & Hin). unfold attr_get_or_none. rewrite Hw.
  destruct (G _ _ Hin) as [[_ ->]|(v & w0 & _ & S & ->)]; [exists VNone; auto|exists w0; eauto].
Qed.
Lemma read_msg c s a k d an : read c s a -> slot_kind c k = KMsg d an false -> (forall w, kept c k w = w) -> c <> MStartSessionResponse ->
  attr_get_or_none k a = VNone \/ exists ty ts enc sig b s', attr_get_or_none k a = VMsg d ty ts enc sig b /\ read d s' b.
Proof.
  intros R K Q N. destruct (read_slot c s a k R N (msg_slot_name _ _ _ _ _ K)) as (w & -> & H). rewrite Q.
  destruct H as [H|[v H]]; [auto|]. rewrite K in H. inversion H as [kd v0 w0 P| |d0 an0 v0 i v' w0 _ _ P|]; subst.
  - inversion P as [| ? [[? ?]|[?|[?|?]]] | | | | | | | | | | | | ]; discriminate.
  - auto.
  - inversion P; subst. right. eauto 10.
Qed.

Ltac not_special := intros [?|[?|[?|?]]]; discriminate.
Lemma id_exact ty ts enc sig a name : validate_taskid_key (VMsg MTaskToCompute ty ts enc sig a) name = Ok tt <-> id_of a name.
Proof.
  unfold validate_taskid_key, id_of. rewrite !(getattr_slot MTaskToCompute) by slots_in. cbn [bind]. split.
  - intros G. apply bind_ok in G as (x & Hx & G). apply bind_ok in G as (bb & Hb & G). destruct bb; [|discriminate].
    unfold ctd_item in Hx. destruct (attr_get_or_none "compute_task_def" a) as [| | | | | | | |d kvs| | | | |]; try discriminate Hx.
    destruct (dict_get (skey name) kvs) as [x0|] eqn:Q; [|discriminate]. apply Ok_inj in Hx. subst x0.
    unfold check_id_hex_seed in Hb. apply bind_ok in Hb as (seed & Hs & Hb). unfold check_id_seed in Hb.
    destruct (py_uuid x) as [z|e] eqn:U; [|exfalso; destruct e; discriminate Hb]. apply Ok_inj in Hb. apply Z.eqb_eq in Hb.
    assert (Ht : exists t, str_of x = Some t /\ uuid_parse t = Some z).
    { destruct x as [| | | | | | | | |e0 s0| | | |]; try discriminate U; cbn [py_uuid str_of] in U |- *.
      - destruct (uuid_parse s) eqn:P; [|discriminate]. apply Ok_inj in U. subst. eauto.
      - destruct (is_string_enum e0); [|discriminate]. destruct (uuid_parse (u s0)) eqn:P; [|discriminate]. apply Ok_inj in U. subst. eauto. }
    destruct Ht as (tx & Ht & Hp). exists seed, d, kvs, x, tx, z. repeat (split; [assumption||reflexivity|]). symmetry. exact Hb.
  - intros (seed & d & kvs & x & t & z & Hs & -> & Hx & Ht & Hp & Hz). cbn [ctd_item]. rewrite Hx. cbn [bind].
    unfold check_id_hex_seed. rewrite Hs. cbn [bind]. unfold check_id_seed.
    assert (U : py_uuid x = Ok z).
    { destruct x as [| | | | | | | | |e0 s0| | | |]; try discriminate Ht; cbn [py_uuid str_of] in Ht |- *.
      - apply Some_inj in Ht. subst. rewrite Hp. reflexivity.
      - destruct (is_string_enum e0); [|discriminate]. apply Some_inj in Ht. subst. rewrite Hp. reflexivity. }
    rewrite U. cbn [bind]. destruct (Z.eqb_spec (seed_to_node seed) (uuid_node z)) as [_|Nq]; [reflexivity|]. exfalso. apply Nq. symmetry. exact Hz.
Qed.

(** the two TaskToCompute messages of a verdict *)
Definition via (m : pyval) (k : string) (w : pyval) : Prop :=
  exists x y, holds m k x /\ holds x "report_computed_task" y /\ holds y "task_to_compute" w.
Lemma verdict_chain c s a k d an : read c s a -> slot_kind c k = KMsg d an false -> (forall w, kept c k w = w) -> c <> MStartSessionResponse ->
  d = MAckReportComputedTask \/ d = MForceReportComputedTask -> forall ty ts enc sig,
  ((exists e, (do x <- Ok (attr_get_or_none k a); do y <- getattr "report_computed_task" x; getattr "task_to_compute" y) = Err e) /\
   forall w, ~ via (VMsg c ty ts enc sig a) k w) \/
  exists x y w, attr_get_or_none k a = x /\ getattr "report_computed_task" x = Ok y /\ getattr "task_to_compute" y = Ok w /\ none_or_ttc w /\
    forall w', via (VMsg c ty ts enc sig a) k w' <-> w' = w.
Proof.
  intros R K Q N D ty ts enc sig.
  assert (U : forall w, via (VMsg c ty ts enc sig a) k w <-> exists y, holds (attr_get_or_none k a) "report_computed_task" y /\ holds y "task_to_compute" w).
  { intros w. split.
    - intros (x & y & (? & ? & ? & ? & ? & ? & Q1 & <-) & H). inversion Q1; subst. eauto.
    - intros (y & H). exists (attr_get_or_none k a), y. split; [unfold holds; eauto 10|exact H]. }
  assert (NN : forall k0 w, ~ holds VNone k0 w) by (intros k0 w (? & ? & ? & ? & ? & ? & Q1 & _); discriminate Q1).
  assert (HH : forall c0 y1 y2 y3 y4 b k0 w, holds (VMsg c0 y1 y2 y3 y4 b) k0 w <-> w = attr_get_or_none k0 b).
  { intros c0 y1 y2 y3 y4 b k0 w. split; [intros (? & ? & ? & ? & ? & ? & Q1 & <-); inversion Q1; subst; reflexivity|intros ->; unfold holds; eauto 10]. }
  cbn [bind].
  destruct (read_msg _ _ _ k _ _ R K Q N) as [A|(y1 & y2 & y3 & y4 & b & s1 & A & R1)]; rewrite A in *.
  { left. split; [eexists; reflexivity|]. intros w H. apply U in H as (y & H & _). exact (NN _ _ H). }
  assert (R2 : getattr "report_computed_task" (VMsg d y1 y2 y3 y4 b) = Ok (attr_get_or_none "report_computed_task" b) /\
    (attr_get_or_none "report_computed_task" b = VNone \/ exists z1 z2 z3 z4 e s', attr_get_or_none "report_computed_task" b = VMsg MReportComputedTask z1 z2 z3 z4 e /\ read MReportComputedTask s' e)).
  { destruct D as [-> | ->]; (split; [apply getattr_slot; slots_in|]); eapply read_msg; try eassumption; try reflexivity; discriminate. }
  destruct R2 as (G & [B|(z1 & z2 & z3 & z4 & e & s2 & B & R2)]); rewrite B in *; rewrite G; cbn [bind].
  { left. split; [eexists; reflexivity|]. intros w H. apply U in H as (y & H1 & H2). apply HH in H1. rewrite B in H1. subst y. exact (NN _ _ H2). }
  right.
  exists (VMsg d y1 y2 y3 y4 b), (VMsg MReportComputedTask z1 z2 z3 z4 e), (attr_get_or_none "task_to_compute" e).
  split; [reflexivity|]. split; [exact G|]. split; [apply getattr_slot; slots_in|]. split.
  - destruct (read_msg _ _ _ "task_to_compute" _ _ R2 eq_refl ltac:(reflexivity) ltac:(discriminate)) as [->|(? & ? & ? & ? & ? & ? & -> & _)];
      [left; reflexivity|right; eauto 8].
  - intros w'. rewrite U. split.
    + intros (y & H1 & H2). apply HH in H1. rewrite B in H1. subst y. apply HH in H2. exact H2.
    + intros ->. exists (VMsg MReportComputedTask z1 z2 z3 z4 e). split; apply HH; [symmetry; exact B|reflexivity].
Qed.

Lemma vet_exact E c ty t enc sig s a : read c s a -> 1262304000 < t < 32819212800 -> let m := VMsg c ty (VInt t) enc sig a in
  vet E c m = Ok tt <-> checked E m.
Proof.
  intros R T m. assert (Ht : 0 <= t < 2 ^ 52) by (change (2 ^ 52) with 4503599627370496; lia). unfold m, vet.
  assert (O : ~ special c -> vet E c m = Ok tt).
  { intros N. unfold vet, m. destruct (is_task_message c) eqn:TM; [|reflexivity].
    destruct c; try discriminate TM; try reflexivity; exfalso; apply N; unfold special; auto. }
  assert (D : special c \/ ~ special c) by (destruct c; try (right; not_special); left; unfold special; auto).
  destruct D as [S|N].
  2:{ specialize (O N). unfold vet, m in O. rewrite O. split; [intros _; apply Ck_other; exact N|reflexivity]. }
  clear O m. destruct S as [->|[->|[->| ->]]]; cbn [is_task_message].
  - assert (X : forall r : result unit, (do _ <- r; Ok tt) = Ok tt <-> r = Ok tt) by (intros [[]|e]; cbn [bind]; split; congruence).
    rewrite X. split.
    + intros H. destruct (attr_get_or_none "payment_ts" a) as [|b|z|b| | | | | | | | | |] eqn:P;
        try (exfalso; cbn [is_valid] in H; rewrite P in H; discriminate H).
      * exfalso. cbn [is_valid] in H. rewrite P in H.
        assert (H' : is_valid (VMsg MSubtaskResultsAccepted ty (VInt t) enc sig [("payment_ts"%string, VInt (if b then 1 else 0))]) = Ok tt) by exact H.
        rewrite (sra_iff ty t enc sig _ (if b then 1 else 0) Ht) in H' by reflexivity. destruct b; lia.
      * apply (Ck_paid E ty t enc sig a z P). apply (sra_iff ty t enc sig a z Ht P). exact H.
      * apply (Ck_paid_float E ty t enc sig a b P). cbn [is_valid] in H. rewrite P in H.
        destruct (sra_float_exact t b ltac:(lia)) as [[_ G]|[G _]]; [exact G|congruence].
    + intros H. inversion H as [c0 ? ? ? ? ? Ns| ? ? ? ? ? z P W| ? ? ? ? ? b P W| | |]; subst.
      * exfalso. apply Ns. unfold special. auto.
      * apply (sra_iff ty t enc sig a z Ht P). exact W.
      * cbn [is_valid]. rewrite P. destruct (sra_float_exact t b ltac:(lia)) as [[G _]|[_ G]]; [exact G|contradiction].
  - assert (X : forall r : result unit, (do _ <- r; Ok tt) = Ok tt <-> r = Ok tt) by (intros [[]|e]; cbn [bind]; split; congruence).
    rewrite X. clear X.
    assert (R1 : srr_reason (attr_get_or_none "reason" a)).
    { destruct (read_slot _ _ _ "reason" R) as (w & -> & H); [discriminate|slots_in|]. cbn [kept].
      destruct H as [->|[v H]]; [left; reflexivity|]. change (slot_kind MSubtaskResultsRejected "reason") with (KEnum EnSRR) in H.
      inversion H as [kd v0 w0 P| | |]; subst. inversion P; subst; [left; reflexivity|right; eauto]. }
    assert (R2 : srr_attachment (attr_get_or_none "force_get_task_result_failed" a)).
    { destruct (read_msg _ _ _ "force_get_task_result_failed" _ _ R eq_refl ltac:(reflexivity) ltac:(discriminate)) as [->|(y1 & y2 & y3 & y4 & b & s' & -> & _)];
        [left; reflexivity|right; eauto 8]. }
    rewrite (srr_iff ty (VInt t) enc sig a R1 R2). split.
    + intros (H1 & H2 & H3). eapply Ck_rejected; try eassumption; unfold holds; eauto 10.
    + intros H. inversion H as [c0 ? ? ? ? ? Ns| | |? ? ? ? ? reason f m Hr Hf H1 H2 H3| |]; subst.
      * exfalso. apply Ns. unfold special. auto.
      * destruct Hr as (? & ? & ? & ? & ? & ? & Q & <-). inversion Q; subst.
        destruct Hf as (? & ? & ? & ? & ? & ? & Q' & <-). inversion Q'; subst. auto.
  - assert (X : forall r : result unit, (do _ <- r; Ok tt) = Ok tt <-> r = Ok tt) by (intros [[]|e]; cbn [bind]; split; congruence).
    rewrite X. clear X.
    assert (I : checked E (VMsg MVerdictReportComputedTask ty (VInt t) enc sig a) <-> exists w w',
      via (VMsg MVerdictReportComputedTask ty (VInt t) enc sig a) "ack_report_computed_task" w /\
      via (VMsg MVerdictReportComputedTask ty (VInt t) enc sig a) "force_report_computed_task" w' /\ ttc_equal w' w).
    { split.
      - intros H. inversion H as [c0 ? ? ? ? ? Ns| | | |? ? ? ? ? ack ar at_ force fr ft m H1 H2 H3 H4 H5 H6 Q|]; subst.
        + exfalso. apply Ns. unfold special. auto.
        + exists at_, ft. split; [exists ack, ar; auto|]. split; [exists force, fr; auto|exact Q].
      - intros (w & w' & (x & y & H1 & H2 & H3) & (x' & y' & H4 & H5 & H6) & Q). eapply Ck_verdict; eassumption. }
    rewrite I. clear I.
    destruct (verdict_chain _ _ _ "ack_report_computed_task" _ _ R eq_refl ltac:(reflexivity) ltac:(discriminate) ltac:(auto) ty (VInt t) enc sig)
      as [[[e Q] NV]|(x & y & w & A1 & A2 & A3 & A4 & A5)].
    { split; [|intros (w & w' & H & _); exfalso; exact (NV _ H)]. intros H. exfalso. revert H Q. cbn [is_valid bind]. unfold verdict_valid.
      rewrite (getattr_slot MVerdictReportComputedTask) by slots_in. cbn [bind]. destruct (getattr "report_computed_task" (attr_get_or_none "ack_report_computed_task" a)) as [y|]; cbn [bind]; [|congruence].
      destruct (getattr "task_to_compute" y); cbn [bind]; congruence. }
    destruct (verdict_chain _ _ _ "force_report_computed_task" _ _ R eq_refl ltac:(reflexivity) ltac:(discriminate) ltac:(auto) ty (VInt t) enc sig)
      as [[[e Q] NV]|(x' & y' & w' & F1 & F2 & F3 & F4 & F5)].
    { split; [|intros (v & v' & _ & H & _); exfalso; exact (NV _ H)]. intros H. exfalso. revert H Q. cbn [is_valid bind]. unfold verdict_valid.
      rewrite !(getattr_slot MVerdictReportComputedTask) by slots_in. cbn [bind]. rewrite A1, A2. cbn [bind]. rewrite A3. cbn [bind].
      destruct (getattr "report_computed_task" (attr_get_or_none "force_report_computed_task" a)) as [y'|]; cbn [bind]; [|congruence].
      destruct (getattr "task_to_compute" y'); cbn [bind]; congruence. }
    destruct (verdict_iff ty (VInt t) enc sig a x y w x' y' w' A1 A2 A3 F1 F2 F3 A4 F4) as [V _]. rewrite V. split.
    + intros H. exists w, w'. split; [apply A5; reflexivity|]. split; [apply F5; reflexivity|exact H].
    + intros (v & v' & H1 & H2 & H). apply A5 in H1. apply F5 in H2. subst. exact H.
  - cbn [is_valid is_task_message bind]. split.
    + intros H. apply bind_ok in H as ([] & V1 & V). unfold validate_taskid in V. apply bind_ok in V as ([] & V2 & V3).
      unfold verify_ethsig in V1. rewrite !(getattr_slot MTaskToCompute) in V1 by slots_in. cbn [bind] in V1.
      destruct (attr_get_or_none "want_to_compute_task" a) eqn:W; try discriminate V1.
      apply bind_ok in V1 as (k & Hk & V1). apply bind_ok in V1 as (h & Hh & V1). apply ecdsa_verify_ok in V1 as (Lp & sg' & Es & Rc).
      eapply Ck_task; try eassumption; try (eapply id_exact; eassumption). unfold holds. eauto 10.
    + intros H. inversion H as [c0 ? ? ? ? ? Ns| | | | |? ? ? ? ? k h sg w m Hw Hh Hk Lk Hs Hr I1 I2]; subst.
      * exfalso. apply Ns. unfold special. auto.
      * destruct Hw as (? & ? & ? & ? & ? & ? & Q & W). inversion Q; subst.
        unfold verify_ethsig. rewrite !(getattr_slot MTaskToCompute) by slots_in. cbn [bind].
        destruct (attr_get_or_none "want_to_compute_task" _); try discriminate Hh.
        rewrite Hk. cbn [bind]. rewrite Hh. cbn [bind]. rewrite Hs, (proj2 (ecdsa_verify_ok _ _ _ _)) by eauto. cbn [bind].
        unfold validate_taskid. rewrite (proj2 (id_exact _ _ _ _ _ _) I1). cbn [bind]. apply id_exact. exact I2.
Qed.

(** ** Frames *)
(** two versions that may talk: the same major and minor number, and neither an x.y.0 prerelease *)
Definition compatible (ours theirs : ustr) : Prop :=
  exists o t, spells_version ours o /\ spells_version theirs t /\ v_major t = v_major o /\ v_minor t = v_minor o /\
    ~ (v_patch t = 0 /\ v_pre t <> []) /\ ~ (v_patch o = 0 /\ v_pre o <> []).
Lemma compatible_exact ours theirs : verify_version ours theirs = Ok tt <-> compatible ours theirs.
Proof.
  rewrite verify_version_iff. unfold compatible. split; intros (o & t & H); exists o, t; rewrite !ver_parse_iff in *; exact H.
Qed.
(** the signature is [k]'s, over the header's numbers, the payload and the suffix *)
Definition signs_frame (E : env) (k : bytes) (c : mcls) (ts : Z) (payload sig suffix : bytes) : Prop :=
  List.length k = 64%nat /\ exists h, dumps (VList [VInt (type_of c); VInt ts]) = Ok h /\
    recover (cr E) sig (sha3_256 (cr E) (sha1 (cr E) (h ++ payload) ++ suffix)) = Some (x04 :: k).
Definition timely (now ts : Z) (ct : bool) : Prop :=
  1262304000 < ts < 32819212800 /\ (ct = true -> now - 600000000 <= ts * 1000000 <= now + 300000000).
Definition opened (decf : bytes -> result bytes) (flag : byte) (cipher payload : bytes) : Prop :=
  (flag = x00 /\ payload = cipher) \/ (flag <> x00 /\ decf cipher = Ok payload).
(** the payload starts with an item that is read as the attributes [a] *)
Definition carries (E : env) (c : mcls) (payload : bytes) (a : attrs_t) : Prop :=
  exists item extra s, payload = item ++ extra /\ spelt (cdepth E) item s /\ read c s a.
Definition from_sender (E : env) (pub : option bytes) (c : mcls) (ts : Z) (payload sig suffix : bytes) : Prop :=
  forall k, pub = Some k -> k <> [] -> signs c = true -> signs_frame E k c ts payload sig suffix.

Inductive accepted (E : env) (now : Z) (decf : bytes -> result bytes) (ct : bool) (pub : option bytes) : bytes -> pyval -> Prop :=
| Accepted c ts flag sig cipher payload a : let m := VMsg c (VInt (type_of c)) (VInt ts) (VBool (negb (byte_eqb flag x00))) (VBytes sig) a in
    c <> MHello -> timely now ts ct -> List.length sig = 65%nat -> cipher <> [] -> opened decf flag cipher payload ->
    carries E c payload a -> from_sender E pub c ts payload sig [] -> checked E m ->
    accepted E now decf ct pub (be_enc 2 (type_of c) ++ be_enc 8 ts ++ [flag] ++ sig ++ cipher) m
  (* a length byte, as much text and some padding end a Hello; [sig] may be cut short if nothing follows *)
| Accepted_hello ts flag sig cipher payload a n text pad :
    timely now ts ct -> List.length sig = 65%nat \/ (cipher = [] /\ (33 < List.length sig < 65)%nat) ->
    opened decf flag cipher payload -> carries E MHello payload a ->
    List.length text = Nat.min (Z.to_nat (b2z n)) 31 -> (List.length text + List.length pad = 31)%nat ->
    compatible (our_version E) (map (fun x => if b2z x <? 128 then b2z x else 65533) text) ->
    from_sender E pub MHello ts payload sig (map (fun x => if b2z x <? 128 then x else x3f) text) ->
    accepted E now decf ct pub (be_enc 2 (type_of MHello) ++ be_enc 8 ts ++ [flag] ++ sig ++ cipher ++ [n] ++ text ++ pad)
      (VMsg MHello (VInt (type_of MHello)) (VInt ts) (VBool (negb (byte_eqb flag x00))) (VBytes sig)
         (a ++ [("_version"%string, VStr (map (fun x => if b2z x <? 128 then b2z x else 65533) text))])).

(** ** Proofs *)
Lemma sender_checked E c ts enc sig a payload pub suffix : 0 <= ts < 2 ^ 64 ->
  (c = MHello -> version_bytes a = Ok suffix) -> (c <> MHello -> suffix = []) ->
  check_sender E (VMsg c (VInt (type_of c)) (VInt ts) enc (VBytes sig) a) payload pub = Ok tt <-> from_sender E pub c ts payload sig suffix.
Proof.
  intros Ht H1 H2. cbn [check_sender]. unfold from_sender, signs_frame.
  assert (Hh : exists h, dumps (VList [VInt (type_of c); VInt ts]) = Ok h).
  { apply dumps_ints; [|exact Ht]. pose proof (type_of_range c). change (2 ^ 64) with 18446744073709551616. change (2 ^ 16) with 65536 in H. lia. }
  destruct Hh as [h Hh].
  assert (P : hash_payload E c (VInt (type_of c)) (VInt ts) a payload = Ok (sha1 (cr E) (h ++ payload) ++ suffix)).
  { unfold hash_payload. rewrite Hh. cbn [bind]. cbv zeta. destruct (mcls_eqb c MHello) eqn:Q.
    - apply mcls_eqb_eq in Q. subst c. rewrite (H1 eq_refl). reflexivity.
    - assert (N : c <> MHello) by (intros ->; discriminate Q). rewrite (H2 N), app_nil_r. destruct c; reflexivity || congruence. }
  rewrite P. cbn [bind]. destruct pub as [[|k0 k]|]; cbn [key_given andb].
  - split; [|reflexivity]. intros _ k Q N. congruence.
  - destruct (signs c).
    + rewrite ecdsa_verify_ok. split.
      * intros (L & sg & Q & R) k' Q' _ _. assert (k' = k0 :: k) by congruence. subst k'. split; [exact L|].
        exists h. split; [exact Hh|]. assert (sg = sig) by congruence. subst sg. exact R.
      * intros H. destruct (H _ eq_refl ltac:(discriminate) eq_refl) as (L & h' & Hh' & R). split; [exact L|]. exists sig. split; [reflexivity|].
        assert (h' = h) by congruence. subst h'. exact R.
    + split; [|reflexivity]. intros _ k' _ _ S. discriminate S.
  - split; [|reflexivity]. intros _ k Q. discriminate Q.
Qed.
Lemma decrypted_exact decf flag cipher payload : decrypted decf (negb (byte_eqb flag x00)) cipher = Ok payload <-> opened decf flag cipher payload.
Proof.
  unfold decrypted, opened. destruct (byte_eqb flag x00) eqn:Q; cbn [negb].
  - apply byte_eqb_eq in Q. split; [intros H; apply Ok_inj in H; left; auto|]. intros [[_ ->]|[N _]]; [reflexivity|congruence].
  - assert (N : flag <> x00) by (intros ->; discriminate Q). split.
    + intros H. right. split; [exact N|]. destruct (decf cipher) as [p|e]; [exact H|]. destruct (is_message_error e); discriminate H.
    + intros [[H _]|[_ ->]]; [congruence|reflexivity].
Qed.
Definition told (c : mcls) (text : bytes) : attrs_t := match c with MHello => [("_version"%string, VStr (ascii_decode text))] | _ => [] end.
Lemma read_keys c s a : read c s a -> map fst a = slot_names c.
Proof. intros R. inversion R; subst; [reflexivity|assumption]. Qed.
Lemma base_exact E c ts flag data decf pub text m : 0 <= ts < 2 ^ 64 ->
  base_load E c (type_of c) ts (negb (byte_eqb flag x00)) data decf pub (told c text) = Ok m <->
  exists payload a, opened decf flag (skipn 65 data) payload /\ carries E c payload a /\
    from_sender E pub c ts payload (firstn 65 data) (match c with MHello => map (fun x => if b2z x <? 128 then x else x3f) text | _ => [] end) /\
    m = VMsg c (VInt (type_of c)) (VInt ts) (VBool (negb (byte_eqb flag x00))) (VBytes (firstn 65 data)) (full c (ascii_decode text) a).
Proof.
  intros Ht. rewrite base_load_ok.
  assert (I : forall a0, map fst a0 = slot_names c ->
     exists a', apply_kwargs (cr E) c (told c text) a0 = Ok a' /\ set_version E c (post_init c a') = full c (ascii_decode text) (post_init c a0)).
  { intros a0 Hf. destruct c; cbn [told apply_kwargs set_version full]; try (eexists; split; reflexivity).
    pose proof (version_not_slot MHello) as N. rewrite <- Hf in N.
    assert (N' : attr_get_or_none "_version" a0 = VNone) by (unfold attr_get_or_none; rewrite (proj2 (attr_get_none _ _) N); reflexivity).
    rewrite (unset_slot _ MHello) by reflexivity. rewrite N'. cbn [bind is_none]. change (kw_ok MHello "_version") with true. cbv iota. cbn [bind].
    rewrite attr_set_last by exact N. eexists. split; [reflexivity|]. cbn [post_init set_version]. rewrite attr_get_last by exact N. reflexivity. }
  assert (V : forall payload a, map fst a = slot_names c ->
     check_sender E (VMsg c (VInt (type_of c)) (VInt ts) (VBool (negb (byte_eqb flag x00))) (VBytes (firstn 65 data)) (full c (ascii_decode text) a)) payload pub = Ok tt <->
     from_sender E pub c ts payload (firstn 65 data) (match c with MHello => map (fun x => if b2z x <? 128 then x else x3f) text | _ => [] end)).
  { intros payload a Hf. apply sender_checked; [exact Ht| |destruct c; congruence].
    intros ->. cbn [full]. unfold version_bytes. pose proof (version_not_slot MHello) as N. rewrite <- Hf in N.
    rewrite attr_get_last by exact N. cbn [str_of]. rewrite ascii_replace_decode. reflexivity. }
  split.
  - intros (payload & s & a0 & a' & Hp & Hs & Ha & Ha' & Hm & Hc).
    destruct (I a0 (load_attrs_keys _ _ _ _ Ha)) as (a1 & K1 & K2). assert (a1 = a') by congruence. subst a1. rewrite K2 in Hm. subst m.
    assert (R : read c s (post_init c a0)) by (apply read_is_load; [eapply loads_pure, Hs|eauto]).
    exists payload, (post_init c a0). split; [apply decrypted_exact, Hp|]. split.
    + apply loads_exact in Hs as (e & r & -> & S). exists e, r, s. auto.
    + split; [|reflexivity]. apply (V payload (post_init c a0) (read_keys _ _ _ R)). exact Hc.
  - intros (payload & a & Hp & (e & r & s & -> & S & R) & Hc & ->).
    assert (Hs : loads (cdepth E) (e ++ r) = Ok s) by (apply loads_exact; eauto).
    pose proof R as R'. apply read_is_load in R' as (a0 & Ha & Q); [|eapply loads_pure, Hs].
    destruct (I a0 (load_attrs_keys _ _ _ _ Ha)) as (a' & K1 & K2). rewrite <- Q in K2.
    exists (e ++ r), s, a0, a'. split; [apply decrypted_exact, Hp|]. split; [exact Hs|]. split; [exact Ha|]. split; [exact K1|].
    rewrite K2. split; [reflexivity|]. apply (V _ a (read_keys _ _ _ R)). exact Hc.
Qed.

Lemma frame_split (msg : bytes) ty ts enc : (76 < List.length msg)%nat -> unpack_header (firstn 11 msg) = Ok (ty, ts, enc) ->
  exists flag, msg = be_enc 2 ty ++ be_enc 8 ts ++ [flag] ++ skipn 11 msg /\ enc = negb (byte_eqb flag x00).
Proof.
  intros L H. apply unpack_pack in H as (x & Hx & Hb). exists x. split.
  - rewrite <- (firstn_skipn 11 msg) at 1. rewrite Hx, <- !app_assoc. reflexivity.
  - destruct (byte_eqb x x00) eqn:Q; cbn [negb].
    + apply byte_eqb_eq in Q. apply Hb. exact Q.
    + destruct enc; [reflexivity|]. rewrite (proj1 Hb eq_refl) in Q. discriminate Q.
Qed.
Lemma header_first ty ts flag rest : firstn 11 (be_enc 2 ty ++ be_enc 8 ts ++ [flag] ++ rest) = be_enc 2 ty ++ be_enc 8 ts ++ [flag] /\
  skipn 11 (be_enc 2 ty ++ be_enc 8 ts ++ [flag] ++ rest) = rest.
Proof.
  rewrite !(app_assoc). assert (L : List.length ((be_enc 2 ty ++ be_enc 8 ts) ++ [flag]) = 11%nat) by (rewrite !app_length, !be_enc_length; reflexivity).
  split; [rewrite firstn_app_exact by exact L; rewrite <- ?app_assoc; reflexivity|rewrite skipn_app_exact by exact L; reflexivity].
Qed.
Theorem accepted_exact E now msg decf ct pub m : deserialize E now msg decf ct pub = Ok m <-> accepted E now decf ct pub msg m.
Proof.
  rewrite deserialize_ok. split.
  - intros (L & ty & ts & enc & c & Hu & T & Hg & Ht & H).
    pose proof (registry_number _ _ Hg) as Ety. subst ty.
    destruct (frame_split _ _ _ _ L Hu) as (flag & Hm & ->). set (data := skipn 11 msg) in *.
    assert (Ld : (65 < List.length data)%nat) by (unfold data; rewrite skipn_length; lia). rewrite Hm. clearbody data. clear Hm Hu L msg.
    assert (TT : timely now ts ct) by (split; assumption).
    assert (T64 : 0 <= ts < 2 ^ 64) by (change (2 ^ 64) with 18446744073709551616; lia).
    destruct (mcls_eqb c MHello) eqn:Q.
    + apply mcls_eqb_eq in Q. subst c. apply class_load_hello in H as (v & Hv & Hg' & H).
      apply compatible_exact in Hg'. apply (base_exact E MHello ts flag _ decf pub v) in H; [|exact T64].
      destruct H as (payload & a & Ho & Hc & Hs & ->). cbn [full].
      set (bd := firstn (List.length data - 32) data) in *.
      assert (Ed : data = bd ++ slice_last 32 data) by (unfold bd, slice_last; symmetry; apply firstn_skipn).
      unfold unpack32p in Hv. destruct (Nat.eqb _ 32) eqn:L32; [|discriminate Hv]. apply Nat.eqb_eq in L32. cbn [negb] in Hv.
      destruct (slice_last 32 data) as [|n r]; [discriminate Hv|]. apply Ok_inj in Hv.
      assert (Lr : List.length r = 31%nat) by (cbn [List.length] in L32; lia).
      assert (Lb : (33 < List.length bd)%nat) by (rewrite Ed, app_length, L32 in Ld; lia).
      rewrite Ed. clearbody bd. clear Ed Ld L32 data.
      rewrite <- (firstn_skipn 65 bd) at 1.
      rewrite <- (firstn_skipn (Nat.min (Z.to_nat (b2z n)) 31) r) at 1. rewrite Hv.
      replace ((firstn 65 bd ++ skipn 65 bd) ++ n :: v ++ skipn (Nat.min (Z.to_nat (b2z n)) 31) r)
        with (firstn 65 bd ++ skipn 65 bd ++ [n] ++ v ++ skipn (Nat.min (Z.to_nat (b2z n)) 31) r) by (rewrite <- app_assoc; reflexivity).
      apply (Accepted_hello E now decf ct pub ts flag _ _ payload a n v); try assumption.
      * destruct (Nat.le_gt_cases 65 (List.length bd)) as [G|G].
        -- left. rewrite firstn_length. lia.
        -- right. split; [apply skipn_all2; lia|]. rewrite firstn_length. lia.
      * rewrite <- Hv, firstn_length. lia.
      * rewrite <- Hv, <- app_length, firstn_skipn. exact Lr.
    + assert (N : c <> MHello) by (intros ->; discriminate Q). rewrite class_load_split in H by exact N.
      apply bind_ok in H as (m' & H & H'). apply bind_ok in H' as ([] & Hv & H'). apply Ok_inj in H'. subst m'.
      replace (@nil (string * pyval)) with (told c []) in H by (destruct c; reflexivity || congruence).
      apply base_exact in H as (payload & a & Ho & Hc & Hs & ->); [|exact T64].
      replace (full c (ascii_decode []) a) with a in * by (destruct c; reflexivity || congruence).
      assert (Hs' : from_sender E pub c ts payload (firstn 65 data) []) by (destruct c; exact Hs).
      rewrite <- (firstn_skipn 65 data) at 1.
      apply (Accepted E now decf ct pub c ts flag (firstn 65 data) (skipn 65 data) payload a); try assumption.
      * rewrite firstn_length. lia.
      * intros E0. apply (f_equal (@List.length byte)) in E0. rewrite skipn_length in E0. cbn [List.length] in E0. lia.
      * destruct Hc as (e & r & s & _ & _ & R). apply (vet_exact E c _ ts _ _ s a R T). exact Hv.
  - intros H. destruct H as [c ts flag sig cipher payload a m N [T Ht] Ls Nc Ho Hc Hs Hk|ts flag sig cipher payload a n text pad [T Ht] Ls Ho Hc Lt Lp Hg Hs].
    + destruct (header_first (type_of c) ts flag (sig ++ cipher)) as [F1 F2]. split.
      { rewrite !app_length, !be_enc_length, Ls. cbn [List.length]. destruct cipher; [congruence|]. cbn [List.length]. lia. }
      exists (type_of c), ts, (negb (byte_eqb flag x00)), c.
      rewrite F1, F2, unpack_layout; [|apply type_of_range|change (2 ^ 64) with 18446744073709551616; lia].
      split; [reflexivity|]. split; [exact T|]. split; [apply registry_roundtrip|]. split; [exact Ht|].
      rewrite class_load_split by exact N. replace (@nil (string * pyval)) with (told c []) by (destruct c; reflexivity || congruence).
      assert (B : base_load E c (type_of c) ts (negb (byte_eqb flag x00)) (sig ++ cipher) decf pub (told c []) = Ok m).
      { apply base_exact; [change (2 ^ 64) with 18446744073709551616; lia|]. rewrite firstn_app_exact, skipn_app_exact by exact Ls.
        exists payload, a. split; [exact Ho|]. split; [exact Hc|]. split; [destruct c; exact Hs|]. destruct c; reflexivity || congruence. }
      rewrite B. cbn [bind]. destruct Hc as (e & r & s & _ & _ & R).
      assert (V : vet E c m = Ok tt) by exact (proj2 (vet_exact E c _ ts _ _ s a R T) Hk). rewrite V. reflexivity.
    + destruct (header_first (type_of MHello) ts flag (sig ++ cipher ++ [n] ++ text ++ pad)) as [F1 F2].
      assert (Lb : (33 < List.length (sig ++ cipher))%nat) by (rewrite app_length; destruct Ls as [Ls|[-> Ls]]; cbn [List.length]; lia).
      assert (Lv : List.length ([n] ++ text ++ pad) = 32%nat) by (rewrite !app_length; cbn [List.length]; lia). split.
      { rewrite (app_assoc sig), !app_length, !be_enc_length. rewrite !app_length in Lb, Lv. cbn [List.length] in *. lia. }
      exists (type_of MHello), ts, (negb (byte_eqb flag x00)), MHello.
      rewrite F1, F2, unpack_layout; [|apply type_of_range|change (2 ^ 64) with 18446744073709551616; lia].
      split; [reflexivity|]. split; [exact T|]. split; [apply registry_roundtrip|]. split; [exact Ht|].
      apply class_load_hello. exists text. rewrite (app_assoc sig cipher).
      rewrite <- Lv at 1. rewrite slice_last_app. split.
      { unfold unpack32p. rewrite Lv. change (negb (Nat.eqb 32 32)) with false. cbv iota. cbn [app]. f_equal. apply firstn_app_exact. exact Lt. }
      split; [apply compatible_exact; exact Hg|].
      replace (firstn (List.length ((sig ++ cipher) ++ [n] ++ text ++ pad) - 32) ((sig ++ cipher) ++ [n] ++ text ++ pad)) with (sig ++ cipher)
        by (rewrite app_length, Lv, Nat.add_sub, firstn_app_exact by reflexivity; reflexivity).
      apply (base_exact E MHello ts flag _ decf pub text); [change (2 ^ 64) with 18446744073709551616; lia|].
      assert (F : firstn 65 (sig ++ cipher) = sig /\ skipn 65 (sig ++ cipher) = cipher).
      { destruct Ls as [Ls|[-> Ls]]; [rewrite firstn_app_exact, skipn_app_exact by exact Ls; auto|].
        rewrite app_nil_r. split; [apply firstn_all2; lia|apply skipn_all2; lia]. }
      destruct F as [-> ->]. exists payload, a. split; [exact Ho|]. split; [exact Hc|]. split; [exact Hs|reflexivity].
Qed.
Corollary accepted_unique E now bs decf ct pub m m' : accepted E now decf ct pub bs m -> accepted E now decf ct pub bs m' -> m = m'.
Proof. intros H H'. apply accepted_exact in H, H'. congruence. Qed.
