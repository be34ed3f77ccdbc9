(** * Which exceptions can leave the loading of a frame (lemmas for C12) *)
From Verif Require Export LoadFacts.

(** ** The recursion budget is never exhausted *)
Definition nofuel {A} (r : result A) : Prop := r <> Err EFuel.
Lemma nofuel_bind {A B} (r : result A) (f : A -> result B) : nofuel r -> (forall x, nofuel (f x)) -> nofuel (bind r f).
Proof. unfold nofuel. intros H1 H2. destruct r; cbn [bind]; [apply H2|congruence]. Qed.
Lemma nofuel_ok {A} (x : A) : nofuel (Ok x).
Proof. unfold nofuel. discriminate. Qed.
Lemma nofuel_err {A} e : e <> EFuel -> nofuel (Err e : result A).
Proof. unfold nofuel. congruence. Qed.
Lemma nofuel_mapM {A B} (f : A -> result B) l : (forall x, nofuel (f x)) -> nofuel (mapM f l).
Proof.
  intros H. induction l as [|x l IH]; cbn [mapM]; [apply nofuel_ok|]. apply nofuel_bind; [apply H|]. intros y.
  apply nofuel_bind; [exact IH|]. intros z. apply nofuel_ok.
Qed.
Ltac nf := repeat first
  [ apply nofuel_ok | apply nofuel_err; discriminate | apply nofuel_bind; [|intros ?] | assumption
  | match goal with |- nofuel (match ?x with _ => _ end) => destruct x eqn:? end ].
Lemma cinit_nofuel h c kw : nofuel (cinit h c kw).
Proof. unfold cinit. destruct (cload_slots h c kw); [apply nofuel_ok|]. destruct (is_field_error e) eqn:Q; apply nofuel_err; [|discriminate]. intros ->. discriminate Q. Qed.
Lemma kwargs_nofuel l : nofuel (kwargs_of l).
Proof. induction l as [|[k v] l IH]; cbn [kwargs_of]; nf. Qed.
Lemma cnew_star_nofuel c v : nofuel (cnew_star c v).
Proof. unfold cnew_star. apply nofuel_bind; [|intros; apply cinit_nofuel]. unfold star_star. destruct v; try (apply nofuel_err; discriminate). apply kwargs_nofuel. Qed.
Lemma validate_integer_nofuel f v : nofuel (validate_integer f v).
Proof. unfold validate_integer. nf. Qed.
Lemma validate_port_nofuel f v : nofuel (validate_port f v).
Proof. unfold validate_port. apply nofuel_bind; [apply validate_integer_nofuel|]. intros. nf. Qed.
Lemma dset_nofuel d kvs k v : nofuel (dset d kvs k v).
Proof.
  assert (T : forall x : pyval, nofuel (do _ <- (match str_of k with Some s => match dvalidator d s with Some f => f x | None => Ok tt end | None => Ok tt end);
      if negb (hashable k) then Err ETypeError
      else if existsb (fun it => py_eq (skey (fst it)) k) (items d) then Ok (dict_set k x kvs) else Err EKeyError)).
  { intros x. apply nofuel_bind; [|intros; nf]. destruct (str_of k) as [s|]; [|apply nofuel_ok].
    destruct (dvalidator d s) as [f|] eqn:D; [|apply nofuel_ok]. unfold dvalidator in D.
    destruct d; try discriminate D; repeat match type of D with (if ?b then _ else _) = _ => destruct b end; try discriminate D;
      injection D as <-; unfold validate_varchar, validate_ipaddress; try apply validate_port_nofuel; nf. }
  unfold dset. destruct d; try (apply nofuel_bind; [apply nofuel_ok|intros x; apply T]); [nf|].
  apply nofuel_bind; [|intros x; apply T]. destruct v; try apply nofuel_ok. destruct (py_eq k (skey "node")); [|apply nofuel_ok].
  apply nofuel_bind; [apply kwargs_nofuel|]. intros; apply cinit_nofuel.
Qed.
Lemma dict_new_nofuel d v : nofuel (dict_new d v).
Proof.
  unfold dict_new. apply nofuel_bind.
  - assert (I : forall l kvs, nofuel (dset_iter d kvs l)).
    { induction l as [|x l IH]; intros kvs; cbn [dset_iter]; [apply nofuel_ok|]. destruct (py_iter x) as [[|k [|v' [|]]]|]; try (apply nofuel_err; discriminate).
      apply nofuel_bind; [apply dset_nofuel|]. intros; apply IH. }
    assert (A : forall l kvs, nofuel (dset_all d kvs l)).
    { induction l as [|[k x] l IH]; intros kvs; cbn [dset_all]; [apply nofuel_ok|]. apply nofuel_bind; [apply dset_nofuel|]. intros; apply IH. }
    destruct v; try apply A; match goal with |- nofuel (match ?x with _ => _ end) => destruct x end; try apply I; apply nofuel_err; discriminate.
  - intros kvs. apply nofuel_bind; [|intros; apply nofuel_ok]. generalize (items d) as its. intros its. revert kvs.
    induction its as [|[k x] its IH]; intros kvs; cbn [dset_defaults]; [apply nofuel_ok|]. destruct (dict_get _ _); [apply IH|].
    apply nofuel_bind; [apply dset_nofuel|]. intros; apply IH.
Qed.
Lemma deser_plain_nofuel kd k v : nofuel (deser_plain kd k v).
Proof.
  destruct kd; cbn [deser_plain]; try apply nofuel_ok.
  - nf.
  - destruct (truthy v); [|apply nofuel_ok]. apply nofuel_bind; [unfold validate_dict; nf|]. intros; apply cnew_star_nofuel.
  - destruct v; try (apply nofuel_err; discriminate). apply nofuel_bind; [|intros; apply nofuel_ok]. apply nofuel_mapM. intros; apply dict_new_nofuel.
  - destruct v; try (apply nofuel_err; discriminate). apply nofuel_bind; [|intros; apply nofuel_ok]. apply nofuel_mapM. intros x.
    apply nofuel_bind; [unfold validate_dict; nf|]. intros; apply cnew_star_nofuel.
  - destruct (is_none v); [apply nofuel_ok|apply cnew_star_nofuel].
  - destruct (is_none v); [apply nofuel_ok|]. apply nofuel_bind; [apply validate_integer_nofuel|]. intros. nf.
  - apply nofuel_bind; [unfold validate_positive_integer; apply nofuel_bind; [apply validate_integer_nofuel|intros; nf]|]. intros; apply nofuel_ok.
  - apply dict_new_nofuel.
  - apply nofuel_bind; [apply validate_integer_nofuel|]. intros; apply nofuel_ok.
  - destruct (is_none v); [apply nofuel_ok|apply cnew_star_nofuel].
  - destruct (py_iter v); [|apply nofuel_err; discriminate]. apply nofuel_bind; [|intros; apply nofuel_ok]. apply nofuel_mapM. intros x.
    unfold deser_file. destruct x; try (apply nofuel_err; discriminate). apply dict_new_nofuel.
Qed.
Lemma as_field_nofuel {A} k (r : result A) : nofuel r -> nofuel (as_field_error k r).
Proof.
  unfold nofuel, as_field_error. destruct r as [x|e]; [discriminate|]. intros H. destruct e; try congruence; cbn [is_field_error]; discriminate.
Qed.
(** loading slots fails with MessageError or FieldError, never for want of fuel *)
Lemma load_attrs_err n : forall c s e, (rank c < n)%nat -> load_attrs n c s = Err e -> e = EMessageError \/ exists f, e = EFieldError f.
Proof.
  induction n as [|n IH]; intros c s e R H; [lia|]. cbn [load_attrs] in H.
  assert (D : forall d an k v il, slot_kind c k = KMsg d an il -> nofuel (deser_single (load_attrs n) d an k v)).
  { intros d an k v il K. pose proof (rank_decreases _ _ _ _ _ K) as Rd. unfold deser_single.
    destruct (is_none v); [destruct an; nf|]. destruct (py_iter v) as [[|h [|sg [|s0 [|]]]]|]; try (apply nofuel_err; discriminate).
    apply as_field_nofuel. destruct (py_iter h) as [[|ty [|ts [|en [|]]]]|]; try (apply nofuel_err; discriminate).
    apply nofuel_bind; [|intros; apply nofuel_ok]. intros L. destruct (IH d s0 EFuel ltac:(lia) L) as [Z|[f Z]]; discriminate Z. }
  assert (F : forall kvs k, nofuel (load_slot (load_attrs n) c kvs k)).
  { intros kvs k. unfold load_slot. destruct (dict_get _ _) as [v|]; [|apply nofuel_ok]. apply nofuel_bind; [|intros; apply nofuel_ok].
    unfold deser_slot. destruct (slot_kind c k) as [| |d an il| | | | | | | | | |] eqn:K; try apply deser_plain_nofuel.
    unfold deser_message. destruct (py_iter v) as [[|b [|v' [|]]]|]; try (apply nofuel_err; discriminate).
    destruct (truthy v' && negb _); [apply nofuel_err; discriminate|]. destruct (truthy v' && truthy b).
    - destruct v'; try (apply nofuel_err; discriminate). apply nofuel_bind; [|intros; apply nofuel_ok]. apply nofuel_mapM. intros x. eapply D; exact K.
    - eapply D; exact K. }
  assert (G : forall kvs, match mapM (load_slot (load_attrs n) c kvs) (slot_names c) with
        | Err EFuel => Err EFuel | Err e => if is_field_error e then Err e else Err EMessageError | Ok a => Ok a end = Err e ->
        e = EMessageError \/ exists f, e = EFieldError f).
  { intros kvs Q. pose proof (nofuel_mapM _ (slot_names c) (F kvs)) as N. unfold nofuel in N.
    destruct (mapM _ (slot_names c)) as [a|e0]; [discriminate Q|].
    destruct e0; cbn [is_field_error] in Q; try congruence; injection Q as <-; eauto. }
  unfold load_slots in H. cbv zeta in H. destruct c; try (apply (G _ H)); discriminate H.
Qed.

(** ** One frame *)
Lemma hash_payload_err E c ty ts a p e : (c = MHello -> exists v, attr_get "_version" a = Some (VStr v)) -> hash_payload E c ty ts a p = Err e -> e = ESerializationError.
Proof.
  intros HV. unfold hash_payload. destruct (dumps _) as [h|e0] eqn:D; cbn [bind].
  - cbv zeta. destruct c; try discriminate. destruct (HV eq_refl) as [v Hv]. unfold version_bytes. rewrite Hv. discriminate.
  - intros Q. assert (e0 = e) by congruence. subst. unfold dumps in D. destruct (enc _); [discriminate|congruence].
Qed.
Lemma base_load_err E c ty ts enc data decf pub v e :
  base_load E c ty ts enc data decf pub (match c with MHello => [("_version"%string, VStr v)] | _ => [] end) = Err e -> is_message_error e = true.
Proof.
  set (kw := match c with MHello => [("_version"%string, VStr v)] | _ => [] end).
  unfold base_load. cbv zeta. destruct (decrypted decf enc (skipn SIG_LEN data)) as [p|e0] eqn:D; cbn [bind].
  2:{ intros Q. assert (e0 = e) by congruence. subst. unfold decrypted in D. destruct enc; [|discriminate]. destruct (decf _) as [|e1]; [discriminate|].
      destruct (is_message_error e1) eqn:M; [assert (e1 = e) by congruence; subst; exact M|assert (e = EDecryptionError) by congruence; subst; reflexivity]. }
  destruct (loads (cdepth E) p) as [s|e0] eqn:L; cbn [bind].
  2:{ intros Q. unfold loads in L. destruct (dec _ _) as [[? ?]|]; [discriminate|]. assert (e = ESerializationError) by congruence. subst. reflexivity. }
  unfold msg_init. destruct (load_attrs FUEL c s) as [a|e0] eqn:A; cbn [bind].
  2:{ intros Q. assert (e0 = e) by congruence. subst. destruct (load_attrs_err FUEL c s e (rank_bound c) A) as [->|[f ->]]; reflexivity. }
  pose proof (load_attrs_keys _ _ _ _ A) as F.
  assert (N : attr_get "_version" a = None) by (apply attr_get_none; rewrite F; apply version_not_slot).
  assert (K : exists a', apply_kwargs (cr E) c kw a = Ok a' /\ (c = MHello -> attr_get "_version" a' = Some (VStr v))).
  { unfold kw. destruct c; try (exists a; split; [reflexivity|discriminate]). cbn [apply_kwargs]. rewrite (unset_slot _ MHello) by reflexivity. unfold attr_get_or_none. rewrite N. cbn [bind is_none].
    change (kw_ok MHello "_version") with true. cbv iota. eexists. split; [reflexivity|]. intros _. apply attr_get_set_same. }
  destruct K as (a' & K & HV). match goal with |- context [apply_kwargs (cr E) c ?k a] => change k with kw end. rewrite K. cbn [bind]. unfold check_sender.
  destruct (key_given pub && signs c); [|discriminate].
  destruct (hash_payload _ _ _ _ _ _) as [h|e0] eqn:H; cbn [bind].
  - destruct (ecdsa_verify _ _ _ _) as [[]|e0] eqn:V; cbn [bind]; [discriminate|]. intros Q. assert (e0 = e) by congruence. subst.
    apply ecdsa_verify_err in V as [->| ->]; reflexivity.
  - intros Q. assert (e0 = e) by congruence. subst. apply hash_payload_err in H; [subst; reflexivity|].
    intros ->. exists v. cbn [set_version post_init]. rewrite (HV eq_refl). exact (HV eq_refl).
Qed.

(** the checks of a class: [is_valid] of rejections raises nothing but MessageErrors *)
Lemma srr_err ty ts enc sig a e : loaded MSubtaskResultsRejected a ->
  srr_valid (VMsg MSubtaskResultsRejected ty ts enc sig a) = Err e -> e = EValidationError.
Proof.
  intros [F _ HM]. unfold srr_valid, getattr. set (m := VMsg _ _ _ _ _ a).
  assert (A1 : acc "reason" m = Some (attr_get_or_none "reason" a)) by reflexivity.
  assert (A2 : acc "force_get_task_result_failed" m = Some (attr_get_or_none "force_get_task_result_failed" a)) by reflexivity.
  assert (A3 : exists x, acc "task_id" m = Some x) by (eexists; reflexivity).
  assert (A4 : exists x, acc "subtask_id" m = Some x) by (eexists; reflexivity).
  destruct A3 as [x3 A3], A4 as [x4 A4]. rewrite A1, A2, A3, A4. cbn [bind]. destruct (negb _); [congruence|].
  set (w := attr_get_or_none "force_get_task_result_failed" a).
  assert (Hw : w = VNone \/ exists ty ts enc sig b, w = VMsg MForceGetTaskResultFailed ty ts enc sig b).
  { assert (Hin : In "force_get_task_result_failed"%string (map fst a)) by (rewrite F; cbn; auto).
    destruct (attr_get_some _ _ Hin) as (w0 & Hw & Hi). assert (w = w0) by (unfold w, attr_get_or_none; rewrite Hw; reflexivity). subst w0.
    specialize (HM _ _ _ _ _ Hi eq_refl). destruct HM as [H|[[H _]|[(_ & ty' & ts' & en' & sg' & b' & H & _)|(H & _)]]]; auto; [|discriminate H].
    right. eauto 6. }
  destruct Hw as [->|(ty' & ts' & en' & sg' & b' & ->)]; cbn [truthy bind].
  - destruct (_ && _); congruence.
  - assert (B1 : exists x, acc "task_id" (VMsg MForceGetTaskResultFailed ty' ts' en' sg' b') = Some x) by (eexists; reflexivity).
    assert (B2 : exists x, acc "subtask_id" (VMsg MForceGetTaskResultFailed ty' ts' en' sg' b') = Some x) by (eexists; reflexivity).
    destruct B1 as [y1 B1], B2 as [y2 B2]. rewrite B1, B2. cbn [bind]. destruct (negb _); [cbn [bind]; congruence|].
    destruct (negb _); cbn [bind]; [congruence|]. destruct (_ && _); congruence.
Qed.
(** the classes whose own checks can raise other exceptions *)
Definition delicate (c : mcls) : bool :=
  match c with MSubtaskResultsAccepted | MVerdictReportComputedTask | MTaskToCompute => true | _ => false end.
Lemma vet_err E c ty ts enc sig a e : loaded c a -> delicate c = false -> vet E c (VMsg c ty ts enc sig a) = Err e -> is_message_error e = true.
Proof.
  intros L D. unfold vet. destruct (is_task_message c) eqn:T; [|discriminate].
  destruct (mcls_eqb c MSubtaskResultsRejected) eqn:Q.
  - apply mcls_eqb_eq in Q. subst c. cbn [is_valid]. destruct (srr_valid _) as [[]|e0] eqn:V; cbn [bind]; [discriminate|]. intros H.
    assert (e0 = e) by congruence. subst. apply srr_err in V; [subst; reflexivity|exact L].
  - destruct c; try discriminate; cbn [is_valid is_task_message bind]; discriminate.
Qed.
(** [received E decf bs c a]: the frame [bs] is of class [c], and its payload
    decrypts and decodes to slots from which [c]'s constructor made [a] *)
Definition received (E : env) (decf : bytes -> result bytes) (bs : bytes) (c : mcls) (a : attrs_t) : Prop :=
  be_dec (firstn 2 bs) = type_of c /\
  exists enc p s a0, decrypted decf enc (skipn 76 bs) = Ok p /\ loads (cdepth E) p = Ok s /\ load_attrs FUEL c s = Ok a0 /\ a = post_init c a0.
(** what loading can raise: a MessageError, or whatever the own checks of three
    classes raise on the contents received *)
Lemma deserialize_err E now bs decf ct pub e : ver_parse (our_version E) <> None ->
  deserialize E now bs decf ct pub = Err e ->
  is_message_error e = true \/
  exists c t enc sig a, received E decf bs c a /\ 1262304000 < t < 32819212800 /\ delicate c = true /\ loaded c a /\
    vet E c (VMsg c (VInt (type_of c)) (VInt t) (VBool enc) (VBytes sig) a) = Err e.
Proof.
  intros HV H. unfold deserialize in H. destruct (Nat.leb _ _); [left; assert (e = EMessageError) by congruence; subst; reflexivity|].
  destruct (deserialize_header _) as [[[ty ts] enc]|e0] eqn:D; cbn [bind] in H.
  2:{ left. apply deserialize_header_err in D. assert (e = EHeaderError) by congruence. subst. reflexivity. }
  apply deserialize_header_iff in D as (Hu & T & c & Hc). rewrite Hc in H. cbn [bind] in H.
  destruct (if ct then verify_time now ts else Ok tt) as [[]|e0] eqn:V; cbn [bind] in H.
  2:{ left. assert (e0 = e) by congruence. subst. destruct ct; [|discriminate]. apply verify_time_err in V as [[-> _]|[[-> _]|[-> _]]]; reflexivity. }
  destruct (mcls_eqb c MHello) eqn:Q.
  - left. apply mcls_eqb_eq in Q. subst c. cbn [class_load] in H. destruct (unpack32p _) as [v|e'] eqn:U; [|apply unpack32p_err in U; subst e'; assert (e = EVersionMismatchError) by congruence; subst; reflexivity].
    cbv zeta in H. destruct (verify_version _ _) as [[]|e0] eqn:W; cbn [bind] in H.
    + apply (base_load_err E MHello) in H. exact H.
    + assert (e0 = e) by congruence. subst. unfold verify_version in W. destruct (ver_parse (ascii_decode v)); [|assert (e = EVersionMismatchError) by congruence; subst; reflexivity].
      destruct (ver_parse (our_version E)); [|congruence]. destruct (in_range _ _ _); [discriminate|]. assert (e = EVersionMismatchError) by congruence; subst; reflexivity.
  - assert (N : c <> MHello) by (intros ->; discriminate Q). rewrite class_load_split in H by exact N.
    destruct (base_load E c ty ts enc (skipn HDR_LEN bs) decf pub []) as [m|e0] eqn:B; cbn [bind] in H.
    + pose proof B as B'. apply base_load_ok in B' as (p & s & a & a' & Hp & Hs & Ha & Hk & -> & _). pose proof Hs as Hs'. apply Ok_inj in Hk. subst a'.
      apply loads_pure in Hs. pose proof (load_attrs_loaded _ _ _ _ Hs Ha) as L.
      assert (SV : set_version E c (post_init c a) = post_init c a) by (destruct c; reflexivity || congruence). rewrite SV in *.
      assert (ty = type_of c) by (apply registry_number; exact Hc). subst ty.
      destruct (vet E c _) as [[]|e0] eqn:W; cbn [bind] in H; [discriminate|]. assert (e0 = e) by congruence. subst e0.
      destruct (delicate c) eqn:Dc; [right; exists c, ts, enc, (firstn SIG_LEN (skipn HDR_LEN bs)), (post_init c a)|left].
      { split; [|auto]. split; [|exists enc, p, s, a; rewrite skipn_skipn' in Hp; auto]. unfold unpack_header in Hu. destruct (Nat.eqb _ HDR_LEN); [|discriminate]. apply Ok_inj in Hu. assert (Hty : be_dec (firstn 2 (firstn HDR_LEN bs)) = type_of c) by congruence. rewrite <- Hty, firstn_firstn. reflexivity. }
      eapply vet_err; eassumption.
    + left. assert (e0 = e) by congruence. subst. apply (base_load_err E c ty ts enc (skipn HDR_LEN bs) decf pub []). rewrite <- B. destruct c; reflexivity || congruence.
Qed.
