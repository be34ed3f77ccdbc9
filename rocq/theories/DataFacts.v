(** * Facts about frozen dicts, containers, task headers and nodes, in the form
      the property theorems state them *)
From Verif Require Export ContProofs.
From Coq Require Export Permutation.

(** ** Frozen dicts *)
Lemma dset_undeclared d kvs k v : d <> DPlain ->
  (forall t, str_of k = Some t -> ~ In t (map (fun it => u (fst it)) (items d))) -> exists e, dset d kvs k v = Err e.
Proof.
  intros Hd H. destruct (dset d kvs k v) as [kvs'|e] eqn:E; [|eauto]. exfalso.
  apply dset_spec in E; [|exact Hd]. destruct E as (t & w & Ht & (s & Hs & ->) & _).
  apply (H _ Ht). apply in_map_iff in Hs as (it & <- & Hi). apply in_map_iff. eauto.
Qed.
Lemma dict_get_set_same t w k kvs : str_of k = Some t -> Forall (fun kv => exists y, str_of (fst kv) = Some y) kvs ->
  dict_get (VStr t) (dict_set k w kvs) = Some w.
Proof.
  intros Hk HF. induction HF as [|[k0 v0] kvs (y & Hy) HF IH]; cbn [dict_set dict_get].
  - rewrite (py_eq_str_l k (VStr t) t Hk). cbn [str_of]. rewrite ustr_eqb_refl. reflexivity.
  - cbn [fst] in Hy. rewrite (py_eq_str_l k0 k y Hy), Hk. destruct (ustr_eqb y t) eqn:E; cbn [dict_get].
    + rewrite (py_eq_str_l k0 _ y Hy). cbn [str_of]. rewrite E. reflexivity.
    + rewrite (py_eq_str_l k0 _ y Hy). cbn [str_of]. rewrite E. exact IH.
Qed.
Lemma dict_get_set_other t t' w k kvs : str_of k = Some t -> t' <> t -> Forall (fun kv => exists y, str_of (fst kv) = Some y) kvs ->
  dict_get (VStr t') (dict_set k w kvs) = dict_get (VStr t') kvs.
Proof.
  intros Hk Hne HF. induction HF as [|[k0 v0] kvs (y & Hy) HF IH]; cbn [dict_set dict_get].
  - rewrite (py_eq_str_l k (VStr t') t Hk). cbn [str_of]. destruct (ustr_eqb t t') eqn:E; [apply ustr_eqb_eq in E; congruence|reflexivity].
  - cbn [fst] in Hy. rewrite (py_eq_str_l k0 k y Hy), Hk. destruct (ustr_eqb y t) eqn:E; cbn [dict_get].
    + rewrite (py_eq_str_l k0 _ y Hy). cbn [str_of].
      destruct (ustr_eqb y t') eqn:E'; [|reflexivity]. apply ustr_eqb_eq in E, E'. congruence.
    + rewrite (py_eq_str_l k0 _ y Hy). cbn [str_of]. destruct (ustr_eqb y t'); [reflexivity|exact IH].
Qed.
Lemma dset_effect d kvs k v kvs' : d <> DPlain -> schema d kvs -> dset d kvs k v = Ok kvs' ->
  exists t w, str_of k = Some t /\ dict_get (VStr t) kvs' = Some w /\
    (w = v \/ (d = DPeer /\ t = u "node" /\ exists n, w = VObj CNode n)) /\
    forall t', t' <> t -> dict_get (VStr t') kvs' = dict_get (VStr t') kvs.
Proof.
  intros Hd HS H. apply dset_spec in H; [|exact Hd]. destruct H as (t & w & Ht & _ & _ & -> & Hw).
  pose proof (dinv_keys _ _ (schema_dinv _ _ HS)) as HF.
  exists t, w. split; [exact Ht|]. split; [apply dict_get_set_same; assumption|]. split.
  - destruct Hw as [->|(-> & -> & c & n & kw & _ & _ & Hn)]; [auto|]. right. split; [reflexivity|]. split; [reflexivity|].
    apply (cnew_leaf_ok CNode) in Hn as (a & -> & _); [|reflexivity]. eauto.
  - intros t' Hne. apply (dict_get_set_other t); assumption.
Qed.

(** ** Container fields of a built container *)
Lemma cnew_field c kw a k : cnew c kw = Ok (VObj c a) -> In k (cslots c) ->
  exists w, attr_get k a = Some w /\ slot_outcome c kw k w.
Proof.
  intros H Hin. apply cnew_iff in H as (_ & a0 & E & Ha & H). assert (a0 = a) by congruence. subst.
  destruct (attr_get_some k a) as (w & Hw & Hi); [rewrite Ha; exact Hin|]. eauto.
Qed.
Lemma cnew_plain c kw a k : cnew c kw = Ok (VObj c a) -> In k (cslots c) -> chook c k = None ->
  exists w, attr_get k a = Some w /\ plain_ok c k w.
Proof. intros H Hin Hh. destruct (cnew_field _ _ _ _ H Hin) as (w & Hw & Ho). eauto using plain_slot_ok. Qed.

(** what a field may hold, by its declared kind *)
Definition opt (P : pyval -> Prop) (w : pyval) : Prop := w = VNone \/ P w.
Definition a_text (w : pyval) : Prop := exists s, is_str w s /\ Z.of_nat (List.length s) <= 128.
Definition an_int (w : pyval) : Prop := exists z, w = VInt z.
Definition field (a : attrs_t) (k : string) (P : pyval -> Prop) : Prop := exists w, attr_get k a = Some w /\ P w.

Lemma vcheck_ok p f v : vcheck p f v = Ok tt -> p v = true.
Proof. unfold vcheck, fail_unless. destruct (p v); [reflexivity|discriminate]. Qed.

Lemma header_fields kw a : cnew CTaskHeader kw = Ok (VObj CTaskHeader a) ->
  field a "task_id" a_text /\
  field a "task_owner" (fun w => exists n, w = VObj CNode n) /\
  field a "subtasks_count" (fun w => exists z, w = VInt z /\ 0 < z) /\
  field a "min_version" (fun w => exists s v, is_str w s /\ spells_version s v) /\
  field a "timestamp" an_int /\
  field a "mask" (opt (fun w => exists b, w = VMask b)) /\
  field a "signature" (opt (fun w => exists b, w = VBytes b)) /\
  field a "deadline" (opt an_int) /\
  field a "subtask_timeout" (opt (fun w => exists z, w = VInt z /\ 0 <= z)) /\
  field a "market_type" (opt (fun w => w = VEnum EnMarketType "Brass" \/ w = VEnum EnMarketType "Usage")) /\
  field a "environment" (opt a_text) /\
  field a "environment_prerequisites" (opt (fun w => exists d kvs, w = VDict d kvs)) /\
  field a "estimated_memory" (opt an_int) /\
  field a "max_price" (opt an_int) /\
  field a "subtask_budget" (opt an_int) /\
  field a "concent_enabled" (opt (fun w => exists b, w = VBool b)).
Proof.
  intros H.
  assert (VC : forall k, In k ["task_id"; "environment"]%string -> forall w, Forall (fun f => f (u k) w = Ok tt) [validate_varchar128] -> a_text w).
  { intros k _ w HF. inversion HF as [|? ? Hq _]; subst. apply varchar_iff in Hq as (s & Hs & Hl). exists s. auto. }
  assert (VI : forall k w, Forall (fun f => f (u k) w = Ok tt) [validate_integer] -> an_int w).
  { intros k w HF. inversion HF as [|? ? Hq _]; subst. apply integer_iff in Hq. exact Hq. }
  split; [|split; [|split; [|split; [|split; [|split; [|split; [|split; [|split; [|split; [|split; [|split; [|split; [|split; [|split]]]]]]]]]]]]]].
  - destruct (cnew_plain _ _ _ "task_id" H) as (w & Hw & [(-> & HO)|(_ & HO)]); [cbn; tauto|reflexivity|discriminate HO|].
    exists w. split; [exact Hw|]. eapply VC; [left; reflexivity|exact HO].
  - destruct (cnew_field _ _ _ "task_owner" H) as (w & Hw & Ho); [cbn; tauto|]. exists w. split; [exact Hw|].
    unfold slot_outcome in Ho.
    destruct (kw_get (u "task_owner") kw) as [v|]; [|destruct Ho; discriminate].
    destruct Ho as [(_ & Hx & _)|(_ & Hv & Hc)]; [discriminate|]. unfold converted in Hc.
    change (chook CTaskHeader "task_owner") with
      (Some (fun v => match v with VObj CNode _ => Ok v | _ => do kw <- star_star v; node_new kw end)) in Hc. cbv beta iota in Hc.
    assert (HD : is_dict_or CNode v = true) by (inversion Hv as [|? ? Hq _]; subst; exact (vcheck_ok _ _ _ Hq)).
    destruct v; try discriminate HD.
    + apply bind_ok in Hc as (kw' & _ & Hc). apply (cnew_leaf_ok CNode) in Hc as (n & -> & _); [|reflexivity]. eauto.
    + cbn [is_dict_or] in HD. destruct c; try discriminate. apply Ok_inj in Hc. subst. eauto.
  - destruct (cnew_plain _ _ _ "subtasks_count" H) as (w & Hw & [(-> & HO)|(_ & HO)]); [cbn; tauto|reflexivity|discriminate HO|].
    exists w. split; [exact Hw|].
    change (cvalidators CTaskHeader "subtasks_count") with [validate_integer; vcheck (int_check (fun z => 0 <? z))] in HO.
    inversion HO as [|? ? _ HO1]; subst. inversion HO1 as [|? ? Hq _]; subst. apply vcheck_ok in Hq.
    destruct w; try discriminate. cbn [int_check] in Hq. apply Z.ltb_lt in Hq. eauto.
  - destruct (cnew_plain _ _ _ "min_version" H) as (w & Hw & [(-> & HO)|(_ & HO)]); [cbn; tauto|reflexivity|discriminate HO|].
    exists w. split; [exact Hw|]. change (cvalidators CTaskHeader "min_version") with [validate_version] in HO.
    inversion HO as [|? ? Hq _]; subst. apply version_iff in Hq. exact Hq.
  - destruct (cnew_plain _ _ _ "timestamp" H) as (w & Hw & [(-> & HO)|(_ & HO)]); [cbn; tauto|reflexivity|discriminate HO|].
    exists w. split; [exact Hw|]. eapply VI; exact HO.
  - destruct (cnew_field _ _ _ "mask" H) as (w & Hw & Ho); [cbn; tauto|]. exists w. split; [exact Hw|].
    unfold slot_outcome in Ho. destruct (kw_get (u "mask") kw) as [v|]; [|destruct Ho as [_ ->]; left; reflexivity].
    destruct Ho as [(_ & _ & ->)|(_ & Hv & Hc)]; [left; reflexivity|].
    assert (HD : is_bytes v = true) by (inversion Hv as [|? ? Hq _]; subst; exact (vcheck_ok _ _ _ Hq)).
    destruct v; try discriminate HD. apply Ok_inj in Hc. right. eauto.
  - destruct (cnew_plain _ _ _ "signature" H) as (w & Hw & [(-> & HO)|(_ & HO)]); [cbn; tauto|reflexivity|exists VNone; split; [exact Hw|left; reflexivity]|].
    exists w. split; [exact Hw|]. right. inversion HO as [|? ? Hq _]; subst. apply vcheck_ok in Hq. destruct w; try discriminate. eauto.
  - destruct (cnew_plain _ _ _ "deadline" H) as (w & Hw & [(-> & HO)|(_ & HO)]); [cbn; tauto|reflexivity|exists VNone; split; [exact Hw|left; reflexivity]|].
    exists w. split; [exact Hw|]. right. eapply VI; exact HO.
  - destruct (cnew_plain _ _ _ "subtask_timeout" H) as (w & Hw & [(-> & HO)|(_ & HO)]); [cbn; tauto|reflexivity|exists VNone; split; [exact Hw|left; reflexivity]|].
    exists w. split; [exact Hw|]. right.
    change (cvalidators CTaskHeader "subtask_timeout") with [validate_integer; vcheck (int_check (fun z => 0 <=? z))] in HO.
    inversion HO as [|? ? _ HO1]; subst. inversion HO1 as [|? ? Hq _]; subst. apply vcheck_ok in Hq.
    destruct w; try discriminate. cbn [int_check] in Hq. apply Z.leb_le in Hq. eauto.
  - destruct (cnew_field _ _ _ "market_type" H) as (w & Hw & Ho); [cbn; tauto|]. exists w. split; [exact Hw|].
    unfold slot_outcome in Ho. destruct (kw_get (u "market_type") kw) as [v|]; [|destruct Ho as [_ ->]; left; reflexivity].
    destruct Ho as [(_ & _ & ->)|(_ & Hv & Hc)]; [left; reflexivity|].
    unfold converted in Hc.
    change (chook CTaskHeader "market_type") with
          (Some (fun v => match enum_call EnMarketType v with Some m => Ok m | None => Err (EFieldError (u "market_type")) end)) in Hc.
    cbv beta iota in Hc. destruct (enum_call EnMarketType v) as [m|] eqn:E; [|discriminate]. apply Ok_inj in Hc. subst m.
    right. apply enum_call_member in E as (s & -> & Hs). cbn [members In] in Hs. destruct Hs as [<-|[<-|[]]]; auto.
  - destruct (cnew_plain _ _ _ "environment" H) as (w & Hw & [(-> & HO)|(_ & HO)]); [cbn; tauto|reflexivity|exists VNone; split; [exact Hw|left; reflexivity]|].
    exists w. split; [exact Hw|]. right. eapply VC; [right; left; reflexivity|exact HO].
  - destruct (cnew_plain _ _ _ "environment_prerequisites" H) as (w & Hw & [(-> & HO)|(_ & HO)]); [cbn; tauto|reflexivity|exists VNone; split; [exact Hw|left; reflexivity]|].
    exists w. split; [exact Hw|]. right. change (cvalidators CTaskHeader "environment_prerequisites") with [validate_dict] in HO.
    inversion HO as [|? ? Hq _]; subst. apply dict_iff in Hq. exact Hq.
  - destruct (cnew_plain _ _ _ "estimated_memory" H) as (w & Hw & [(-> & HO)|(_ & HO)]); [cbn; tauto|reflexivity|exists VNone; split; [exact Hw|left; reflexivity]|].
    exists w. split; [exact Hw|]. right. eapply VI; exact HO.
  - destruct (cnew_plain _ _ _ "max_price" H) as (w & Hw & [(-> & HO)|(_ & HO)]); [cbn; tauto|reflexivity|exists VNone; split; [exact Hw|left; reflexivity]|].
    exists w. split; [exact Hw|]. right. eapply VI; exact HO.
  - destruct (cnew_plain _ _ _ "subtask_budget" H) as (w & Hw & [(-> & HO)|(_ & HO)]); [cbn; tauto|reflexivity|exists VNone; split; [exact Hw|left; reflexivity]|].
    exists w. split; [exact Hw|]. right. eapply VI; exact HO.
  - destruct (cnew_plain _ _ _ "concent_enabled" H) as (w & Hw & [(-> & HO)|(_ & HO)]); [cbn; tauto|reflexivity|exists VNone; split; [exact Hw|left; reflexivity]|].
    exists w. split; [exact Hw|]. right. change (cvalidators CTaskHeader "concent_enabled") with [validate_boolean] in HO.
    inversion HO as [|? ? Hq _]; subst. apply boolean_iff in Hq. exact Hq.
Qed.

Lemma node_fields kw a : cnew CNode kw = Ok (VObj CNode a) ->
  field a "node_name" (opt (fun w => exists s, is_str w s)) /\
  field a "key" (opt a_text) /\
  (forall k, In k ["prv_port"; "pub_port"; "p2p_prv_port"; "p2p_pub_port"]%string ->
     field a k (opt (fun w => exists z, w = VInt z /\ 1 <= z <= 65534))) /\
  (forall k, In k ["prv_addr"; "pub_addr"]%string -> field a k (opt (fun w => ip_ok w = true))) /\
  (forall k, In k ["hyperdrive_prv_port"; "hyperdrive_pub_port"]%string -> field a k (opt an_int)).
Proof.
  intros H. split; [|split; [|split; [|split]]].
  - destruct (cnew_plain _ _ _ "node_name" H) as (w & Hw & [(-> & HO)|(_ & HO)]); [cbn; tauto|reflexivity|exists VNone; split; [exact Hw|left; reflexivity]|].
    exists w. split; [exact Hw|]. right. change (cvalidators CNode "node_name") with [validate_anystr] in HO.
    inversion HO as [|? ? Hq _]; subst. unfold validate_anystr in Hq. destruct (str_of w) as [s|] eqn:E; [|discriminate].
    exists s. apply str_of_iff. exact E.
  - destruct (cnew_plain _ _ _ "key" H) as (w & Hw & [(-> & HO)|(_ & HO)]); [cbn; tauto|reflexivity|exists VNone; split; [exact Hw|left; reflexivity]|].
    exists w. split; [exact Hw|]. right. change (cvalidators CNode "key") with [validate_varchar128] in HO.
    inversion HO as [|? ? Hq _]; subst. apply varchar_iff in Hq as (s & Hs & Hl). exists s. auto.
  - intros k Hk. assert (E : In k (cslots CNode) /\ cvalidators CNode k = [validate_port]).
    { cbn [In] in Hk. destruct Hk as [<-|[<-|[<-|[<-|[]]]]]; split; try reflexivity; cbn; tauto. }
    destruct E as [E1 E2]. destruct (cnew_plain _ _ _ k H E1 eq_refl) as (w & Hw & [(-> & HO)|(_ & HO)]); [exists VNone; split; [exact Hw|left; reflexivity]|].
    exists w. split; [exact Hw|]. right. rewrite E2 in HO. inversion HO as [|? ? Hq _]; subst. apply port_iff in Hq. exact Hq.
  - intros k Hk. assert (E : In k (cslots CNode) /\ cvalidators CNode k = [validate_ipaddress]).
    { cbn [In] in Hk. destruct Hk as [<-|[<-|[]]]; split; try reflexivity; cbn; tauto. }
    destruct E as [E1 E2]. destruct (cnew_plain _ _ _ k H E1 eq_refl) as (w & Hw & [(-> & HO)|(_ & HO)]); [exists VNone; split; [exact Hw|left; reflexivity]|].
    exists w. split; [exact Hw|]. right. rewrite E2 in HO. inversion HO as [|? ? Hq _]; subst. unfold validate_ipaddress in Hq. destruct (ip_ok w); [reflexivity|discriminate].
  - intros k Hk. assert (E : In k (cslots CNode) /\ cvalidators CNode k = [validate_integer]).
    { cbn [In] in Hk. destruct Hk as [<-|[<-|[]]]; split; try reflexivity; cbn; tauto. }
    destruct E as [E1 E2]. destruct (cnew_plain _ _ _ k H E1 eq_refl) as (w & Hw & [(-> & HO)|(_ & HO)]); [exists VNone; split; [exact Hw|left; reflexivity]|].
    exists w. split; [exact Hw|]. right. rewrite E2 in HO. inversion HO as [|? ? Hq _]; subst. apply integer_iff in Hq. exact Hq.
Qed.

(** ** Task headers *)
Definition built_owner (kw : list (ustr * pyval)) : Prop :=
  forall n, kw_get (u "task_owner") kw = Some (VObj CNode n) -> exists nkw, cnew CNode nkw = Ok (VObj CNode n).
Lemma built_header kw a : built_owner kw -> cnew CTaskHeader kw = Ok (VObj CTaskHeader a) -> cont_ok CTaskHeader a.
Proof.
  intros HB H. destruct (cnew_cont_ok _ _ _ H) as (a0 & E & HO); [|assert (a0 = a) by congruence; subst; exact HO].
  intros n _ Hn. destruct (HB n Hn) as (nkw & Hk). apply cnew_leaf_ok in Hk as (n0 & E & Hl); [|reflexivity].
  assert (n0 = n) by congruence. subst. exact Hl.
Qed.
(** headers obtained by building one and signing it any number of times *)
Inductive made (C : crypto) : attrs_t -> Prop :=
| made_new kw a : built_owner kw -> cnew CTaskHeader kw = Ok (VObj CTaskHeader a) -> made C a
| made_signed a priv a' : made C a -> header_sign C a priv = Ok a' -> made C a'.
Lemma made_ok C a : made C a -> cont_ok CTaskHeader a.
Proof.
  induction 1 as [kw a HB H|a priv a' _ IH H]; [eapply built_header; eauto|].
  unfold header_sign in H. apply bind_ok in H as (h & _ & H). apply bind_ok in H as (s & _ & H). apply Ok_inj in H. subst.
  apply header_set_sig, IH.
Qed.

(** nothing in the header changes its form on the way: lists rather than tuples,
    plain dicts with plain keys, no enum members outside market_type *)
Definition plain_header (a : attrs_t) : Prop := cont_wire CTaskHeader a.

Lemma header_rt g C a : view g -> made C a ->
  exists d a', to_dict (VObj CTaskHeader a) = Ok d /\ cnew_star CTaskHeader (g d) = Ok (VObj CTaskHeader a') /\
    cont_ok CTaskHeader a' /\
    header_hash C a' = header_hash C a /\ (forall pub, header_verify C a' pub = header_verify C a pub) /\
    (exists d', to_dict (VObj CTaskHeader a') = Ok d' /\ norm d' = norm d) /\
    (plain_header a -> a' = a).
Proof.
  intros V HM. pose proof (made_ok _ _ HM) as HO.
  destruct (container_rt g CTaskHeader a V HO) as (l & a' & l' & H1 & H2 & H3 & H4 & H5 & H6 & H7).
  exists (VDict DPlain (kvl l)), a'. split; [unfold to_dict; rewrite H1; reflexivity|].
  destruct (view_kvl g l V) as (d2 & Ed). rewrite Ed.
  split; [unfold cnew_star; cbn [star_star]; rewrite (slots_kwargs CTaskHeader) by (rewrite gl_fst; exact H2); exact H3|].
  split; [exact H4|].
  split; [eapply header_hash_wirel; eassumption|]. split; [eapply header_verify_wirel; eassumption|].
  split; [|exact H7]. exists (VDict DPlain (kvl l')). unfold to_dict. rewrite H5. split; [reflexivity|]. apply norm_wirel, H6.
Qed.

Lemma header_sign_hash C a priv a' : made C a -> header_sign C a priv = Ok a' -> header_hash C a' = header_hash C a.
Proof.
  intros HM H. unfold header_sign in H. apply bind_ok in H as (h & _ & H). apply bind_ok in H as (s & _ & H). apply Ok_inj in H. subst.
  apply header_hash_set_sig, (made_ok _ _ HM).
Qed.

Lemma header_sign_signature C a priv a' : made C a -> header_sign C a priv = Ok a' ->
  exists h s, header_hash C a' = Ok h /\ ecdsa_sign C priv h = Ok s /\ attr_get_or_none "signature" a' = VBytes s.
Proof.
  intros HM H. pose proof (header_sign_hash _ _ _ _ HM H) as HH.
  unfold header_sign in H. apply bind_ok in H as (h & Hh & H). apply bind_ok in H as (s & Hs & H). apply Ok_inj in H. subst.
  exists h, s. rewrite HH. split; [exact Hh|]. split; [exact Hs|].
  destruct (made_ok _ _ HM) as [Ha _]. unfold attr_get_or_none.
  replace (attr_get "signature" (attr_set "signature" (VBytes s) a)) with (Some (VBytes s)); [reflexivity|].
  clear. induction a as [|[k w] a IH]; cbn [attr_set attr_get]; [reflexivity|].
  destruct (String.eqb_spec k "signature") as [->|N]; cbn [attr_get]; [reflexivity|].
  destruct (String.eqb_spec k "signature"); [congruence|exact IH].
Qed.

(** verification by a 64-byte key accepts exactly recoverable signatures of the hash *)
Lemma header_verify_iff C a p : List.length p = 64%nat ->
  header_verify C a (VBytes p) = Ok tt <->
  exists sg h, attr_get_or_none "signature" a = VBytes sg /\ header_hash C a = Ok h /\
    recover C sg (sha3_256 C h) = Some (x04 :: p).
Proof.
  intros Hp. unfold header_verify.
  assert (L : blen p =? 64 = true) by (unfold blen; rewrite Hp; reflexivity).
  destruct (attr_get_or_none "signature" a) eqn:E;
    try (split; [discriminate|intros (sg & h & H & _); discriminate]);
    try (split; [intros H; exfalso;
                 destruct (header_hash C a); cbn [bind] in H; unfold ecdsa_verify in H; [rewrite L in H|]; discriminate
                |intros (sg & h & H & _); discriminate]).
  unfold ecdsa_verify. rewrite L. split.
  - intros H. apply bind_ok in H as (h & Hh & H). exists b, h.
    destruct (recover C b (sha3_256 C h)) as [k|] eqn:Er; [|discriminate].
    destruct (bytes_eqb k (x04 :: p)) eqn:Eb; [|discriminate]. apply bytes_eqb_eq in Eb. subst. auto.
  - intros (sg & h & H1 & H2 & H3). assert (sg = b) by congruence. subst. rewrite H2. cbn [bind]. rewrite H3.
    rewrite (proj2 (bytes_eqb_eq _ _) eq_refl). reflexivity.
Qed.
Lemma header_verify_err C a p e : List.length p = 64%nat ->
  header_verify C a (VBytes p) = Err e -> e = EInvalidSignature \/ header_hash C a = Err e.
Proof.
  intros Hp H. unfold header_verify in H.
  assert (L : blen p =? 64 = true) by (unfold blen; rewrite Hp; reflexivity).
  assert (G : forall sg, (do h <- header_hash C a; ecdsa_verify C (VBytes p) sg h) = Err e -> e = EInvalidSignature \/ header_hash C a = Err e).
  { clear H. intros sg H. destruct (header_hash C a) as [h|e']; cbn [bind] in H; [left|right; congruence].
    unfold ecdsa_verify in H. rewrite L in H. destruct sg; try congruence.
    destruct (recover C b (sha3_256 C h)); [|congruence]. destruct (bytes_eqb _ _); congruence. }
  destruct (attr_get_or_none "signature" a); try (eapply G; exact H). left. congruence.
Qed.

(** ** Node *)
Definition fills (a a' : attrs_t) (pub prv : string) : Prop :=
  (attr_get_or_none pub a <> VNone -> attr_get_or_none pub a' = attr_get_or_none pub a) /\
  (attr_get_or_none pub a = VNone -> attr_get_or_none pub a' = attr_get_or_none prv a).

Lemma attr_get_set_same k v (a : attrs_t) : attr_get_or_none k (attr_set k v a) = v.
Proof.
  unfold attr_get_or_none. enough (attr_get k (attr_set k v a) = Some v) as -> by reflexivity.
  induction a as [|[k0 w] a IH]; cbn [attr_set attr_get].
  - rewrite String.eqb_refl. reflexivity.
  - destruct (String.eqb_spec k0 k) as [->|N]; cbn [attr_get]; [rewrite String.eqb_refl; reflexivity|].
    destruct (String.eqb_spec k0 k); [congruence|exact IH].
Qed.
Lemma attr_get_set_other k k' v (a : attrs_t) : k' <> k -> attr_get_or_none k' (attr_set k v a) = attr_get_or_none k' a.
Proof.
  intros Hne. unfold attr_get_or_none. enough (attr_get k' (attr_set k v a) = attr_get k' a) as -> by reflexivity.
  induction a as [|[k0 w] a IH]; cbn [attr_set attr_get].
  - destruct (String.eqb_spec k k'); [congruence|reflexivity].
  - destruct (String.eqb_spec k0 k) as [->|N]; cbn [attr_get].
    + destruct (String.eqb_spec k k'); [congruence|reflexivity].
    + destruct (String.eqb_spec k0 k'); [reflexivity|exact IH].
Qed.
Lemma fill_same pub prv a : fills a (fill_from pub prv a) pub prv.
Proof.
  unfold fills, fill_from. destruct (attr_get_or_none pub a) eqn:E; split; intros H; try congruence;
    try (exact E); try (exfalso; apply H; exact E); try (apply attr_get_set_same).
Qed.
Lemma fill_other pub prv k a : k <> pub -> attr_get_or_none k (fill_from pub prv a) = attr_get_or_none k a.
Proof. intros H. unfold fill_from. destruct (attr_get_or_none pub a); try reflexivity. apply attr_get_set_other, H. Qed.

Lemma update_fills a :
  let a' := update_public_info a in
  fills a a' "pub_addr" "prv_addr" /\ fills a a' "pub_port" "prv_port" /\ fills a a' "p2p_pub_port" "p2p_prv_port" /\
  fills a a' "hyperdrive_pub_port" "hyperdrive_prv_port" /\
  (forall k, ~ In k ["pub_addr"; "pub_port"; "p2p_pub_port"; "hyperdrive_pub_port"]%string ->
     attr_get_or_none k a' = attr_get_or_none k a).
Proof.
  cbv zeta. unfold update_public_info.
  repeat match goal with |- _ /\ _ => split end.
  - unfold fills. rewrite !(fill_other _ _ "pub_addr" (fill_from _ _ _)) by discriminate. apply fill_same.
  - unfold fills. rewrite !(fill_other _ _ "pub_port" (fill_from _ _ (fill_from _ _ _))) by discriminate.
    pose proof (fill_same "pub_port" "prv_port" (fill_from "pub_addr" "prv_addr" a)) as F. unfold fills in F.
    rewrite !(fill_other "pub_addr") in F by discriminate. exact F.
  - unfold fills. rewrite (fill_other "hyperdrive_pub_port" _ "p2p_pub_port") by discriminate.
    pose proof (fill_same "p2p_pub_port" "p2p_prv_port" (fill_from "pub_port" "prv_port" (fill_from "pub_addr" "prv_addr" a))) as F.
    unfold fills in F. rewrite !(fill_other "pub_port") in F by discriminate. rewrite !(fill_other "pub_addr") in F by discriminate. exact F.
  - pose proof (fill_same "hyperdrive_pub_port" "hyperdrive_prv_port" (fill_from "p2p_pub_port" "p2p_prv_port" (fill_from "pub_port" "prv_port" (fill_from "pub_addr" "prv_addr" a)))) as F.
    unfold fills in *. rewrite !(fill_other "p2p_pub_port") in F by discriminate. rewrite !(fill_other "pub_port") in F by discriminate.
    rewrite !(fill_other "pub_addr") in F by discriminate. exact F.
  - intros k Hk. cbn [In] in Hk. rewrite !fill_other; [reflexivity|intros ->; tauto..].
Qed.
Lemma attr_set_get_id k (a : attrs_t) : attr_get k a = Some VNone -> attr_set k VNone a = a.
Proof.
  induction a as [|[k0 w] a IH]; cbn [attr_get attr_set]; [discriminate|].
  destruct (String.eqb_spec k0 k) as [->|N]; [intros H; injection H as ->; reflexivity|]. intros H. rewrite IH by exact H. reflexivity.
Qed.
Lemma fill_stable pub prv a : In pub (map fst a) ->
  attr_get_or_none pub a = VNone -> attr_get_or_none prv a = VNone -> fill_from pub prv a = a.
Proof.
  intros Hin H1 H2. unfold fill_from. rewrite H1, H2. apply attr_set_get_id.
  destruct (attr_get_some pub a Hin) as (w & Hw & _). unfold attr_get_or_none in H1. rewrite Hw in *. congruence.
Qed.
Lemma fill_stable' pub prv a : attr_get_or_none pub a <> VNone -> fill_from pub prv a = a.
Proof. intros H. unfold fill_from. destruct (attr_get_or_none pub a); congruence. Qed.
Lemma fill_fst pub prv a : In pub (map fst a) -> map fst (fill_from pub prv a) = map fst a.
Proof. intros H. unfold fill_from. destruct (attr_get_or_none pub a); try reflexivity. apply attr_set_fst, H. Qed.
Lemma pyval_none_dec (w : pyval) : {w = VNone} + {w <> VNone}.
Proof. destruct w; (left; reflexivity) || (right; discriminate). Qed.
Lemma update_idem a : map fst a = cslots CNode -> update_public_info (update_public_info a) = update_public_info a.
Proof.
  intros Ha. set (b := update_public_info a).
  assert (Hb : map fst b = cslots CNode).
  { subst b. unfold update_public_info.
    assert (G : forall pub prv b, In pub (cslots CNode) -> map fst b = cslots CNode -> map fst (fill_from pub prv b) = cslots CNode).
    { intros pub prv b Hp Hb. rewrite fill_fst; [exact Hb|rewrite Hb; exact Hp]. }
    repeat (apply G; [cbn; tauto|]). exact Ha. }
  pose proof (update_fills a) as (F1 & F2 & F3 & F4 & F5). cbv zeta in *. fold b in F1, F2, F3, F4, F5.
  assert (S : forall pub prv, fills a b pub prv -> In pub (cslots CNode) ->
     ~ In prv ["pub_addr"; "pub_port"; "p2p_pub_port"; "hyperdrive_pub_port"]%string -> fill_from pub prv b = b).
  { intros pub prv [G1 G2] Hin Hn. specialize (F5 prv Hn). destruct (pyval_none_dec (attr_get_or_none pub b)) as [E|E].
    - apply fill_stable; [rewrite Hb; exact Hin|exact E|]. rewrite F5.
      destruct (pyval_none_dec (attr_get_or_none pub a)) as [E'|E']; [rewrite <- (G2 E'); exact E|].
      rewrite (G1 E') in E. contradiction.
    - apply fill_stable', E. }
  unfold update_public_info.
  rewrite (S "pub_addr" "prv_addr")%string; [|exact F1|cbn; tauto|cbn; intuition discriminate].
  rewrite (S "pub_port" "prv_port")%string; [|exact F2|cbn; tauto|cbn; intuition discriminate].
  rewrite (S "p2p_pub_port" "p2p_prv_port")%string; [|exact F3|cbn; tauto|cbn; intuition discriminate].
  apply S; [exact F4|cbn; tauto|cbn; intuition discriminate].
Qed.
(** the update keeps a node valid: it can still be sent and rebuilt *)
Lemma update_ok a : leaf_ok CNode a -> leaf_ok CNode (update_public_info a).
Proof.
  assert (S : forall pub prv b, In pub (cslots CNode) -> In prv (cslots CNode) ->
       (forall w, Forall (fun f => f (u prv) w = Ok tt) (cvalidators CNode prv) -> Forall (fun f => f (u pub) w = Ok tt) (cvalidators CNode pub)) ->
       leaf_ok CNode b -> leaf_ok CNode (fill_from pub prv b)).
  { intros pub prv b Hq Hp Hv [Hb HB]. split; [rewrite fill_fst; [exact Hb|rewrite Hb; exact Hq]|]. intros k w Hin. unfold fill_from in Hin.
    destruct (attr_get_or_none pub b); try (apply HB, Hin).
    apply attr_set_in in Hin as [[-> ->]|Hin]; [|apply HB, Hin].
    destruct (attr_get_some prv b) as (w' & Hw' & Hi); [rewrite Hb; exact Hp|].
    unfold attr_get_or_none. rewrite Hw'. specialize (HB _ _ Hi). cbn [leaf_attr_ok] in *. unfold plain_ok in *.
    destruct HB as [(-> & _)|(Hn & HF)]; [left; auto|]. right. split; [exact Hn|]. apply Hv, HF. }
  assert (VI : forall k k' w, Forall (fun f => f (u k) w = Ok tt) [validate_integer] -> Forall (fun f => f (u k') w = Ok tt) [validate_integer]).
  { intros k k' w H. inversion H as [|? ? Hq _]; subst. constructor; [|constructor]. apply integer_iff in Hq. apply integer_iff. exact Hq. }
  assert (VP : forall k k' w, Forall (fun f => f (u k) w = Ok tt) [validate_port] -> Forall (fun f => f (u k') w = Ok tt) [validate_port]).
  { intros k k' w H. inversion H as [|? ? Hq _]; subst. constructor; [|constructor]. apply port_iff in Hq. apply port_iff. exact Hq. }
  assert (VA : forall k k' w, Forall (fun f => f (u k) w = Ok tt) [validate_ipaddress] -> Forall (fun f => f (u k') w = Ok tt) [validate_ipaddress]).
  { intros k k' w H. inversion H as [|? ? Hq _]; subst. constructor; [|constructor]. unfold validate_ipaddress in *. destruct (ip_ok w); [reflexivity|discriminate]. }
  intros H. unfold update_public_info.
  apply S; [cbn; tauto|cbn; tauto|exact (VI _ _)|]. apply S; [cbn; tauto|cbn; tauto|exact (VP _ _)|].
  apply S; [cbn; tauto|cbn; tauto|exact (VP _ _)|]. apply S; [cbn; tauto|cbn; tauto|exact (VA _ _)|exact H].
Qed.

(** ** Statements of the property theorems *)
(** the documented keys *)
Definition documented_keys (d : dcls) : list string :=
  match d with
  | DPlain => []
  | DCTD => ["task_id"; "subtask_id"; "deadline"; "extra_data"; "performance"; "docker_images"; "resources"]
  | DFileInfo => ["path"; "checksum"; "size"; "category"]
  | DPeer => ["address"; "port"; "node"]
  | DBlockIoEntry => ["major"; "minor"; "op"; "value"]
  | DCpuUsage => ["percpu_usage"; "total_usage"; "usage_in_kernelmode"; "usage_in_usermode"]
  | DThrottling => ["periods"; "throttled_periods"; "throttled_time"]
  | DMemoryData => ["failcnt"; "limit"; "max_usage"; "usage"]
  end%string.
(** what the value under key [t] must be *)
Definition documented_value (d : dcls) (t : ustr) (v : pyval) : Prop :=
  match d with
  | DCTD => t = u "task_id" \/ t = u "subtask_id" -> exists s, is_str v s /\ Z.of_nat (List.length s) <= 128
  | DFileInfo => t = u "category" -> exists m, v = VEnum EnFileCategory m
  | DPeer => (t = u "address" -> ip_ok v = true) /\
             (t = u "port" -> exists z, v = VInt z /\ 1 <= z <= 65534) /\
             (t = u "node" -> exists n, v = VObj CNode n)
  | _ => True
  end.


Lemma documented_items d : documented_keys d = map fst (items d).
Proof. destruct d; reflexivity. Qed.
Lemma documented_validated d t v : validated d t v -> documented_value d t v.
Proof.
  unfold validated. destruct d; cbn [documented_value dvalidator]; auto.
  - intros H Ht.
    assert (H' : exists f, validate_varchar 128 f v = Ok tt).
    { destruct Ht as [-> | ->].
      - rewrite ustr_eqb_refl in H. eauto.
      - rewrite ustr_eqb_refl in H. replace (ustr_eqb (u "subtask_id") (u "task_id")) with false in H by reflexivity. eauto. }
    destruct H' as (f & H'). apply varchar_iff in H'. exact H'.
  - intros H ->. rewrite ustr_eqb_refl in H. destruct v; try discriminate. destruct e; try discriminate. eauto.
  - intros H. split; [|split]; intros ->.
    + rewrite ustr_eqb_refl in H. unfold validate_ipaddress in H. destruct (ip_ok v); [reflexivity|discriminate].
    + replace (ustr_eqb (u "port") (u "address")) with false in H by reflexivity. rewrite ustr_eqb_refl in H.
      apply port_iff in H. exact H.
    + replace (ustr_eqb (u "node") (u "address")) with false in H by reflexivity.
      replace (ustr_eqb (u "node") (u "port")) with false in H by reflexivity. rewrite ustr_eqb_refl in H.
      destruct v; try discriminate. destruct c; try discriminate. eauto.
Qed.
Lemma dict_invariant d arg o ops : d <> DPlain -> dict_new d arg = Ok o ->
  exists kvs, o = VDict d kvs /\
    let now := fold_left (fun st op => match dset d st (fst op) (snd op) with Ok st' => st' | Err _ => st end) ops kvs in
    Permutation (map (fun kv => str_of (fst kv)) now) (map (fun k => Some (u k)) (documented_keys d)) /\
    forall k v t, In (k, v) now -> str_of k = Some t -> documented_value d t v.
Proof.
  intros Hd H. destruct (dict_new_schema _ _ _ Hd H) as (kvs & -> & HS). exists kvs. split; [reflexivity|]. cbv zeta.
  destruct (assigns_schema d ops kvs Hd HS) as [HP HV]. split.
  - rewrite documented_items, map_map. exact HP.
  - intros k v t Hin Ht. apply documented_validated. eapply HV; eassumption.
Qed.
Lemma dict_assignment d arg kvs k v kvs' : d <> DPlain -> dict_new d arg = Ok (VDict d kvs) -> dset d kvs k v = Ok kvs' ->
  exists t w, str_of k = Some t /\ dict_get (VStr t) kvs' = Some w /\
    (w = v \/ (d = DPeer /\ t = u "node" /\ exists n, w = VObj CNode n)) /\
    forall t', t' <> t -> dict_get (VStr t') kvs' = dict_get (VStr t') kvs.
Proof.
  intros Hd H. destruct (dict_new_schema _ _ _ Hd H) as (kvs0 & E & HS). assert (kvs0 = kvs) by congruence. subst.
  apply dset_effect; assumption.
Qed.
Lemma dict_undeclared d kvs k v : d <> DPlain ->
  (forall t, str_of k = Some t -> ~ In t (map u (documented_keys d))) -> exists e, dset d kvs k v = Err e.
Proof. intros Hd H. apply dset_undeclared; [exact Hd|]. rewrite documented_items, map_map in H. exact H. Qed.
Lemma ctd_ids kvs k v : k = "task_id"%string \/ k = "subtask_id"%string ->
  (forall s, is_str v s -> 128 < Z.of_nat (List.length s)) -> dset DCTD kvs (skey k) v = Err (EFieldError (u k)).
Proof.
  intros Hk Hv.
  assert (F : validate_varchar 128 (u k) v = Err (EFieldError (u k))).
  { destruct (proj1 validators_total 128 (u k) v) as [H|H]; [|exact H]. apply varchar_iff in H as (s & Hs & Hl).
    specialize (Hv _ Hs). lia. }
  destruct Hk as [-> | ->]; unfold dset, skey; cbn [bind str_of].
  - cbn [dvalidator]. rewrite ustr_eqb_refl, F. reflexivity.
  - cbn [dvalidator]. replace (ustr_eqb (u "subtask_id") (u "task_id")) with false by reflexivity. rewrite ustr_eqb_refl, F. reflexivity.
Qed.

Lemma bad_declaration c kw f :
  (exists k, f = u k /\ In k (cslots c) /\ crequired c k = true /\ kw_get f kw = None) \/
  (~ (exists k, f = u k /\ In k (cslots c)) /\ exists v, In (f, v) kw) \/
  (exists k v g, f = u k /\ In k (cslots c) /\ kw_get f kw = Some v /\
     (v <> VNone \/ crequired c k = true) /\ In g (cvalidators c k) /\ g f v <> Ok tt) ->
  exists e, cnew c kw = Err e.
Proof.
  intros D. apply (declaration_failure_err c kw f).
  - destruct D as [D|[D|(k & v & g & H1 & H2 & H3 & H4 & H5 & H6)]]; [left; exact D|right; left; exact D|].
    right; right. exists k, v, g. auto.
  - intros k Hin Hg Hr ->. destruct D as [(k' & E & _ & Hr' & Hg')|[(Hno & _)|(k' & v & g & E & _ & Hg' & Hn & _)]].
    + congruence.
    + apply Hno. eauto.
    + apply u_inj in E. subst k'. assert (v = VNone) by congruence. subst. destruct Hn; congruence.
Qed.
Lemma container_roundtrip c kw a : c <> CTaskHeader -> cnew c kw = Ok (VObj c a) ->
  exists d a' d', to_dict (VObj c a) = Ok d /\ cnew_star c (norm d) = Ok (VObj c a') /\
    to_dict (VObj c a') = Ok d' /\ norm d' = norm d.
Proof.
  intros Hc H. destruct (cnew_cont_ok _ _ _ H) as (a0 & E & HO); [intros; congruence|].
  assert (a0 = a) by congruence. subst.
  assert (V : view norm) by (right; reflexivity).
  destruct (container_rt norm c a V HO) as (l & a' & l' & H1 & H2 & H3 & H4 & H5 & H6 & H7).
  exists (VDict DPlain (kvl l)), a', (VDict DPlain (kvl l')). unfold to_dict. rewrite H1, H5.
  destruct (view_kvl norm l V) as (d2 & Ed). rewrite Ed.
  split; [reflexivity|]. split; [|split; [reflexivity|]].
  - unfold cnew_star. cbn [star_star]. rewrite (slots_kwargs c) by (rewrite gl_fst; exact H2). exact H3.
  - rewrite <- Ed. apply norm_wirel, H6.
Qed.
Lemma header_dict_rt C a : made C a ->
  exists d a', to_dict (VObj CTaskHeader a) = Ok d /\ cnew_star CTaskHeader d = Ok (VObj CTaskHeader a') /\
    header_hash C a' = header_hash C a /\ (forall pub, header_verify C a' pub = header_verify C a pub) /\
    (plain_header a -> a' = a).
Proof.
  intros HM. destruct (header_rt (fun x => x) C a) as (d & a' & H1 & H2 & _ & H3 & H4 & _ & H5); [left; reflexivity|exact HM|].
  exists d, a'. auto.
Qed.
Lemma header_wire_rt C a d b depth : made C a -> to_dict (VObj CTaskHeader a) = Ok d -> dumps d = Ok b ->
  wirewf d = true -> (vdepth d < depth)%nat ->
  exists d' a', loads depth b = Ok d' /\ cnew_star CTaskHeader d' = Ok (VObj CTaskHeader a') /\
    header_hash C a' = header_hash C a /\ (forall pub, header_verify C a' pub = header_verify C a pub) /\
    (plain_header a -> a' = a).
Proof.
  intros HM Hd Hb Hw Hl. destruct (header_rt norm C a) as (d0 & a' & H1 & H2 & _ & H3 & H4 & _ & H5); [right; reflexivity|exact HM|].
  assert (d0 = d) by congruence. subst. exists (norm d), a'. split; [|auto].
  unfold dumps in Hb. destruct (enc d) as [b0|] eqn:E; [|discriminate]. apply Ok_inj in Hb. subst.
  rewrite <- (app_nil_r b). apply loads_enc; assumption.
Qed.
Lemma header_signed_verify C a priv sec pub a' p : crypto_ok C -> made C a ->
  secret_of C priv = Some sec -> pub_of C sec = Some pub -> header_sign C a priv = Ok a' ->
  List.length p = 64%nat -> (header_verify C a' (VBytes p) = Ok tt <-> p = pub).
Proof.
  intros HC HM Hs Hp H Hl. destruct (header_sign_signature _ _ _ _ HM H) as (h & s & Hh & He & Ha).
  rewrite (header_verify_iff C a' p Hl). rewrite Ha, Hh. unfold ecdsa_sign in He. rewrite Hs in He.
  destruct (sign_rec C sec (sha3_256 C h)) as [sg|] eqn:Er; [|discriminate]. apply Ok_inj in He. subst sg.
  destruct (sign_recover C HC _ _ _ _ Er Hp) as [R _]. split.
  - intros (sg & h' & E1 & E2 & E3). assert (sg = s) by congruence. assert (h' = h) by congruence. subst. congruence.
  - intros ->. exists s, h. auto.
Qed.
Lemma header_unsigned C a pub : attr_get_or_none "signature" a = VNone -> header_verify C a pub = Err EInvalidSignature.
Proof. intros H. unfold header_verify. rewrite H. reflexivity. Qed.

Definition wire_ok (a : attrs_t) : Prop := forall d, to_dict (VObj CTaskHeader a) = Ok d -> wirewf d = true.
Lemma wirewf_filter p l : wirewf (VDict DPlain (kvl l)) = true ->
  wirewf (VDict DPlain (kvl (filter p l))) = true.
Proof.
  cbn [wirewf]. intros H. apply andb_true_iff in H as [H H3]. apply andb_true_iff in H as [H1 H2].
  assert (G : forall kv, In kv (kvl (filter p l)) -> In kv (kvl l)).
  { unfold kvl. intros kv Hin. apply in_map_iff in Hin as (x & <- & Hx). apply filter_In in Hx as [Hx _]. apply in_map_iff. eauto. }
  rewrite !andb_true_iff. split; [split|].
  - apply forallb_forall. intros kv Hin. rewrite forallb_forall in H1. auto.
  - clear -H2. unfold kvl in *. rewrite map_map in *. cbn [fst] in *. induction l as [|x l IH]; [reflexivity|].
    cbn [map nodup_keys] in H2. apply andb_true_iff in H2 as [H2 H4]. cbn [filter]. destruct (p x); [|auto].
    cbn [map nodup_keys]. rewrite IH by exact H4. rewrite andb_true_r. apply forallb_forall. intros k Hk.
    rewrite forallb_forall in H2. apply H2. apply in_map_iff in Hk as (y & <- & Hy). apply filter_In in Hy as [Hy _].
    apply in_map_iff. exists y. auto.
  - apply forallb_forall. intros kv Hin. rewrite forallb_forall in H3. auto.
Qed.
Lemma kvl_inj l l' : kvl l = kvl l' -> l = l'.
Proof.
  revert l'. induction l as [|[k x] l IH]; intros [|[k' x'] l'] H; try discriminate; [reflexivity|].
  cbn [kvl map fst snd] in H. assert (E : skey k = skey k') by congruence. unfold skey in E.
  assert (E' : u k = u k') by congruence. apply u_inj in E'. subst. f_equal; [congruence|]. apply IH. unfold kvl. congruence.
Qed.
Lemma attr_get_filter k k' (l : list (string * pyval)) : k <> k' ->
  attr_get k (filter (fun kx => negb (fst kx =? k')%string) l) = attr_get k l.
Proof.
  intros Hne. induction l as [|[k0 x] l IH]; [reflexivity|]. cbn [filter fst].
  destruct (String.eqb_spec k0 k') as [->|N]; cbn [negb attr_get].
  - destruct (String.eqb_spec k' k); [congruence|exact IH].
  - destruct (String.eqb_spec k0 k); [reflexivity|exact IH].
Qed.
(** [b] is the dict of a header without its signature, as CBOR *)
Definition header_bytes (a : attrs_t) (b : bytes) : Prop :=
  exists l, to_dict (VObj CTaskHeader a) = Ok (VDict DPlain (kvl l)) /\
    dumps (VDict DPlain (kvl (filter (fun kx => negb (fst kx =? "signature")%string) l))) = Ok b.
Lemma header_hash_binds C a a' h : made C a -> made C a' -> wire_ok a -> wire_ok a' ->
  header_hash C a = Ok h -> header_hash C a' = Ok h ->
  exists b b', header_bytes a b /\ header_bytes a' b' /\ h = sha1 C b /\ h = sha1 C b' /\
    (b = b' -> forall k w w', k <> "signature"%string -> attr_get k a = Some w -> attr_get k a' = Some w' ->
       exists x x', ser_entry CTaskHeader k w = Ok x /\ ser_entry CTaskHeader k w' = Ok x' /\ norm x = norm x').
Proof.
  intros HM HM' W W' H H'.
  assert (V : view norm) by (right; reflexivity).
  pose proof (made_ok _ _ HM) as K. pose proof (made_ok _ _ HM') as K'.
  destruct (container_rt norm CTaskHeader a V K) as (l & _ & _ & D & _).
  destruct (container_rt norm CTaskHeader a' V K') as (l' & _ & _ & D' & _).
  unfold header_hash in H, H'. rewrite D in H. rewrite D' in H'. cbn [bind] in H, H'. rewrite dict_del_kvl in H, H'.
  specialize (W (VDict DPlain (kvl l))). specialize (W' (VDict DPlain (kvl l'))). unfold to_dict in W, W'.
  rewrite D in W. rewrite D' in W'. specialize (W eq_refl). specialize (W' eq_refl).
  apply (wirewf_filter (fun kx => negb (fst kx =? "signature")%string)) in W.
  apply (wirewf_filter (fun kx => negb (fst kx =? "signature")%string)) in W'.
  unfold dumps in H, H'.
  destruct (enc (VDict DPlain (kvl (filter _ l)))) as [b|] eqn:E in H; [|discriminate].
  destruct (enc (VDict DPlain (kvl (filter _ l')))) as [b'|] eqn:E' in H'; [|discriminate].
  cbn [bind] in H, H'. apply Ok_inj in H, H'. exists b, b'.
  split; [exists l; split; [cbn [to_dict]; rewrite D; reflexivity|unfold dumps; rewrite E; reflexivity]|].
  split; [exists l'; split; [cbn [to_dict]; rewrite D'; reflexivity|unfold dumps; rewrite E'; reflexivity]|]. split; [auto|]. split; [auto|].
  intros <- k w w' Hk Hw Hw'.
  destruct (enc_prefix_free _ _ _ _ [] [] E E' W W' eq_refl) as (N & _ & _).
  cbn [norm] in N. rewrite !norm_kvl in N. assert (N' : kvl (wirel (filter (fun kx => negb (fst kx =? "signature")%string) l)) = kvl (wirel (filter (fun kx => negb (fst kx =? "signature")%string) l'))) by (unfold wirel; congruence).
  apply kvl_inj in N'. apply (f_equal (attr_get k)) in N'. rewrite !attr_get_wirel, !attr_get_filter in N' by exact Hk.
  pose proof (to_dict_get _ _ _ k (proj1 K) D) as G. rewrite Hw in G. destruct G as (x & Gx & Sx).
  pose proof (to_dict_get _ _ _ k (proj1 K') D') as G'. rewrite Hw' in G'. destruct G' as (x' & Gx' & Sx').
  rewrite Gx, Gx' in N'. cbn [option_map] in N'. apply Some_inj in N'. exists x, x'. auto.
Qed.

Lemma update_spec a : let a' := update_public_info a in
  (forall pub prv, In (pub, prv) [("pub_addr", "prv_addr"); ("pub_port", "prv_port"); ("p2p_pub_port", "p2p_prv_port");
                                  ("hyperdrive_pub_port", "hyperdrive_prv_port")]%string ->
     (attr_get_or_none pub a <> VNone -> attr_get_or_none pub a' = attr_get_or_none pub a) /\
     (attr_get_or_none pub a = VNone -> attr_get_or_none pub a' = attr_get_or_none prv a)) /\
  (forall k, ~ In k ["pub_addr"; "pub_port"; "p2p_pub_port"; "hyperdrive_pub_port"]%string ->
     attr_get_or_none k a' = attr_get_or_none k a).
Proof.
  destruct (update_fills a) as (F1 & F2 & F3 & F4 & F5). cbv zeta in *. split; [|exact F5].
  intros pub prv Hin. cbn [In] in Hin. destruct Hin as [H|[H|[H|[H|[]]]]]; injection H as <- <-; assumption.
Qed.
Lemma update_idempotent kw a : cnew CNode kw = Ok (VObj CNode a) ->
  update_public_info (update_public_info a) = update_public_info a.
Proof.
  intros H. apply cnew_leaf_ok in H as (a0 & E & Ha & _); [|reflexivity]. assert (a0 = a) by congruence. subst.
  apply update_idem, Ha.
Qed.
Lemma update_valid kw a : cnew CNode kw = Ok (VObj CNode a) ->
  exists d a', to_dict (VObj CNode (update_public_info a)) = Ok d /\ cnew_star CNode (norm d) = Ok (VObj CNode a').
Proof.
  intros H. apply cnew_leaf_ok in H as (a0 & E & Ha); [|reflexivity]. assert (a0 = a) by congruence. subst.
  apply update_ok in Ha. assert (V : view norm) by (right; reflexivity).
  destruct (leaf_rt norm CNode _ V eq_refl Ha) as (l & a' & l' & H1 & H2 & H3 & H4 & H5 & H6 & H7).
  exists (VDict DPlain (kvl l)), a'. unfold to_dict. rewrite H1. split; [reflexivity|].
  destruct (view_kvl norm l V) as (d2 & Ed). rewrite Ed. unfold cnew_star. cbn [star_star].
  rewrite (slots_kwargs CNode) by (rewrite gl_fst; exact H2). exact H3.
Qed.
Lemma update_super a : attr_get_or_none "prv_addr" a <> VNone ->
  py_eq (attr_get_or_none "prv_addr" a) (attr_get_or_none "prv_addr" a) = true ->
  (is_super_node (update_public_info a) = true <->
   attr_get_or_none "pub_addr" a = VNone \/ py_eq (attr_get_or_none "pub_addr" a) (attr_get_or_none "prv_addr" a) = true).
Proof.
  intros Hn Hr. destruct (update_fills a) as ((F1 & F2) & _ & _ & _ & F5). cbv zeta in *.
  unfold is_super_node. rewrite (F5 "prv_addr"%string) by (cbn; intuition discriminate).
  destruct (pyval_none_dec (attr_get_or_none "pub_addr" a)) as [E|E].
  - rewrite (F2 E). split; [auto|]. intros _.
    destruct (attr_get_or_none "prv_addr" a); congruence.
  - rewrite (F1 E). destruct (attr_get_or_none "pub_addr" a) eqn:E1; try congruence;
    destruct (attr_get_or_none "prv_addr" a) eqn:E2; try congruence; intuition congruence.
Qed.

Lemma super_node_iff a : is_super_node a = true <->
  attr_get_or_none "pub_addr" a <> VNone /\ attr_get_or_none "prv_addr" a <> VNone /\
  py_eq (attr_get_or_none "pub_addr" a) (attr_get_or_none "prv_addr" a) = true.
Proof.
  unfold is_super_node. destruct (attr_get_or_none "pub_addr" a); try (split; [discriminate|intros (H & _); congruence]);
  destruct (attr_get_or_none "prv_addr" a); try (split; [discriminate|intros (_ & H & _); congruence]);
  (split; [intros H; split; [discriminate|split; [discriminate|exact H]]|intros (_ & _ & H); exact H]).
Qed.

(** ** How building a task header fails *)
Lemma kwargs_err kvs e : kwargs_of kvs = Err e -> exists k v, In (k, v) kvs /\ (str_of k = None \/ str_of k = Some (u "self")).
Proof.
  induction kvs as [|[k v] kvs IH]; cbn [kwargs_of]; [discriminate|]. destruct (str_of k) as [s|] eqn:Es.
  - destruct (ustr_eqb s (u "self")) eqn:E.
    + intros _. exists k, v. split; [left; reflexivity|]. right. rewrite Es. apply ustr_eqb_eq in E. subst. reflexivity.
    + intros H. destruct (kwargs_of kvs) as [r|e0]; cbn [bind] in H; [discriminate|].
      destruct (IH H) as (k0 & v0 & Hin & Hk). exists k0, v0. split; [right; exact Hin|exact Hk].
  - intros _. exists k, v. split; [left; reflexivity|auto].
Qed.
Lemma header_failure kw e : cnew CTaskHeader kw = Err e ->
  (exists f, e = EFieldError f) \/
  (e = EMessageError /\ exists d kvs k v, kw_get (u "task_owner") kw = Some (VDict d kvs) /\ In (k, v) kvs /\
     (str_of k = None \/ str_of k = Some (u "self"))).
Proof.
  intros H. apply cnew_err in H as [(f & -> & _)|(k & v & h & e' & Hk & Hg & Hh & He & Hv & ->)]; [left; eauto|].
  destruct (is_field_error e') eqn:F; [left; destruct e'; try discriminate F; eauto|].
  right. split; [reflexivity|]. cbn [chook] in Hh. unfold header_hook in Hh.
  destruct (k =? "task_owner")%string eqn:K1.
  - apply String.eqb_eq in K1. subst k. injection Hh as <-. change (cvalidators CTaskHeader "task_owner") with [vcheck (is_dict_or CNode)] in Hv.
    inversion Hv as [|? ? Hq _]; subst. unfold vcheck, fail_unless in Hq.
    destruct v as [| | | | | | | |dd kvs| |cc aa| | |]; try discriminate Hq.
    + cbn [star_star] in He. destruct (kwargs_of kvs) as [kw'|e0] eqn:Ek; cbn [bind] in He.
      * exfalso. change (node_new kw') with (cnew CNode kw') in He. apply cnew_err in He as [(f & -> & _)|(k2 & v2 & h2 & e2 & _ & _ & Hh2 & _)]; [discriminate F|discriminate Hh2].
      * destruct (kwargs_err _ _ Ek) as (k0 & v0 & Hin & Hk0). exists dd, kvs, k0, v0. auto.
    + destruct cc; try discriminate Hq. discriminate He.
  - exfalso. destruct (k =? "mask")%string; [injection Hh as <-; destruct v; discriminate He|].
    destruct (k =? "market_type")%string; [|discriminate Hh]. injection Hh as <-. destruct (enum_call EnMarketType v); [discriminate He|]. injection He as <-. discriminate F.
Qed.
