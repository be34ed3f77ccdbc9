(** * Ownership of task messages (C25-C27) *)
From Verif Require Export DataFacts TaskFacts FrameFacts FrameRT SignFacts.

(** the key a role answers to; [concent] is the key the caller passes *)
Definition owner_key (pk rk : bytes) (concent : pyval) (o : owner) : pyval :=
  match o with OProvider => VBytes pk | ORequestor => VBytes rk | OConcent => concent end.
Definition key64 (v : pyval) : Prop := exists k, v = VBytes k /\ List.length k = 64%nat.
(** [v] is the public key that made the signature of [m] *)
Definition signed_by (E : env) (m v : pyval) : Prop :=
  exists k c ty ts enc sg a h, v = VBytes k /\ List.length k = 64%nat /\ m = VMsg c ty ts enc (VBytes sg) a /\
    short_hash E m = Ok h /\ recover (cr E) sg (sha3_256 (cr E) h) = Some (x04 :: k).
(** the provider's and the requestor's key, hexadecimal in the chain's TaskToCompute *)
Definition chain_keys (m : pyval) (pk rk : bytes) : Prop :=
  exists t p r, getattr "task_to_compute" m = Ok t /\
    getattr "provider_public_key" t = Ok p /\ decode_hex p = Ok pk /\
    getattr "requestor_public_key" t = Ok r /\ decode_hex r = Ok rk.
(** the task header inside a TaskToCompute carries the signature of [rk] *)
Definition header_signed (E : env) (m : pyval) (rk : bytes) : Prop :=
  exists w ha sg h, getattr "want_to_compute_task" m = Ok w /\ getattr "task_header" w = Ok (VObj CTaskHeader ha) /\
    List.length rk = 64%nat /\ attr_get_or_none "signature" ha = VBytes sg /\ header_hash (cr E) ha = Ok h /\
    recover (cr E) sg (sha3_256 (cr E) h) = Some (x04 :: rk).

Lemma ecdsa_verify_any C v s d : ecdsa_verify C v s d = Ok tt <->
  exists p sg, v = VBytes p /\ s = VBytes sg /\ List.length p = 64%nat /\ recover C sg (sha3_256 C d) = Some (x04 :: p).
Proof.
  split.
  - intros H. assert (B : exists p, v = VBytes p).
    { destruct v; try (exists b; reflexivity); exfalso; unfold ecdsa_verify in H;
        repeat match type of H with context [match ?x with _ => _ end] => destruct x end; discriminate H. }
    destruct B as [p ->]. apply ecdsa_verify_ok in H as (L & sg & -> & R). exists p, sg. auto.
  - intros (p & sg & -> & -> & L & R). apply ecdsa_verify_ok. eauto.
Qed.
Lemma verify_signature_iff E m v : verify_signature E m v = Ok tt <-> signed_by E m v.
Proof.
  unfold signed_by. split.
  - intros H. destruct m; try discriminate H. cbn [verify_signature] in H. apply bind_ok in H as (h & Hh & H).
    apply ecdsa_verify_any in H as (p & sg & -> & -> & L & R). exists p. do 7 eexists.
    split; [reflexivity|]. split; [exact L|]. split; [reflexivity|]. split; [exact Hh|exact R].
  - intros (k & c & ty & ts & enc & sg & a & h & -> & L & -> & Hh & R). cbn [verify_signature]. rewrite Hh. cbn [bind].
    apply ecdsa_verify_any. eauto 8.
Qed.
Lemma verify_key64 E c ty ts enc sig a v h : key64 v -> short_hash E (VMsg c ty ts enc sig a) = Ok h ->
  verify_signature E (VMsg c ty ts enc sig a) v = Ok tt \/ verify_signature E (VMsg c ty ts enc sig a) v = Err EInvalidSignature.
Proof.
  intros (k & -> & L) H. cbn [verify_signature]. rewrite H. cbn [bind]. unfold ecdsa_verify, blen. rewrite L. cbn [Z.of_nat Z.eqb].
  replace (Z.of_nat 64 =? 64) with true by reflexivity. destruct sig; auto. destruct (recover _ _ _); auto. destruct (bytes_eqb _ _); auto.
Qed.
Lemma verify_not_invalid E c ty ts enc sig a v h : short_hash E (VMsg c ty ts enc sig a) = Ok h ->
  verify_signature E (VMsg c ty ts enc sig a) v = Err EInvalidSignature ->
  key64 v \/ (exists l, py_iter v = Some l /\ List.length l = 64%nat).
Proof.
  intros H. cbn [verify_signature]. rewrite H. cbn [bind]. unfold ecdsa_verify, blen, key64.
  assert (G : forall w, (match py_iter w with
      | Some l => if Z.of_nat (List.length l) =? 64
                  then match sig with VBytes sg => match recover (cr E) sg (sha3_256 (cr E) h) with Some _ => Err ETypeError | None => Err EInvalidSignature end
                       | _ => Err EInvalidSignature end
                  else Err EInvalidKeys
      | None => Err ETypeError end : result unit) = Err EInvalidSignature -> exists l, py_iter w = Some l /\ List.length l = 64%nat).
  { intros w. destruct (py_iter w) as [l|]; [|discriminate]. destruct (Z.of_nat (List.length l) =? 64) eqn:Q; [|discriminate].
    intros _. exists l. split; [reflexivity|]. apply Z.eqb_eq in Q. lia. }
  destruct v; try (match goal with |- (match py_iter ?w with _ => _ end = _) -> _ => intros Q; right; exact (G w Q) end).
  destruct (Z.of_nat (List.length b) =? 64) eqn:Q; [|discriminate]. intros _. left. exists b. split; [reflexivity|]. apply Z.eqb_eq in Q. lia.
Qed.

Lemma try_owners_ok (f : owner -> result unit) l : try_owners f l = Ok tt <->
  exists pre o post, l = pre ++ o :: post /\ Forall (fun x => f x = Err EInvalidSignature) pre /\ f o = Ok tt.
Proof.
  split.
  - induction l as [|o l IH]; cbn [try_owners]; [discriminate|]. destruct (f o) as [[]|e] eqn:Fo.
    + intros _. exists [], o, l. auto.
    + intros H. assert (e = EInvalidSignature /\ try_owners f l = Ok tt) as [-> Q] by (destruct e; try discriminate H; auto).
      destruct (IH Q) as (pre & o' & post & -> & Hf & Ho). exists (o :: pre), o', post. split; [reflexivity|]. split; [constructor; assumption|exact Ho].
  - intros (pre & o & post & -> & Hf & Ho). induction Hf as [|x pre Hx _ IH]; cbn [app try_owners]; [rewrite Ho; reflexivity|].
    rewrite Hx. exact IH.
Qed.
Lemma try_owners_reach (f : owner -> result unit) pre o post :
  (forall x, In x pre -> f x = Ok tt \/ f x = Err EInvalidSignature) -> f o = Ok tt -> try_owners f (pre ++ o :: post) = Ok tt.
Proof.
  intros H Ho. induction pre as [|x pre IH]; cbn [app try_owners]; [rewrite Ho; reflexivity|].
  destruct (H x (or_introl eq_refl)) as [-> | ->]; [reflexivity|]. apply IH. intros y Hy. apply H. right. exact Hy.
Qed.
Lemma try_owners_none (f : owner -> result unit) l :
  (forall x, In x l -> f x = Err EInvalidSignature) -> try_owners f l = Err EInvalidSignature.
Proof.
  induction l as [|x l IH]; cbn [try_owners]; intros H; [reflexivity|]. rewrite (H x (or_introl eq_refl)).
  apply IH. intros y Hy. apply H. right. exact Hy.
Qed.

Lemma chain_key_iff n m k : chain_key n m = Ok k <->
  exists t p, getattr "task_to_compute" m = Ok t /\ getattr n t = Ok p /\ decode_hex p = Ok k.
Proof.
  unfold chain_key. split.
  - intros H. apply bind_ok in H as (t & Ht & H). apply bind_ok in H as (p & Hp & H). eauto.
  - intros (t & p & -> & H & D). cbn [bind]. rewrite H. cbn [bind]. exact D.
Qed.
Lemma chain_keys_iff m pk rk : chain_keys m pk rk <->
  chain_key "provider_public_key" m = Ok pk /\ chain_key "requestor_public_key" m = Ok rk.
Proof.
  unfold chain_keys. rewrite !chain_key_iff. split.
  - intros (t & p & r & A & B & D & F & G). split; eauto.
  - intros ((t & p & A & B & D) & (t' & r & A' & F & G)). assert (t' = t) by congruence. subst. exists t, p, r. auto.
Qed.
Lemma getattr_ttc_self ty ts enc sig a :
  getattr "task_to_compute" (VMsg MTaskToCompute ty ts enc sig a) = Ok (VMsg MTaskToCompute ty ts enc sig a).
Proof. reflexivity. Qed.
Lemma verify_header_iff E m rk : getattr "task_to_compute" m = Ok m -> chain_key "requestor_public_key" m = Ok rk ->
  verify_header E m = Ok tt <-> header_signed E m rk.
Proof.
  intros T K. apply chain_key_iff in K as (t & r & T' & R & D). assert (t = m) by congruence. subst t. unfold verify_header, header_signed.
  split.
  - intros H. apply bind_ok in H as (w & Hw & H). apply bind_ok in H as (h & Hh & H).
    destruct h; try discriminate H. destruct c; try discriminate H.
    rewrite R in H. cbn [bind] in H. rewrite D in H. cbn [bind] in H.
    assert (L : List.length rk = 64%nat).
    { unfold header_verify in H. destruct (attr_get_or_none "signature" attrs); try discriminate H;
        apply bind_ok in H as (hh & _ & H); apply ecdsa_verify_ok in H as [L _]; exact L. }
    apply (header_verify_iff _ _ _ L) in H as (sg & hh & Hs & Hhh & Rc). exists w, attrs, sg, hh. auto 8.
  - intros (w & ha & sg & h & Hw & Hh & L & Hs & Hhh & Rc). rewrite Hw. cbn [bind]. rewrite Hh. cbn [bind]. rewrite R. cbn [bind]. rewrite D. cbn [bind].
    apply (header_verify_iff _ _ _ L). eauto.
Qed.

(** keys that are 64 long but not bytes (Python lists, strings) are excluded by the
    hypothesis on [concent] *)
Definition a_key (v : pyval) : Prop := v = VNone \/ exists b, v = VBytes b.

Lemma ownership_iff E c ty ts enc sig a concent : is_task_message c = true -> a_key concent ->
  let m := VMsg c ty ts enc sig a in
  validate_ownership E m concent = Ok tt <->
  exists pk rk, chain_keys m pk rk /\ (c = MTaskToCompute -> header_signed E m rk) /\
    exists pre o post, expected_owners c = pre ++ o :: post /\ Forall (fun x => key64 (owner_key pk rk concent x)) pre /\
      signed_by E m (owner_key pk rk concent o).
Proof.
  intros T K m. unfold m at 1. cbn [validate_ownership]. rewrite T. fold m. split.
  - intros H. apply bind_ok in H as ([] & Hh & H). apply bind_ok in H as (pk & Hp & H). apply bind_ok in H as (rk & Hr & H).
    exists pk, rk. split; [apply chain_keys_iff; auto|]. split.
    + intros ->. apply verify_header_iff; [reflexivity|exact Hr|exact Hh].
    + cbv zeta in H. apply try_owners_ok in H as (pre & o & post & -> & Hf & Ho). exists pre, o, post. split; [reflexivity|]. 
      apply verify_signature_iff in Ho. split; [|exact Ho].
      destruct Ho as (_ & _ & _ & _ & _ & _ & _ & h & _ & _ & _ & Hs & _).
      rewrite Forall_forall in *. intros x Hx. specialize (Hf x Hx). cbv beta in Hf.
      apply (verify_not_invalid E c ty ts enc sig a _ h Hs) in Hf. destruct Hf as [Q|(l & I & L)]; [exact Q|].
      destruct x; cbn [owner_key] in *; try (exists pk; split; [reflexivity|]; cbn in I; apply Some_inj in I; subst l; rewrite map_length in L; exact L);
      try (exists rk; split; [reflexivity|]; cbn in I; apply Some_inj in I; subst l; rewrite map_length in L; exact L).
      destruct K as [->|[b ->]]; [discriminate I|]. exists b. split; [reflexivity|]. cbn in I. apply Some_inj in I. subst l. rewrite map_length in L. exact L.
  - intros (pk & rk & Hk & Hh & pre & o & post & Ho & Hf & Hs). pose proof (proj1 (chain_keys_iff _ _ _) Hk) as [Hp Hr].
    assert (V : (match c with MTaskToCompute => verify_header E m | _ => Ok tt end) = Ok tt).
    { destruct c; try reflexivity. apply verify_header_iff with rk; [reflexivity|exact Hr|]. apply Hh. reflexivity. }
    rewrite V. cbn [bind]. rewrite Hp. cbn [bind]. rewrite Hr. cbn [bind]. cbv zeta. rewrite Ho. apply try_owners_reach.
    + intros x Hx. rewrite Forall_forall in Hf. specialize (Hf x Hx).
      destruct Hs as (_ & _ & _ & _ & _ & _ & _ & h & _ & _ & _ & Hs & _). 
      eapply verify_key64; [exact Hf|exact Hs].
    + apply verify_signature_iff. exact Hs.
Qed.

(** the message that fails when every key is a key *)
Lemma ownership_invalid E c ty ts enc sig a concent pk rk h : is_task_message c = true -> 
  let m := VMsg c ty ts enc sig a in
  chain_keys m pk rk -> (c = MTaskToCompute -> header_signed E m rk) -> short_hash E m = Ok h ->
  (forall o, In o (expected_owners c) -> key64 (owner_key pk rk concent o) /\ ~ signed_by E m (owner_key pk rk concent o)) ->
  validate_ownership E m concent = Err EInvalidSignature.
Proof.
  intros T m Hk Hh Hs H. unfold m at 1. cbn [validate_ownership]. rewrite T. fold m. pose proof (proj1 (chain_keys_iff _ _ _) Hk) as [Hp Hr].
  assert (V : (match c with MTaskToCompute => verify_header E m | _ => Ok tt end) = Ok tt).
  { destruct c; try reflexivity. apply verify_header_iff with rk; [reflexivity|exact Hr|]. apply Hh. reflexivity. }
  rewrite V. cbn [bind]. rewrite Hp. cbn [bind]. rewrite Hr. cbn [bind]. cbv zeta. apply try_owners_none.
  intros o Ho. destruct (H o Ho) as [K N]. destruct (verify_key64 E c ty ts enc sig a _ h K Hs) as [Q|Q]; [|exact Q].
  exfalso. apply N. apply verify_signature_iff. exact Q.
Qed.

(** a freshly signed message is accepted exactly from an expected owner *)
Lemma ownership_signed E c ty ts enc sig a concent pk rk priv sec pub m' :
  crypto_ok (cr E) -> is_task_message c = true -> a_key concent ->
  let m := VMsg c ty ts enc sig a in
  chain_keys m pk rk -> (c = MTaskToCompute -> header_signed E m rk) ->
  secret_of (cr E) priv = Some sec -> pub_of (cr E) sec = Some pub ->
  sign_message E m priv = Ok m' ->
  (forall o, In o (expected_owners c) -> key64 (owner_key pk rk concent o)) ->
  (validate_ownership E m' concent = Ok tt <-> exists o, In o (expected_owners c) /\ owner_key pk rk concent o = VBytes pub).
Proof.
  intros HC T K m Hk Hh S P Hm H64. unfold m in Hm. cbn [sign_message] in Hm. fold m in Hm.
  apply bind_ok in Hm as (h & Hs & Hm). apply bind_ok in Hm as (sg & Hsg & Hm). apply Ok_inj in Hm. subst m'.
  assert (Hs' : short_hash E (VMsg c ty ts enc (VBytes sg) a) = Ok h) by exact Hs.
  unfold ecdsa_sign in Hsg. rewrite S in Hsg.
  destruct (sign_rec (cr E) sec (sha3_256 (cr E) h)) as [sg0|] eqn:SR; [|discriminate Hsg]. apply Ok_inj in Hsg. subst sg0.
  assert (R : recover (cr E) sg (sha3_256 (cr E) h) = Some (x04 :: pub)).
  { eapply (sign_recover _ HC); eassumption. }
  assert (Lp : List.length pub = 64%nat) by apply (pub_len _ HC _ _ P).
  assert (Hk' : chain_keys (VMsg c ty ts enc (VBytes sg) a) pk rk).
  { destruct Hk as (t & p & r & A & B & D & F & G). destruct (mcls_eq_dec c MTaskToCompute) as [->|N].
    - assert (t = m) by (assert (getattr "task_to_compute" m = Ok m) by reflexivity; congruence). subst t.
      exists (VMsg MTaskToCompute ty ts enc (VBytes sg) a), p, r. split; [reflexivity|]. auto.
    - exists t, p, r. split; [|auto]. rewrite <- A. unfold m, getattr. cbn [acc]. cbv zeta.
      destruct (existsb _ _); [reflexivity|]. destruct c; try reflexivity; congruence. }
  assert (Hh' : c = MTaskToCompute -> header_signed E (VMsg c ty ts enc (VBytes sg) a) rk).
  { intros ->. destruct (Hh eq_refl) as (w & ha & x & y & A & B). exists w, ha, x, y. split; [exact A|exact B]. }
  rewrite (ownership_iff E c ty ts enc (VBytes sg) a concent T K). split.
  - intros (pk' & rk' & Hk2 & _ & pre & o & post & Ho & _ & Hsb).
    assert (pk' = pk /\ rk' = rk) as [-> ->].
    { apply chain_keys_iff in Hk2 as [? ?]. apply chain_keys_iff in Hk' as [? ?]. split; congruence. }
    exists o. split; [rewrite Ho; apply in_elt|]. destruct Hsb as (k & c0 & ty0 & ts0 & enc0 & sg0 & a0 & h0 & -> & L & Em & Hh0 & Rc).
    assert (sg0 = sg) by congruence. subst sg0. assert (h0 = h) by congruence. subst h0. rewrite R in Rc. congruence.
  - intros (o & Ho & Q). exists pk, rk. split; [exact Hk'|]. split; [exact Hh'|].
    apply in_split in Ho as Ho'. destruct Ho' as (pre & post & Ep). exists pre, o, post. split; [exact Ep|]. split.
    + apply Forall_forall. intros x Hx. apply H64. rewrite Ep. apply in_or_app. left. exact Hx.
    + rewrite Q. exists pub, c, ty, ts, enc, sg, a, h. auto 8.
Qed.

(** ** The chain *)
(** task messages reachable through slots *)
Inductive reach : pyval -> pyval -> Prop :=
| reach_self m : reach m m
| reach_slot c ty ts enc sig a k w n : is_task_message c = true -> In k (slot_names c) -> attr_get k a = Some w -> is_task_msg w = true ->
    reach w n -> reach (VMsg c ty ts enc sig a) n.

Lemma all_ok_iff l : all_ok l = Ok tt <-> Forall (fun x => x = Ok tt) l.
Proof.
  induction l as [|x l IH]; cbn [all_ok]; [split; auto|]. split.
  - intros H. apply bind_ok in H as ([] & Hx & H). constructor; [exact Hx|]. apply IH, H.
  - intros H. inversion H; subst. cbn [bind]. apply IH. assumption.
Qed.
Lemma all_ok_err l e : all_ok l = Err e -> In (Err e) l.
Proof.
  induction l as [|x l IH]; cbn [all_ok]; [discriminate|]. destruct x as [[]|e']; cbn [bind]; [right; auto|]. intros [= <-]. left. reflexivity.
Qed.
Lemma assoc_own E concent (a : attrs_t) k :
  assoc_or (Ok tt) k (map (fun kv => (fst kv, own_chain E concent (snd kv))) a) =
  match attr_get k a with Some w => own_chain E concent w | None => Ok tt end.
Proof.
  induction a as [|[k0 w] a IH]; cbn [map fst snd assoc_or attr_get]; [reflexivity|]. destruct (String.eqb k0 k); [reflexivity|exact IH].
Qed.
Lemma own_other E concent v : is_task_msg v = false -> own_chain E concent v = Ok tt.
Proof. destruct v; cbn; try reflexivity. intros ->. reflexivity. Qed.
Lemma own_msg E concent c ty ts enc sig a : is_task_message c = true ->
  own_chain E concent (VMsg c ty ts enc sig a) =
  (do _ <- validate_ownership E (VMsg c ty ts enc sig a) concent;
   all_ok (map (fun k => match attr_get k a with Some w => own_chain E concent w | None => Ok tt end) (slot_names c))).
Proof.
  intros T. cbn [own_chain]. rewrite T. cbv zeta.
  rewrite (map_ext _ _ (fun k => assoc_own E concent a k)). reflexivity.
Qed.
Lemma attr_get_In k (a : attrs_t) w : attr_get k a = Some w -> In (k, w) a.
Proof.
  induction a as [|[k0 v] a IH]; cbn [attr_get]; [discriminate|]. destruct (String.eqb_spec k0 k) as [->|]; [intros [= ->]; left; reflexivity|].
  intros H. right. apply IH, H.
Qed.
Lemma chain_complete E concent m : own_chain E concent m = Ok tt -> forall n, reach m n -> is_task_msg n = true -> validate_ownership E n concent = Ok tt.
Proof.
  intros H n R. induction R as [m|c ty ts enc sig a k w n T Hk Hw W R IH]; intros Tn.
  - destruct m; try discriminate Tn. cbn [is_task_msg] in Tn. rewrite own_msg in H by exact Tn. apply bind_ok in H as ([] & H & _). exact H.
  - apply IH; [|exact Tn]. rewrite own_msg in H by exact T. apply bind_ok in H as ([] & _ & H). apply all_ok_iff in H. rewrite Forall_forall in H.
    specialize (H (match attr_get k a with Some w => own_chain E concent w | None => Ok tt end)). rewrite Hw in H. apply H.
    apply in_map_iff. exists k. split; [rewrite Hw; reflexivity|exact Hk].
Qed.
Lemma chain_err E concent : forall m e, own_chain E concent m = Err e -> exists n, reach m n /\ is_task_msg n = true /\ validate_ownership E n concent = Err e.
Proof.
  induction m using pyval_ind'; intros e0 He; try discriminate He.
  destruct (is_task_message c) eqn:T; [|rewrite own_other in He by exact T; discriminate].
  rewrite own_msg in He by exact T. destruct (validate_ownership E (VMsg c m1 m2 m3 m4 a) concent) as [[]|e1] eqn:V; cbn [bind] in He.
  - apply all_ok_err in He. apply in_map_iff in He as (k & Q & Hk). destruct (attr_get k a) as [w|] eqn:W; [|discriminate Q].
    assert (Tw : is_task_msg w = true) by (destruct (is_task_msg w) eqn:Tw; [reflexivity|rewrite own_other in Q by exact Tw; discriminate]).
    assert (IH : forall e, own_chain E concent w = Err e -> exists n, reach w n /\ is_task_msg n = true /\ validate_ownership E n concent = Err e).
    { apply attr_get_In in W. match goal with F : Forall _ a |- _ => rewrite Forall_forall in F; apply (F _ W) end. }
    destruct (IH _ Q) as (n & R & Tn & Vn). exists n. split; [eapply reach_slot; eassumption|auto].
  - exists (VMsg c m1 m2 m3 m4 a). split; [constructor|]. split; [exact T|]. congruence.
Qed.
Lemma ownership_chain_iff E m concent :
  validate_ownership_chain E m concent = Ok tt <->
  is_task_msg m = true /\ forall n, reach m n -> validate_ownership E n concent = Ok tt.
Proof.
  unfold validate_ownership_chain. destruct (is_task_msg m) eqn:T; [|split; [discriminate|intros [? _]; discriminate]]. split.
  - intros H. split; [reflexivity|]. intros n R. apply (chain_complete _ _ _ H); [exact R|].
    clear H. induction R; [exact T|]. apply IHR. assumption.
  - intros [_ H]. destruct (own_chain E concent m) as [[]|e] eqn:Q; [reflexivity|]. apply chain_err in Q as (n & R & _ & V). rewrite (H n R) in V. discriminate.
Qed.
Lemma ownership_chain_err E m concent e : is_task_msg m = true -> validate_ownership_chain E m concent = Err e ->
  exists n, reach m n /\ is_task_msg n = true /\ validate_ownership E n concent = Err e.
Proof. unfold validate_ownership_chain. intros ->. apply chain_err. Qed.

(** task messages have no list slots, so nothing hides from the walk in a list *)
Lemma task_slots_single c k d an il : is_task_message c = true -> slot_kind c k = KMsg d an il -> il = false.
Proof.
  intros T H. destruct il; [|reflexivity]. destruct (slot_kind_cases c k) as [Hin|Hn]; [|rewrite (slot_kind_default _ _ Hn) in H; discriminate].
  rewrite H in Hin.
  assert (F : forallb (fun c => negb (is_task_message c) || forallb (fun p => match snd p with KMsg _ _ true => false | _ => true end) (slot_table c)) all_classes = true)
    by (vm_compute; reflexivity).
  pose proof (for_all_classes _ F c) as G. cbv beta in G. rewrite T in G. cbn [negb orb] in G. rewrite forallb_forall in G. specialize (G _ Hin). discriminate G.
Qed.

(** ** verify_owners *)
Definition opt_key (o : option bytes) : pyval := match o with Some b => VBytes b | None => VNone end.
Lemma assert_role_iff n m o : assert_role n m (opt_key o) = Ok tt <-> forall b, o = Some b -> b <> [] -> chain_key n m = Ok b.
Proof.
  unfold assert_role. destruct o as [[|x b]|]; cbn [opt_key truthy].
  - split; [intros _ b [= <-] N; contradiction|reflexivity].
  - split.
    + intros H b' [= <-] _. apply bind_ok in H as (k & Hk & H). cbn [py_eq num_of str_of] in H.
      destruct (bytes_eqb (x :: b) k) eqn:Q; [|discriminate H]. apply bytes_eqb_eq in Q. subst k. exact Hk.
    + intros H. rewrite (H _ eq_refl) by discriminate. cbn [bind py_eq num_of str_of]. rewrite bytes_eqb_refl. reflexivity.
  - split; [intros _ b Q; discriminate Q|reflexivity].
Qed.
Lemma verify_owners_iff E m p r concent :
  verify_owners E m (opt_key p) (opt_key r) concent = Ok tt <->
  (forall b, p = Some b -> b <> [] -> chain_key "provider_public_key" m = Ok b) /\
  (forall b, r = Some b -> b <> [] -> chain_key "requestor_public_key" m = Ok b) /\
  validate_ownership_chain E m concent = Ok tt.
Proof.
  unfold verify_owners. rewrite <- !assert_role_iff. destruct (is_task_msg m) eqn:T.
  - split.
    + intros H. apply bind_ok in H as ([] & H1 & H). apply bind_ok in H as ([] & H2 & H). auto.
    + intros (-> & -> & H). exact H.
  - split; [discriminate|]. intros (_ & _ & H). unfold validate_ownership_chain in H. rewrite T in H. discriminate.
Qed.
Lemma owners_mismatch E m p r concent :
  is_task_msg m = true ->
  (exists b k, p = Some b /\ b <> [] /\ chain_key "provider_public_key" m = Ok k /\ k <> b) \/
  ((forall b, p = Some b -> b <> [] -> chain_key "provider_public_key" m = Ok b) /\
   exists b k, r = Some b /\ b <> [] /\ chain_key "requestor_public_key" m = Ok k /\ k <> b) ->
  verify_owners E m (opt_key p) (opt_key r) concent = Err EOwnershipMismatch.
Proof.
  assert (G : forall n b k, b <> [] -> chain_key n m = Ok k -> k <> b -> assert_role n m (VBytes b) = Err EOwnershipMismatch).
  { intros n b k N H Q. unfold assert_role. destruct b as [|x b]; [contradiction|]. cbn [truthy]. rewrite H. cbn [bind py_eq num_of str_of].
    destruct (bytes_eqb (x :: b) k) eqn:W; [apply bytes_eqb_eq in W; congruence|reflexivity]. }
  unfold verify_owners. intros ->. intros [(b & k & -> & N & H & Q)|(A & b & k & -> & N & H & Q)].
  - cbn [opt_key]. rewrite (G _ _ _ N H Q). reflexivity.
  - apply assert_role_iff in A. rewrite A. cbn [bind opt_key]. rewrite (G _ _ _ N H Q). reflexivity.
Qed.
