(** * Honest exchanges are accepted, and stay accepted on the way (C66) *)
From Verif Require Export EvidenceFacts NestFacts.
Open Scope Z_scope.

(** ** What honest parties build.  [priv] are the private keys of the three roles; a
    TaskToCompute names the public keys [pk] and [rk] and holds a header signed by the
    requestor; every other task message holds honest messages only and is signed by one
    of the roles that may sign it *)
Inductive honest (E : env) (priv : owner -> bytes) (pk rk : bytes) : pyval -> Prop :=
| honest_task ty ts enc sig a wty wts wenc wsig wa r p h0 h m :
    mok MTaskToCompute a -> (forall k w, attr_get k a = Some w -> is_task_msg w = false) ->
    attr_get "requestor_public_key" a = Some r -> decode_hex r = Ok rk ->
    attr_get "want_to_compute_task" a = Some (VMsg MWantToComputeTask wty wts wenc wsig wa) ->
    attr_get "provider_public_key" wa = Some p -> decode_hex p = Ok pk ->
    attr_get "task_header" wa = Some (VObj CTaskHeader h) ->
    made (cr E) h0 -> header_sign (cr E) h0 (priv ORequestor) = Ok h ->
    sign_message E (VMsg MTaskToCompute ty ts enc sig a) (priv ORequestor) = Ok m ->
    honest E priv pk rk m
| honest_reply c ty ts enc sig a o m :
    is_task_message c = true -> c <> MTaskToCompute -> mok c a ->
    (forall k w, attr_get k a = Some w -> is_task_msg w = true -> honest E priv pk rk w) ->
    (exists k w, In k (task_id_providers c) /\ attr_get k a = Some w /\ w <> VNone) ->
    In o (expected_owners c) -> sign_message E (VMsg c ty ts enc sig a) (priv o) = Ok m ->
    honest E priv pk rk m.
(** the private keys belong to the public ones *)
Definition key_pairs (C : crypto) (priv : owner -> bytes) (pk rk ck : bytes) : Prop :=
  forall o, exists s, secret_of C (priv o) = Some s /\
    pub_of C s = Some (match o with OProvider => pk | ORequestor => rk | OConcent => ck end).

Lemma mok_msg_slot c a k w d an : mok c a -> attr_get k a = Some w -> slot_kind c k = KMsg d an false ->
  w = VNone \/ exists ty ts enc sig b, w = VMsg d ty ts enc sig b /\ mok d b.
Proof.
  intros [F V N] Hw K. pose proof (attr_get_In _ _ _ Hw) as Hin.
  destruct (N _ _ _ _ _ Hin K) as [[Q _]|[[_ Q]|[Q _]]]; [left; exact Q|right; exact Q|discriminate Q].
Qed.
(** a task message's task messages are in its message slots *)
Lemma reach_cases c ty ts enc sig a n : reach (VMsg c ty ts enc sig a) n ->
  n = VMsg c ty ts enc sig a \/ exists k w, In k (slot_names c) /\ attr_get k a = Some w /\ is_task_msg w = true /\ reach w n.
Proof.
  intros R. inversion R as [|c0 ty0 ts0 enc0 sig0 a0 k w n0 T Hk Hw W R']; subst; [left; reflexivity|right]. exists k, w. auto.
Qed.
Lemma reach_trans l : forall m n, reach m n -> reach l m -> reach l n.
Proof.
  intros m n R H. induction H as [m|c ty ts enc sig a k w m T Hk Hw W H IH]; [exact R|]. econstructor; eauto.
Qed.

(** ** The keys an honest message is checked with *)
Lemma attr_in_slots c a k w : map fst a = slot_names c -> attr_get k a = Some w -> In k (slot_names c).
Proof. intros F H. rewrite <- F. apply attr_get_In in H. apply (in_map fst) in H. exact H. Qed.
Lemma ttc_chain_keys ty ts enc sig a wty wts wenc wsig wa r p pk rk :
  attr_get "requestor_public_key" a = Some r -> decode_hex r = Ok rk ->
  attr_get "want_to_compute_task" a = Some (VMsg MWantToComputeTask wty wts wenc wsig wa) ->
  attr_get "provider_public_key" wa = Some p -> decode_hex p = Ok pk ->
  chain_keys (VMsg MTaskToCompute ty ts enc sig a) pk rk.
Proof.
  intros R1 R2 W P1 P2. exists (VMsg MTaskToCompute ty ts enc sig a), p, r. split; [reflexivity|]. split; [|split; [exact P2|split; [|exact R2]]].
  - unfold getattr. cbn [acc]. cbv zeta. rewrite assoc_acc, W.
    change (acc "provider_public_key" (VMsg MWantToComputeTask wty wts wenc wsig wa)) with (Some (attr_get_or_none "provider_public_key" wa)).
    unfold attr_get_or_none. rewrite P1. reflexivity.
  - unfold getattr. change (acc "requestor_public_key" (VMsg MTaskToCompute ty ts enc sig a)) with (Some (attr_get_or_none "requestor_public_key" a)).
    unfold attr_get_or_none. rewrite R1. reflexivity.
Qed.
(** the first TaskToCompute among the providers *)
Lemma first_task a ps (P : pyval -> Prop) :
  (forall p w, In p ps -> attr_get p a = Some w -> w = VNone \/ exists t, acc "task_to_compute" w = Some t /\ truthy t = true /\ P t) ->
  (exists p w, In p ps /\ attr_get p a = Some w /\ w <> VNone) ->
  exists t, first_value "task_to_compute" a ps t /\ P t.
Proof.
  induction ps as [|p ps IH]; intros H (p0 & w0 & Hp & Hw & Nw); [destruct Hp|].
  destruct (attr_get p a) as [w|] eqn:W.
  - destruct (H p w (or_introl eq_refl) W) as [->|(t & A & T & Pt)].
    + destruct IH as (t & F & Pt).
      * intros q x Hq. apply H. right. exact Hq.
      * exists p0, w0. split; [|auto]. destruct Hp as [->|Hp]; [congruence|exact Hp].
      * exists t. split; [|exact Pt]. apply fv_skip; [|exact F]. intros w x Q. assert (w = VNone) by congruence. subst w. discriminate.
    + exists t. split; [|exact Pt]. eapply fv_here; eassumption.
  - destruct IH as (t & F & Pt).
    + intros q x Hq. apply H. right. exact Hq.
    + exists p0, w0. split; [|auto]. destruct Hp as [->|Hp]; [congruence|exact Hp].
    + exists t. split; [|exact Pt]. apply fv_skip; [|exact F]. intros w x Q. congruence.
Qed.
Lemma honest_msg E priv pk rk m : honest E priv pk rk m -> exists c ty ts enc sg a, m = VMsg c ty ts enc (VBytes sg) a /\ is_task_message c = true /\ mok c a.
Proof.
  intros H. destruct H as [ty ts enc sig a wty wts wenc wsig wa r p h0 h m M _ _ _ _ _ _ _ _ _ S|c ty ts enc sig a o m T _ M _ _ _ S];
    cbn [sign_message] in S; apply bind_ok in S as (x & _ & S); apply bind_ok in S as (y & _ & S); apply Ok_inj in S; subst m; eauto 10.
Qed.
Lemma honest_keys E priv pk rk m : honest E priv pk rk m -> chain_keys m pk rk.
Proof.
  intros H. induction H as [ty ts enc sig a wty wts wenc wsig wa r p h0 h m M X R1 R2 W P1 P2 _ _ _ S|c ty ts enc sig a o m T N M Hin IH Hp Ho S];
    cbn [sign_message] in S; apply bind_ok in S as (x & _ & S); apply bind_ok in S as (y & _ & S); apply Ok_inj in S; subst m.
  - eapply ttc_chain_keys; eassumption.
  - destruct (in_dec string_dec "task_to_compute"%string (slot_names c)) as [Hs|Hs].
    + destruct (chain_slot c "task_to_compute" T N ltac:(slots_in) Hs) as (_ & Ep & an & K). rewrite Ep in Hp.
      destruct Hp as (k & w & [<-|[]] & Hw & Nw). destruct (mok_msg_slot _ _ _ _ _ _ M Hw K) as [->|(y1 & y2 & y3 & y4 & b & -> & Mb)]; [congruence|].
      destruct (IH _ _ Hw eq_refl) as (t & p & r & A & B). exists t, p, r. split; [|exact B].
      rewrite getattr_ttc_self in A. unfold getattr. cbn [acc]. cbv zeta.
      replace (existsb (String.eqb "task_to_compute") (slot_names c)) with true
        by (symmetry; apply existsb_exists; exists "task_to_compute"%string; split; [exact Hs|apply String.eqb_refl]).
      unfold attr_get_or_none. rewrite Hw. exact A.
    + destruct (first_task a (task_id_providers c) (fun t => exists p r, getattr "provider_public_key" t = Ok p /\ decode_hex p = Ok pk /\
        getattr "requestor_public_key" t = Ok r /\ decode_hex r = Ok rk)) as (t & F & p & r & B); [|exact Hp|].
      * intros k w Hk Hw. destruct (provider_slot c k T Hk) as (_ & d & an & K & Td).
        destruct (mok_msg_slot _ _ _ _ _ _ M Hw K) as [->|(y1 & y2 & y3 & y4 & b & -> & Mb)]; [left; reflexivity|right].
        destruct (IH _ _ Hw Td) as (t & p & r & A & B). exists t. unfold getattr in A. destruct (acc "task_to_compute" _) as [t'|]; [|discriminate A].
        apply Ok_inj in A. subst t'. split; [reflexivity|]. split; [|eauto]. destruct t; try reflexivity; exfalso; destruct B as [B _]; discriminate B.
      * exists t, p, r. split; [|exact B]. apply (accessor_first c "task_to_compute" ty ts enc (VBytes y) a t T N ltac:(slots_in) Hs). exact F.
Qed.
(** every message inside an honest one is honest *)
Lemma honest_inside E priv pk rk m n : honest E priv pk rk m -> reach m n -> honest E priv pk rk n.
Proof.
  intros H. induction H as [ty ts enc sig a wty wts wenc wsig wa r p h0 h m M X R1 R2 W P1 P2 Hh HM HS S|c ty ts enc sig a o m T N M Hin IH Hp Ho S];
    intros R; pose proof S as S'; cbn [sign_message] in S; apply bind_ok in S as (x & _ & S); apply bind_ok in S as (y & _ & S); apply Ok_inj in S; subst m;
    apply reach_cases in R as [->|(k & w & Hk & Hw & Tw & R)].
  - eapply honest_task; eassumption.
  - rewrite (X _ _ Hw) in Tw. discriminate Tw.
  - eapply honest_reply; eassumption.
  - eapply IH; eassumption.
Qed.

(** ** Accepted *)
Lemma honest_owned E priv pk rk ck m : crypto_ok (cr E) -> key_pairs (cr E) priv pk rk ck -> honest E priv pk rk m ->
  validate_ownership E m (VBytes ck) = Ok tt.
Proof.
  intros HC KP H. pose proof (honest_keys _ _ _ _ _ H) as HK.
  assert (L : forall o, key64 (owner_key pk rk (VBytes ck) o)).
  { intros o. destruct (KP o) as (s & _ & P). apply (pub_len _ HC) in P. destruct o; eexists; (split; [reflexivity|exact P]). }
  assert (K : a_key (VBytes ck)) by (right; eauto).
  destruct H as [ty ts enc sig a wty wts wenc wsig wa r p h0 h m M X R1 R2 W P1 P2 Hh HM HS S|c ty ts enc sig a o m T N M Hin Hp Ho S].
  - destruct (KP ORequestor) as (s & K1 & K2).
    apply (ownership_signed E MTaskToCompute ty ts enc sig a (VBytes ck) pk rk (priv ORequestor) s rk m HC eq_refl K); try assumption.
    + eapply ttc_chain_keys; eassumption.
    + intros _. destruct (header_sign_signature _ _ _ _ HM HS) as (hh & sg & H1 & H2 & H3).
      exists (VMsg MWantToComputeTask wty wts wenc wsig wa), h, sg, hh. split.
      { unfold getattr. change (acc "want_to_compute_task" (VMsg MTaskToCompute ty ts enc sig a)) with (Some (attr_get_or_none "want_to_compute_task" a)).
        unfold attr_get_or_none. rewrite W. reflexivity. }
      split.
      { unfold getattr. change (acc "task_header" (VMsg MWantToComputeTask wty wts wenc wsig wa)) with (Some (attr_get_or_none "task_header" wa)).
        unfold attr_get_or_none. rewrite Hh. reflexivity. }
      split; [apply (pub_len _ HC _ _ K2)|]. split; [exact H3|]. split; [exact H1|].
      unfold ecdsa_sign in H2. rewrite K1 in H2. destruct (sign_rec (cr E) s (sha3_256 (cr E) hh)) as [sg0|] eqn:SR; [|discriminate H2].
      apply Ok_inj in H2. subst sg0. eapply (sign_recover _ HC); eassumption.
    + intros o _. apply L.
    + exists ORequestor. split; [left; reflexivity|reflexivity].
  - destruct (KP o) as (s & K1 & K2).
    apply (ownership_signed E c ty ts enc sig a (VBytes ck) pk rk (priv o) s _ m HC T K) with (3 := K1) (4 := K2); try assumption.
    + apply chain_keys_iff. apply chain_keys_iff in HK as [A B]. cbn [sign_message] in S. apply bind_ok in S as (x & _ & S). apply bind_ok in S as (y & _ & S).
      apply Ok_inj in S. subst m. unfold chain_key in *.
      replace (getattr "task_to_compute" (VMsg c ty ts enc sig a)) with (getattr "task_to_compute" (VMsg c ty ts enc (VBytes y) a)); [split; assumption|].
      unfold getattr. cbn [acc]. cbv zeta. destruct (existsb _ _); [reflexivity|]. destruct c; try reflexivity; congruence.
    + intros ->. congruence.
    + intros o' _. apply L.
    + exists o. split; [exact Ho|]. destruct o; reflexivity.
Qed.
Lemma honest_accepted E priv pk rk ck m : crypto_ok (cr E) -> key_pairs (cr E) priv pk rk ck -> honest E priv pk rk m ->
  verify_owners E m (VBytes pk) (VBytes rk) (VBytes ck) = Ok tt.
Proof.
  intros HC KP H. change (verify_owners E m (opt_key (Some pk)) (opt_key (Some rk)) (VBytes ck) = Ok tt). apply verify_owners_iff.
  pose proof (honest_keys _ _ _ _ _ H) as HK. apply chain_keys_iff in HK as [A B].
  split; [intros b Q _; congruence|]. split; [intros b Q _; congruence|]. apply ownership_chain_iff. split.
  - destruct (honest_msg _ _ _ _ _ H) as (c & ty & ts & enc & sg & a & -> & T & _). exact T.
  - intros n R. eapply honest_owned; [exact HC|exact KP|]. eapply honest_inside; eassumption.
Qed.

(** ** On the way: whatever the sender accepts, the receiver accepts *)
Lemma mok_get c a k : mok c a -> In k (slot_names c) -> attr_get k a = Some (attr_get_or_none k a).
Proof. intros M H. rewrite <- (mok_fst _ _ M) in H. destruct (attr_get_some _ _ H) as (w & Hw & _). unfold attr_get_or_none. rewrite Hw. reflexivity. Qed.
(** the same message at the two ends *)
Definition ends (d : mcls) (n n' : pyval) : Prop :=
  exists ty ts e s b ty' ts' e' s' b', n = VMsg d ty ts e s b /\ n' = VMsg d ty' ts' e' s' b' /\ mok d b /\ mok d b' /\ arrives d b b'.
Lemma ends_slot c a a' k d an :
  mok c a -> mok c a' -> arrives c a a' -> slot_kind c k = KMsg d an false ->
  (attr_get k a = Some VNone /\ attr_get k a' = Some VNone) \/
  exists w w', attr_get k a = Some w /\ attr_get k a' = Some w' /\ ends d w w'.
Proof.
  intros M M' AR K. pose proof (msg_slot_name _ _ _ _ _ K) as Hk. rewrite (mok_get _ _ _ M Hk), (mok_get _ _ _ M' Hk).
  destruct (arr_slot c a a' k M AR Hk) as (_ & _ & N). specialize (N _ _ _ K).
  destruct (mok_msg_slot _ _ _ _ _ _ M (mok_get _ _ _ M Hk) K) as [Q|(y1 & y2 & y3 & y4 & b & Q & Mb)];
  destruct (mok_msg_slot _ _ _ _ _ _ M' (mok_get _ _ _ M' Hk) K) as [Q'|(z1 & z2 & z3 & z4 & b' & Q' & Mb')];
  rewrite Q, Q' in *.
  - left. auto.
  - exfalso. destruct N as [[_ N]|[(x1 & x2 & x3 & x4 & x5 & x6 & N & _)|(l & l' & N & _)]]; discriminate N.
  - exfalso. destruct N as [[N _]|[(x1 & x2 & x3 & x4 & x5 & x6 & _ & N & _)|(l & l' & N & _)]]; discriminate N.
  - right. do 2 eexists. split; [reflexivity|]. split; [reflexivity|].
    destruct N as [[N _]|[(x1 & x2 & x3 & x4 & x5 & x6 & N & N' & AR')|(l & l' & N & _)]]; try discriminate N.
    injection N as <- <- <- <- <-. injection N' as -> -> -> -> <-. do 10 eexists. split; [reflexivity|]. split; [reflexivity|]. auto.
Qed.
(** the task a message belongs to arrives as the task the arrived message belongs to *)
Lemma task_arrives : forall r c ty ts e s a ty' ts' e' s' a' t, (rank c <= r)%nat -> is_task_message c = true ->
  mok c a -> mok c a' -> arrives c a a' -> acc "task_to_compute" (VMsg c ty ts e s a) = Some t ->
  exists t', acc "task_to_compute" (VMsg c ty' ts' e' s' a') = Some t' /\ ((t = VNone /\ t' = VNone) \/ ends MTaskToCompute t t').
Proof.
  induction r as [r IH] using (well_founded_induction Wf_nat.lt_wf). intros c ty ts e s a ty' ts' e' s' a' t Hr T M M' AR H.
  destruct (mcls_eq_dec c MTaskToCompute) as [->|N].
  { assert (t = VMsg MTaskToCompute ty ts e s a) by (cbn [acc] in H; vm_compute in H; congruence). subst t.
    exists (VMsg MTaskToCompute ty' ts' e' s' a'). split; [reflexivity|]. right. do 10 eexists. split; [reflexivity|]. split; [reflexivity|]. auto. }
  destruct (in_dec string_dec "task_to_compute"%string (slot_names c)) as [Hs|Hs].
  - destruct (chain_slot c "task_to_compute" T N ltac:(slots_in) Hs) as (_ & _ & an & K).
    assert (X : forall y1 y2 y3 y4 b, acc "task_to_compute" (VMsg c y1 y2 y3 y4 b) = Some (attr_get_or_none "task_to_compute" b)).
    { intros. cbn [acc]. cbv zeta. replace (existsb (String.eqb "task_to_compute") (slot_names c)) with true; [reflexivity|].
      symmetry. apply existsb_exists. exists "task_to_compute"%string. split; [exact Hs|apply String.eqb_refl]. }
    rewrite X in H |- *. apply Some_inj in H. eexists. split; [reflexivity|].
    destruct (ends_slot c a a' _ _ _ M M' AR K) as [[Q Q']|(w & w' & Q & Q' & R)]; unfold attr_get_or_none in *; rewrite Q in H; rewrite Q'; subst; auto.
  - rewrite acc_chain in H |- * by (assumption || slots_in). apply Some_inj in H. subst t. eexists. split; [reflexivity|].
    assert (P : forall p, In p (task_id_providers c) -> exists d an, slot_kind c p = KMsg d an false /\ is_task_message d = true).
    { intros p Hp. apply (provider_slot c p T Hp). }
    induction (task_id_providers c) as [|p ps IHp]; cbn [map first_truthy]; [left; auto|].
    destruct (P p (or_introl eq_refl)) as (d & an & K & Td). specialize (IHp (fun q Hq => P q (or_intror Hq))).
    destruct (ends_slot c a a' _ _ _ M M' AR K) as [[Q Q']|(w & w' & Q & Q' & R)]; rewrite Q, Q'.
    + cbn [acc]. exact IHp.
    + destruct R as (y1 & y2 & y3 & y4 & b & z1 & z2 & z3 & z4 & b' & -> & -> & Mb & Mb' & ARb).
      pose proof (rank_decreases _ _ _ _ _ K) as Rk.
      assert (A : exists t, acc "task_to_compute" (VMsg d y1 y2 y3 y4 b) = Some t).
      { destruct (mcls_eq_dec d MTaskToCompute) as [->|Nd]; [eexists; reflexivity|].
        destruct (in_dec string_dec "task_to_compute"%string (slot_names d)) as [Hd|Hd].
        - eexists. cbn [acc]. cbv zeta. replace (existsb (String.eqb "task_to_compute") (slot_names d)) with true; [reflexivity|].
          symmetry. apply existsb_exists. exists "task_to_compute"%string. split; [exact Hd|apply String.eqb_refl].
        - eexists. apply acc_chain; assumption || slots_in. }
      destruct A as (t & A). destruct (IH (rank d) ltac:(lia) d y1 y2 y3 y4 b z1 z2 z3 z4 b' t (le_n _) Td Mb Mb' ARb A) as (t' & A' & [[-> ->]|R]);
        rewrite A, A'; cbn [truthy].
      * exact IHp.
      * destruct R as (x1 & x2 & x3 & x4 & x5 & x6 & x7 & x8 & x9 & x10 & -> & -> & R). cbn [truthy]. right. do 10 eexists. eauto.
Qed.
(** and names the same keys *)
Lemma keys_arrive m m' pk rk : ends MTaskToCompute m m' -> chain_keys m pk rk -> chain_keys m' pk rk.
Proof.
  intros (ty & ts & e & s & a & ty' & ts' & e' & s' & a' & -> & -> & M & M' & AR) (t & p & r & A & B & D & F & G).
  rewrite getattr_ttc_self in A. apply Ok_inj in A. subst t.
  assert (Kr : slot_kind MTaskToCompute "requestor_public_key" = KPlain) by reflexivity.
  assert (Kw : exists an, slot_kind MTaskToCompute "want_to_compute_task" = KMsg MWantToComputeTask an false) by (eexists; reflexivity).
  destruct Kw as (an & Kw).
  unfold getattr in F. change (acc "requestor_public_key" (VMsg MTaskToCompute ty ts e s a)) with (Some (attr_get_or_none "requestor_public_key" a)) in F.
  apply Ok_inj in F. subst r.
  destruct (arr_slot MTaskToCompute a a' "requestor_public_key" M AR ltac:(slots_in)) as (_ & R & _). rewrite Kr in R. cbn [same_or_wire] in R.
  unfold getattr in B. cbn [acc] in B. cbv zeta in B. rewrite assoc_acc in B.
  destruct (ends_slot MTaskToCompute a a' _ _ _ M M' AR Kw) as [[Q _]|(w & w' & Q & Q' & y1 & y2 & y3 & y4 & b & z1 & z2 & z3 & z4 & b' & -> & -> & Mb & Mb' & ARb)].
  { rewrite Q in B. discriminate B. }
  rewrite Q in B. change (acc "provider_public_key" (VMsg MWantToComputeTask y1 y2 y3 y4 b)) with (Some (attr_get_or_none "provider_public_key" b)) in B.
  simpl in B. apply Ok_inj in B. subst p.
  destruct (arr_slot MWantToComputeTask b b' "provider_public_key" Mb ARb ltac:(slots_in)) as (_ & P & _).
  assert (Kp : slot_kind MWantToComputeTask "provider_public_key" = KPlain) by reflexivity. rewrite Kp in P. cbn [same_or_wire] in P.
  eapply (ttc_chain_keys ty' ts' e' s' a' z1 z2 z3 z4 b' (attr_get_or_none "requestor_public_key" a') (attr_get_or_none "provider_public_key" b')).
  - apply (mok_get MTaskToCompute); [exact M'|slots_in].
  - rewrite R. apply decode_hex_wire, G.
  - exact Q'.
  - apply (mok_get MWantToComputeTask); [exact Mb'|slots_in].
  - rewrite P. apply decode_hex_wire, D.
Qed.
Lemma chain_keys_arrive c m m' pk rk : is_task_message c = true -> ends c m m' -> chain_keys m pk rk -> chain_keys m' pk rk.
Proof.
  intros T (ty & ts & e & s & a & ty' & ts' & e' & s' & a' & -> & -> & M & M' & AR) (t & p & r & A & B).
  unfold getattr in A. destruct (acc "task_to_compute" (VMsg c ty ts e s a)) as [t0|] eqn:Q; [|discriminate A]. apply Ok_inj in A. subst t0.
  destruct (task_arrives (rank c) c ty ts e s a ty' ts' e' s' a' t (le_n _) T M M' AR Q) as (t' & Q' & [[-> ->]|R]).
  - destruct B as [B _]. discriminate B.
  - assert (K : chain_keys t pk rk).
    { exists t, p, r. destruct R as (x1 & x2 & x3 & x4 & x5 & x6 & x7 & x8 & x9 & x10 & -> & -> & R). split; [reflexivity|exact B]. }
    apply (keys_arrive _ _ _ _ R) in K as (t0 & p' & r' & A' & B').
    destruct R as (x1 & x2 & x3 & x4 & x5 & x6 & x7 & x8 & x9 & x10 & -> & -> & R). rewrite getattr_ttc_self in A'. apply Ok_inj in A'. subst t0.
    exists (VMsg MTaskToCompute x6 x7 x8 x9 x10), p', r'. split; [unfold getattr; rewrite Q'; reflexivity|exact B'].
Qed.
(** the task header verifies for the same keys *)
Lemma header_arrives C b b' h : mok MWantToComputeTask b -> mok MWantToComputeTask b' -> arrives MWantToComputeTask b b' ->
  attr_get "task_header" b = Some (VObj CTaskHeader h) ->
  exists h', attr_get "task_header" b' = Some (VObj CTaskHeader h') /\ forall k, header_verify C h' k = header_verify C h k.
Proof.
  intros M M' AR H. assert (K : slot_kind MWantToComputeTask "task_header" = KHeader) by reflexivity.
  assert (Hk : In "task_header"%string (slot_names MWantToComputeTask)) by slots_in.
  pose proof AR as [_ _ _ (s & s' & S & S' & N)].
  destruct (norm_slots_at _ _ _ _ _ "task_header"%string S S' (eq_sym N) Hk) as (x & x' & X & X' & NX). rewrite assoc_attr in X, X'. rewrite H in X.
  pose proof (mok_get _ _ _ M' Hk) as G'. rewrite G' in X' |- *.
  unfold ser_slot, ser_slot_with in X, X'. rewrite K in X, X'. cbn [ser_plain] in X, X'.
  destruct M as [_ V _]. destruct (V _ _ (attr_get_In _ _ _ H)) as [_ O]. rewrite K in O. cbn [val_ok] in O. destruct O as [O|(h0 & O & CO)]; [discriminate O|].
  injection O as <-.
  destruct M' as [_ V' _]. destruct (V' _ _ (attr_get_In _ _ _ G')) as [_ O']. rewrite K in O'. cbn [val_ok] in O'.
  destruct (container_rt norm CTaskHeader h view_norm CO) as (l & _ & _ & L & _). unfold to_dict in X. rewrite L in X. apply Ok_inj in X. subst x.
  destruct O' as [O'|(h' & O' & CO')]; rewrite O' in *.
  { apply Ok_inj in X'. subst x'. discriminate NX. }
  destruct (container_rt norm CTaskHeader h' view_norm CO') as (l' & _ & _ & L' & _). unfold to_dict in X'. rewrite L' in X'. apply Ok_inj in X'. subst x'.
  exists h'. split; [reflexivity|]. eapply header_verify_wirel; try eassumption.
  cbn [norm] in NX. rewrite !norm_kvl in NX. apply kvl_inj. unfold wirel. congruence.
Qed.
Lemma header_signed_arrives E E' m m' rk : cr E' = cr E -> ends MTaskToCompute m m' -> header_signed E m rk -> header_signed E' m' rk.
Proof.
  intros HE (ty & ts & e & s & a & ty' & ts' & e' & s' & a' & -> & -> & M & M' & AR) (w & ha & sg & h & A & B & L & S & Hh & R).
  unfold getattr in A. change (acc "want_to_compute_task" (VMsg MTaskToCompute ty ts e s a)) with (Some (attr_get_or_none "want_to_compute_task" a)) in A.
  apply Ok_inj in A.
  assert (Kw : exists an, slot_kind MTaskToCompute "want_to_compute_task" = KMsg MWantToComputeTask an false) by (eexists; reflexivity).
  destruct Kw as (an & Kw).
  destruct (ends_slot MTaskToCompute a a' _ _ _ M M' AR Kw) as [[Q _]|(w0 & w' & Q & Q' & y1 & y2 & y3 & y4 & b & z1 & z2 & z3 & z4 & b' & -> & -> & Mb & Mb' & ARb)].
  { unfold attr_get_or_none in A. rewrite Q in A. subst w. discriminate B. }
  unfold attr_get_or_none in A. rewrite Q in A. subst w.
  unfold getattr in B. change (acc "task_header" (VMsg MWantToComputeTask y1 y2 y3 y4 b)) with (Some (attr_get_or_none "task_header" b)) in B. apply Ok_inj in B.
  pose proof (mok_get _ _ "task_header" Mb ltac:(slots_in)) as G. rewrite B in G.
  destruct (header_arrives (cr E) b b' ha Mb Mb' ARb G) as (h' & G' & V).
  assert (HV : header_verify (cr E) ha (VBytes rk) = Ok tt) by (apply (header_verify_iff (cr E) ha rk L); eauto).
  rewrite <- V in HV. apply (header_verify_iff (cr E) h' rk L) in HV as (sg' & hh' & S' & Hh' & R').
  exists (VMsg MWantToComputeTask z1 z2 z3 z4 b'), h', sg', hh'. rewrite HE. split.
  { unfold getattr. change (acc "want_to_compute_task" (VMsg MTaskToCompute ty' ts' e' s' a')) with (Some (attr_get_or_none "want_to_compute_task" a')).
    unfold attr_get_or_none. rewrite Q'. reflexivity. }
  split; [|auto].
  unfold getattr. change (acc "task_header" (VMsg MWantToComputeTask z1 z2 z3 z4 b')) with (Some (attr_get_or_none "task_header" b')).
  unfold attr_get_or_none. rewrite G'. reflexivity.
Qed.
(** one message *)
Lemma owned_arrives E E' c m m' concent : cr E' = cr E -> is_task_message c = true -> a_key concent -> ends c m m' ->
  (forall k, verify_signature E' m' k = verify_signature E m k) ->
  validate_ownership E m concent = Ok tt -> validate_ownership E' m' concent = Ok tt.
Proof.
  intros HE T K R HV H. pose proof R as R'. destruct R' as (ty & ts & e & s & a & ty' & ts' & e' & s' & a' & -> & -> & M & M' & AR).
  apply (ownership_iff E c ty ts e s a concent T K) in H as (pk & rk & Hk & Hh & pre & o & post & Ho & F & Sg).
  apply (ownership_iff E' c ty' ts' e' s' a' concent T K). exists pk, rk. split; [eapply chain_keys_arrive; eassumption|]. split.
  - intros ->. eapply header_signed_arrives; [exact HE|exact R|exact (Hh eq_refl)].
  - exists pre, o, post. split; [exact Ho|]. split; [exact F|]. apply verify_signature_iff. rewrite HV. apply verify_signature_iff, Sg.
Qed.
(** all messages *)
Lemma reach_arrives E E' : cr E' = cr E -> forall m' n', reach m' n' -> forall c ty' ts' e' s' a' ty ts e s a,
  m' = VMsg c ty' ts' e' s' a' -> loaded c a' -> mok c a -> mok c a' -> arrives c a a' -> is_task_message c = true ->
  (forall k, verify_signature E' m' k = verify_signature E (VMsg c ty ts e s a) k) ->
  exists n d, reach (VMsg c ty ts e s a) n /\ is_task_message d = true /\ ends d n n' /\ forall k, verify_signature E' n' k = verify_signature E n k.
Proof.
  intros HE m' n' R. induction R as [m'|c0 ty0 ts0 enc0 sig0 a0 k w' n' T0 Hk Hw W R IH];
    intros c ty' ts' e' s' a' ty ts e s a Em L M M' AR T HV.
  - exists (VMsg c ty ts e s a), c. split; [constructor|]. split; [exact T|]. split; [|exact HV]. subst m'. do 10 eexists. split; [reflexivity|]. split; [reflexivity|]. auto.
  - assert (c0 = c /\ a0 = a') as [-> ->] by (split; congruence).
    destruct (loaded_task_slot _ _ _ _ L Hw W) as (d & an & il & z1 & z2 & z3 & z4 & b' & K & Ew & Lb & Td).
    pose proof (task_slots_single _ _ _ _ _ T K) as ->.
    pose proof (nested_not_hello _ _ _ _ _ K) as NH.
    destruct (arr_slot c a a' k M AR Hk) as (_ & _ & NA). specialize (NA _ _ _ K).
    rewrite (mok_get _ _ _ M' Hk) in Hw. apply Some_inj in Hw.
    pose proof (mok_get _ _ _ M Hk) as Ha.
    destruct (mok_msg_slot _ _ _ _ _ _ M Ha K) as [Q|(y1 & y2 & y3 & y4 & b & Q & Mb)].
    { exfalso. rewrite Q in NA. destruct NA as [[_ NA]|[(x1 & x2 & x3 & x4 & x5 & x6 & NA & _)|(l & l' & NA & _)]]; [|discriminate NA|discriminate NA].
      rewrite NA in Hw. subst w'. discriminate Ew. }
    destruct (mok_msg_slot _ _ _ _ _ _ M' (mok_get _ _ _ M' Hk) K) as [Q'|(x1 & x2 & x3 & x4 & x5 & Q' & Mb')]; [rewrite Q' in Hw; subst w'; discriminate Ew|].
    assert (x5 = b') by congruence. subst x5.
    rewrite Q, Hw, Ew in NA. destruct NA as [[NA _]|[(u1 & u2 & u3 & u4 & u5 & u6 & NA & NA' & ARb)|(l & l' & NA & _)]]; try discriminate NA.
    injection NA as <- <- <- <- <-. injection NA' as -> -> -> -> <-.
    destruct (IH _ _ _ _ _ _ y1 y2 y3 y4 b Ew Lb Mb Mb' ARb Td) as (n & dn & Rn & Tn & En & Vn).
    { intros key. rewrite Ew. apply (same_end_verify E E' (VMsg d y1 y2 y3 y4 b)); [exact HE|]. right. do 7 eexists. split; [exact NH|].
      split; [reflexivity|]. split; [reflexivity|]. auto. }
    exists n, dn. split; [|auto]. rewrite Q in Ha. eapply reach_slot; [exact T|exact Hk|exact Ha|exact Td|exact Rn].
Qed.
(** the whole trip *)
Lemma accepted_arrives E E' now c t enc0 sig v a key encf m' bs ct decf pub m2 p r concent :
  cr E' = cr E -> crypto_ok (cr E) -> (forall s, sig = VBytes s -> List.length s = 65%nat) ->
  1262304000 < t < 32819212800 -> mok c a -> a_key concent ->
  (forall s, slots c a = Ok s -> wirewf s = true /\ (vdepth s < cdepth E')%nat) ->
  (forall p, payload_of c a = Ok p -> undoes encf decf c p) ->
  serialize E (VMsg c (VInt (type_of c)) (VInt t) enc0 sig (full c v a)) key encf = (m', Ok bs) ->
  deserialize E' now bs decf ct pub = Ok m2 ->
  verify_owners E m' (opt_key p) (opt_key r) concent = Ok tt -> verify_owners E' m2 (opt_key p) (opt_key r) concent = Ok tt.
Proof.
  intros HE HC HL HT M HK W U H HD HO.
  pose proof (serialize_msg _ _ _ _ _ _ _ _ _ _ _ H) as Em.
  assert (T : is_task_message c = true).
  { unfold verify_owners in HO. rewrite Em in HO. cbn [is_task_msg] in HO. destruct (is_task_message c); [reflexivity|discriminate HO]. }
  assert (NH : c <> MHello) by (intros ->; discriminate T).
  assert (HH : hello_ok E' c v) by (intros ->; congruence).
  assert (D0 : deserialize E' now bs decf false None = Ok m2).
  { assert (D1 : deserialize E' now bs decf ct None = Ok m2).
    { destruct pub as [[|b k]|]; [rewrite empty_sender_key in HD|apply sender_exact in HD as [HD _]; [|discriminate]|]; exact HD. }
    apply deserialize_ok in D1 as (Q1 & ty & ts & enc & c0 & Q2 & Q3 & Q4 & Q5 & Q6). apply deserialize_ok. split; [exact Q1|].
    exists ty, ts, enc, c0. split; [exact Q2|]. split; [exact Q3|]. split; [exact Q4|]. split; [discriminate|]. exact Q6. }
  destruct (frame_rt E E' now c t enc0 sig v a key encf m' bs false decf None HE HC HL HT ltac:(discriminate) M HH W U H ltac:(discriminate)) as (a' & AR & M' & _ & D).
  cbv zeta in D. pose proof (eq_trans (eq_sym D) D0) as D1. clear D. apply bind_ok in D1 as (_ & _ & D1). apply Ok_inj in D1.
  rewrite full_not_hello in D1 by exact NH. rewrite full_not_hello in Em, H by exact NH.
  assert (L : loaded c a').
  { apply deserialize_loaded in D0 as (c' & t' & enc' & sig' & v' & a0 & E1 & L & _). subst m2.
    assert (c' = c) by congruence. subst c'. assert (a' = full c v' a0) by congruence. rewrite full_not_hello in * by exact NH. subst a0. exact L. }
  assert (HV : forall k, verify_signature E' m2 k = verify_signature E m' k).
  { intros k. rewrite <- D1, Em. pose proof (outer_verify E E' c t (VBool (encrypts c && given encf)) (sig_of m') (VBool (encrypts c && given encf)) v a a' k HE M AR) as OV.
    rewrite !full_not_hello in OV by exact NH. exact OV. }
  assert (EN : ends c m' m2).
  { rewrite <- D1. rewrite Em at 1. do 10 eexists. split; [reflexivity|]. split; [reflexivity|]. auto. }
  apply verify_owners_iff in HO as (Hp & Hr & HO). apply ownership_chain_iff in HO as [_ HO].
  assert (CK : exists pk rk, chain_keys m' pk rk).
  { specialize (HO m' (reach_self _)). rewrite Em in HO. apply (ownership_iff _ _ _ _ _ _ _ _ T HK) in HO as (pk & rk & CK & _). rewrite <- Em in CK. eauto. }
  destruct CK as (pk & rk & CK). pose proof (chain_keys_arrive c m' m2 pk rk T EN CK) as CK2.
  apply chain_keys_iff in CK as [C1 C2]. apply chain_keys_iff in CK2 as [C3 C4].
  apply verify_owners_iff. split; [|split].
  - intros b Q N. specialize (Hp b Q N). congruence.
  - intros b Q N. specialize (Hr b Q N). congruence.
  - apply ownership_chain_iff. split; [rewrite <- D1; exact T|]. intros n' R.
    rewrite Em in HV.
    destruct (reach_arrives E E' HE m2 n' R c _ _ _ _ a' _ _ _ _ a (eq_sym D1) L M M' AR T HV) as (n & d & Rn & Td & En & Vn).
    eapply owned_arrives; [exact HE|exact Td|exact HK|exact En|exact Vn|]. apply HO. rewrite Em. exact Rn.
Qed.
(** the flag set while dumping does not matter *)
Lemma honest_flag E priv pk rk c ty ts enc enc' sig a : honest E priv pk rk (VMsg c ty ts enc sig a) -> honest E priv pk rk (VMsg c ty ts enc' sig a).
Proof.
  intros H. remember (VMsg c ty ts enc sig a) as m eqn:Em. 
  destruct H as [ty0 ts0 enc0 sig0 a0 wty wts wenc wsig wa r p h0 h m M X R1 R2 W P1 P2 Hh HM HS S|c0 ty0 ts0 enc0 sig0 a0 o m T N M Hin Hp Ho S];
    cbn [sign_message] in S; apply bind_ok in S as (x & S1 & S); apply bind_ok in S as (y & S2 & S); apply Ok_inj in S;
    assert (Q := eq_trans S Em); clear S Em m.
  - assert (c = MTaskToCompute /\ ty0 = ty /\ ts0 = ts /\ sig = VBytes y /\ a0 = a) as (-> & -> & -> & -> & ->) by (repeat split; congruence).
    eapply honest_task with (sig := sig0) (enc := enc') (ty := ty) (ts := ts); try eassumption. cbn [sign_message].
    change (short_hash E (VMsg MTaskToCompute ty ts enc' sig0 a)) with (short_hash E (VMsg MTaskToCompute ty ts enc0 sig0 a)). rewrite S1. cbn [bind]. rewrite S2. reflexivity.
  - assert (c0 = c /\ ty0 = ty /\ ts0 = ts /\ sig = VBytes y /\ a0 = a) as (-> & -> & -> & -> & ->) by (repeat split; congruence).
    eapply honest_reply with (sig := sig0) (enc := enc') (ty := ty) (ts := ts); try eassumption. cbn [sign_message].
    change (short_hash E (VMsg c ty ts enc' sig0 a)) with (short_hash E (VMsg c ty ts enc0 sig0 a)). rewrite S1. cbn [bind]. rewrite S2. reflexivity.
Qed.
Lemma honest_signature E priv pk rk c ty ts enc sig a : crypto_ok (cr E) -> honest E priv pk rk (VMsg c ty ts enc sig a) ->
  exists sg, sig = VBytes sg /\ List.length sg = 65%nat.
Proof.
  intros HC H. remember (VMsg c ty ts enc sig a) as m eqn:Em. 
  destruct H as [ty0 ts0 enc0 sig0 a0 wty wts wenc wsig wa r p h0 h m M X R1 R2 W P1 P2 Hh HM HS S|c0 ty0 ts0 enc0 sig0 a0 o m T N M Hin Hp Ho S];
    apply (sign_verifies _ _ _ _ HC) in S as (sk & q & c1 & ty1 & ts1 & enc1 & sig1 & sg & a1 & _ & _ & _ & Q & L & _); exists sg; (split; [congruence|exact L]).
Qed.
(** an honest message, dumped with or without a key and loaded *)
Lemma honest_arrives E E' now priv pk rk ck c t enc0 sig a key encf m' bs ct decf pub m2 :
  cr E' = cr E -> crypto_ok (cr E) -> key_pairs (cr E) priv pk rk ck ->
  honest E priv pk rk (VMsg c (VInt (type_of c)) (VInt t) enc0 sig a) -> 1262304000 < t < 32819212800 ->
  (forall s, slots c a = Ok s -> wirewf s = true /\ (vdepth s < cdepth E')%nat) ->
  (forall p, payload_of c a = Ok p -> undoes encf decf c p) ->
  serialize E (VMsg c (VInt (type_of c)) (VInt t) enc0 sig a) key encf = (m', Ok bs) -> deserialize E' now bs decf ct pub = Ok m2 ->
  verify_owners E' m2 (VBytes pk) (VBytes rk) (VBytes ck) = Ok tt.
Proof.
  intros HE HC KP H HT W U S D. destruct (honest_msg _ _ _ _ _ H) as (c0 & ty & ts & enc & sg & a0 & Q & T & M).
  destruct (honest_signature _ _ _ _ _ _ _ _ _ _ HC H) as (sg' & -> & L).
  assert (c0 = c /\ sg = sg' /\ a0 = a) as (-> & -> & ->) by (repeat split; congruence). clear Q.
  assert (NH : c <> MHello) by (intros ->; discriminate T).
  pose proof (serialize_msg _ _ _ _ _ _ _ _ _ _ _ S) as Em.
  assert (Es : sig_of m' = VBytes sg').
  { pose proof S as S'. apply serialize_ok in S' as (h & s1 & payload1 & p1 & v1 & -> & _ & _ & _ & _ & _ & Q & _). rewrite Q by discriminate. reflexivity. }
  rewrite Es in Em.
  eapply (accepted_arrives E E' now c t enc0 (VBytes sg') [] a key encf m' bs ct decf pub m2 (Some pk) (Some rk) (VBytes ck)); try eassumption.
  - intros s Q. congruence.
  - right. eauto.
  - rewrite full_not_hello by exact NH. exact S.
  - cbn [opt_key]. eapply honest_accepted; try eassumption. rewrite Em. eapply honest_flag, H.
Qed.
(** and they do arrive: an honest message that passes the checks of its class, sent
    within the time window, is loaded *)
Lemma honest_delivered E E' now priv pk rk ck c t enc0 sig a key encf m' bs ct decf pub :
  cr E' = cr E -> crypto_ok (cr E) -> key_pairs (cr E) priv pk rk ck ->
  honest E priv pk rk (VMsg c (VInt (type_of c)) (VInt t) enc0 sig a) -> 1262304000 < t < 32819212800 ->
  (ct = true -> now - 600000000 <= t * 1000000 <= now + 300000000) ->
  (forall s, slots c a = Ok s -> wirewf s = true /\ (vdepth s < cdepth E')%nat) ->
  (forall p, payload_of c a = Ok p -> undoes encf decf c p) ->
  serialize E (VMsg c (VInt (type_of c)) (VInt t) enc0 sig a) key encf = (m', Ok bs) ->
  (forall k, pub = Some k -> k <> [] -> signs c = true -> verify_signature E m' (VBytes k) = Ok tt) ->
  vet E c m' = Ok tt ->
  exists m2, deserialize E' now bs decf ct pub = Ok m2 /\ verify_owners E' m2 (VBytes pk) (VBytes rk) (VBytes ck) = Ok tt.
Proof.
  intros HE HC KP H HT HN W U S P V. destruct (honest_msg _ _ _ _ _ H) as (c0 & ty & ts & enc & sg & a0 & Q & T & M).
  destruct (honest_signature _ _ _ _ _ _ _ _ _ _ HC H) as (sg' & -> & L).
  assert (c0 = c /\ sg = sg' /\ a0 = a) as (-> & -> & ->) by (repeat split; congruence). clear Q.
  assert (NH : c <> MHello) by (intros ->; discriminate T).
  assert (HH : hello_ok E' c []) by (intros ->; congruence).
  pose proof S as S'. rewrite <- (full_not_hello c [] a NH) in S'.
  destruct (trip_any E E' now c t enc0 (VBytes sg') [] a key encf m' bs ct decf pub HE HC ltac:(congruence) HT HN M HH W U S' P V) as (a' & _ & _ & _ & D).
  eexists. split; [exact D|]. eapply honest_arrives; eassumption.
Qed.
