(** * What ownership validation raises, and for which message of the chain (C85) *)
From Verif Require Export OwnFacts TextFacts.

(** what [binascii.unhexlify] raises *)
Inductive bad_hex : pyval -> exn -> Prop :=
| Bh_type v : (forall s, v <> VStr s) -> (forall b, v <> VBytes b) -> bad_hex v ETypeError
| Bh_ascii s c : In c s -> ~ 0 <= c < 128 -> bad_hex (VStr s) EValueError
| Bh_text s : (forall c, In c s -> 0 <= c < 128) -> (forall b, map lower_hex s <> hexlify b) -> bad_hex (VStr s) EBinasciiError
| Bh_bytes t : (forall b, map lower_hex (map b2z t) <> hexlify b) -> bad_hex (VBytes t) EBinasciiError.
Lemma is_ascii_iff s : is_ascii s = true <-> forall c, In c s -> 0 <= c < 128.
Proof.
  unfold is_ascii. rewrite forallb_forall. split; intros H c Hc; specialize (H c Hc); lia.
Qed.
Lemma is_ascii_not s : is_ascii s = false <-> exists c, In c s /\ ~ 0 <= c < 128.
Proof.
  split.
  - intros H. induction s as [|x s IH]; cbn in H; [discriminate|]. destruct ((0 <=? x) && (x <? 128)) eqn:X.
    + cbn in H. destruct (IH H) as (c & A & B). exists c. split; [right; exact A|exact B].
    + exists x. split; [left; reflexivity|]. lia.
  - intros (c & A & B). destruct (is_ascii s) eqn:Q; [|reflexivity]. rewrite is_ascii_iff in Q. specialize (Q c A). lia.
Qed.
Lemma bad_hex_iff v e : (forall n s, v <> VEnum n s) -> (decode_hex v = Err e <-> bad_hex v e).
Proof.
  intros N. pose proof (fun b => proj1 (decode_hex_exact b)) as DS. pose proof (fun b => proj2 (decode_hex_exact b)) as DB. split.
  - destruct v; cbn [decode_hex]; try (intros [= <-]; constructor; discriminate).
    + destruct (is_ascii s) eqn:A; [|intros [= <-]; apply is_ascii_not in A as (c & P & Q); econstructor; eassumption].
      destruct (unhex s) eqn:U; [discriminate|]. intros [= <-]. constructor; [apply is_ascii_iff, A|].
      intros b H. apply DS in H. cbn [decode_hex] in H. rewrite A, U in H. discriminate.
    + destruct (unhex (map b2z b)) eqn:U; [discriminate|]. intros [= <-]. constructor.
      intros x H. apply DB in H. cbn [decode_hex] in H. rewrite U in H. discriminate.
    + exfalso. eapply N. reflexivity.
  - intros H. destruct H as [v A B|s c P Q|s A B|t B].
    + destruct v; cbn [decode_hex]; try reflexivity; exfalso; [eapply A|eapply B|eapply N]; reflexivity.
    + cbn [decode_hex]. rewrite (proj2 (is_ascii_not s)) by eauto. reflexivity.
    + cbn [decode_hex]. rewrite (proj2 (is_ascii_iff s) A). destruct (unhex s) as [b|] eqn:U; [|reflexivity]. exfalso. apply (B b), DS. cbn [decode_hex].
      rewrite (proj2 (is_ascii_iff s) A), U. reflexivity.
    + cbn [decode_hex]. destruct (unhex (map b2z t)) as [b|] eqn:U; [|reflexivity]. exfalso. apply (B b), DB. cbn [decode_hex]. rewrite U. reflexivity.
Qed.

(** why the key called [n] cannot be had from the chain of [m] *)
Inductive no_key (n : string) (m : pyval) : exn -> Prop :=
| Nk_task : (forall t, getattr "task_to_compute" m <> Ok t) -> no_key n m EAttributeError
| Nk_name t : getattr "task_to_compute" m = Ok t -> (forall p, getattr n t <> Ok p) -> no_key n m EAttributeError
| Nk_hex t p e : getattr "task_to_compute" m = Ok t -> getattr n t = Ok p -> decode_hex p = Err e -> no_key n m e.
(** [k] is that key *)
Definition key_of (n : string) (m : pyval) (k : bytes) : Prop :=
  exists t p, getattr "task_to_compute" m = Ok t /\ getattr n t = Ok p /\ decode_hex p = Ok k.
Lemma getattr_err n v e : getattr n v = Err e -> e = EAttributeError.
Proof. unfold getattr. destruct (acc n v); congruence. Qed.
Lemma getattr_not n v : (forall x, getattr n v <> Ok x) <-> getattr n v = Err EAttributeError.
Proof.
  destruct (getattr n v) as [x|e] eqn:Q.
  - split; [intros H; exfalso; exact (H x eq_refl)|discriminate].
  - apply getattr_err in Q. subst. split; [reflexivity|]. intros _ x. discriminate.
Qed.
Lemma no_key_iff n m e : chain_key n m = Err e <-> no_key n m e.
Proof.
  unfold chain_key. split.
  - destruct (getattr "task_to_compute" m) as [t|e0] eqn:T; cbn [bind].
    + destruct (getattr n t) as [p|e0] eqn:P; cbn [bind].
      * intros H. eapply Nk_hex; eassumption.
      * intros [= <-]. rewrite (getattr_err _ _ _ P). eapply Nk_name; [exact T|]. intros p. congruence.
    + intros [= <-]. rewrite (getattr_err _ _ _ T). apply Nk_task. intros t. congruence.
  - intros H. destruct H as [T|t T P|t p e T P D].
    + apply getattr_not in T. rewrite T. reflexivity.
    + rewrite T. cbn [bind]. apply getattr_not in P. rewrite P. reflexivity.
    + rewrite T. cbn [bind]. rewrite P. exact D.
Qed.

(** why the task header inside a TaskToCompute is refused; the key is the requestor's *)
Inductive bad_header (E : env) (m : pyval) : exn -> Prop :=
| Hd_want : (forall w, getattr "want_to_compute_task" m <> Ok w) -> bad_header E m EAttributeError
| Hd_none w : getattr "want_to_compute_task" m = Ok w -> (forall ha, getattr "task_header" w <> Ok (VObj CTaskHeader ha)) -> bad_header E m EAttributeError
| Hd_key w ha e : getattr "want_to_compute_task" m = Ok w -> getattr "task_header" w = Ok (VObj CTaskHeader ha) ->
    no_key "requestor_public_key" m e -> bad_header E m e
| Hd_unsigned w ha k : getattr "want_to_compute_task" m = Ok w -> getattr "task_header" w = Ok (VObj CTaskHeader ha) ->
    key_of "requestor_public_key" m k -> attr_get_or_none "signature" ha = VNone -> bad_header E m EInvalidSignature
| Hd_hash w ha k e : getattr "want_to_compute_task" m = Ok w -> getattr "task_header" w = Ok (VObj CTaskHeader ha) ->
    key_of "requestor_public_key" m k -> attr_get_or_none "signature" ha <> VNone -> header_hash (cr E) ha = Err e -> bad_header E m e
| Hd_length w ha k h : getattr "want_to_compute_task" m = Ok w -> getattr "task_header" w = Ok (VObj CTaskHeader ha) ->
    key_of "requestor_public_key" m k -> attr_get_or_none "signature" ha <> VNone -> header_hash (cr E) ha = Ok h ->
    List.length k <> 64%nat -> bad_header E m EInvalidKeys
| Hd_other w ha k h : getattr "want_to_compute_task" m = Ok w -> getattr "task_header" w = Ok (VObj CTaskHeader ha) ->
    key_of "requestor_public_key" m k -> attr_get_or_none "signature" ha <> VNone -> header_hash (cr E) ha = Ok h ->
    List.length k = 64%nat -> ~ header_signed E m k -> bad_header E m EInvalidSignature.

(** why a message is refused: the header first, then the two keys of the chain, then
    the roles in order *)
Inductive disowned (E : env) (concent : pyval) : pyval -> exn -> Prop :=
| Do_header ty ts enc sig a e : let m := VMsg MTaskToCompute ty ts enc sig a in bad_header E m e -> disowned E concent m e
| Do_provider c ty ts enc sig a e : let m := VMsg c ty ts enc sig a in
    (c = MTaskToCompute -> exists rk, key_of "requestor_public_key" m rk /\ header_signed E m rk) ->
    no_key "provider_public_key" m e -> disowned E concent m e
| Do_requestor c ty ts enc sig a pk e : let m := VMsg c ty ts enc sig a in
    c <> MTaskToCompute -> key_of "provider_public_key" m pk -> no_key "requestor_public_key" m e -> disowned E concent m e
| Do_hash c ty ts enc sig a pk rk e : let m := VMsg c ty ts enc sig a in
    chain_keys m pk rk -> (c = MTaskToCompute -> header_signed E m rk) -> short_hash E m = Err e -> disowned E concent m e
| Do_nobody c ty ts enc sig a pk rk h : let m := VMsg c ty ts enc sig a in
    chain_keys m pk rk -> (c = MTaskToCompute -> header_signed E m rk) -> short_hash E m = Ok h ->
    (forall o, In o (expected_owners c) -> key64 (owner_key pk rk concent o) /\ ~ signed_by E m (owner_key pk rk concent o)) ->
    disowned E concent m EInvalidSignature
| Do_key c ty ts enc sig a pk rk h pre o post e : let m := VMsg c ty ts enc sig a in
    chain_keys m pk rk -> (c = MTaskToCompute -> header_signed E m rk) -> short_hash E m = Ok h ->
    expected_owners c = pre ++ o :: post ->
    (forall x, In x pre -> key64 (owner_key pk rk concent x) /\ ~ signed_by E m (owner_key pk rk concent x)) ->
    ~ key64 (owner_key pk rk concent o) ->
    e = match owner_key pk rk concent o with VNone => ETypeError | _ => EInvalidKeys end -> disowned E concent m e.

Lemma key_of_iff n m k : chain_key n m = Ok k <-> key_of n m k.
Proof. apply chain_key_iff. Qed.
Lemma bad_header_iff E ty ts enc sig a e : let m := VMsg MTaskToCompute ty ts enc sig a in verify_header E m = Err e <-> bad_header E m e.
Proof.
  intros m. assert (T : getattr "task_to_compute" m = Ok m) by reflexivity.
  assert (K : forall k, chain_key "requestor_public_key" m = (do t <- getattr "requestor_public_key" m; decode_hex t) /\ (header_signed E m k -> verify_header E m = Ok tt \/ True)).
  { intros k. split; [unfold chain_key; rewrite T; reflexivity|auto]. }
  assert (CK : chain_key "requestor_public_key" m = (do t <- getattr "requestor_public_key" m; decode_hex t)) by apply (K []). clear K.
  assert (V : forall w ha k h, getattr "want_to_compute_task" m = Ok w -> getattr "task_header" w = Ok (VObj CTaskHeader ha) ->
    chain_key "requestor_public_key" m = Ok k -> attr_get_or_none "signature" ha <> VNone -> header_hash (cr E) ha = Ok h -> List.length k = 64%nat ->
    verify_header E m = Ok tt \/ verify_header E m = Err EInvalidSignature).
  { intros w ha k h Hw Hh Hk Hs Hhh L. unfold verify_header. rewrite Hw. cbn [bind]. rewrite Hh. cbn [bind].
    rewrite CK in Hk. apply bind_ok in Hk as (t & Ht & Hk). rewrite Ht. cbn [bind]. rewrite Hk. cbn [bind]. unfold header_verify.
    assert (B : blen k =? 64 = true) by (unfold blen; rewrite L; reflexivity). 
    destruct (attr_get_or_none "signature" ha); try contradiction; rewrite Hhh; cbn [bind]; unfold ecdsa_verify; rewrite B; auto.
    destruct (recover _ _ _); auto. destruct (bytes_eqb _ _); auto. }
  split.
  - intros H. destruct (getattr "want_to_compute_task" m) as [w|e0] eqn:W.
    2:{ unfold verify_header in H. rewrite W in H. cbn [bind] in H. assert (e0 = e) by congruence. subst. rewrite (getattr_err _ _ _ W). apply Hd_want. congruence. }
    destruct (getattr "task_header" w) as [x|e0] eqn:X.
    2:{ unfold verify_header in H. rewrite W in H. cbn [bind] in H. rewrite X in H. cbn [bind] in H. assert (e0 = e) by congruence. subst. rewrite (getattr_err _ _ _ X).
        eapply Hd_none; [exact W|]. congruence. }
    assert (O : (exists ha, x = VObj CTaskHeader ha) \/ (forall ha, x <> VObj CTaskHeader ha)).
    { destruct x; try (right; discriminate). destruct c; try (right; discriminate). left. eauto. }
    destruct O as [[ha ->]|O].
    2:{ assert (e = EAttributeError) as ->. { unfold verify_header in H. rewrite W in H. cbn [bind] in H. rewrite X in H. cbn [bind] in H.
          destruct x; try congruence. destruct c; congruence. }
        eapply Hd_none; [exact W|]. intros ha Q. apply (O ha). congruence. }
    assert (D : (exists k, chain_key "requestor_public_key" m = Ok k) \/ exists e0, chain_key "requestor_public_key" m = Err e0)
      by (clear; destruct (chain_key "requestor_public_key" m); eauto).
    destruct D as [[k KK]|[e0 KK]].
    2:{ assert (e0 = e) as ->. { pose proof KK as KK'. unfold verify_header in H. rewrite W in H. cbn [bind] in H. rewrite X in H. cbn [bind] in H. rewrite CK in KK'.
          destruct (getattr "requestor_public_key" m) as [t|]; cbn [bind] in *; [|congruence]. rewrite KK' in H. cbn [bind] in H. congruence. }
        eapply Hd_key; [exact W|exact X|]. apply no_key_iff, KK. }
    assert (H' : header_verify (cr E) ha (VBytes k) = Err e).
    { unfold verify_header in H. rewrite W in H. cbn [bind] in H. rewrite X in H. cbn [bind] in H. pose proof KK as KK'. rewrite CK in KK'. apply bind_ok in KK' as (t & Ht & Hk).
      rewrite Ht in H. cbn [bind] in H. rewrite Hk in H. exact H. }
    assert (SG : attr_get_or_none "signature" ha = VNone \/ attr_get_or_none "signature" ha <> VNone) by (destruct (attr_get_or_none "signature" ha); auto; right; discriminate).
    destruct SG as [S|S].
    { unfold header_verify in H'. rewrite S in H'. assert (e = EInvalidSignature) as -> by congruence. eapply Hd_unsigned; [exact W|exact X|apply key_of_iff, KK|exact S]. }
    assert (H2 : (do h <- header_hash (cr E) ha; ecdsa_verify (cr E) (VBytes k) (attr_get_or_none "signature" ha) h) = Err e).
    { unfold header_verify in H'. destruct (attr_get_or_none "signature" ha); try contradiction; exact H'. }
    destruct (header_hash (cr E) ha) as [h|e0] eqn:Hh.
    2:{ cbn [bind] in H2. assert (e0 = e) by congruence. subst. eapply Hd_hash; [exact W|exact X|apply key_of_iff, KK|exact S|exact Hh]. }
    cbn [bind] in H2. destruct (Nat.eq_dec (List.length k) 64) as [L|L].
    + destruct (V w ha k h eq_refl X KK S Hh L) as [Q|Q]; [congruence|]. assert (e = EInvalidSignature) as -> by congruence.
      eapply Hd_other; [exact W|exact X|apply key_of_iff, KK|exact S|exact Hh|exact L|]. intros HS. apply (verify_header_iff E m k T KK) in HS. congruence.
    + assert (e = EInvalidKeys) as ->.
      { unfold ecdsa_verify in H2. replace (blen k =? 64) with false in H2 by (unfold blen; lia). congruence. }
      eapply Hd_length; [exact W|exact X|apply key_of_iff, KK|exact S|exact Hh|exact L].
  - intros H. assert (CK' : forall k, key_of "requestor_public_key" m k -> exists t, getattr "requestor_public_key" m = Ok t /\ decode_hex t = Ok k).
    { intros k Hk. apply key_of_iff in Hk. rewrite CK in Hk. apply bind_ok in Hk as (t & A & B). eauto. }
    destruct H as [W|w W X|w ha e W X N|w ha k W X N S|w ha k e W X N S Hh|w ha k h W X N S Hh L|w ha k h W X N S Hh L NS].
    + apply getattr_not in W. unfold verify_header. rewrite W. reflexivity.
    + unfold verify_header. rewrite W. cbn [bind]. destruct (getattr "task_header" w) as [x|e0] eqn:Q; cbn [bind]; [|rewrite (getattr_err _ _ _ Q); reflexivity].
      destruct x; try reflexivity. destruct c; try reflexivity. exfalso. eapply X. reflexivity.
    + unfold verify_header. rewrite W. cbn [bind]. rewrite X. cbn [bind]. apply no_key_iff in N. rewrite CK in N.
      destruct (getattr "requestor_public_key" m) as [t|]; cbn [bind] in *; [|congruence]. rewrite N. reflexivity.
    + destruct (CK' _ N) as (t & A & B). unfold verify_header. rewrite W. cbn [bind]. rewrite X. cbn [bind]. rewrite A. cbn [bind]. rewrite B. cbn [bind].
      unfold header_verify. rewrite S. reflexivity.
    + destruct (CK' _ N) as (t & A & B). unfold verify_header. rewrite W. cbn [bind]. rewrite X. cbn [bind]. rewrite A. cbn [bind]. rewrite B. cbn [bind].
      unfold header_verify. rewrite Hh. destruct (attr_get_or_none "signature" ha); try contradiction; reflexivity.
    + destruct (CK' _ N) as (t & A & B). unfold verify_header. rewrite W. cbn [bind]. rewrite X. cbn [bind]. rewrite A. cbn [bind]. rewrite B. cbn [bind].
      assert (BL : blen k =? 64 = false) by (unfold blen; lia).
      unfold header_verify. rewrite Hh. destruct (attr_get_or_none "signature" ha); try contradiction; cbn [bind]; unfold ecdsa_verify; rewrite BL; reflexivity.
    + apply key_of_iff in N. destruct (V w ha k h W X N S Hh L) as [Q|Q]; [|exact Q]. exfalso. apply NS. apply (verify_header_iff E m k T N), Q.
Qed.

Lemma owners_nonempty c : is_task_message c = true -> expected_owners c <> [].
Proof. destruct c; cbn; congruence. Qed.
Lemma key_decided v : a_key v \/ (exists b, v = VBytes b) -> key64 v \/ ~ key64 v.
Proof.
  intros H. assert (v = VNone \/ exists b, v = VBytes b) as [->|[b ->]] by (destruct H as [[H|H]|H]; auto).
  - right. intros (k & Q & _). discriminate.
  - destruct (Nat.eq_dec (List.length b) 64) as [L|L]; [left; exists b; auto|]. right. intros (k & Q & L'). assert (k = b) by congruence. subst. contradiction.
Qed.
Lemma owner_a_key pk rk concent o : a_key concent -> a_key (owner_key pk rk concent o).
Proof. intros K. destruct o; cbn; [right; eauto|right; eauto|exact K]. Qed.
Lemma verify_short E c ty ts enc sig a v h : a_key v -> ~ key64 v -> short_hash E (VMsg c ty ts enc sig a) = Ok h ->
  verify_signature E (VMsg c ty ts enc sig a) v = Err (match v with VNone => ETypeError | _ => EInvalidKeys end).
Proof.
  intros [->|[b ->]] N H; cbn [verify_signature]; rewrite H; cbn [bind]; unfold ecdsa_verify; [reflexivity|].
  replace (blen b =? 64) with false; [reflexivity|]. unfold blen. destruct (Z.of_nat (List.length b) =? 64) eqn:Q; [|reflexivity].
  exfalso. apply N. exists b. split; [reflexivity|lia].
Qed.
(** the roles, one after the other *)
Lemma try_owners_err (f : owner -> result unit) l e : try_owners f l = Err e <->
  (e = EInvalidSignature /\ forall x, In x l -> f x = Err EInvalidSignature) \/
  (e <> EInvalidSignature /\ exists pre o post, l = pre ++ o :: post /\ (forall x, In x pre -> f x = Err EInvalidSignature) /\ f o = Err e).
Proof.
  split.
  - induction l as [|o l IH]; cbn [try_owners]; [intros [= <-]; left; split; [reflexivity|intros x []]|].
    destruct (f o) as [[]|e0] eqn:Q; [discriminate|]. intros H.
    assert (D : e0 = EInvalidSignature \/ e0 <> EInvalidSignature) by (destruct e0; auto; right; discriminate).
    destruct D as [->|D].
    + destruct (IH H) as [[-> A]|[N (pre & o' & post & -> & A & B)]].
      * left. split; [reflexivity|]. intros x [->|Hx]; [exact Q|exact (A x Hx)].
      * right. split; [exact N|]. exists (o :: pre), o', post. split; [reflexivity|]. split; [|exact B]. intros x [->|Hx]; [exact Q|exact (A x Hx)].
    + right. assert (e0 = e) as -> by (destruct e0; congruence). split; [exact D|]. exists [], o, l. split; [reflexivity|]. split; [intros x []|exact Q].
  - intros [[-> A]|[N (pre & o & post & -> & A & B)]]; [apply try_owners_none, A|].
    induction pre as [|x pre IH]; cbn [app try_owners].
    + rewrite B. destruct e; congruence.
    + rewrite (A x (or_introl eq_refl)). apply IH. intros y Hy. apply A. right. exact Hy.
Qed.

Lemma disowned_iff E c ty ts enc sig a concent e : is_task_message c = true -> a_key concent ->
  let m := VMsg c ty ts enc sig a in validate_ownership E m concent = Err e <-> disowned E concent m e.
Proof.
  intros TM K m. 
  assert (U : validate_ownership E m concent =
    do _ <- (match c with MTaskToCompute => verify_header E m | _ => Ok tt end);
    do pk <- chain_key "provider_public_key" m; do rk <- chain_key "requestor_public_key" m;
    try_owners (fun o => verify_signature E m (owner_key pk rk concent o)) (expected_owners c)).
  { unfold m. cbn [validate_ownership]. rewrite TM. reflexivity. }
  assert (HR : verify_header E m = Ok tt -> c = MTaskToCompute -> exists rk, chain_key "requestor_public_key" m = Ok rk).
  { intros H ->. destruct (chain_key "requestor_public_key" m) as [rk|e0] eqn:Q; [eauto|]. exfalso. apply no_key_iff in Q.
    pose proof H as H0. unfold verify_header in H. apply bind_ok in H as (w & W & H). apply bind_ok in H as (x & X & H). destruct x; try discriminate H. destruct c; try discriminate H.
    assert (B : bad_header E m e0) by (eapply Hd_key; eassumption). apply bad_header_iff in B. unfold m in H0. congruence. }
  assert (OK : forall rk, chain_key "requestor_public_key" m = Ok rk -> (c = MTaskToCompute -> header_signed E m rk) ->
    (match c with MTaskToCompute => verify_header E m | _ => Ok tt end) = Ok tt).
  { intros rk Hr H. destruct (mcls_eq_dec c MTaskToCompute) as [->|N]; [|destruct c; try reflexivity; congruence].
    apply (verify_header_iff E m rk eq_refl Hr). apply H. reflexivity. }
  rewrite U. split.
  - intros H. destruct (match c with MTaskToCompute => verify_header E m | _ => Ok tt end) as [[]|e0] eqn:V; cbn [bind] in H.
    2:{ assert (e0 = e) by congruence. subst e0. destruct (mcls_eq_dec c MTaskToCompute) as [->|N]; [|destruct c; congruence].
        apply bad_header_iff in V. apply Do_header, V. }
    assert (HS : c = MTaskToCompute -> exists rk, chain_key "requestor_public_key" m = Ok rk /\ header_signed E m rk).
    { intros Ec. rewrite Ec in V at 1. destruct (HR V Ec) as [rk Hr]. exists rk. split; [exact Hr|]. refine (proj1 (verify_header_iff E m rk _ Hr) V). subst c. reflexivity. }
    destruct (chain_key "provider_public_key" m) as [pk|e0] eqn:Hp; cbn [bind] in H.
    2:{ assert (e0 = e) by congruence. subst e0. apply Do_provider; [|apply no_key_iff, Hp]. intros Ec. destruct (HS Ec) as (rk & Hr & S). exists rk. split; [apply key_of_iff, Hr|exact S]. }
    destruct (chain_key "requestor_public_key" m) as [rk|e0] eqn:Hr; cbn [bind] in H.
    2:{ assert (e0 = e) by congruence. subst e0. eapply Do_requestor; [|apply key_of_iff, Hp|apply no_key_iff, Hr]. intros Ec. destruct (HS Ec) as (rk & Q & _). congruence. }
    assert (CK : chain_keys m pk rk) by (apply chain_keys_iff; auto).
    assert (HS' : c = MTaskToCompute -> header_signed E m rk). { intros Ec. destruct (HS Ec) as (rk' & Q & S). assert (rk' = rk) by congruence. subst. exact S. }
    destruct (short_hash E m) as [h|e0] eqn:Hh.
    2:{ assert (F : forall o, verify_signature E m (owner_key pk rk concent o) = Err e0). { intros o. unfold m. cbn [verify_signature]. fold m. rewrite Hh. reflexivity. }
        assert (e0 = e) as ->.
        { destruct (expected_owners c) as [|o l] eqn:Eo; [exfalso; exact (owners_nonempty c TM Eo)|].
          apply try_owners_err in H as [[-> A]|[N (pre & o' & post & _ & _ & B)]]; [|rewrite F in B; congruence].
          specialize (A o (or_introl eq_refl)). rewrite F in A. congruence. }
        eapply Do_hash; eassumption. }
    assert (KD : forall o, key64 (owner_key pk rk concent o) \/ ~ key64 (owner_key pk rk concent o)) by (intros o; apply key_decided; left; apply owner_a_key, K).
    assert (INV : forall o, verify_signature E m (owner_key pk rk concent o) = Err EInvalidSignature -> key64 (owner_key pk rk concent o) /\ ~ signed_by E m (owner_key pk rk concent o)).
    { intros o Q. split; [|intros S; apply verify_signature_iff in S; congruence]. destruct (KD o) as [D|D]; [exact D|]. exfalso.
      unfold m in Q. rewrite (verify_short E c ty ts enc sig a _ h) in Q; [|apply owner_a_key, K|exact D|exact Hh]. destruct (owner_key pk rk concent o); discriminate Q. }
    apply try_owners_err in H as [[-> A]|[N (pre & o & post & Eo & A & B)]].
    + eapply Do_nobody; [exact CK|exact HS'|exact Hh|]. intros o Ho. apply INV, A, Ho.
    + assert (D : ~ key64 (owner_key pk rk concent o)).
      { intros D. destruct (verify_key64 E c ty ts enc sig a _ h D Hh) as [Q|Q]; unfold m in B; rewrite Q in B; congruence. }
      eapply Do_key; [exact CK|exact HS'|exact Hh|exact Eo| |exact D|].
      * intros x Hx. apply INV, A, Hx.
      * unfold m in B. rewrite (verify_short E c ty ts enc sig a _ h) in B; [congruence|apply owner_a_key, K|exact D|exact Hh].
  - intros H. inversion H as [ty0 ts0 enc0 sig0 a0 e0 m0 B Q1 Q2|c0 ty0 ts0 enc0 sig0 a0 e0 m0 HS B Q1 Q2|c0 ty0 ts0 enc0 sig0 a0 pk e0 m0 N Hp B Q1 Q2|
      c0 ty0 ts0 enc0 sig0 a0 pk rk e0 m0 CK HS Hh Q1 Q2|c0 ty0 ts0 enc0 sig0 a0 pk rk h m0 CK HS Hh A Q1 Q2|c0 ty0 ts0 enc0 sig0 a0 pk rk h pre o post e0 m0 CK HS Hh Eo A D Ee Q1 Q2];
      clear H; subst m0; unfold m in *; clear m.
    + apply bad_header_iff in B. subst c. rewrite B. reflexivity.
    + apply no_key_iff in B. destruct (mcls_eq_dec c MTaskToCompute) as [Ec|N].
      * destruct (HS Ec) as (rk & Hr & S). apply key_of_iff in Hr. rewrite (OK rk Hr (fun _ => S)). cbn [bind]. rewrite B. reflexivity.
      * destruct c; try congruence; cbn [bind]; rewrite B; reflexivity.
    + apply no_key_iff in B. apply key_of_iff in Hp. destruct c; try congruence; cbn [bind]; rewrite Hp; cbn [bind]; rewrite B; reflexivity.
    + apply chain_keys_iff in CK as [Hp Hr]. rewrite (OK rk Hr HS). cbn [bind]. rewrite Hp. cbn [bind]. rewrite Hr. cbn [bind].
      assert (F : forall o, verify_signature E (VMsg c ty ts enc sig a) (owner_key pk rk concent o) = Err e). { intros o. cbn [verify_signature]. rewrite Hh. reflexivity. }
      destruct (expected_owners c) as [|o l] eqn:Eo; [exfalso; exact (owners_nonempty c TM Eo)|]. apply try_owners_err.
      assert (De : e = EInvalidSignature \/ e <> EInvalidSignature) by (destruct e; auto; right; discriminate). destruct De as [->|De].
      * left. split; [reflexivity|]. intros x _. apply F.
      * right. split; [exact De|]. exists [], o, l. split; [reflexivity|]. split; [intros x []|apply F].
    + apply chain_keys_iff in CK as [Hp Hr]. rewrite (OK rk Hr HS). cbn [bind]. rewrite Hp. cbn [bind]. rewrite Hr. cbn [bind]. apply try_owners_none.
      intros o Ho. destruct (A o Ho) as [D S]. destruct (verify_key64 E c ty ts enc sig a _ h D Hh) as [Q|Q]; [|exact Q]. exfalso. apply S, verify_signature_iff, Q.
    + apply chain_keys_iff in CK as [Hp Hr]. rewrite (OK rk Hr HS). cbn [bind]. rewrite Hp. cbn [bind]. rewrite Hr. cbn [bind]. rewrite Eo. apply try_owners_err. right. rewrite Ee.
      split; [destruct (owner_key pk rk concent o); discriminate|]. exists pre, o, post. split; [reflexivity|]. split.
      * intros x Hx. destruct (A x Hx) as [D' S]. destruct (verify_key64 E c ty ts enc sig a _ h D' Hh) as [Q|Q]; [|exact Q]. exfalso. apply S, verify_signature_iff, Q.
      * apply (verify_short E c ty ts enc sig a _ h); [apply owner_a_key, K|exact D|exact Hh].
Qed.

(** ** The chain: the message itself, then what its slots hold, in slot order *)
Inductive visited : pyval -> list pyval -> Prop :=
| Vi_other v : is_task_msg v = false -> visited v []
| Vi_msg c ty ts enc sig a ls : is_task_message c = true -> Forall2 (fun k l => visited (attr_get_or_none k a) l) (slot_names c) ls ->
    visited (VMsg c ty ts enc sig a) (VMsg c ty ts enc sig a :: List.concat ls).

Lemma all_ok_first l e : all_ok l = Err e <-> exists pre post, l = pre ++ Err e :: post /\ Forall (fun x => x = Ok tt) pre.
Proof.
  split.
  - induction l as [|x l IH]; cbn [all_ok]; [discriminate|]. destruct x as [[]|e']; cbn [bind].
    + intros H. destruct (IH H) as (pre & post & -> & F). exists (Ok tt :: pre), post. auto.
    + intros [= <-]. exists [], l. auto.
  - intros (pre & post & -> & F). induction F as [|x pre -> _ IH]; cbn [app all_ok bind]; [reflexivity|exact IH].
Qed.
(** walking a list of lists stops at the same place as walking their concatenation *)
Definition stops (f : pyval -> result unit) (l : list pyval) (e : exn) : Prop :=
  exists pre n post, l = pre ++ n :: post /\ Forall (fun x => f x = Ok tt) pre /\ f n = Err e.
Lemma stops_all f l e : stops f l e <-> all_ok (map f l) = Err e.
Proof.
  unfold stops. rewrite all_ok_first. split.
  - intros (pre & n & post & -> & F & H). exists (map f pre), (map f post). rewrite map_app. cbn [map]. rewrite H. split; [reflexivity|].
    apply Forall_map. exact F.
  - intros (pre & post & M & F). apply map_eq_app in M as (l1 & l2 & -> & <- & M2). destruct l2 as [|n l2]; [discriminate|]. cbn [map] in M2.
    exists l1, n, l2. split; [reflexivity|]. split; [exact (proj1 (Forall_map _ _ _) F)|congruence].
Qed.
Lemma all_ok_app l l' : all_ok (l ++ l') = do _ <- all_ok l; all_ok l'.
Proof. induction l as [|x l IH]; cbn [app all_ok bind]; [reflexivity|]. destruct x as [[]|]; cbn [bind]; [exact IH|reflexivity]. Qed.
Lemma walk_visited E concent : forall m l, visited m l -> own_chain E concent m = all_ok (map (fun n => validate_ownership E n concent) l).
Proof.
  induction m using pyval_ind'; intros vs V; inversion V as [v T|c0 ty0 ts0 enc0 sig0 a0 ls T F]; subst; try reflexivity.
  - rewrite own_other by exact T. reflexivity.
  - rewrite own_msg by exact T. cbn [map all_ok]. destruct (validate_ownership E (VMsg c m1 m2 m3 m4 a) concent) as [[]|]; cbn [bind]; [|reflexivity].
    clear V. induction F as [|k l ks ls Hk F IH]; cbn [map List.concat all_ok]; [reflexivity|]. rewrite map_app, all_ok_app, <- IH. clear IH.
    match goal with G : Forall _ a |- _ => rewrite Forall_forall in G; rename G into IHa end.
    unfold attr_get_or_none in Hk. destruct (attr_get k a) as [w|] eqn:W.
    + rewrite <- (IHa _ (attr_get_In _ _ _ W) l Hk). reflexivity.
    + inversion Hk; subst. reflexivity.
Qed.
Lemma visited_exists : forall m, exists l, visited m l.
Proof.
  induction m using pyval_ind'; try (exists []; constructor; reflexivity).
  destruct (is_task_message c) eqn:T; [|exists []; constructor; exact T].
  match goal with G : Forall _ a |- _ => rewrite Forall_forall in G; rename G into IHa end.
  assert (L : forall ks, exists ls, Forall2 (fun k l => visited (attr_get_or_none k a) l) ks ls).
  { induction ks as [|k ks [ls IH]]; [exists []; constructor|].
    assert (exists l, visited (attr_get_or_none k a) l) as [l Hl].
    { unfold attr_get_or_none. destruct (attr_get k a) as [w|] eqn:W; [exact (IHa _ (attr_get_In _ _ _ W))|]. exists []. constructor. reflexivity. }
    exists (l :: ls). constructor; assumption. }
  destruct (L (slot_names c)) as [ls Hl]. eexists. apply Vi_msg; [exact T|exact Hl].
Qed.
Lemma visited_unique : forall m l l', visited m l -> visited m l' -> l = l'.
Proof.
  induction m using pyval_ind'; intros vs vs' V V'; inversion V as [v T|c0 ty0 ts0 enc0 sig0 a0 ls T F]; inversion V' as [v' T'|c1 ty1 ts1 enc1 sig1 a1 ls' T' F'];
    subst; try reflexivity; try (cbn in T, T'; congruence).
  match goal with G : Forall _ a |- _ => rewrite Forall_forall in G; rename G into IHa end.
  f_equal. f_equal. clear V V' T T'. revert ls' F'. induction F as [|k l ks ls Hk F IH]; intros ls' F'; inversion F' as [|k' l' ks' ls1 Hk' F1]; subst; [reflexivity|].
  f_equal; [|apply IH; assumption]. unfold attr_get_or_none in Hk, Hk'. destruct (attr_get k a) as [w|] eqn:W.
  - exact (IHa _ (attr_get_In _ _ _ W) _ _ Hk Hk').
  - inversion Hk; inversion Hk'; subst; reflexivity.
Qed.
Lemma visited_reach : forall m l, visited m l -> is_task_msg m = true -> forall x, In x l <-> reach m x.
Proof.
  induction m using pyval_ind'; intros vs V TM x; inversion V as [v T|c0 ty0 ts0 enc0 sig0 a0 ls T F]; subst; try discriminate TM; [cbn in T, TM; congruence|].
  match goal with G : Forall _ a |- _ => rewrite Forall_forall in G; rename G into IHa end. split.
  - intros [<-|H]; [constructor|]. apply in_concat in H as (l & Hl & Hx).
    assert (exists k, In k (slot_names c) /\ visited (attr_get_or_none k a) l) as (k & Hk & Vk).
    { clear - F Hl. induction F as [|k l0 ks ls H F IH]; [contradiction|]. destruct Hl as [->|Hl]; [exists k; split; [left; reflexivity|exact H]|].
      destruct (IH Hl) as (k' & A & B). exists k'. split; [right; exact A|exact B]. }
    unfold attr_get_or_none in Vk. destruct (attr_get k a) as [w|] eqn:W; [|inversion Vk; subst; contradiction].
    destruct (is_task_msg w) eqn:Tw; [|inversion Vk; subst; [contradiction|cbn in Tw; congruence]].
    eapply reach_slot; [exact T|exact Hk|exact W|exact Tw|]. apply (IHa _ (attr_get_In _ _ _ W) l Vk Tw), Hx.
  - intros R. inversion R as [|c1 ty1 ts1 enc1 sig1 a1 k w n1 T1 Hk W Tw R1]; subst; [left; reflexivity|]. right.
    assert (exists l, In l ls /\ visited w l) as (l & Hl & Vl).
    { clear - F Hk W. induction F as [|k0 l0 ks ls H F IH]; [contradiction|]. destruct Hk as [->|Hk].
      - exists l0. split; [left; reflexivity|]. unfold attr_get_or_none in H. rewrite W in H. exact H.
      - destruct (IH Hk) as (l & A & B). exists l. split; [right; exact A|exact B]. }
    apply in_concat. exists l. split; [exact Hl|]. apply (IHa _ (attr_get_In _ _ _ W) l Vl Tw), R1.
Qed.
Lemma chain_first E m concent l e : is_task_msg m = true -> visited m l ->
  (validate_ownership_chain E m concent = Err e <->
   exists pre n post, l = pre ++ n :: post /\ Forall (fun x => validate_ownership E x concent = Ok tt) pre /\ validate_ownership E n concent = Err e).
Proof.
  intros T V. unfold validate_ownership_chain. rewrite T, (walk_visited E concent m l V). symmetry. apply (stops_all (fun n => validate_ownership E n concent)).
Qed.

(** ** verify_owners: the provider, the requestor, the chain *)
Definition role_fits (n : string) (m : pyval) (o : option bytes) : Prop := forall b, o = Some b -> b <> [] -> key_of n m b.
Inductive wrong_role (n : string) (m : pyval) (o : option bytes) : exn -> Prop :=
| Wr_none b e : o = Some b -> b <> [] -> no_key n m e -> wrong_role n m o e
| Wr_other b k : o = Some b -> b <> [] -> key_of n m k -> k <> b -> wrong_role n m o EOwnershipMismatch.
Lemma wrong_role_iff n m o e : assert_role n m (opt_key o) = Err e <-> wrong_role n m o e.
Proof.
  unfold assert_role. split.
  - destruct o as [[|x b]|]; cbn [opt_key truthy]; try discriminate. destruct (chain_key n m) as [k|e0] eqn:Q; cbn [bind].
    + destruct (py_eq (VBytes (x :: b)) (VBytes k)) eqn:W; [discriminate|]. intros [= <-]. eapply Wr_other; [reflexivity|discriminate|apply key_of_iff, Q|].
      intros ->. cbn [py_eq num_of str_of] in W. rewrite bytes_eqb_refl in W. discriminate.
    + intros [= <-]. eapply Wr_none; [reflexivity|discriminate|]. apply no_key_iff, Q.
  - intros H. destruct H as [b e -> N H|b k -> N H D]; destruct b as [|x b]; try contradiction; cbn [opt_key truthy].
    + apply no_key_iff in H. rewrite H. reflexivity.
    + apply key_of_iff in H. rewrite H. cbn [bind py_eq num_of str_of]. destruct (bytes_eqb (x :: b) k) eqn:W; [|reflexivity].
      apply bytes_eqb_eq in W. congruence.
Qed.
Lemma role_fits_iff n m o : assert_role n m (opt_key o) = Ok tt <-> role_fits n m o.
Proof. rewrite assert_role_iff. unfold role_fits. split; intros H b A B; apply key_of_iff; exact (H b A B). Qed.
Lemma owners_err E m p r concent e : is_task_msg m = true ->
  (verify_owners E m (opt_key p) (opt_key r) concent = Err e <->
   wrong_role "provider_public_key" m p e \/
   (role_fits "provider_public_key" m p /\ wrong_role "requestor_public_key" m r e) \/
   (role_fits "provider_public_key" m p /\ role_fits "requestor_public_key" m r /\ validate_ownership_chain E m concent = Err e)).
Proof.
  intros T. unfold verify_owners. rewrite T, <- !wrong_role_iff, <- !role_fits_iff.
  destruct (assert_role "provider_public_key" m (opt_key p)) as [[]|e1]; cbn [bind].
  - destruct (assert_role "requestor_public_key" m (opt_key r)) as [[]|e2]; cbn [bind].
    + split; [auto|]. intros [H|[[_ H]|(_ & _ & H)]]; [discriminate|discriminate|exact H].
    + split; [auto|]. intros [H|[[_ H]|(_ & H & _)]]; [discriminate|exact H|discriminate].
  - split; [auto|]. intros [H|[[H _]|(H & _)]]; [exact H|discriminate|discriminate].
Qed.
