(** * Keyword arguments of constructors that are not slots (message/base.py 116-123) *)
From Verif Require Import ValidFacts.
From Coq Require Import Permutation.

(** the properties of [c]: message/tasks.py 73-106, 269-271, 332-369 *)
Definition property_names (c : mcls) : list string :=
  match c with
  | MTaskToCompute => "requestor_ethereum_address" :: "provider_public_key" :: "provider_ethereum_address" :: chain_names
  | MWantToComputeTask => ["task_id"]
  | _ => if is_task_message c then chain_names else []
  end%string.
(** no such attribute: [getattr(m, k, None) is None] *)
Definition lacks (k : string) (m : pyval) : bool := match acc k m with Some v => is_none v | None => true end.

Lemma existsb_In k l : existsb (String.eqb k) l = true <-> In k l.
Proof.
  rewrite existsb_exists. split; [intros (x & H & Q); apply String.eqb_eq in Q; subst; exact H|]. intros H. exists k. split; [exact H|apply String.eqb_refl].
Qed.
Lemma existsb_notIn k l : ~ In k l -> existsb (String.eqb k) l = false.
Proof. intros N. destruct (existsb _ _) eqn:Q; [|reflexivity]. apply existsb_In in Q. contradiction. Qed.
Lemma kw_no_slot c k : kw_ok c k = false -> existsb (String.eqb k) (slot_names c) = false.
Proof. unfold kw_ok. intros H. apply orb_false_iff in H. apply H. Qed.

(** what is neither a slot nor a property is no attribute *)
Lemma no_property c ty ts enc sig a k : kw_ok c k = false -> ~ In k (property_names c) -> acc k (VMsg c ty ts enc sig a) = None.
Proof.
  intros K N. apply kw_no_slot in K. cbn [acc]. rewrite K.
  assert (G : is_task_message c = true -> c <> MTaskToCompute -> existsb (String.eqb k) chain_names = false).
  { intros T Nt. apply existsb_notIn. intros I. apply N. unfold property_names. rewrite T. destruct c; try exact I; try discriminate T; destruct Nt; reflexivity. }
  destruct c; try reflexivity; try (rewrite (G eq_refl ltac:(discriminate)); reflexivity).
  - destruct (String.eqb_spec k "task_id") as [->|]; [|reflexivity]. destruct N. left. reflexivity.
  - cbn [property_names chain_names In] in N.
    destruct (String.eqb_spec k "task_id") as [->|]; [destruct N; tauto|]. destruct (String.eqb_spec k "subtask_id") as [->|]; [destruct N; tauto|]. cbn [orb].
    destruct (String.eqb_spec k "task_to_compute") as [->|]; [destruct N; tauto|].
    destruct (String.eqb_spec k "provider_public_key") as [->|]; [destruct N; tauto|].
    destruct (String.eqb_spec k "provider_ethereum_address") as [->|]; [destruct N; tauto|]. reflexivity.
Qed.

Lemma upd_other k f a k' : k <> k' -> attr_get k' (upd k f a) = attr_get k' a.
Proof. intros N. unfold upd. apply attr_get_set_other. congruence. Qed.
(** the constructors of the subclasses leave the properties as they are *)
Lemma lacks_built E c k ty ts enc sig a : kw_ok c k = false ->
  lacks k (VMsg c ty ts enc sig (set_version E c (post_init c a))) = lacks k (VMsg c VNone VNone VNone VNone a).
Proof.
  intros K. apply kw_no_slot in K. unfold lacks. cbn [acc]. rewrite K. clear K. destruct c; try reflexivity.
  - cbn [set_version post_init]. rewrite !assoc_acc, !upd_other by discriminate. reflexivity.
  - cbn [set_version post_init]. rewrite !assoc_acc. unfold attr_get_or_none. rewrite !upd_other by discriminate.
    destruct (_ || _)%bool; [reflexivity|]. destruct (_ =? _)%string; reflexivity.
  - cbn [set_version post_init task_id_providers map]. rewrite !assoc_acc, !upd_other by discriminate. reflexivity.
Qed.
Lemma address_built C E ty ts enc sig a :
  requestor_address C (VMsg MTaskToCompute ty ts enc sig (set_version E MTaskToCompute (post_init MTaskToCompute a))) =
  requestor_address C (VMsg MTaskToCompute VNone VNone VNone VNone a).
Proof.
  unfold requestor_address, getattr. cbn [acc].
  change (existsb (String.eqb "requestor_ethereum_public_key") (slot_names MTaskToCompute)) with true. cbv iota.
  cbn [set_version post_init]. unfold attr_get_or_none. rewrite upd_other by discriminate. reflexivity.
Qed.
Lemma address_text C m v : requestor_address C m = Ok v -> is_none v = false.
Proof. unfold requestor_address. intros H. apply bind_ok in H as (k & _ & H). apply bind_ok in H as (a & _ & H). apply Ok_inj in H. subst. reflexivity. Qed.

(** ** A keyword after others *)
(** the message built from the keywords before *)
Lemma init_split E now c header sig s kw1 m1 : msg_init E now c header sig s kw1 = Ok m1 ->
  exists a a1 ty ts enc, load_attrs FUEL c s = Ok a /\ apply_kwargs (cr E) c kw1 a = Ok a1 /\
    m1 = VMsg c ty ts enc sig (set_version E c (post_init c a1)).
Proof.
  unfold msg_init. intros H. apply bind_ok in H as (a & Ha & H). apply bind_ok in H as (a1 & Ha1 & H). exists a, a1.
  destruct header as [[[ty ts] enc]|]; apply Ok_inj in H; subst m1; do 3 eexists; eauto.
Qed.
Lemma keyword_property E now c header sig s kw1 k v kw2 m1 : In k (property_names c) -> ~ In k (slot_names c) -> k <> "requestor_ethereum_address"%string ->
  msg_init E now c header sig s kw1 = Ok m1 ->
  msg_init E now c header sig s (kw1 ++ (k, v) :: kw2) =
    match acc k m1 with
    | None | Some VNone => Err EAttributeError
    | Some _ => msg_init E now c header sig s (kw1 ++ kw2)
    end.
Proof.
  intros P NS NA H. apply init_split in H as (a & a1 & ty & ts & enc & Ha & Ha1 & ->).
  assert (F : forallb (fun c => forallb (fun k => negb (existsb (String.eqb k) (class_names c)) && negb (String.eqb k "_version")) (property_names c)) all_classes = true)
    by (vm_compute; reflexivity).
  pose proof (for_all_classes _ F c) as X. cbv beta in X. rewrite forallb_forall in X. specialize (X k P). apply andb_prop in X as [X1 X2].
  apply negb_true_iff in X1, X2.
  assert (K : kw_ok c k = false) by (unfold kw_ok; rewrite (existsb_notIn _ _ NS), X2, andb_false_r; reflexivity).
  pose proof (lacks_built E c k ty ts enc sig a1 K) as L. unfold lacks at 1 in L.
  assert (U : unset (cr E) c a1 k = Ok (lacks k (VMsg c VNone VNone VNone VNone a1))).
  { unfold unset. rewrite K, X1. destruct (String.eqb_spec k "requestor_ethereum_address"); [contradiction|]. rewrite andb_false_r. reflexivity. }
  unfold msg_init. rewrite Ha. cbn [bind]. rewrite !apply_kwargs_app, Ha1. cbn [bind apply_kwargs]. rewrite U. cbn [bind]. rewrite K, <- L.
  destruct (acc k _) as [[]|]; reflexivity.
Qed.
Lemma keyword_address E now header sig s kw1 v kw2 m1 : msg_init E now MTaskToCompute header sig s kw1 = Ok m1 ->
  msg_init E now MTaskToCompute header sig s (kw1 ++ ("requestor_ethereum_address"%string, v) :: kw2) =
    match requestor_address (cr E) m1 with
    | Ok _ => msg_init E now MTaskToCompute header sig s (kw1 ++ kw2)
    | Err e => Err e
    end.
Proof.
  intros H. apply init_split in H as (a & a1 & ty & ts & enc & Ha & Ha1 & ->). rewrite address_built.
  unfold msg_init. rewrite Ha. cbn [bind]. rewrite !apply_kwargs_app, Ha1. cbn [bind apply_kwargs].
  unfold unset. change (kw_ok MTaskToCompute "requestor_ethereum_address") with false. cbv iota.
  change (existsb (String.eqb "requestor_ethereum_address") (class_names MTaskToCompute)) with false. cbv iota.
  change (mcls_eqb MTaskToCompute MTaskToCompute && ("requestor_ethereum_address" =? "requestor_ethereum_address")%string) with true. cbv iota.
  destruct (requestor_address (cr E) _) as [w|e] eqn:R; [|reflexivity]. cbn [bind]. rewrite (address_text _ _ _ R). reflexivity.
Qed.

(** ** Failure *)
Lemma unset_unknown C c a k : ~ In k (slot_names c) -> ~ In k (property_names c) -> ~ In k (class_names c) -> (c = MHello -> k <> "_version"%string) ->
  unset C c a k = Ok true /\ kw_ok c k = false.
Proof.
  intros NS NP NC NV. assert (K : kw_ok c k = false).
  { unfold kw_ok. rewrite (existsb_notIn _ _ NS). cbn [orb]. destruct (mcls_eqb c MHello) eqn:Q; [|reflexivity]. cbn [andb].
    destruct c; try discriminate Q. destruct (String.eqb_spec k "_version"); [destruct (NV eq_refl); assumption|reflexivity]. }
  split; [|exact K]. unfold unset. rewrite K, (existsb_notIn _ _ NC), (no_property c _ _ _ _ a k K NP).
  destruct (mcls_eqb c MTaskToCompute) eqn:Q; [|reflexivity]. cbn [andb]. destruct (String.eqb_spec k "requestor_ethereum_address") as [->|]; [|reflexivity].
  destruct c; try discriminate Q. destruct NP. left. reflexivity.
Qed.
(** what can go wrong with keywords *)
Lemma unset_err C c a k e : unset C c a k = Err e -> c = MTaskToCompute /\ k = "requestor_ethereum_address"%string /\ requestor_address C (VMsg c VNone VNone VNone VNone a) = Err e.
Proof.
  unfold unset. destruct (kw_ok c k); [discriminate|]. destruct (existsb _ _); [discriminate|].
  destruct (mcls_eqb c MTaskToCompute) eqn:Q; [|discriminate]. cbn [andb]. destruct (String.eqb_spec k "requestor_ethereum_address") as [->|]; [|discriminate].
  intros H. assert (c = MTaskToCompute) by (destruct c; try discriminate Q; reflexivity). split; [assumption|]. split; [reflexivity|].
  destruct (requestor_address C _); cbn [bind] in H; [discriminate|]. congruence.
Qed.
Lemma address_err C m e : requestor_address C m = Err e -> e = EAttributeError \/ e = ETypeError \/ e = EValueError.
Proof.
  unfold requestor_address, getattr. destruct (acc _ _) as [k|]; cbn [bind]; [|intros H; left; congruence].
  unfold pubkey_to_address. intros H. right.
  assert (G : forall o : option ustr, match o with Some s => match hexstr_to_bytes s with Ok b => Ok b | Err _ => Err EValueError end | None => Err ETypeError end =
              Err e -> e = ETypeError \/ e = EValueError).
  { intros [x|] Hx; [|left; congruence]. destruct (hexstr_to_bytes x); [discriminate|right; congruence]. }
  destruct (match k with VBytes b => Ok b | _ => _ end) as [b|e'] eqn:M; cbn [bind] in H; [discriminate|]. assert (e' = e) by congruence. subst e'.
  destruct k; try discriminate M; match type of M with context [str_of ?x] => exact (G (str_of x) M) end.
Qed.
Lemma unknown_fails C c kw : (c = MTaskToCompute -> ~ In "requestor_ethereum_address"%string (map fst kw)) -> forall a k v, In (k, v) kw ->
  ~ In k (slot_names c) -> ~ In k (property_names c) -> ~ In k (class_names c) -> (c = MHello -> k <> "_version"%string) ->
  apply_kwargs C c kw a = Err EAttributeError.
Proof.
  induction kw as [|[k0 v0] kw IH]; intros NA a k v I N1 N2 N3 N4; [destruct I|]. cbn [apply_kwargs map fst In] in *.
  destruct (unset C c a k0) as [n|e] eqn:U.
  - cbn [bind]. destruct I as [I|I].
    + assert (k0 = k) by congruence. subst k0. destruct (unset_unknown C c a k N1 N2 N3 N4) as [U' K]. rewrite U in U'. assert (n = true) by congruence. subst n.
      rewrite K. reflexivity.
    + assert (G : forall a, apply_kwargs C c kw a = Err EAttributeError) by (intros a'; eapply IH; eauto; intros Q; specialize (NA Q); tauto).
      destruct n; [|apply G]. destruct (kw_ok c k0); [apply G|reflexivity].
  - apply unset_err in U as (Q1 & Q2 & _). destruct (NA Q1). left. exact Q2.
Qed.
Lemma unknown_keyword E now c header sig s kw a k v : load_attrs FUEL c s = Ok a -> In (k, v) kw ->
  ~ In k (slot_names c) -> ~ In k (property_names c) -> ~ In k (class_names c) -> (c = MHello -> k <> "_version"%string) ->
  (c = MTaskToCompute -> ~ In "requestor_ethereum_address"%string (map fst kw)) ->
  msg_init E now c header sig s kw = Err EAttributeError.
Proof.
  intros Ha I N1 N2 N3 N4 NA. unfold msg_init. rewrite Ha. cbn [bind]. rewrite (unknown_fails (cr E) c kw NA a k v I N1 N2 N3 N4). reflexivity.
Qed.
Lemma kwargs_err C c kw : forall a e, apply_kwargs C c kw a = Err e ->
  e = EAttributeError \/ (c = MTaskToCompute /\ In "requestor_ethereum_address"%string (map fst kw) /\ (e = ETypeError \/ e = EValueError)).
Proof.
  induction kw as [|[k v] kw IH]; intros a e H; [discriminate|]. cbn [apply_kwargs map fst In] in *.
  assert (G : forall a, apply_kwargs C c kw a = Err e -> e = EAttributeError \/ (c = MTaskToCompute /\ (k = "requestor_ethereum_address"%string \/ In "requestor_ethereum_address"%string (map fst kw)) /\ (e = ETypeError \/ e = EValueError))).
  { intros a' H'. apply IH in H' as [X|(X & Y & Z)]; [left; exact X|right; tauto]. }
  destruct (unset C c a k) as [n|e'] eqn:U.
  - cbn [bind] in H. destruct n; [|exact (G _ H)]. destruct (kw_ok c k); [exact (G _ H)|]. left. congruence.
  - cbn [bind] in H. assert (e' = e) by congruence. subst e'. apply unset_err in U as (Q1 & Q2 & U). apply address_err in U as [X|X]; [left; exact X|right; tauto].
Qed.
Lemma keyword_errors E now c header sig kw e : msg_init E now c header sig VNone kw = Err e ->
  e = EAttributeError \/ (c = MTaskToCompute /\ In "requestor_ethereum_address"%string (map fst kw) /\ (e = ETypeError \/ e = EValueError)).
Proof.
  unfold msg_init. intros H. destruct (load_attrs FUEL c VNone) as [a|e'] eqn:Ha.
  - cbn [bind] in H. destruct (apply_kwargs (cr E) c kw a) as [a1|e'] eqn:K.
    + cbn [bind] in H. destruct header as [[[? ?] ?]|]; discriminate.
    + cbn [bind] in H. assert (e' = e) by congruence. subst e'. exact (kwargs_err _ _ _ _ _ K).
  - exfalso. revert Ha. clear. destruct c; vm_compute; discriminate.
Qed.

(** ** Order *)
Lemma attr_set_comm (a : attrs_t) k1 v1 k2 v2 : k1 <> k2 -> (In k1 (map fst a) \/ In k2 (map fst a)) ->
  attr_set k1 v1 (attr_set k2 v2 a) = attr_set k2 v2 (attr_set k1 v1 a).
Proof.
  intros N. induction a as [|[k w] a IH]; intros I; [destruct I as [[]|[]]|]. cbn [map fst In] in I. cbn [attr_set].
  destruct (String.eqb_spec k k2) as [E2|N2]; destruct (String.eqb_spec k k1) as [E1|N1]; try congruence; cbn [attr_set];
    repeat match goal with |- context [String.eqb ?x ?y] => destruct (String.eqb_spec x y); try congruence end.
  f_equal. apply IH. destruct I as [[I|I]|[I|I]]; try congruence; tauto.
Qed.
Lemma attr_set_has (a : attrs_t) k v x : In x (map fst a) -> In x (map fst (attr_set k v a)).
Proof.
  induction a as [|[k0 w] a IH]; intros I; [destruct I|]. cbn [attr_set]. cbn [map fst In] in I.
  destruct (String.eqb_spec k0 k) as [->|]; cbn [map fst In]; [tauto|]. destruct I as [I|I]; [tauto|]. right. apply IH. exact I.
Qed.
Lemma kw_one C c k v a : kw_ok c k = true -> apply_kwargs C c [(k, v)] a = Ok (if is_none (attr_get_or_none k a) then attr_set k v a else a).
Proof. intros K. cbn [apply_kwargs]. rewrite (unset_slot _ _ _ _ K). cbn [bind]. rewrite K. destruct (is_none _); reflexivity. Qed.
Lemma kwargs_perm C c kw kw' : Permutation kw kw' -> NoDup (map fst kw) -> (forall k v, In (k, v) kw -> kw_ok c k = true) ->
  forall a, (forall k, In k (slot_names c) -> In k (map fst a)) -> apply_kwargs C c kw a = apply_kwargs C c kw' a.
Proof.
  induction 1 as [|x l l' P IH|x y l|l1 l2 l3 P1 IH1 P2 IH2]; intros ND K a Ha; [|destruct x as [k v]|destruct x as [k1 v1], y as [k2 v2]|].
  - reflexivity.
  - cbn [map fst] in ND. apply NoDup_cons_iff in ND as [_ ND]. cbn [apply_kwargs]. rewrite (unset_slot _ _ _ _ (K k v (or_introl eq_refl))). cbn [bind].
    rewrite (K k v (or_introl eq_refl)). assert (K' : forall k v, In (k, v) l -> kw_ok c k = true) by (intros k0 v0 I; exact (K k0 v0 (or_intror I))).
    destruct (is_none _); apply IH; auto. intros x Hx. apply attr_set_has. auto.
  - change ((k2, v2) :: (k1, v1) :: l) with ([(k2, v2); (k1, v1)] ++ l). change ((k1, v1) :: (k2, v2) :: l) with ([(k1, v1); (k2, v2)] ++ l).
    rewrite !apply_kwargs_app. f_equal. change [(k2, v2); (k1, v1)] with ([(k2, v2)] ++ [(k1, v1)]). change [(k1, v1); (k2, v2)] with ([(k1, v1)] ++ [(k2, v2)]).
    rewrite !apply_kwargs_app.
    assert (O1 : kw_ok c k1 = true) by (apply (K k1 v1); right; left; reflexivity). assert (O2 : kw_ok c k2 = true) by (apply (K k2 v2); left; reflexivity).
    rewrite !kw_one by assumption. cbn [bind]. rewrite !kw_one by assumption.
    assert (N : k1 <> k2). { cbn [map fst] in ND. apply NoDup_cons_iff in ND as [ND _]. cbn [In] in ND. intros ->. tauto. }
    assert (G : forall k k' w x, k <> k' -> attr_get_or_none k (attr_set k' w x) = attr_get_or_none k x).
    { intros k k' w x Hn. unfold attr_get_or_none. rewrite attr_get_set_other by exact Hn. reflexivity. }
    assert (A : In k1 (map fst a) \/ In k2 (map fst a)).
    { unfold kw_ok in O1, O2. apply orb_prop in O1 as [O1|O1]; [left; apply Ha, existsb_In; exact O1|].
      apply orb_prop in O2 as [O2|O2]; [right; apply Ha, existsb_In; exact O2|]. apply andb_prop in O1 as [_ O1]. apply andb_prop in O2 as [_ O2].
      apply String.eqb_eq in O1, O2. congruence. }
    destruct (is_none (attr_get_or_none k1 a)) eqn:Q1; destruct (is_none (attr_get_or_none k2 a)) eqn:Q2; rewrite ?G by congruence; rewrite ?Q1, ?Q2; try reflexivity.
    f_equal. apply attr_set_comm; assumption.
  - rewrite IH1 by assumption. apply IH2; [| |exact Ha].
    + apply (Permutation_NoDup (l := map fst l1)); [apply Permutation_map; exact P1|exact ND].
    + intros k v I. apply (K k v). apply (Permutation_in _ (Permutation_sym P1)). exact I.
Qed.
Lemma keyword_order E now c header sig s kw kw' : Permutation kw kw' -> NoDup (map fst kw) -> (forall k, In k (map fst kw) -> In k (slot_names c)) ->
  msg_init E now c header sig s kw = msg_init E now c header sig s kw'.
Proof.
  intros P ND K. unfold msg_init. destruct (load_attrs FUEL c s) as [a|e] eqn:Ha; [|reflexivity]. cbn [bind].
  rewrite (kwargs_perm (cr E) c kw kw' P ND); [reflexivity| |].
  - intros k v I. apply slot_kw, K. exact (in_map fst _ _ I).
  - intros k I. rewrite (load_attrs_keys _ _ _ _ Ha). exact I.
Qed.
