(** * Proofs about [FaultFacts]: every container and dict blames what it says *)
From Verif Require Export FaultFacts.

Lemma slot_read c F k v w : exact_field c F -> In k (cslots c) -> pure v = true -> v <> VNone \/ crequired c k = true ->
  (cdeser_slot (chook c) c k v = Ok w <-> F k v w).
Proof.
  intros HF Ik P X. rewrite cdeser_slot_ok, (proj1 (HF k Ik) v w P X). split; [|auto]. intros [(-> & R & _)|H]; [destruct X; congruence|tauto].
Qed.
Lemma slot_steps c k v : v <> VNone \/ crequired c k = true ->
  cdeser_slot (chook c) c k v = do _ <- run_validators (cvalidators c k) (u k) v; match chook c k with None => Ok v | Some h => h v end.
Proof.
  intros X. unfold cdeser_slot. assert (E : is_none v && negb (crequired c k) = false).
  { destruct X as [X| ->]; [|apply andb_false_r]. destruct v; try reflexivity. congruence. }
  rewrite E. destruct (run_validators _ _ _); cbn [bind]; [|reflexivity]. destruct (chook c k) as [h|] eqn:Hh; [|reflexivity].
  pose proof (chook_no_attr _ _ _ v Hh) as N. destruct (h v) as [|[]]; congruence.
Qed.
Lemma own_slot c F k v o : exact_field c F -> In k (cslots c) -> pure v = true -> v <> VNone \/ crequired c k = true ->
  (forall h e, chook c k = Some h -> h v = Err e -> e = EFieldError (u k)) ->
  (failing (cdeser_slot (chook c) c k v) o <-> own F k v o).
Proof.
  intros HF Ik P X Hh. unfold own. split.
  - intros (e & H & <-). split; [intros w W; apply (slot_read c F k v w HF Ik P X) in W; congruence|].
    rewrite slot_steps in H by exact X. destruct (run_validators_ofe _ (u k) v (cvalidators_ofe c k)) as [V|V]; rewrite V in H; cbn [bind] in H.
    + destruct (chook c k) as [h|] eqn:Ch; [|discriminate H]. rewrite (Hh h e eq_refl H). reflexivity.
    + assert (e = EFieldError (u k)) as -> by congruence. reflexivity.
  - intros [N ->]. destruct (cdeser_slot (chook c) c k v) as [w|e] eqn:D; [exfalso; apply (N w), (slot_read c F k v w HF Ik P X), D|].
    exists e. split; [reflexivity|]. rewrite slot_steps in D by exact X. destruct (run_validators_ofe _ (u k) v (cvalidators_ofe c k)) as [V|V]; rewrite V in D; cbn [bind] in D.
    + destruct (chook c k) as [h|] eqn:Ch; [|discriminate D]. rewrite (Hh h e eq_refl D). reflexivity.
    + assert (e = EFieldError (u k)) as -> by congruence. reflexivity.
Qed.
Lemma own_exact c F : exact_field c F -> (forall k, chook c k = None) -> exact_fault c (own F).
Proof. intros HF N k v o Ik P X. apply own_slot; auto. intros h e H. rewrite N in H. discriminate H. Qed.
Lemma node_fault v o : pure v = true -> (failing (cnew_star CNode v) o <-> no_node v o).
Proof. apply unbuilt_iff; [exact node_exact|]. apply own_exact; [exact node_exact|reflexivity]. Qed.
Lemma a_dict_dec v : a_dict v \/ ~ a_dict v.
Proof. destruct v; try (right; intros [x H]; discriminate H). destruct c; [left; eexists; reflexivity|..]; right; intros [x H]; discriminate H. Qed.
Lemma header_faults : exact_fault CTaskHeader header_fault.
Proof.
  intros k v o Ik P X. destruct (String.string_dec k "task_owner") as [->|Nk].
  - rewrite slot_steps by exact X. change (cvalidators CTaskHeader "task_owner") with [vcheck (is_dict_or CNode)].
    change (chook CTaskHeader "task_owner") with (Some (fun v => match v with VObj CNode _ => Ok v | _ => do kw <- star_star v; node_new kw end)).
    cbn [run_validators]. destruct (a_dict_dec v) as [[kvs ->]|N].
    + cbn [bind]. unfold vcheck, is_dict_or, fail_unless. cbn [bind]. transitivity (no_node (VDict DPlain kvs) o); [exact (node_fault _ o P)|]. split.
      * intros H. apply HX_owner; [eexists; reflexivity|exact H].
      * intros H. inversion H; subst; [congruence| |assumption]. exfalso. match goal with N : ~ a_dict _ |- _ => apply N; eexists; reflexivity end.
    + assert (B : is_dict_or CNode v = false) by (destruct (is_dict_or CNode v) eqn:B; [exfalso; apply N, (isdictor_iff CNode v P), B|reflexivity]).
      unfold vcheck. rewrite B. unfold fail_unless. cbn [bind]. rewrite failing_err. cbn [field_of]. split.
      * intros <-. apply HX_no_dict. exact N.
      * intros H. inversion H; subst; [congruence|reflexivity|contradiction].
  - rewrite (own_slot CTaskHeader header_field k v o header_exact Ik P X).
    + unfold own. split.
      * intros [N ->]. apply HX_own; assumption.
      * intros H. inversion H; subst; try congruence. auto.
    + intros h e Hh He. each_slot Ik; try discriminate Hh; try congruence; cbn [chook header_hook String.eqb Ascii.eqb Bool.eqb] in Hh; apply Some_inj in Hh; subst h.
      * destruct v; discriminate He.
      * destruct (enum_call EnMarketType v); congruence.
Qed.
Lemma header_faulty v o : pure v = true -> (failing (cnew_star CTaskHeader v) o <-> no_header v o).
Proof. apply unbuilt_iff; [exact header_exact|exact header_faults]. Qed.

(** ** Frozen dicts *)
Lemma items_known d k : plainkey k = true -> (existsb (fun it => py_eq (skey (fst it)) k) (items d) = true <-> exists s, In s (documented_keys d) /\ k = skey s).
Proof.
  intros P. rewrite existsb_exists, documented_items. split.
  - intros ([s w] & Hi & E). cbn [fst] in E. exists s. split; [exact (in_map fst _ _ Hi)|apply (pure_key s k P E)].
  - intros (s & Hs & ->). apply in_map_iff in Hs as ([s' w] & Q & Hi). cbn [fst] in Q. subst s'. exists (s, w). split; [exact Hi|]. cbn [fst]. unfold skey. rewrite py_eq_str. apply ustr_eqb_refl.
Qed.

Lemma unknown_validator d s : (forall n, In n (documented_keys d) -> s <> u n) -> dvalidator d s = None.
Proof.
  intros N. assert (X : forall n, In n (documented_keys d) -> ustr_eqb s (u n) = false).
  { intros n Hn. destruct (ustr_eqb s (u n)) eqn:Q; [|reflexivity]. apply ustr_eqb_eq in Q. exfalso. exact (N n Hn Q). }
  destruct d; cbn [dvalidator documented_keys] in *; rewrite ?X by (cbn; tauto); reflexivity.
Qed.
Lemma unknown_fails d kvs k v o : d <> DPlain -> plainkey k = true -> (forall s, In s (documented_keys d) -> k <> skey s) -> (failing (dset d kvs k v) o <-> o = None).
Proof.
  intros Nd P N. assert (E : existsb (fun it => py_eq (skey (fst it)) k) (items d) = false).
  { destruct (existsb _ (items d)) eqn:E; [|reflexivity]. apply (items_known d k P) in E as (s & Hs & ->). exfalso. exact (N s Hs eq_refl). }
  assert (V : match str_of k with Some s => match dvalidator d s with Some f => f v | None => Ok tt end | None => Ok tt end = Ok tt).
  { destruct (str_of k) as [s|] eqn:S; [|reflexivity]. rewrite unknown_validator; [reflexivity|]. intros n Hn ->. apply (N n Hn). apply pure_text; assumption. }
  assert (H : dset d kvs k v = do _ <- (match str_of k with Some s => match dvalidator d s with Some f => f v | None => Ok tt end | None => Ok tt end);
    if negb (hashable k) then Err ETypeError else if existsb (fun it => py_eq (skey (fst it)) k) (items d) then Ok (dict_set k v kvs) else Err EKeyError).
  { unfold dset. destruct d; try congruence; try reflexivity. assert (Q : py_eq k (skey "node") = false).
    { destruct (py_eq k (skey "node")) eqn:Q; [|reflexivity]. apply pure_key_r in Q; [|exact P]. exfalso. apply (N "node"%string); [cbn; tauto|exact Q]. }
    rewrite Q. destruct v; reflexivity. }
  rewrite H, V, E. cbn [bind]. destruct (negb (hashable k)); rewrite failing_err; cbn [field_of]; split; auto.
Qed.
(** keys that are documented but not validated store anything *)
Lemma unvalidated d kvs s v : d <> DPlain -> In s (documented_keys d) -> ~ In s (validated d) -> dset d kvs (skey s) v = Ok (dict_set (skey s) v kvs).
Proof.
  intros Nd Hs Nv. destruct d; try congruence; cbn [documented_keys validated In] in Hs, Nv; repeat (destruct Hs as [<-|Hs]; [try (exfalso; tauto); try reflexivity|]); contradiction.
Qed.
Lemma validated_keys d s : In s (validated d) -> In s (documented_keys d) /\ d <> DPlain.
Proof. intros H. destruct d; cbn [validated documented_keys In] in *; intuition (subst; auto; discriminate). Qed.
Lemma skey_inj a b : skey a = skey b -> a = b.
Proof. unfold skey. intros H. apply u_inj. congruence. Qed.
(** given how a key that is validated refuses, all of [item_fault] *)
Lemma item_fault_iff d kvs k v o : d <> DPlain -> pure k = true ->
  (forall s, k = skey s -> In s (documented_keys d) -> ~ In s (validated d) -> exists w, item_as d s v w) ->
  (forall s, k = skey s -> In s (validated d) -> (failing (dset d kvs k v) o <->
     ((forall w, ~ item_as d s v w) /\ (d = DPeer -> s = "node"%string -> ~ a_dict v) /\ o = Some (u s)) \/ (d = DPeer /\ s = "node"%string /\ a_dict v /\ no_node v o))) ->
  (failing (dset d kvs k v) o <-> item_fault d k v o).
Proof.
  intros Nd P Hu Hv. destruct (existsb (fun it => py_eq (skey (fst it)) k) (items d)) eqn:E.
  - apply (items_known d k (pure_plainkey k P)) in E as (s & Hs & ->). destruct (in_dec String.string_dec s (validated d)) as [V|V].
    + rewrite (Hv s eq_refl V). split.
      * intros [(N & A & ->)|(-> & -> & A & B)]; [apply IX_own; assumption|apply IX_node; auto].
      * intros H. inversion H as [k0 v0 I0 N A Q|v0 o0 Q0 A B Q|k0 v0 N]; subst.
        -- apply u_inj in Q. subst k0. left. auto.
        -- change (u "node" = u s) in Q. apply u_inj in Q. subst s. right. auto.
        -- exfalso. exact (N s Hs eq_refl).
    + rewrite (unvalidated d kvs s v Nd Hs V). split; [intros H; destruct (failing_ok _ _ H)|].
      intros H. exfalso. inversion H as [k0 v0 I0 N A Q|v0 o0 Q0 A B Q|k0 v0 N]; subst.
      -- apply u_inj in Q. subst k0. contradiction.
      -- change (u "node" = u s) in Q. apply u_inj in Q. subst s. apply V. cbn. tauto.
      -- exact (N s Hs eq_refl).
  - assert (N : forall s, In s (documented_keys d) -> k <> skey s).
    { intros s Hs ->. assert (X : existsb (fun it => py_eq (skey (fst it)) (skey s)) (items d) = true) by (apply items_known; [reflexivity|eauto]). congruence. }
    rewrite (unknown_fails d kvs k v o Nd (pure_plainkey k P) N). split; [intros ->; apply IX_unknown, N|].
    intros H. inversion H as [k0 v0 I0 N0 A Q|v0 o0 Q0 A B Q|k0 v0 N0]; subst; [| |reflexivity]; exfalso.
    + apply (N k0); [apply validated_keys, I0|reflexivity].
    + apply (N "node"%string); [cbn; tauto|reflexivity].
Qed.
Lemma dset_fault d kvs k v o : loadable d -> pure k = true -> pure v = true -> (failing (dset d kvs k v) o <-> item_fault d k v o).
Proof.
  intros Hd Pk Pv. assert (Nd : d <> DPlain) by (destruct Hd as [->|[->|[->| ->]]]; discriminate). apply item_fault_iff; [exact Nd|exact Pk| |].
  - intros s -> Hs V. destruct (proj1 (dset_step_exact d (skey s) v Hd Pk Pv kvs (dict_set (skey s) v kvs)) (unvalidated d kvs s v Nd Hs V)) as ([k' w] & (s' & E1 & E2 & I) & _).
    cbn [fst snd] in E1, I. apply skey_inj in E1. subst s'. eauto.
  - intros s -> V. assert (R : (exists r, dset d kvs (skey s) v = Ok r) <-> exists w, item_as d s v w).
    { split.
      - intros [r H]. apply (dset_step_exact d (skey s) v Hd Pk Pv) in H as ([k' w] & (s' & E1 & E2 & I) & _). cbn [fst snd] in E1, I. apply skey_inj in E1. subst s'. eauto.
      - intros [w I]. exists (dict_set (skey s) w kvs). apply (dset_step_exact d (skey s) v Hd Pk Pv). exists (skey s, w). split; [apply taken_as, I|reflexivity]. }
    assert (G : (forall e, dset d kvs (skey s) v = Err e -> e = EFieldError (u s)) ->
      (failing (dset d kvs (skey s) v) o <-> (forall w, ~ item_as d s v w) /\ o = Some (u s))).
    { intros He. split.
      - intros (e & H & <-). rewrite (He e H). split; [|reflexivity]. intros w I. destruct (proj2 R (ex_intro _ w I)) as [r Hr]. congruence.
      - intros [N ->]. destruct (dset d kvs (skey s) v) as [r|e] eqn:D; [exfalso; destruct (proj1 R (ex_intro _ r eq_refl)) as [w I]; exact (N w I)|].
        exists e. split; [reflexivity|]. rewrite (He e eq_refl). reflexivity. }
    destruct validators_total as (V1 & _ & _ & V4 & V5 & _).
    assert (C : forall f, only_field_error f -> (dset d kvs (skey s) v = do _ <- f (u s) v; Ok (dict_set (skey s) v kvs)) -> forall e, dset d kvs (skey s) v = Err e -> e = EFieldError (u s)).
    { intros f Hf Q e. rewrite Q. destruct (Hf (u s) v) as [X|X]; rewrite X; cbn [bind]; [discriminate|congruence]. }
    destruct Hd as [->|[->|[->| ->]]]; cbn [validated In] in V; try contradiction.
    + rewrite G; [|apply (C (validate_varchar 128) (V1 128)); destruct V as [<-|[<-|[]]]; reflexivity]. split; [|intros [(N & _ & ->)|(Q & _)]; [auto|discriminate Q]].
      intros [N ->]. left. split; [exact N|]. split; [discriminate|reflexivity].
    + destruct V as [<-|[<-|[<-|[]]]].
      * rewrite G; [|apply (C validate_ipaddress V5); unfold dset; change (py_eq (skey "address") (skey "node")) with false; destruct v; reflexivity].
        split; [|intros [(N & _ & ->)|(_ & Q & _)]; [auto|discriminate Q]]. intros [N ->]. left. split; [exact N|]. split; [discriminate|reflexivity].
      * rewrite G; [|apply (C validate_port V4); unfold dset; change (py_eq (skey "port") (skey "node")) with false; destruct v; reflexivity].
        split; [|intros [(N & _ & ->)|(_ & Q & _)]; [auto|discriminate Q]]. intros [N ->]. left. split; [exact N|]. split; [discriminate|reflexivity].
      * destruct (a_dict_dec v) as [[nk ->]|N].
        -- assert (Q : failing (dset DPeer kvs (skey "node") (VDict DPlain nk)) o <-> no_node (VDict DPlain nk) o).
           { rewrite <- (node_fault _ o Pv). unfold dset, cnew_star, cnew. change (py_eq (skey "node") (skey "node")) with true. cbv iota. cbn [star_star].
             change (chook CNode) with (fun _ : string => @None (pyval -> result pyval)). fold node_new. set (r := do kw <- kwargs_of nk; node_new kw). 
             rewrite failing_bind. split; [|auto]. intros [H|(x & Hx & H)]; [exact H|]. exfalso.
             assert (Qx : exists a, x = VObj CNode a).
             { unfold r in Hx. apply bind_ok in Hx as (kw & _ & Hx). unfold node_new, cinit in Hx. destruct (cload_slots _ _ kw) as [a|e]; [apply Ok_inj in Hx; eauto|]. destruct (is_field_error e); discriminate Hx. }
             destruct Qx as [a ->]. exact (failing_ok _ _ H). }
           rewrite Q. split; [intros H; right; split; [reflexivity|]; split; [reflexivity|]; split; [eexists; reflexivity|exact H]|].
           intros [(_ & A & _)|(_ & _ & _ & H)]; [exfalso; apply (A eq_refl eq_refl); eexists; reflexivity|exact H].
        -- rewrite G.
           ++ split; [|intros [(M & _ & ->)|(_ & _ & A & _)]; [auto|contradiction]]. intros [M ->]. left. auto.
           ++ intros e. unfold dset. destruct v; try (cbn; congruence); try discriminate Pv. exfalso. apply N. destruct c; try discriminate Pv. eexists. reflexivity.
Qed.
Definition step_fault (d : dcls) (X : pyval -> pyval -> option ustr -> Prop) (k v : pyval) : Prop := forall kvs o, failing (dset d kvs k v) o <-> X k v o.
Lemma all_failing d T X l o : (forall k v, In (k, v) l -> step_exact d T k v /\ step_fault d X k v) -> forall acc,
  failing (dset_all d acc l) o <-> exists l1 l1' k v l2, l = l1 ++ (k, v) :: l2 /\ Forall2 T l1 l1' /\ X k v o.
Proof.
  induction l as [|[k v] l IH]; intros H acc; cbn [dset_all].
  - split; [intros Q; destruct (failing_ok _ _ Q)|]. intros ([|? ?] & ? & ? & ? & ? & Q & _); discriminate Q.
  - destruct (H k v (or_introl eq_refl)) as [S X0]. assert (H' : forall k v, In (k, v) l -> step_exact d T k v /\ step_fault d X k v) by (intros; apply H; right; assumption).
    rewrite failing_bind, (X0 acc o). split.
    + intros [Q|(acc1 & Q1 & Q)]; [exists [], [], k, v, l; auto|]. apply (S acc acc1) in Q1 as (kv & Tk & _). apply (IH H' acc1) in Q as (l1 & l1' & k1 & v1 & l2 & -> & F & Q).
      exists ((k, v) :: l1), (kv :: l1'), k1, v1, l2. split; [reflexivity|]. split; [constructor; assumption|exact Q].
    + intros (l1 & l1' & k1 & v1 & l2 & E & F & Q). destruct l1 as [|[k0 v0] l1]; cbn [app] in E.
      * left. assert (k1 = k /\ v1 = v) as [-> ->] by (split; congruence). exact Q.
      * right. assert (k0 = k /\ v0 = v /\ l = l1 ++ (k1, v1) :: l2) as (-> & -> & ->) by (repeat split; congruence). inversion F as [|x kv xs l1'' Tk F1]; subst.
        exists (dict_set (fst kv) (snd kv) acc). split; [apply (S acc); eauto|]. apply (IH H'). exists l1, l1'', k1, v1, l2. auto.
Qed.
Lemma iter_failing d T X xs o : (forall x k v, In x xs -> py_iter x = Some [k; v] -> step_exact d T k v /\ step_fault d X k v) -> forall acc,
  failing (dset_iter d acc xs) o <->
  exists xs1 x xs2 l1 l1', xs = xs1 ++ x :: xs2 /\ Forall2 is_pair xs1 l1 /\ Forall2 T l1 l1' /\
    ((exists k v, py_iter x = Some [k; v] /\ X k v o) \/ ((forall k v, py_iter x <> Some [k; v]) /\ o = None)).
Proof.
  induction xs as [|x xs IH]; intros H acc; cbn [dset_iter].
  - split; [intros Q; destruct (failing_ok _ _ Q)|]. intros ([|? ?] & ? & ? & ? & ? & Q & _); discriminate Q.
  - assert (H' : forall x k v, In x xs -> py_iter x = Some [k; v] -> step_exact d T k v /\ step_fault d X k v) by (intros; eapply H; [right; eassumption|eassumption]).
    destruct (py_iter x) as [l|] eqn:I.
    2:{ rewrite failing_err. cbn [field_of]. split.
        - intros <-. exists [], x, xs, [], []. split; [reflexivity|]. split; [constructor|]. split; [constructor|]. right. split; [intros; congruence|reflexivity].
        - intros ([|y xs1] & x' & xs2 & l1 & l1' & E & F & _ & Q); cbn [app] in E.
          + assert (x' = x) by congruence. subst x'. destruct Q as [(k & v & Q & _)|[_ ->]]; [congruence|reflexivity].
          + assert (y = x) by congruence. subst y. inversion F; subst. unfold is_pair in *. congruence. }
    destruct (list_eq_dec Nat.eq_dec [List.length l] [2%nat]) as [L|L].
    + destruct l as [|k [|v [|? ?]]]; try discriminate L. destruct (H x k v (or_introl eq_refl) I) as [S X0]. rewrite failing_bind, (X0 acc o). split.
      * intros [Q|(acc1 & Q1 & Q)].
        -- exists [], x, xs, [], []. split; [reflexivity|]. split; [constructor|]. split; [constructor|]. left. eauto.
        -- apply (S acc acc1) in Q1 as (kv & Tk & _). apply (IH H' acc1) in Q as (xs1 & x' & xs2 & l1 & l1' & -> & F1 & F2 & Q).
           exists (x :: xs1), x', xs2, ((k, v) :: l1), (kv :: l1'). split; [reflexivity|]. split; [constructor; [exact I|exact F1]|]. split; [constructor; assumption|exact Q].
      * intros ([|y xs1] & x' & xs2 & l1 & l1' & E & F1 & F2 & Q); cbn [app] in E.
        -- assert (x' = x) by congruence. subst x'. left. destruct Q as [(k1 & v1 & Q & Q')|[Q _]]; [|exfalso; exact (Q k v I)]. assert (k1 = k /\ v1 = v) as [-> ->] by (split; congruence). exact Q'.
        -- assert (y = x /\ xs = xs1 ++ x' :: xs2) as [-> ->] by (split; congruence). inversion F1 as [|? [k1 v1] ? l2 P1 F1']; subst. unfold is_pair in P1. cbn [fst snd] in P1.
           assert (k1 = k /\ v1 = v) as [-> ->] by (split; congruence). inversion F2 as [|? kv ? l2' Tk F2']; subst. right. exists (dict_set (fst kv) (snd kv) acc). split; [apply (S acc); eauto|].
           apply (IH H'). exists xs1, x', xs2, l2, l2'. auto.
    + assert (Np : forall k v, py_iter x <> Some [k; v]) by (intros k v Q; rewrite I in Q; apply L; assert (l = [k; v]) as -> by congruence; reflexivity).
      assert (E : (match l with [k; v] => do kvs' <- dset d acc k v; dset_iter d kvs' xs | _ => Err EValueError end) = Err EValueError).
      { destruct l as [|k [|v [|? ?]]]; try reflexivity. exfalso. apply L. reflexivity. }
      assert (E' : (match Some l with Some [k; v] => do kvs' <- dset d acc k v; dset_iter d kvs' xs | Some _ => Err EValueError | None => Err ETypeError end) = Err EValueError) by exact E.
      rewrite E. rewrite failing_err. cbn [field_of]. rewrite <- I in *. split.
      * intros <-. exists [], x, xs, [], []. split; [reflexivity|]. split; [constructor|]. split; [constructor|]. right. split; [exact Np|reflexivity].
      * intros ([|y xs1] & x' & xs2 & l1 & l1' & Ex & F1 & F2 & Q); cbn [app] in Ex.
        -- assert (x' = x) by congruence. subst x'. destruct Q as [(k1 & v1 & Q & Q')|[_ ->]]; [|reflexivity]. exfalso. exact (Np _ _ Q).
        -- assert (y = x) by congruence. subst y. inversion F1 as [|? [k1 v1] ? l2 P1 F1']; subst. exfalso. exact (Np _ _ P1).
Qed.
(** ** Defaults *)
Lemma peer_none_name k kvs : In k ["address"; "port"; "node"]%string -> dset DPeer kvs (skey k) VNone = Err (EFieldError (u k)).
Proof. intros [<-|[<-|[<-|[]]]]; reflexivity. Qed.
Lemma defaults_failing its : incl (map fst its) ["address"; "port"; "node"]%string -> (forall k w, In (k, w) its -> w = VNone) -> forall acc o,
  failing (dset_defaults DPeer acc its) o <->
  exists pre k post, map fst its = pre ++ k :: post /\ (forall k', In k' pre -> absent acc k' = false) /\ absent acc k = true /\ o = Some (u k).
Proof.
  induction its as [|[k w] its IH]; intros I D acc o; cbn [dset_defaults map fst].
  - split; [intros Q; destruct (failing_ok _ _ Q)|]. intros ([|? ?] & ? & ? & Q & _); discriminate Q.
  - assert (I' : incl (map fst its) ["address"; "port"; "node"]%string) by (intros x Hx; apply I; right; exact Hx).
    assert (D' : forall k w, In (k, w) its -> w = VNone) by (intros k0 w0 H0; apply (D k0 w0); right; exact H0).
    assert (A : absent acc k = match dict_get (skey k) acc with Some _ => false | None => true end) by reflexivity.
    destruct (dict_get (skey k) acc) eqn:G.
    + rewrite (IH I' D'). split.
      * intros (pre & k1 & post & -> & H1 & H2). exists (k :: pre), k1, post. split; [reflexivity|]. split; [intros k' [<-|Hk]; auto|exact H2].
      * intros ([|k0 pre] & k1 & post & E & H1 & H2 & H3); cbn [app] in E; [exfalso; congruence|]. exists pre, k1, post. split; [congruence|]. split; [intros; apply H1; right; assumption|auto].
    + rewrite (D k w (or_introl eq_refl)), (peer_none_name k acc (I k (or_introl eq_refl))). cbn [bind]. rewrite failing_err. cbn [field_of]. split.
      * intros <-. exists [], k, (map fst its). split; [reflexivity|]. split; [intros k' []|auto].
      * intros ([|k0 pre] & k1 & post & E & H1 & H2 & ->); cbn [app] in E; [congruence|]. exfalso. assert (k0 = k) by congruence. subst k0. rewrite (H1 k (or_introl eq_refl)) in A. discriminate A.
Qed.
Lemma skey_eq a b : py_eq (skey a) (skey b) = true <-> a = b.
Proof. unfold skey. rewrite py_eq_str. split; [intros H; apply u_inj, ustr_eqb_eq, H|intros ->; apply ustr_eqb_refl]. Qed.
Lemma absent_set s w acc k : absent (dict_set (skey s) w acc) k = absent acc k && negb (s =? k)%string.
Proof.
  unfold absent. induction acc as [|[k0 v0] acc IH]; cbn [dict_set dict_get].
  - destruct (py_eq (skey s) (skey k)) eqn:Q; destruct (s =? k)%string eqn:Q'; try reflexivity.
    + apply skey_eq in Q. apply String.eqb_neq in Q'. contradiction.
    + apply String.eqb_eq in Q'. apply skey_eq in Q'. congruence.
  - destruct (py_eq k0 (skey s)) eqn:Q0; cbn [dict_get].
    + destruct (py_eq k0 (skey k)) eqn:Q1; [reflexivity|]. destruct (s =? k)%string eqn:Q'; [|rewrite andb_true_r; reflexivity]. exfalso.
      apply String.eqb_eq in Q'. subst. congruence.
    + destruct (py_eq k0 (skey k)); [reflexivity|exact IH].
Qed.
Lemma absent_assigned d l l' k : Forall2 (taken d) l l' -> absent (assigned l') k = true <-> forall w, ~ In (skey k, w) l'.
Proof.
  intros F. assert (G : forall acc, absent (fold_left put l' acc) k = true <-> absent acc k = true /\ forall w, ~ In (skey k, w) l').
  { induction F as [|kv [k1 w1] l l' (s & E1 & E2 & I) F IH]; intros acc; cbn [fold_left].
    - split; [auto|tauto].
    - rewrite IH. cbn [fst] in E2. subst k1. unfold put. cbn [fst snd]. rewrite absent_set, andb_true_iff, negb_true_iff. split.
      + intros [[A1 A2] A3]. split; [exact A1|]. intros w [Q|Q]; [|exact (A3 w Q)]. apply String.eqb_neq in A2. apply A2. apply skey_inj. congruence.
      + intros [A1 A2]. split; [split; [exact A1|]|intros w Q; apply (A2 w); right; exact Q]. apply String.eqb_neq. intros ->. apply (A2 w1). left. reflexivity. }
  rewrite <- fold_assigned, (G []). split; [tauto|]. split; [reflexivity|assumption].
Qed.
Lemma present_assigned d l l' k : Forall2 (taken d) l l' -> absent (assigned l') k = false <-> exists w, In (skey k, w) l'.
Proof.
  intros F. pose proof (absent_assigned d l l' k F) as A. split.
  - intros H. assert (X : In (skey k) (map fst l') \/ ~ In (skey k) (map fst l')).
    { clear A H. induction F as [|kv [k1 w1] l l' (s & _ & E2 & _) F IH]; cbn [map fst]; [right; intros []|]. cbn [fst] in E2. subst k1. destruct IH as [IH|IH]; [left; right; exact IH|].
      destruct (String.string_dec s k) as [->|N]; [left; left; reflexivity|]. right. intros [Q|Q]; [apply N, skey_inj, Q|exact (IH Q)]. }
    destruct X as [X|X]; [apply in_map_iff in X as ([k1 w] & Q & Hi); cbn [fst] in Q; subst k1; eauto|]. exfalso.
    assert (absent (assigned l') k = true); [|congruence]. apply A. intros w Hi. apply X. apply in_map_iff. exists (skey k, w). auto.
  - intros [w Hi]. destruct (absent (assigned l') k) eqn:Q; [|reflexivity]. exfalso. exact (proj1 A eq_refl w Hi).
Qed.
Lemma dict_failing d v o : (forall kvs d', v = VDict d' kvs -> d' = DPlain) -> pure v = true -> d <> DPlain ->
  (forall k w, pure k = true -> pure w = true -> step_exact d (taken d) k w /\ step_fault d (item_fault d) k w) ->
  (failing (dict_new d v) o <-> unfrozen d v o).
Proof.
  intros Hv P Nd S. unfold dict_new. rewrite failing_bind.
  assert (Fi : forall r, (match v with VDict _ l => dset_all d [] l | _ => match py_iter v with Some l => dset_iter d [] l | None => Err ETypeError end end) = Ok r <->
    exists l l', pairs_of v l /\ Forall2 (taken d) l l' /\ r = assigned l').
  { intros r. transitivity (exists kvs, pairs_of v kvs /\ dset_all d [] kvs = Ok r).
    - split.
      + intros H. assert (G : forall l, (forall d kvs, v <> VDict d kvs) -> py_iter v = Some l -> dset_iter d [] l = Ok r -> exists kvs, pairs_of v kvs /\ dset_all d [] kvs = Ok r).
        { intros l N L Q. apply dset_iter_pairs in Q as (kvs0 & F & Q). exists kvs0. split; [exact (P_items v l kvs0 N L F)|exact Q]. }
        destruct v; try (match type of H with context [py_iter ?x] => destruct (py_iter x) as [l0|] eqn:L; [|discriminate H] end; apply (G l0); [intros; discriminate|reflexivity|exact H]).
        eexists. split; [constructor|exact H].
      + intros (kvs & Q1 & Q2). destruct Q1 as [d0 kvs|v l kvs N L F]; [exact Q2|]. assert (Q : dset_iter d [] l = Ok r) by (apply dset_iter_pairs; eauto). destruct v; try (rewrite L; exact Q). exfalso. eapply N. reflexivity.
    - split.
      + intros (kvs & Q1 & Q2). apply (dset_all_exact d (taken d) kvs) in Q2 as (l' & F & ->); [exists kvs, l'; rewrite fold_assigned; auto|].
        intros k w Hi. destruct (pairs_pure v kvs P Q1 k w Hi). apply S; assumption.
      + intros (l & l' & Q1 & F & ->). exists l. split; [exact Q1|]. apply (dset_all_exact d (taken d) l); [|exists l'; rewrite fold_assigned; auto].
        intros k w Hi. destruct (pairs_pure v l P Q1 k w Hi). apply S; assumption. }
  assert (Df : forall r, failing (dset_defaults d r (items d)) o <-> d = DPeer /\ failing (dset_defaults DPeer r (items DPeer)) o).
  { intros r. destruct (dcls_eq_dec d DPeer) as [->|N]; [tauto|]. rewrite (defaults_stored d (items d) Nd N (fun x H => H) (items_nodup d)). split; [intros H; destruct (failing_ok _ _ H)|]. intros [H _]. contradiction. }
  assert (Dp : forall r, failing (dset_defaults DPeer r (items DPeer)) o <-> exists pre k post, documented_keys DPeer = pre ++ k :: post /\ (forall k', In k' pre -> absent r k' = false) /\ absent r k = true /\ o = Some (u k)).
  { intros r. rewrite defaults_failing; [reflexivity|intros x Hx; exact Hx|]. intros k w Hi. cbn [items In] in Hi. repeat (destruct Hi as [Hi|Hi]; [congruence|]). contradiction. }
  assert (M : (exists r, (match v with VDict _ l => dset_all d [] l | _ => match py_iter v with Some l => dset_iter d [] l | None => Err ETypeError end end) = Ok r /\
      failing (do kvs' <- dset_defaults d r (items d); Ok (VDict d kvs')) o) <->
    d = DPeer /\ exists l l' pre k post, pairs_of v l /\ Forall2 (taken d) l l' /\ documented_keys d = pre ++ k :: post /\
      (forall k', In k' pre -> exists w, In (skey k', w) l') /\ (forall w, ~ In (skey k, w) l') /\ o = Some (u k)).
  { split.
    - intros (r & H1 & H2). apply Fi in H1 as (l & l' & Q1 & F & ->). apply failing_bind in H2 as [H2|(x & _ & H2)]; [|destruct (failing_ok _ _ H2)].
      apply Df in H2 as [-> H2]. apply Dp in H2 as (pre & k & post & E & A1 & A2 & ->). split; [reflexivity|]. exists l, l', pre, k, post. split; [exact Q1|]. split; [exact F|]. split; [exact E|].
      split; [intros k' Hk; apply (present_assigned DPeer l l' k' F), A1, Hk|]. split; [apply (absent_assigned DPeer l l' k F), A2|reflexivity].
    - intros (-> & l & l' & pre & k & post & Q1 & F & E & A1 & A2 & ->). exists (assigned l'). split; [apply Fi; eauto|]. apply failing_bind. left. apply Dp. exists pre, k, post. split; [exact E|].
      split; [intros k' Hk; apply (present_assigned DPeer l l' k' F), A1, Hk|]. split; [apply (absent_assigned DPeer l l' k F), A2|reflexivity]. }
  rewrite M. clear M Df Dp Fi.
  assert (Sc : forall l, (forall d' kvs, v <> VDict d' kvs) -> py_iter v = Some l -> (failing (dset_iter d [] l) o <->
    exists xs1 x xs2 l1 l1', l = xs1 ++ x :: xs2 /\ Forall2 is_pair xs1 l1 /\ Forall2 (taken d) l1 l1' /\
    ((exists k v, py_iter x = Some [k; v] /\ item_fault d k v o) \/ ((forall k v, py_iter x <> Some [k; v]) /\ o = None)))).
  { intros l N L. apply iter_failing. intros x k w Hx I. pose proof (pure_iter v l P L x Hx) as Px. pose proof (pure_iter x _ Px I) as Pi. apply S; apply Pi; cbn; auto. }
  split.
  - intros [H|(-> & l & l' & pre & k & post & Q1 & F & E & A1 & A2 & ->)]; [|eapply Uf_missing; eauto].
    assert (G : forall l, (forall d' kvs, v <> VDict d' kvs) -> py_iter v = Some l -> failing (dset_iter d [] l) o -> unfrozen d v o).
    { intros l N L Q. apply (Sc l N L) in Q as (xs1 & x & xs2 & l1 & l1' & -> & F1 & F2 & [(k & w & I & Q)|[Np ->]]); [eapply Uf_item; eauto|eapply Uf_no_pair; eauto]. }
    destruct v; try (match type of H with context [py_iter ?x] => destruct (py_iter x) as [l0|] eqn:L;
      [apply (G l0); [intros; discriminate|reflexivity|exact H]|apply failing_err in H; cbn [field_of] in H; subst o; apply Uf_scalar; [intros; discriminate|exact L]] end).
    apply (all_failing d (taken d) (item_fault d)) in H as (l1 & l1' & k & w & l2 & -> & F & Q); [eapply Uf_dict; eauto|].
    intros k w Hi. pose proof (Hv kvs c eq_refl) as ->. apply pure_dict in P as (P & _). destruct (P k w Hi). apply S; assumption.
  - intros U. destruct U as [v N I|d' l1 l1' k v l2 o F Q|v xs x ys l1 l1' k w o N I F1 F2 J Q|v xs x ys l1 l1' N I F1 F2 Np|v l l' k pre post Ed Q1 F E A1 A2].
    + left. destruct v; try (exfalso; eapply N; reflexivity); rewrite I; apply failing_err; reflexivity.
    + left. pose proof (Hv _ d' eq_refl) as ->. apply (all_failing d (taken d) (item_fault d)); [|exists l1, l1', k, v, l2; auto].
      intros k0 w Hi. apply pure_dict in P as (P & _). destruct (P k0 w Hi). apply S; assumption.
    + left. assert (H : failing (dset_iter d [] (xs ++ x :: ys)) o) by (apply (Sc _ N I); exists xs, x, ys, l1, l1'; split; [reflexivity|]; eauto 10).
      destruct v; try (rewrite I; exact H). exfalso. eapply N. reflexivity.
    + left. assert (H : failing (dset_iter d [] (xs ++ x :: ys)) None) by (apply (Sc _ N I); exists xs, x, ys, l1, l1'; split; [reflexivity|]; eauto 10).
      destruct v; try (rewrite I; exact H). exfalso. eapply N. reflexivity.
    + right. split; [exact Ed|]. exists l, l', pre, k, post. auto 10.
Qed.
Lemma pure_dict_class v : pure v = true -> forall kvs d', v = VDict d' kvs -> d' = DPlain.
Proof. intros P kvs d' ->. destruct d'; try discriminate P. reflexivity. Qed.
Lemma unfrozen_iff d v o : loadable d -> pure v = true -> (failing (dict_new d v) o <-> unfrozen d v o).
Proof.
  intros Hd P. apply dict_failing; [exact (pure_dict_class v P)|exact P|destruct Hd as [->|[->|[->| ->]]]; discriminate|].
  intros k w Pk Pw. split; [apply dset_step_exact; assumption|]. intros kvs o0. apply dset_fault; assumption.
Qed.

(** ** Statistics *)
Lemma unkeyed_fault d v o : d = DCpuUsage \/ d = DThrottling -> pure v = true -> failing (do kw <- star_star v; dict_new_kw d kw) o -> o = None.
Proof.
  intros Hd P H. apply failing_bind in H as [H|(kw & Hkw & H)].
  - destruct v; try (apply failing_err in H; auto; fail). exact (kwargs_failing _ _ H).
  - destruct v; try discriminate Hkw. destruct c; try discriminate P. cbn [star_star] in Hkw. pose proof P as P0. apply pure_dict in P0 as (P0 & _).
    unfold dict_new_kw in H. rewrite <- (kwargs_texts _ _ Hkw (fun k v Hi => proj1 (P0 k v Hi))) in H. apply unfrozen_iff in H; [|unfold loadable; tauto|exact P].
    assert (I : forall k v, item_fault d k v o -> o = None).
    { intros k v I. inversion I as [k0 v0 I0|v0 o0 Q0|]; subst; [exfalso; destruct Hd as [->| ->]; contradiction|exfalso; destruct Hd as [Hd|Hd]; discriminate Hd|reflexivity]. }
    inversion H; subst; try reflexivity; try (eapply I; eassumption). exfalso. destruct Hd; discriminate.
Qed.
Lemma cpu_faults : exact_fault CCpu cpu_fault.
Proof.
  intros k v o Ik P X. assert (R := fun w => slot_read CCpu cpu_field k v w cpu_exact Ik P X).
  assert (Ex : exists d, (d = DCpuUsage \/ d = DThrottling) /\ cdeser_slot (chook CCpu) CCpu k v = do _ <- validate_dict (u k) v; if truthy v then do kw <- star_star v; dict_new_kw d kw else Ok VNone).
  { assert (V : forall r : result pyval, (do _ <- run_validators [validate_dict] (u k) v; r) = do _ <- validate_dict (u k) v; r) by (intros r; cbn [run_validators]; destruct (validate_dict (u k) v); reflexivity).
    each_slot Ik; rewrite slot_steps by exact X; rewrite V; eexists; (split; [|reflexivity]); auto. }
  destruct Ex as (d & Hd & Ex). destruct (a_dict_dec v) as [D|N].
  - assert (G : failing (cdeser_slot (chook CCpu) CCpu k v) o -> o = None).
    { rewrite Ex. destruct D as [kvs ->]. cbn [validate_dict bind]. destruct (truthy _); [|intros H; destruct (failing_ok _ _ H)]. apply unkeyed_fault; assumption. }
    split.
    + intros H. rewrite (G H). destruct H as (e & H & _). apply CX_keys; [exact D|]. intros w W. apply R in W. congruence.
    + intros H. inversion H as [k0 v0 N|k0 v0 _ N]; subst; [contradiction|]. destruct (fails_or (cdeser_slot (chook CCpu) CCpu k v)) as [[w W]|[o H']]; [exfalso; exact (N w (proj1 (R w) W))|].
      assert (o = None) as ->; [|exact H']. revert H'. rewrite Ex. destruct D as [kvs ->]. cbn [validate_dict bind]. destruct (truthy _); [|intros H'; destruct (failing_ok _ _ H')]. apply unkeyed_fault; assumption.
  - assert (V : validate_dict (u k) v = Err (EFieldError (u k))).
    { destruct v; try reflexivity. exfalso. apply N. destruct c; try discriminate P. eexists. reflexivity. }
    rewrite Ex, V. cbn [bind]. rewrite failing_err. cbn [field_of]. split; [intros <-; apply CX_no_dict, N|]. intros H. inversion H; subst; [reflexivity|contradiction].
Qed.
Lemma provider_faults : exact_fault CProvider provider_fault.
Proof.
  intros k v o Ik P X.
  assert (C : forall c G F, exact_field c F -> exact_fault c G -> leaf_hook c = chook c ->
    cdeser_slot (chook CProvider) CProvider k v = (do _ <- vcheck (is_dict_or c) (u k) v; if truthy v then do kw <- star_star v; leaf_new c kw else Ok VNone) ->
    (forall kvs o, provider_fault k (VDict DPlain kvs) o <-> kvs <> [] /\ unbuilt c G F (VDict DPlain kvs) o) ->
    (failing (cdeser_slot (chook CProvider) CProvider k v) o <-> provider_fault k v o)).
  { intros c G F HF HG Hl Ex Hp. rewrite Ex. destruct (a_dict_dec v) as [[kvs ->]|N].
    - unfold vcheck, is_dict_or, fail_unless. cbn [bind]. rewrite Hp. destruct kvs as [|kv kvs]; cbn [truthy negb].
      + split; [intros H; destruct (failing_ok _ _ H)|]. intros [H _]. congruence.
      + assert (U : failing (cnew_star c (VDict DPlain (kv :: kvs))) o <-> unbuilt c G F (VDict DPlain (kv :: kvs)) o) by (apply unbuilt_iff; assumption).
        unfold cnew_star, cnew in U. unfold leaf_new. rewrite Hl. rewrite U. split; [intros H; split; [discriminate|exact H]|tauto].
    - assert (B : is_dict_or c v = false) by (destruct (is_dict_or c v) eqn:B; [exfalso; apply N, (isdictor_iff c v P), B|reflexivity]).
      unfold vcheck. rewrite B. unfold fail_unless. cbn [bind]. rewrite failing_err. cbn [field_of]. split.
      + intros <-. apply PX_no_dict. exact N.
      + intros H. inversion H; subst; try reflexivity; exfalso; apply N; eexists; reflexivity. }
  assert (V : forall c (r : result pyval), (do _ <- run_validators [vcheck (is_dict_or c)] (u k) v; r) = do _ <- vcheck (is_dict_or c) (u k) v; r).
  { intros c r. cbn [run_validators]. destruct (vcheck _ (u k) v); reflexivity. }
  each_slot Ik.
  - apply (C CBlockIo (own (fun _ => same a_dict)) (fun _ => same a_dict)); [exact blkio_exact|apply own_exact; [exact blkio_exact|reflexivity]|reflexivity|rewrite slot_steps by exact X; apply V|].
    intros kvs o0. split; [intros H; inversion H as [? ? N| | | |]; subst; [exfalso; apply N; eexists; reflexivity|split; assumption]|intros [H1 H2]; apply PX_blkio; assumption].
  - apply (C CCpu cpu_fault cpu_field); [exact cpu_exact|exact cpu_faults|reflexivity|rewrite slot_steps by exact X; apply V|].
    intros kvs o0. split; [intros H; inversion H as [? ? N| | | |]; subst; [exfalso; apply N; eexists; reflexivity|split; assumption]|intros [H1 H2]; apply PX_cpu; assumption].
  - apply (C CMemory (own memory_field) memory_field); [exact memory_exact|apply own_exact; [exact memory_exact|reflexivity]|reflexivity|rewrite slot_steps by exact X; apply V|].
    intros kvs o0. split; [intros H; inversion H as [? ? N| | | |]; subst; [exfalso; apply N; eexists; reflexivity|split; assumption]|intros [H1 H2]; apply PX_memory; assumption].
  - apply (C CPid (own (fun _ => same integer)) (fun _ => same integer)); [exact pids_exact|apply own_exact; [exact pids_exact|reflexivity]|reflexivity|rewrite slot_steps by exact X; apply V|].
    intros kvs o0. split; [intros H; inversion H as [? ? N| | | |]; subst; [exfalso; apply N; eexists; reflexivity|split; assumption]|intros [H1 H2]; apply PX_pids; assumption].
Qed.
Lemma stats_faulty v o : pure v = true -> (failing (cnew_star CProvider v) o <-> no_stats v o).
Proof. apply unbuilt_iff; [exact provider_exact|exact provider_faults]. Qed.

(** ** File entries *)
Lemma category_fault kvs k v o : pure k = true -> pure v = true ->
  (failing (dset DFileInfo kvs (fst (as_category (k, v))) (snd (as_category (k, v)))) o <-> item_fault DFileInfo k v o).
Proof.
  intros Pk Pv. unfold as_category. cbn [fst snd]. destruct (py_eq k (skey "category")) eqn:Q.
  - apply pure_key_r in Q; [|apply pure_plainkey, Pk]. subst k. transitivity ((forall w, ~ item_as DFileInfo "category" v w) /\ o = Some (u "category")).
    + destruct (enum_call EnFileCategory v) as [m|] eqn:C.
      * pose proof C as C0. apply (enum_call_iff _ _ _ Pv) in C0 as (m0 & Hm & -> & ->). split; [intros H; destruct (failing_ok _ _ H)|]. intros [N _]. exfalso. apply (N (VEnum EnFileCategory m0)). apply I_category. exact Hm.
      * assert (D : dset DFileInfo kvs (skey "category") v = Err (EFieldError (u "category"))) by (destruct v; try reflexivity; discriminate Pv).
        rewrite D, failing_err. cbn [field_of]. split; [|intros [_ ->]; reflexivity]. intros <-. split; [|reflexivity]. intros w I. inversion I as [| |k0 v0 I0|m Hm| | | | |]; subst.
        -- inl I0.
        -- rewrite (enum_call_str EnFileCategory m Hm) in C. discriminate C.
    + split; [intros [N ->]; apply IX_own; [cbn; tauto|exact N|discriminate]|]. intros H. inversion H as [k0 v0 I0 N A Q|v0 o0 Q0|k0 v0 N]; subst.
      * cbn [validated] in I0. inl I0. auto.
      * exfalso. apply (N "category"%string); [cbn; tauto|reflexivity].
  - apply item_fault_iff; [discriminate|exact Pk| |].
    + intros s -> Hs Nv. exists v. apply I_file. cbn [documented_keys validated In] in *. tauto.
    + intros s -> V. exfalso. cbn [validated In] in V. destruct V as [<-|[]]. discriminate Q.
Qed.
Lemma file_fault v o : pure v = true -> (failing (deser_file v) o <-> (~ a_dict v /\ o = None) \/ (a_dict v /\ unfrozen DFileInfo v o)).
Proof.
  intros P. destruct (a_dict_dec v) as [[kvs ->]|N].
  - transitivity (unfrozen DFileInfo (VDict DPlain kvs) o).
    2:{ split; [intros H; right; split; [eexists; reflexivity|exact H]|]. intros [[N _]|[_ H]]; [exfalso; apply N; eexists; reflexivity|exact H]. }
    pose proof P as P0. apply pure_dict in P0 as (P0 & _ & N). cbn [deser_file]. cbv zeta. rewrite (category_in_place kvs N (fun k v Hi => proj1 (P0 k v Hi))).
    assert (S : forall k v, In (k, v) (map as_category kvs) -> step_exact DFileInfo file_step k v /\ step_fault DFileInfo (fun k v o => failing (dset DFileInfo [] k v) o) k v).
    { intros k v Hi. apply in_map_iff in Hi as ([k0 v0] & Q & Hi). destruct (P0 _ _ Hi) as [Pk Pv]. assert (E : k0 = k) by (unfold as_category in Q; cbn [fst snd] in Q; congruence). subst k0. split.
      - apply file_step_exact, pure_plainkey, Pk.
      - intros acc o0. assert (Q1 : k = fst (as_category (k, v0)) /\ v = snd (as_category (k, v0))) by (rewrite Q; auto). destruct Q1 as [_ ->]. change k with (fst (as_category (k, v0))) at 1 3.
        rewrite !category_fault by assumption. reflexivity. }
    unfold dict_new. rewrite failing_bind. rewrite (all_failing DFileInfo file_step (fun k v o => failing (dset DFileInfo [] k v) o) _ o S).
    assert (Z : ~ exists r, dset_all DFileInfo [] (map as_category kvs) = Ok r /\ failing (do kvs' <- dset_defaults DFileInfo r (items DFileInfo); Ok (VDict DFileInfo kvs')) o).
    { intros (r & _ & H). rewrite (defaults_stored DFileInfo (items DFileInfo) ltac:(discriminate) ltac:(discriminate) (fun x H => H) (items_nodup DFileInfo)) in H. exact (failing_ok _ _ H). }
    split.
    + intros [(l1 & l1' & k & v & l2 & E & F & H)|H]; [|contradiction]. apply map_eq_app in E as (k1 & k2 & -> & E1 & E2). apply map_eq_cons in E2 as ([k0 v0] & k3 & -> & E2 & E3).
      assert (Hi : In (k0, v0) (k1 ++ (k0, v0) :: k3)) by (apply in_or_app; right; left; reflexivity). destruct (P0 _ _ Hi) as [Pk Pv].
      apply (Uf_dict DFileInfo DPlain k1 l1' k0 v0 k3 o).
      * subst l1. refine (proj1 (Forall2_iff_in (fun a c => file_step (as_category a) c) (taken DFileInfo) k1 l1' _) (proj1 (Forall2_map_left file_step as_category k1 l1') F)).
        intros [ka va] y Ha. destruct (P0 ka va ltac:(apply in_or_app; left; exact Ha)). symmetry. apply file_taken; assumption.
      * apply (category_fault [] k0 v0 o Pk Pv). rewrite E2. exact H.
    + intros U. left. inversion U as [v N1 I|d' l1 l1' k v l2 o0 F Q|v xs x ys l1 l1' k w o0 N1|v xs x ys l1 l1' N1|v l l' k pre post Ed]; subst; try (exfalso; eapply N1; reflexivity); [|discriminate Ed].
      assert (Hi : In (k, v) (l1 ++ (k, v) :: l2)) by (apply in_or_app; right; left; reflexivity). destruct (P0 _ _ Hi) as [Pk Pv].
      exists (map as_category l1), l1', (fst (as_category (k, v))), (snd (as_category (k, v))), (map as_category l2). split; [rewrite map_app; reflexivity|]. split.
      * refine (proj2 (Forall2_map_left file_step as_category l1 l1') (proj1 (Forall2_iff_in (taken DFileInfo) (fun a c => file_step (as_category a) c) l1 l1' _) F)).
        intros [ka va] y Ha. destruct (P0 ka va ltac:(apply in_or_app; left; exact Ha)). apply file_taken; assumption.
      * apply category_fault; assumption.
  - assert (D : deser_file v = Err EAttributeError) by (destruct v; try reflexivity; exfalso; apply N; destruct c; try discriminate P; eexists; reflexivity).
    rewrite D, failing_err. cbn [field_of]. split; [intros <-; auto|]. intros [[_ ->]|[H _]]; [reflexivity|contradiction].
Qed.

(** ** Slots that hold no message *)
Lemma each_failing {A B} (f : A -> result B) (R : A -> B -> Prop) (X : A -> Prop) l o : (forall x, In x l -> (forall y, f x = Ok y <-> R x y) /\ (failing (f x) o <-> X x)) ->
  (failing (mapM f l) o <-> exists l1 x l2 r, l = l1 ++ x :: l2 /\ Forall2 R l1 r /\ X x).
Proof.
  intros H. rewrite failing_mapM. split; intros (l1 & x & l2 & r & -> & Hp & Hx); exists l1, x, l2, r; (split; [reflexivity|]); split.
  - apply (mapM_exact f R l1); [intros y Hy; apply H, in_or_app; auto|exact Hp].
  - apply H; [apply in_or_app; right; left; reflexivity|exact Hx].
  - apply (mapM_exact f R l1); [intros y Hy; apply H, in_or_app; auto|exact Hp].
  - apply H; [apply in_or_app; right; left; reflexivity|exact Hx].
Qed.
Lemma list_failing {A} (r : result A) (f : A -> pyval) o : failing (do x <- r; Ok (f x)) o <-> failing r o.
Proof. rewrite failing_bind. split; [|auto]. intros [H|(x & _ & H)]; [exact H|destruct (failing_ok _ _ H)]. Qed.
Lemma own_plain kd k v o : ((exists e, kd = KEnum e) \/ In kd [KCpu; KNum; KInt]) -> pure v = true -> (failing (deser_plain kd k v) o <-> (forall w, ~ plain_as kd v w) /\ o = Some (u k)).
Proof.
  intros Hk P. assert (Nm : forall d an il, kd <> KMsg d an il) by (intros d an il ->; destruct Hk as [[x H]|H]; [discriminate H|]; cbn in H; intuition discriminate).
  assert (He : forall e, deser_plain kd k v = Err e -> e = EFieldError (u k)).
  { intros e D. destruct Hk as [[x ->]|[<-|[<-|[<-|[]]]]]; cbn [deser_plain] in D.
    - destruct (is_none v); [discriminate D|]. destruct (enum_call x v); congruence.
    - destruct (is_none v); [discriminate D|]. destruct v; cbn [validate_integer bind] in D; try congruence. destruct (z <? 0); congruence.
    - unfold validate_positive_integer in D. destruct v; cbn [validate_integer bind] in D; try congruence. destruct (z <? 1); cbn [bind] in D; congruence.
    - destruct v; cbn [validate_integer bind] in D; congruence. }
  split.
  - intros (e & H & <-). rewrite (He e H). split; [|reflexivity]. intros w W. apply (plain_exact kd k v w Nm P) in W. congruence.
  - intros [N ->]. destruct (deser_plain kd k v) as [w|e] eqn:D; [exfalso; apply (N w), (plain_exact kd k v w Nm P), D|]. exists e. split; [reflexivity|]. rewrite (He e eq_refl). reflexivity.
Qed.
Ltac kinds Q := match type of Q with (exists e, _ = KEnum e) \/ _ => destruct Q as [[? Q]|Q]; [discriminate Q|]; cbn [In] in Q; repeat (destruct Q as [Q|Q]; [discriminate Q|]); contradiction end.
Lemma plain_failing kd k v o : (forall d an il, kd <> KMsg d an il) -> (kd = KTasks -> k = "tasks"%string) -> pure v = true ->
  (failing (deser_plain kd k v) o <-> slot_fault kd k v o).
Proof.
  intros Nm Hk P. destruct kd as [|e|d an il| | | | | | | | | |].
  - cbn [deser_plain]. split; [intros H; destruct (failing_ok _ _ H)|]. intros H. inversion H as [kd k0 v0 Q N| | | | | | | | | | | |]; subst; [kinds Q|].
    match goal with Q : In KPlain _ |- _ => cbn in Q; intuition discriminate end.
  - rewrite own_plain by eauto. split; [intros [N ->]; apply SX_value; [eauto|exact N]|]. intros H. inversion H; subst; [auto|].
    match goal with Q : In _ [KPeers; KTasks] |- _ => cbn in Q; intuition discriminate end.
  - exfalso. eapply Nm. reflexivity.
  - cbn [deser_plain]. destruct (truthy v) eqn:T.
    + destruct (a_dict_dec v) as [[kvs ->]|N].
      * cbn [validate_dict bind]. rewrite (node_fault _ o P). split; [intros H; apply SX_node; [exact T|eexists; reflexivity|exact H]|].
        intros H. inversion H as [kd k0 v0 Q N|k0 v0 T0 N|k0 v0 o0 T0 A B|kd k0 v0 Q N| | | | | | | | |]; subst; [kinds Q|exfalso; apply N; eexists; reflexivity|exact B|cbn in Q; intuition discriminate].
      * assert (V : validate_dict (u k) v = Err (EFieldError (u k))) by (destruct v; try reflexivity; exfalso; apply N; destruct c; try discriminate P; eexists; reflexivity).
        rewrite V. cbn [bind]. rewrite failing_err. cbn [field_of]. split; [intros <-; apply SX_no_dict; assumption|].
        intros H. inversion H as [kd k0 v0 Q N0|k0 v0 T0 N0|k0 v0 o0 T0 A B|kd k0 v0 Q N0| | | | | | | | |]; subst; [reflexivity|reflexivity|contradiction|reflexivity].
    + split; [intros H; destruct (failing_ok _ _ H)|]. intros H. inversion H as [kd k0 v0 Q N0|k0 v0 T0 N0|k0 v0 o0 T0 A B|kd k0 v0 Q N0| | | | | | | | |]; subst; [kinds Q|congruence|congruence|cbn in Q; intuition discriminate].
  - cbn [deser_plain]. destruct (match v with VList l => Some l | _ => None end) as [l|] eqn:L.
    + destruct v; try discriminate L. clear L l. rewrite list_failing. rewrite pure_list in P. rewrite (each_failing (dict_new DPeer) (frozen DPeer) (fun x => unfrozen DPeer x o)).
      * split; [intros (l1 & x & l2 & r & -> & F & U); eapply SX_peer; eassumption|]. intros H. inversion H as [kd k0 v0 Q N0|k0 v0 T0 N0|k0 v0 o0 T0 A B|kd k0 v0 Q N0|k0 l1 x l2 r o0 F U| | | | | | | |]; subst; [kinds Q|exfalso; eapply N0; reflexivity|].
        exists l1, x, l2, r. auto.
      * intros x Hx. split; [intros y; apply frozen_exact; [unfold loadable; tauto|exact (P x Hx)]|apply unfrozen_iff; [unfold loadable; tauto|exact (P x Hx)]].
    + assert (D : match v with VList l => do r <- mapM (dict_new DPeer) l; Ok (VList r) | _ => Err (EFieldError (u k)) end = Err (EFieldError (u k))) by (destruct v; try reflexivity; discriminate L).
      rewrite D, failing_err. cbn [field_of]. split; [intros <-; apply SX_no_list; [cbn; tauto|intros l ->; discriminate L]|].
      intros H. inversion H as [kd k0 v0 Q N0|k0 v0 T0 N0|k0 v0 o0 T0 A B|kd k0 v0 Q N0|k0 l1 x l2 r o0 F U| | | | | | | |]; subst; [reflexivity|reflexivity|discriminate L].
  - rewrite (Hk eq_refl). cbn [deser_plain]. destruct (match v with VList l => Some l | _ => None end) as [l|] eqn:L.
    + destruct v; try discriminate L. clear L l. rewrite list_failing. rewrite pure_list in P.
      rewrite (each_failing (fun h => do _ <- validate_dict (u "tasks") h; cnew_star CTaskHeader h) header (fun x => (~ a_dict x /\ o = Some (u "tasks")) \/ (a_dict x /\ no_header x o))).
      * split.
        -- intros (l1 & x & l2 & r & -> & F & [[N ->]|[A U]]); [eapply SX_no_task; eassumption|eapply SX_task; eassumption].
        -- intros H. inversion H as [kd k0 v0 Q N0|k0 v0 T0 N0|k0 v0 o0 T0 A B|kd k0 v0 Q N0|k0 l1 x l2 r o0 F U|k0 l1 x l2 r F N|k0 l1 x l2 r o0 F A U| | | | | |]; subst; [kinds Q|exfalso; eapply N0; reflexivity|exists l1, x, l2, r; auto|exists l1, x, l2, r; auto].
      * intros x Hx. specialize (P x Hx). split.
        -- intros y. rewrite <- (header_built x y P). split; [intros H; apply bind_ok in H as (t & _ & H); exact H|].
           intros H. pose proof H as H0. apply (header_built x y P) in H0. destruct (header_dict _ _ H0) as [kvs ->]. exact H.
        -- destruct (a_dict_dec x) as [[kvs ->]|N].
           ++ cbn [validate_dict bind]. rewrite (header_faulty _ o P). split; [intros H; right; split; [eexists; reflexivity|exact H]|]. intros [[N _]|[_ H]]; [exfalso; apply N; eexists; reflexivity|exact H].
           ++ assert (V : validate_dict (u "tasks") x = Err (EFieldError (u "tasks"))) by (destruct x; try reflexivity; exfalso; apply N; destruct c; try discriminate P; eexists; reflexivity).
              rewrite V. cbn [bind]. rewrite failing_err. cbn [field_of]. split; [intros <-; auto|]. intros [[_ ->]|[H _]]; [reflexivity|contradiction].
    + assert (D : match v with VList l => do r <- mapM (fun h => do _ <- validate_dict (u "tasks") h; cnew_star CTaskHeader h) l; Ok (VList r) | _ => Err (EFieldError (u "tasks")) end = Err (EFieldError (u "tasks"))) by (destruct v; try reflexivity; discriminate L).
      rewrite D, failing_err. cbn [field_of]. split; [intros <-; apply SX_no_list; [cbn; tauto|intros l ->; discriminate L]|].
      intros H. inversion H as [kd k0 v0 Q N0|k0 v0 T0 N0|k0 v0 o0 T0 A B|kd k0 v0 Q N0|k0 l1 x l2 r o0 F U|k0 l1 x l2 r F N|k0 l1 x l2 r o0 F A U| | | | | |]; subst; try reflexivity; discriminate L.
  - cbn [deser_plain]. destruct (is_none v) eqn:N.
    + destruct v; try discriminate N. split; [intros H; destruct (failing_ok _ _ H)|]. intros H. inversion H as [kd k0 v0 Q N0| | |kd k0 v0 Q N0| | | |k0 v0 o0 N0 U| | | | |]; subst; [kinds Q|cbn in Q; intuition discriminate|congruence].
    + rewrite (header_faulty v o P). split; [intros H; apply SX_header; [intros ->; discriminate N|exact H]|].
      intros H. inversion H as [kd k0 v0 Q N0| | |kd k0 v0 Q N0| | | |k0 v0 o0 N0 U| | | | |]; subst; [kinds Q|cbn in Q; intuition discriminate|exact U].
  - rewrite own_plain by (first [exact P|right; cbn; tauto]). split; [intros [N ->]; apply SX_value; [right; cbn; tauto|exact N]|]. intros H. inversion H; subst; [auto|].
    match goal with Q : In _ [KPeers; KTasks] |- _ => cbn in Q; intuition discriminate end.
  - rewrite own_plain by (first [exact P|right; cbn; tauto]). split; [intros [N ->]; apply SX_value; [right; cbn; tauto|exact N]|]. intros H. inversion H; subst; [auto|].
    match goal with Q : In _ [KPeers; KTasks] |- _ => cbn in Q; intuition discriminate end.
  - cbn [deser_plain]. rewrite (unfrozen_iff DCTD v o (or_introl eq_refl) P). split; [apply SX_ctd|].
    intros H. inversion H as [kd k0 v0 Q N0| | |kd k0 v0 Q N0| | | | | | | | |]; subst; [kinds Q|cbn in Q; intuition discriminate|assumption].
  - rewrite own_plain by (first [exact P|right; cbn; tauto]). split; [intros [N ->]; apply SX_value; [right; cbn; tauto|exact N]|]. intros H. inversion H; subst; [auto|].
    match goal with Q : In _ [KPeers; KTasks] |- _ => cbn in Q; intuition discriminate end.
  - cbn [deser_plain]. destruct (is_none v) eqn:N.
    + destruct v; try discriminate N. split; [intros H; destruct (failing_ok _ _ H)|]. intros H. inversion H as [kd k0 v0 Q N0| | |kd k0 v0 Q N0| | | | | |k0 v0 o0 N0 U| | |]; subst; [kinds Q|cbn in Q; intuition discriminate|congruence].
    + rewrite (stats_faulty v o P). split; [intros H; apply SX_stats; [intros ->; discriminate N|exact H]|].
      intros H. inversion H as [kd k0 v0 Q N0| | |kd k0 v0 Q N0| | | | | |k0 v0 o0 N0 U| | |]; subst; [kinds Q|cbn in Q; intuition discriminate|exact U].
  - cbn [deser_plain]. destruct (py_iter v) as [l|] eqn:I.
    + rewrite list_failing. pose proof (pure_iter v l P I) as Pl.
      rewrite (each_failing deser_file (fun v w => a_dict v /\ frozen DFileInfo v w) (fun x => (~ a_dict x /\ o = None) \/ (a_dict x /\ unfrozen DFileInfo x o))).
      * split.
        -- intros (l1 & x & l2 & r & -> & F & H). apply and_files in F as [F1 F2]. destruct H as [[N ->]|[A U]]; [eapply SX_no_file; eassumption|eapply SX_file; eassumption].
        -- intros H. inversion H as [kd k0 v0 Q N0| | |kd k0 v0 Q N0| | | | | | |k0 v0 I0|k0 v0 l1 x l2 r I0 F1 F2 N|k0 v0 l1 x l2 r o0 I0 F1 F2 A U]; subst; [kinds Q|cbn in Q; intuition discriminate|congruence| |].
           ++ exists l1, x, l2, r. split; [congruence|]. split; [apply and_files; auto|auto].
           ++ exists l1, x, l2, r. split; [congruence|]. split; [apply and_files; auto|auto].
      * intros x Hx. split; [intros y; apply file_exact, Pl, Hx|apply file_fault, Pl, Hx].
    + rewrite failing_err. cbn [field_of]. split; [intros <-; apply SX_no_files, I|].
      intros H. inversion H as [kd k0 v0 Q N0| | |kd k0 v0 Q N0| | | | | | |k0 v0 I0|k0 v0 l1 x l2 r I0 F1 F2 N|k0 v0 l1 x l2 r o0 I0 F1 F2 A U]; subst; [kinds Q|cbn in Q; intuition discriminate|reflexivity|congruence|congruence].
Qed.
Lemma fault_named kd k v e : (exists en, kd = KEnum en) \/ In kd [KCpu; KNum; KInt] -> pure v = true -> deser_plain kd k v = Err e -> e = EFieldError (u k).
Proof.
  intros Q P H. assert (F : failing (deser_plain kd k v) (field_of e)) by (exists e; auto).
  assert (S : slot_fault kd k v (field_of e)).
  { apply plain_failing; [| |exact P|exact F]; destruct Q as [[en ->]|[<-|[<-|[<-|[]]]]]; discriminate. }
  assert (X : field_of e = Some (u k)) by (destruct Q as [[en ->]|[<-|[<-|[<-|[]]]]]; inversion S; subst; reflexivity).
  destruct e; try discriminate X. cbn [field_of] in X. congruence.
Qed.
