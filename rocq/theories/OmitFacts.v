(** * Leaving a field of a container out *)
From Verif Require Import DataProofs.
From Verif Require Export DataFacts.

(** the same keyword arguments without the one called [k] *)
Definition without (k : string) (kw : list (ustr * pyval)) : list (ustr * pyval) :=
  filter (fun p => negb (ustr_eqb (fst p) (u k))) kw.

Lemma without_same k kw : kw_get (u k) (without k kw) = None.
Proof.
  induction kw as [|[k' v] r IH]; [reflexivity|]. cbn [without filter fst].
  destruct (ustr_eqb k' (u k)) eqn:E; cbn [negb]; [exact IH|].
  cbn [kw_get]. rewrite E. exact IH.
Qed.
Lemma without_other k f kw : f <> u k -> kw_get f (without k kw) = kw_get f kw.
Proof.
  intros Hf. induction kw as [|[k' v] r IH]; [reflexivity|]. cbn [without filter fst].
  destruct (ustr_eqb k' (u k)) eqn:E; cbn [negb kw_get].
  - apply ustr_eqb_eq in E. subst k'.
    destruct (ustr_eqb (u k) f) eqn:F; [apply ustr_eqb_eq in F; congruence|exact IH].
  - destruct (ustr_eqb k' f); [reflexivity|exact IH].
Qed.
Lemma without_in k kw f v : In (f, v) (without k kw) -> In (f, v) kw /\ f <> u k.
Proof.
  unfold without. intros H. apply filter_In in H as [H N]. split; [exact H|]. intros ->.
  cbn [fst] in N. rewrite ustr_eqb_refl in N. discriminate.
Qed.

Lemma outcome_other c kw k j w : j <> k -> slot_outcome c kw j w -> slot_outcome c (without k kw) j w.
Proof.
  intros N. unfold slot_outcome. rewrite without_other; [auto|]. intros E. apply u_inj in E. contradiction.
Qed.

(** [a] with [w] under [k] *)
Definition at_slot (k : string) (w : pyval) (a : attrs_t) : attrs_t :=
  map (fun p => if (fst p =? k)%string then (fst p, w) else p) a.
Lemma at_slot_fst k w a : map fst (at_slot k w a) = map fst a.
Proof. unfold at_slot. rewrite map_map. apply map_ext. intros [j v]. cbn [fst]. destruct (j =? k)%string; reflexivity. Qed.
Lemma at_slot_in k w a j v : In (j, v) (at_slot k w a) -> (j = k /\ v = w) \/ (j <> k /\ In (j, v) a).
Proof.
  unfold at_slot. intros H. apply in_map_iff in H as ([j' v'] & E & Hi). cbn [fst] in E.
  destruct (String.eqb_spec j' k) as [Ek|N]; injection E as <- <-; auto.
Qed.
Lemma at_slot_get k w a : In k (map fst a) -> attr_get k (at_slot k w a) = Some w.
Proof.
  induction a as [|[j v] r IH]; [intros []|]. cbn [map fst at_slot]. intros H.
  destruct (String.eqb_spec j k) as [->|N]; cbn [attr_get].
  - rewrite String.eqb_refl. reflexivity.
  - apply String.eqb_neq in N. rewrite N. apply IH.
    destruct H as [->|H]; [rewrite String.eqb_refl in N; discriminate|exact H].
Qed.
Lemma at_slot_other k w a j : j <> k -> attr_get j (at_slot k w a) = attr_get j a.
Proof.
  intros N. induction a as [|[i v] r IH]; [reflexivity|]. cbn [map fst at_slot].
  destruct (String.eqb_spec i k) as [->|M]; cbn [attr_get].
  - destruct (String.eqb_spec k j) as [E|_]; [congruence|]. exact IH.
  - destruct (i =? j)%string; [reflexivity|exact IH].
Qed.

Lemma left_out c k kw o : cnew c kw = Ok o -> In k (cslots c) ->
  (crequired c k = true -> cnew c (without k kw) = Err (EFieldError (u k))) /\
  (crequired c k = false ->
   exists a a', o = VObj c a /\ cnew c (without k kw) = Ok (VObj c a') /\
     attr_get k a' = Some (cdefault c k) /\ forall j, j <> k -> attr_get j a' = attr_get j a).
Proof.
  intros H Hk. apply cnew_iff in H as (Hkw & a & -> & Ha & Hs). split.
  - intros R. unfold cnew, cinit, cload_slots.
    destruct (mapM (cload_slot (chook c) c (without k kw)) (cslots c)) as [a'|e] eqn:E; cbn [bind].
    + exfalso. apply mapM_ok in E. clear -E Hk R. induction E as [|j y l r Hy E IH]; [destruct Hk|].
      destruct Hk as [->|Hk]; [|auto]. unfold cload_slot in Hy. rewrite without_same, R in Hy. discriminate.
    + apply mapM_err in E as (j & Hj & E). destruct (string_dec j k) as [->|N].
      * unfold cload_slot in E. rewrite without_same, R in E. injection E as <-. reflexivity.
      * exfalso. rewrite <- Ha in Hj. apply in_map_iff in Hj as ([i w] & X & Hi). cbn [fst] in X. subst i.
        pose proof (outcome_other c kw k j w N (Hs _ _ Hi)) as So.
        assert (X : cload_slot (chook c) c (without k kw) j = Ok (j, w)) by (apply cload_slot_ok; eauto). congruence.
  - intros R. exists a, (at_slot k (cdefault c k) a). split; [reflexivity|]. split; [|split].
    + apply cnew_iff. split.
      * intros f v Hi. apply without_in in Hi as [Hi _]. eapply Hkw, Hi.
      * eexists. split; [reflexivity|]. split; [rewrite at_slot_fst; exact Ha|].
        intros j w Hi. apply at_slot_in in Hi as [[-> ->]|[N Hi]].
        -- unfold slot_outcome. rewrite without_same. auto.
        -- apply outcome_other; auto.
    + apply at_slot_get. rewrite Ha. exact Hk.
    + intros j N. apply at_slot_other, N.
Qed.

(** what the sources declare (datastructures/tasks.py 90-96, p2p.py 35-39) *)
Definition must_give (c : ccls) (k : string) : Prop :=
  c = CTaskHeader /\ (k = "task_id" \/ k = "task_owner" \/ k = "subtasks_count" \/ k = "min_version" \/ k = "timestamp")%string.
Inductive stands_for (c : ccls) (k : string) : pyval -> Prop :=
| Sf_list : c = CNode -> k = "prv_addresses"%string \/ k = "nat_type"%string -> stands_for c k (VList [])
| Sf_dict : c = CNode -> k = "port_statuses"%string -> stands_for c k (VDict DPlain [])
| Sf_none : ~ (c = CNode /\ (k = "prv_addresses" \/ k = "nat_type" \/ k = "port_statuses")%string) -> stands_for c k VNone.

Lemma required_iff c k : crequired c k = true <-> must_give c k.
Proof.
  unfold must_give. split.
  - destruct c; try discriminate. intros H. split; [reflexivity|]. unfold crequired in H.
    apply existsb_exists in H as (x & Hx & E). apply String.eqb_eq in E. subst x. cbn [In] in Hx. intuition congruence.
  - intros [-> H]. destruct H as [H|[H|[H|[H|H]]]]; rewrite H; reflexivity.
Qed.
Lemma default_is c k : stands_for c k (cdefault c k).
Proof.
  destruct c; try (apply Sf_none; intros [X _]; discriminate X). unfold cdefault.
  destruct (String.eqb_spec k "prv_addresses"); [apply Sf_list; auto|].
  destruct (String.eqb_spec k "port_statuses"); [apply Sf_dict; auto|].
  destruct (String.eqb_spec k "nat_type"); [apply Sf_list; auto|]. apply Sf_none. tauto.
Qed.

Lemma omitted c k kw o : cnew c kw = Ok o -> In k (cslots c) ->
  (must_give c k -> cnew c (without k kw) = Err (EFieldError (u k))) /\
  (~ must_give c k ->
   exists a a' w, o = VObj c a /\ cnew c (without k kw) = Ok (VObj c a') /\
     attr_get k a' = Some w /\ stands_for c k w /\ forall j, j <> k -> attr_get j a' = attr_get j a).
Proof.
  intros H Hk. destruct (left_out c k kw o H Hk) as [A B]. split.
  - intros M. apply A, required_iff, M.
  - intros M. destruct B as (a & a' & E & N & G & O).
    { destruct (crequired c k) eqn:R; [|reflexivity]. apply required_iff in R. contradiction. }
    exists a, a', (cdefault c k). repeat (split; [assumption|]). split; [apply default_is|exact O].
Qed.
