(** * What decoded slots are read as *)
From Verif Require Export ReadProofs.

Definition keep (c : mcls) (kv : string * pyval) : string * pyval := (fst kv, kept c (fst kv) (snd kv)).
Lemma upd_map k f a : NoDup (map fst a) -> In k (map fst a) -> upd k f a = map (fun kv => (fst kv, if (fst kv =? k)%string then f (snd kv) else snd kv)) a.
Proof.
  unfold upd, attr_get_or_none. induction a as [|[k0 v0] a IH]; intros N Hk; [destruct Hk|]. cbn [map fst] in N, Hk. inversion N as [|? ? N0 N1]; subst.
  cbn [attr_get attr_set map fst snd]. destruct (String.eqb_spec k0 k) as [->|Q].
  - f_equal. rewrite <- (map_id a) at 1. apply map_ext_in. intros [k1 v1] Hi. cbn [fst snd]. destruct (String.eqb_spec k1 k) as [->|_]; [|reflexivity].
    exfalso. apply N0. apply (in_map fst) in Hi. exact Hi.
  - f_equal. apply IH; [exact N1|]. destruct Hk; [congruence|assumption].
Qed.
Lemma post_init_kept c a : map fst a = slot_names c -> post_init c a = map (keep c) a.
Proof.
  intros F. pose proof (slot_names_NoDup c) as N. rewrite <- F in N.
  assert (Id : (forall k w, In (k, w) a -> kept c k w = w) -> a = map (keep c) a).
  { intros H. rewrite <- (map_id a) at 1. apply map_ext_in. intros [k w] Hi. unfold keep. cbn [fst snd]. rewrite (H k w Hi). reflexivity. }
  assert (One : forall k f, In k (slot_names c) -> (forall k0 w, In k0 (slot_names c) -> (if (k0 =? k)%string then f w else w) = kept c k0 w) -> upd k f a = map (keep c) a).
  { intros k f Hk H. rewrite upd_map; [|exact N|rewrite F; exact Hk]. apply map_ext_in. intros [k0 w] Hi. unfold keep. cbn [fst snd]. f_equal. apply H.
    rewrite <- F. apply (in_map fst) in Hi. exact Hi. }
  destruct c; cbn [post_init]; try (apply Id; intros; reflexivity).
  all: try (apply One; [vm_compute; tauto|]; intros k0 w Hi; cbn in Hi; destruct Hi as [<-|[]]; reflexivity).
  all: try (apply One; [vm_compute; tauto|]; intros k0 w Hi; cbn in Hi; repeat (destruct Hi as [<-|Hi]; [cbn [kept String.eqb Ascii.eqb Bool.eqb andb]; try reflexivity; destruct (is_none w); reflexivity|]); contradiction).
  rewrite (upd_map "concent_enabled"); [|exact N|rewrite F; vm_compute; tauto].
  assert (F1 : map fst (map (fun kv : string * pyval => (fst kv, if (fst kv =? "concent_enabled")%string then is_true (snd kv) else snd kv)) a) = map fst a) by (rewrite map_map; reflexivity).
  rewrite upd_map; [|rewrite F1; exact N|rewrite F1, F; vm_compute; tauto]. rewrite map_map. apply map_ext_in. intros [k0 w] Hi. unfold keep. cbn [fst snd kept]. f_equal.
  destruct (String.eqb_spec k0 "concent_enabled") as [->|_]; [reflexivity|]. destruct (k0 =? "num_subtasks")%string; cbn [andb]; reflexivity.
Qed.

Section Nested.
  Variable n : nat.
  Hypothesis IH : forall c s a, (rank c < n)%nat -> pure s = true -> ((exists a0, load_attrs n c s = Ok a0 /\ a = post_init c a0) <-> read c s a).
  Lemma single_exact d an k v w : (rank d < n)%nat -> pure v = true ->
    (deser_single (load_attrs n) d an k v = Ok w <-> (v = VNone /\ an = true /\ w = VNone) \/ nested d v w).
  Proof.
    intros Rd P. unfold deser_single. destruct (is_none v) eqn:N.
    - destruct v; try discriminate N. split.
      + destruct an; [|discriminate]. intros H. apply Ok_inj in H. left. auto.
      + intros [(_ & -> & ->)|H]; [reflexivity|]. inversion H; subst. discriminate.
    - assert (NV : v <> VNone) by (intros ->; discriminate N). split.
      + intros H. right. destruct (py_iter v) as [[|h [|sg [|s [|]]]]|] eqn:E; try discriminate. pose proof (pure_iter _ _ P E) as Pi.
        destruct (py_iter h) as [[|ty [|ts [|enc [|]]]]|] eqn:Eh; try (cbn in H; discriminate).
        destruct (load_attrs n d s) as [a|e] eqn:L; cbn [bind as_field_error] in H; [|exfalso; destruct e; cbn in H; discriminate].
        apply Ok_inj in H. subst w. econstructor; [exact E|exact Eh|]. apply IH; [exact Rd|apply Pi; cbn; auto|]. eauto.
      + intros [(Q & _)|H]; [contradiction|]. inversion H as [d0 v0 h sg s ty ts enc a E Eh R]; subst. pose proof (pure_iter _ _ P E) as Pi. rewrite E, Eh.
        apply IH in R; [|exact Rd|apply Pi; cbn; auto]. destruct R as (a0 & L & ->). rewrite L. reflexivity.
  Qed.
  Lemma nested_truthy d v w : nested d v w -> truthy v = true /\ v <> VNone.
  Proof.
    intros H. inversion H as [d0 v0 h sg s ty ts enc a E Eh R]; subst. assert (N : v <> VNone) by (intros ->; discriminate E). split; [|exact N].
    destruct (truthy v) eqn:T; [reflexivity|]. exfalso. destruct (falsy_iter v T) as [Q|Q]; [destruct v; try reflexivity; congruence| |]; congruence.
  Qed.
  Lemma message_exact d an il k v w : (rank d < n)%nat -> (il = true -> an = false) -> pure v = true ->
    (deser_message (load_attrs n) d an il k v = Ok w <-> slot_as (KMsg d an il) v w).
  Proof.
    intros Rd Hil P. unfold deser_message. split.
    - intros H. destruct (py_iter v) as [[|b [|v' [|]]]|] eqn:E; try discriminate. pose proof (pure_iter _ _ P E) as Pi. assert (Pv' : pure v' = true) by (apply Pi; cbn; auto).
      destruct (truthy v') eqn:T; cbn [andb] in H.
      + destruct (py_eq b (VBool il)) eqn:Eb; cbn [negb] in H; [|discriminate]. pose proof (eq_bool_truthy _ _ Eb) as Tb. rewrite Tb in H. destruct il.
        * destruct v' as [| | | | | |l| | | | | | |]; try discriminate H. apply bind_ok in H as (r & Hr & H). apply Ok_inj in H. subst w. rewrite (Hil eq_refl) in *. rewrite pure_list in Pv'.
          apply (S_many d v b l r); [exact E|exact Eb|intros ->; discriminate T|]. apply (mapM_exact (deser_single (load_attrs n) d false k) (nested d) l); [|exact Hr].
          intros x Hx y. rewrite single_exact; [|exact Rd|exact (Pv' x Hx)]. split; [intros [(_ & Q & _)|Q]; [discriminate Q|exact Q]|auto].
        * apply single_exact in H; [|exact Rd|exact Pv']. destruct H as [(-> & -> & ->)|H]; [discriminate T|]. eapply S_one; eassumption.
      + apply single_exact in H; [|exact Rd|exact Pv']. destruct H as [(-> & -> & ->)|H]; [eapply S_absent; exact E|]. destruct (nested_truthy _ _ _ H). congruence.
    - intros H. inversion H as [kd v0 w0 Hp|d0 il0 v0 i E|d0 an0 v0 i v' w0 E Ei Hn|d0 v0 i l r E Ei Nl F]; subst.
      + inversion Hp; subst. match goal with Q : _ \/ _ |- _ => destruct Q as [[? Q]|[Q|[Q|Q]]]; discriminate Q end.
      + rewrite E. reflexivity.
      + rewrite E. destruct (nested_truthy _ _ _ Hn) as [T _]. rewrite T, Ei. rewrite (eq_bool_truthy _ _ Ei). cbn [andb negb].
        apply single_exact; [exact Rd| |auto]. apply (pure_iter _ _ P E). cbn. auto.
      + rewrite E, Ei, (eq_bool_truthy _ _ Ei). assert (T : truthy (VList l) = true) by (destruct l; [congruence|reflexivity]). rewrite T. cbn [andb negb].
        assert (Pl : forall x, In x l -> pure x = true) by (apply pure_list; apply (pure_iter _ _ P E); cbn; auto).
        assert (M : mapM (deser_single (load_attrs n) d false k) l = Ok r).
        { apply (mapM_exact _ (nested d) l); [|exact F]. intros x Hx y. rewrite single_exact; [|exact Rd|exact (Pl x Hx)]. split; [intros [(_ & Q & _)|Q]; [discriminate Q|exact Q]|auto]. }
        rewrite M. reflexivity.
  Qed.
  Lemma slot_exact c k v w : (rank c < S n)%nat -> pure v = true -> (deser_slot (load_attrs n) c k v = Ok w <-> slot_as (slot_kind c k) v w).
  Proof.
    intros Rc P. unfold deser_slot. destruct (slot_kind c k) as [|e|d an il| | | | | | | | | |] eqn:K.
    3:{ apply message_exact; [|eapply list_slots_required; exact K|exact P]. pose proof (rank_decreases c k d an il K). lia. }
    all: rewrite plain_exact by (first [discriminate|exact P]); (split; [apply S_plain|intros H; inversion H; assumption]).
  Qed.
  Definition slot_read (c : mcls) (s : pyval) (k : string) (w : pyval) : Prop :=
    ((forall v, ~ supplied s k v) /\ w = VNone) \/ exists v, supplied s k v /\ slot_as (slot_kind c k) v w.
  Lemma load_slot_exact c s k k' w : (rank c < S n)%nat -> pure s = true ->
    (load_slot (load_attrs n) c (sent_slots s) k = Ok (k', w) <-> k' = k /\ slot_read c s k w).
  Proof.
    intros Rc P. unfold load_slot, slot_read. destruct (dict_get (skey k) (sent_slots s)) as [v|] eqn:G.
    - assert (Pv : pure v = true).
      { apply dict_get_in in G as (k0 & G). unfold sent_slots in G. destruct (py_dict_of s) as [kvs|] eqn:D; [|destruct G]. exact (proj2 (proj1 (pures_dict_of _ _ P D) _ _ G)). }
      pose proof (slot_exact c k v) as SE. split.
      + intros H. apply bind_ok in H as (v' & Hv & H). apply Ok_inj in H. assert (k' = k /\ v' = w) as [-> ->] by (split; congruence). split; [reflexivity|]. right. exists v.
        split; [apply given_exact; assumption|]. apply SE; assumption.
      + intros [-> [[N _]|(v' & Hs & Hv)]]; [exfalso; apply (N v); apply given_exact; assumption|]. apply given_exact in Hs; [|exact P].
        assert (v' = v) as -> by congruence. apply SE in Hv; [|exact Rc|exact Pv]. rewrite Hv. reflexivity.
    - split.
      + intros H. apply Ok_inj in H. assert (k' = k /\ w = VNone) as [-> ->] by (split; congruence). split; [reflexivity|]. left. split; [|reflexivity]. intros v Hs. apply given_exact in Hs; [congruence|exact P].
      + intros [-> [[N ->]|(v & Hs & _)]]; [reflexivity|]. apply given_exact in Hs; [congruence|exact P].
  Qed.
End Nested.
Lemma load_slots_mapM rec c s a : c <> MStartSessionResponse -> (load_slots rec c s = Ok a <-> mapM (load_slot rec c (sent_slots s)) (slot_names c) = Ok a).
Proof.
  intros N. unfold load_slots. cbv zeta. fold (sent_slots s). destruct c; try congruence; (destruct (mapM _ _) as [r|e]; [reflexivity|destruct e; cbn; split; discriminate]).
Qed.
Lemma collect_kept {A B C} (f : A -> result B) (g : B -> C) (h : C -> A) a : Forall (fun x => exists y, f (h x) = Ok y /\ x = g y) a -> exists a0, mapM f (map h a) = Ok a0 /\ a = map g a0.
Proof.
  induction 1 as [|x a (y & Hy & E) F (a0 & H0 & ->)]; [exists []; auto|]. exists (y :: a0). cbn [map mapM]. rewrite Hy. cbn [bind]. rewrite H0. split; [reflexivity|]. rewrite E at 1. reflexivity.
Qed.
Theorem read_exact n : forall c s a, (rank c < n)%nat -> pure s = true -> ((exists a0, load_attrs n c s = Ok a0 /\ a = post_init c a0) <-> read c s a).
Proof.
  induction n as [|n IH]; intros c s a Rc P; [lia|]. cbn [load_attrs].
  destruct (mcls_eq_dec c MStartSessionResponse) as [->|Nc].
  { split; [intros (a0 & H & ->); apply Ok_inj in H; subst; constructor|]. intros H. inversion H as [|? ? ? Q]; subst; [|congruence]. exists [("conn_id"%string, VNone)]. auto. }
  pose proof (load_slot_exact n IH c s) as LS. split.
  - intros (a0 & H & ->). apply (load_slots_mapM _ _ _ _ Nc) in H.
    pose proof (proj1 (mapM_exact (load_slot (load_attrs n) c (sent_slots s)) (fun k kv => fst kv = k /\ slot_read c s k (snd kv)) (slot_names c)
      (fun k _ kv => match kv with (k', w) => LS k k' w Rc P end) a0) H) as F.
    assert (K : map fst a0 = slot_names c) by (clear - F; induction F as [|k kv l r [Q _] F IH]; cbn [map]; congruence).
    rewrite (post_init_kept c a0 K). constructor; [exact Nc|rewrite map_map; exact K|]. intros k w Hi. apply in_map_iff in Hi as ([k0 w0] & E & Hi). unfold keep in E. cbn [fst snd] in E.
    assert (k0 = k /\ w = kept c k w0) as [-> ->] by (split; congruence).
    assert (Q : slot_read c s k w0).
    { clear - F Hi. induction F as [|k1 kv l r [Q1 Q2] F IH]; [destruct Hi|]. destruct Hi as [->|Hi]; [|exact (IH Hi)]. cbn [fst snd] in *. subst. exact Q2. }
    destruct Q as [[Q1 ->]|(v & Q1 & Q2)]; [left; auto|right; eauto 10].
  - intros H. inversion H as [|c0 s0 a1 _ K F]; subst; [congruence|].
    destruct (collect_kept (load_slot (load_attrs n) c (sent_slots s)) (keep c) fst a) as (a0 & H0 & E).
    + apply Forall_forall. intros [k w] Hi. cbn [fst]. destruct (F k w Hi) as [[Q ->]|(v & w0 & Q1 & Q2 & ->)].
      * exists (k, VNone). split; [apply LS; [exact Rc|exact P|]; split; [reflexivity|left; auto]|reflexivity].
      * exists (k, w0). split; [apply LS; [exact Rc|exact P|]; split; [reflexivity|right; eauto]|reflexivity].
    + exists a0. rewrite K in H0. split; [apply load_slots_mapM; assumption|]. rewrite post_init_kept; [exact E|].
      apply (load_slots_mapM _ _ _ _ Nc) in H0. eapply load_slots_keys. exact H0.
Qed.
Theorem read_is_load c s a : pure s = true -> ((exists a0, load_attrs FUEL c s = Ok a0 /\ a = post_init c a0) <-> read c s a).
Proof. intros P. apply read_exact; [apply rank_bound|exact P]. Qed.
Corollary read_unique c s a a' : pure s = true -> read c s a -> read c s a' -> a = a'.
Proof. intros P H H'. apply read_is_load in H as (x & Hx & ->), H' as (y & Hy & ->); try exact P. congruence. Qed.
