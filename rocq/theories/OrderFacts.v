(** * The order in which a container is given its fields (C33, C34): lemmas. *)
From Coq Require Export Permutation.
From Verif Require Export DataFacts.
Local Open Scope Z_scope.

(** [**kw] of a dict with the keys and values of [kw], in this order *)
Definition kw_dict (kw : list (ustr * pyval)) : pyval := VDict DPlain (map (fun kv => (VStr (fst kv), snd kv)) kw).

Lemma kw_get_in k v kw : NoDup (map fst kw) -> (kw_get k kw = Some v <-> In (k, v) kw).
Proof.
  induction kw as [|[k' v'] kw IH]; cbn [kw_get map fst In]; intros N; [split; [discriminate|contradiction]|].
  apply NoDup_cons_iff in N as [N1 N]. specialize (IH N).
  destruct (ustr_eqb k' k) eqn:E.
  - apply ustr_eqb_eq in E. subst k'. split.
    + intros H. apply Some_inj in H. subst v'. left. reflexivity.
    + intros [H|H]; [congruence|]. exfalso. apply N1, in_map_iff. exists (k, v). auto.
  - rewrite IH. split; [auto|]. intros [H|H]; [|exact H]. injection H as <- <-.
    assert (ustr_eqb k' k' = true) by (apply ustr_eqb_eq; reflexivity). congruence.
Qed.
Lemma kw_get_perm k kw kw' : Permutation kw kw' -> NoDup (map fst kw) -> kw_get k kw' = kw_get k kw.
Proof.
  intros P N. assert (N' : NoDup (map fst kw')) by (eapply Permutation_NoDup; [apply Permutation_map, P|exact N]).
  destruct (kw_get k kw) as [v|] eqn:E.
  - apply kw_get_in in E; [|exact N]. apply kw_get_in; [exact N'|]. eapply Permutation_in; eassumption.
  - destruct (kw_get k kw') as [v|] eqn:E'; [|reflexivity]. apply kw_get_in in E'; [|exact N'].
    apply Permutation_sym in P. apply (Permutation_in _ P) in E'. apply kw_get_in in E'; [congruence|exact N].
Qed.
Lemma mapM_ext {A B} (f g : A -> result B) l : (forall x, f x = g x) -> mapM f l = mapM g l.
Proof. intros H. induction l as [|x l IH]; [reflexivity|]. cbn [mapM]. rewrite H, IH. reflexivity. Qed.

Lemma unknown_not c k : cknown c k = false <-> ~ exists s, In s (cslots c) /\ k = u s.
Proof. rewrite <- cknown_iff. destruct (cknown c k); split; intros; congruence. Qed.
Lemma cinit_perm h c kw kw' : Permutation kw kw' -> NoDup (map fst kw) ->
  cinit h c kw' = cinit h c kw \/
  exists k k', cinit h c kw = Err (EFieldError k) /\ cinit h c kw' = Err (EFieldError k') /\
    In k (map fst kw) /\ In k' (map fst kw) /\ cknown c k = false /\ cknown c k' = false.
Proof.
  intros P N. unfold cinit, cload_slots.
  rewrite (mapM_ext (cload_slot h c kw') (cload_slot h c kw)) by (intros k; unfold cload_slot; rewrite (kw_get_perm (u k) kw kw' P N); reflexivity).
  destruct (mapM (cload_slot h c kw) (cslots c)) as [a|e]; cbn [bind]; [|left; reflexivity].
  destruct (find (fun kv => negb (cknown c (fst kv))) kw) as [[k v]|] eqn:F;
    destruct (find (fun kv => negb (cknown c (fst kv))) kw') as [[k' v']|] eqn:F'.
  - right. exists k, k'. apply find_some in F as [I F], F' as [I' F']. cbn [fst] in F, F'. apply negb_true_iff in F, F'.
    split; [reflexivity|]. split; [reflexivity|]. split; [apply in_map_iff; exists (k, v); auto|]. split; [|auto].
    apply in_map_iff. exists (k', v'). split; [reflexivity|]. eapply Permutation_in; [apply Permutation_sym, P|exact I'].
  - exfalso. apply find_some in F as [I F]. apply (Permutation_in _ P) in I. pose proof (find_none _ _ F' _ I) as X. cbn [fst] in F, X. congruence.
  - exfalso. apply find_some in F' as [I F']. apply (Permutation_in _ (Permutation_sym P)) in I. pose proof (find_none _ _ F _ I) as X. cbn [fst] in F', X. congruence.
  - left. reflexivity.
Qed.
Lemma keyword_order c kw kw' : Permutation kw kw' -> NoDup (map fst kw) ->
  cnew c kw' = cnew c kw \/
  exists k k', cnew c kw = Err (EFieldError k) /\ cnew c kw' = Err (EFieldError k') /\
    In k (map fst kw) /\ In k' (map fst kw) /\ (~ exists s, In s (cslots c) /\ k = u s) /\ (~ exists s, In s (cslots c) /\ k' = u s).
Proof.
  intros P N. destruct (cinit_perm (chook c) c kw kw' P N) as [H|(k & k' & H1 & H2 & H3 & H4 & H5 & H6)]; [left; exact H|right].
  exists k, k'. repeat (split; [assumption|]). split; apply unknown_not; assumption.
Qed.

Lemma kwargs_kw kw kw1 : kwargs_of (map (fun kv => (VStr (fst kv), snd kv)) kw) = Ok kw1 -> kw1 = kw.
Proof.
  revert kw1. induction kw as [|[k v] kw IH]; cbn [map kwargs_of fst snd str_of]; intros kw1 H; [apply Ok_inj in H; auto|].
  destruct (ustr_eqb k (u "self")); [discriminate|]. apply bind_ok in H as (r & Hr & H). apply Ok_inj in H. rewrite (IH _ Hr) in H. auto.
Qed.
Lemma kwargs_all kw : (forall v, ~ In (u "self", v) kw) -> kwargs_of (map (fun kv => (VStr (fst kv), snd kv)) kw) = Ok kw.
Proof.
  induction kw as [|[k v] kw IH]; cbn [map kwargs_of fst snd str_of]; intros H; [reflexivity|].
  destruct (ustr_eqb k (u "self")) eqn:E. { apply ustr_eqb_eq in E. subst k. exfalso. apply (H v). left. reflexivity. }
  rewrite IH by (intros w I; apply (H w); right; exact I). reflexivity.
Qed.
Lemma kwargs_no_self kw kw1 v : kwargs_of (map (fun kv => (VStr (fst kv), snd kv)) kw) = Ok kw1 -> ~ In (u "self", v) kw.
Proof.
  revert kw1. induction kw as [|[k w] kw IH]; cbn [map kwargs_of fst snd str_of]; intros kw1 H I; [destruct I|].
  destruct (ustr_eqb k (u "self")) eqn:E; [discriminate|]. apply bind_ok in H as (r & Hr & _). destruct I as [I|I]; [|exact (IH _ Hr I)].
  assert (Ek : k = u "self") by congruence. rewrite Ek in E. vm_compute in E. discriminate.
Qed.
Lemma kw_get_mid k o o' pre post : kw_get k (pre ++ (u "task_owner", o) :: post) = kw_get k (pre ++ (u "task_owner", o') :: post) \/
  k = u "task_owner" /\ kw_get k (pre ++ (u "task_owner", o) :: post) = Some o /\ kw_get k (pre ++ (u "task_owner", o') :: post) = Some o'.
Proof.
  induction pre as [|[k1 v1] pre IH]; cbn [app kw_get].
  - destruct (ustr_eqb (u "task_owner") k) eqn:E; [|left; reflexivity]. apply ustr_eqb_eq in E. subst k. right. auto.
  - destruct (ustr_eqb k1 k); [left; reflexivity|exact IH].
Qed.
Lemma find_mid (f : ustr * pyval -> bool) o o' pre post : (forall k v v', f (k, v) = f (k, v')) ->
  find f (pre ++ (u "task_owner", o) :: post) = None -> find f (pre ++ (u "task_owner", o') :: post) = None.
Proof.
  intros Hf. induction pre as [|x pre IH]; cbn [app find].
  - rewrite (Hf _ o' o). destruct (f (u "task_owner", o)); [discriminate|auto].
  - destruct (f x); [discriminate|exact IH].
Qed.
Lemma mapM_ok_ext {A B} (f g : A -> result B) l r : (forall x y, f x = Ok y -> g x = Ok y) -> mapM f l = Ok r -> mapM g l = Ok r.
Proof.
  intros H. revert r. induction l as [|x l IH]; cbn [mapM]; intros r E; [exact E|].
  apply bind_ok in E as (y & Hy & E). apply bind_ok in E as (ys & Hs & E). rewrite (H _ _ Hy), (IH _ Hs). exact E.
Qed.
Lemma owner_slot n n' w : Permutation n n' -> NoDup (map fst n) ->
  cdeser_slot header_hook CTaskHeader "task_owner" (kw_dict n) = Ok w -> cdeser_slot header_hook CTaskHeader "task_owner" (kw_dict n') = Ok w.
Proof.
  intros P N. unfold kw_dict.
  change (match (do kw <- kwargs_of (map (fun kv => (VStr (fst kv), snd kv)) n); node_new kw) with Err EAttributeError => Ok (kw_dict n) | r => r end = Ok w ->
          match (do kw <- kwargs_of (map (fun kv => (VStr (fst kv), snd kv)) n'); node_new kw) with Err EAttributeError => Ok (kw_dict n') | r => r end = Ok w).
  destruct (kwargs_of (map _ n)) as [kw|e] eqn:K; cbn [bind].
  - pose proof (kwargs_kw _ _ K) as ->. rewrite kwargs_all. 2:{ intros v I. apply (kwargs_no_self _ _ v K). eapply Permutation_in; [apply Permutation_sym, P|exact I]. }
    cbn [bind]. unfold node_new. destruct (cinit_perm (fun _ => None) CNode n n' P N) as [-> |(k & k' & -> & _)]; [|discriminate].
    destruct (cinit (fun _ => None) CNode n) as [o|e] eqn:Ec; [auto|]. apply cinit_err in Ec as [[f ->] | ->]; discriminate.
  - assert (e = ETypeError). { apply (star_star_err (kw_dict n)). exact K. } subst e. discriminate.
Qed.
Lemma owner_order pre post n n' a : Permutation n n' -> NoDup (map fst n) ->
  cnew CTaskHeader (pre ++ (u "task_owner", kw_dict n) :: post) = Ok a -> cnew CTaskHeader (pre ++ (u "task_owner", kw_dict n') :: post) = Ok a.
Proof.
  intros P N. unfold cnew, cinit, cload_slots.
  destruct (mapM (cload_slot (chook CTaskHeader) CTaskHeader (pre ++ (u "task_owner", kw_dict n) :: post)) (cslots CTaskHeader)) as [r|e] eqn:M;
    cbn [bind]; [|destruct (is_field_error e); discriminate].
  rewrite (mapM_ok_ext (cload_slot (chook CTaskHeader) CTaskHeader (pre ++ (u "task_owner", kw_dict n) :: post)) (cload_slot (chook CTaskHeader) CTaskHeader (pre ++ (u "task_owner", kw_dict n') :: post)) _ r); [| |exact M].
  - cbn [bind]. destruct (find (fun kv => negb (cknown CTaskHeader (fst kv))) (pre ++ (u "task_owner", kw_dict n) :: post)) as [[k v]|] eqn:F; [discriminate|].
    rewrite (find_mid _ (kw_dict n) (kw_dict n') pre post); [auto|reflexivity|exact F].
  - intros k y. unfold cload_slot. destruct (kw_get_mid (u k) (kw_dict n) (kw_dict n') pre post) as [-> |(Ek & -> & ->)]; [auto|].
    apply u_inj in Ek. subst k. intros H. apply bind_ok in H as (w & Hw & H). change (chook CTaskHeader) with header_hook in *. rewrite (owner_slot _ _ _ P N Hw). exact H.
Qed.
