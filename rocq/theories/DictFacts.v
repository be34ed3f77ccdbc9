(** * What a new frozen dict holds under each key *)
From Verif Require Export DataFacts.

Lemma dset_step d kvs k v kvs' : d <> DPlain -> dinv d kvs -> dset d kvs k v = Ok kvs' ->
  dinv d kvs' /\ exists t w, str_of k = Some t /\ dict_get (VStr t) kvs' = Some w /\
    (w = v \/ (d = DPeer /\ t = u "node" /\ exists n, w = VObj CNode n)) /\
    forall t', t' <> t -> dict_get (VStr t') kvs' = dict_get (VStr t') kvs.
Proof.
  intros Hd HI H. split; [exact (proj1 (dset_dinv _ _ _ _ _ Hd HI H))|]. apply dset_spec in H; [|exact Hd].
  destruct H as (t & w & Ht & _ & _ & -> & Hw). pose proof (dinv_keys _ _ HI) as HF.
  exists t, w. split; [exact Ht|]. split; [apply dict_get_set_same; assumption|]. split.
  - destruct Hw as [->|(-> & -> & c & n & kw & _ & _ & Hn)]; [auto|]. right. split; [reflexivity|]. split; [reflexivity|].
    apply (cnew_leaf_ok CNode) in Hn as (a & -> & _); [|reflexivity]. eauto.
  - intros t' Hne. apply (dict_get_set_other t); assumption.
Qed.
Lemma dset_all_get d l t : d <> DPlain -> forall kvs kvs', dinv d kvs -> dset_all d kvs l = Ok kvs' ->
  (forall k v, In (k, v) l -> str_of k <> Some t) -> dict_get (VStr t) kvs' = dict_get (VStr t) kvs.
Proof.
  intros Hd. induction l as [|[k v] l IH]; intros kvs kvs' HI; cbn [dset_all]; intros H N.
  - apply Ok_inj in H; subst. reflexivity.
  - apply bind_ok in H as (kvs1 & H1 & H2). destruct (dset_step _ _ _ _ _ Hd HI H1) as (HI1 & t1 & w & Ht & _ & _ & O).
    rewrite (IH _ _ HI1 H2) by (intros k0 v0 Hi; apply (N k0 v0); right; exact Hi). apply O.
    intros ->. exact (N k v (or_introl eq_refl) Ht).
Qed.
(** the last entry for a key counts *)
Lemma dset_all_given d t : d <> DPlain -> forall l kvs kvs' k v l', dinv d kvs -> dset_all d kvs (l ++ (k, v) :: l') = Ok kvs' ->
  str_of k = Some t -> (forall k v, In (k, v) l' -> str_of k <> Some t) ->
  exists w, dict_get (VStr t) kvs' = Some w /\ (w = v \/ (d = DPeer /\ t = u "node" /\ exists n, w = VObj CNode n)).
Proof.
  intros Hd l. induction l as [|[k0 v0] l IH]; intros kvs kvs' k v l' HI; cbn [dset_all app]; intros H Hk N.
  - apply bind_ok in H as (kvs1 & H1 & H2). destruct (dset_step _ _ _ _ _ Hd HI H1) as (HI1 & t1 & w & Ht & G & W & _).
    assert (t1 = t) by congruence. subst t1. exists w. split; [|exact W]. rewrite (dset_all_get _ _ _ Hd _ _ HI1 H2 N). exact G.
  - apply bind_ok in H as (kvs1 & H1 & H2). destruct (dset_step _ _ _ _ _ Hd HI H1) as (HI1 & _). eapply IH; eassumption.
Qed.
Lemma dset_defaults_get d its : d <> DPlain -> NoDup (map fst its) -> forall kvs kvs', dinv d kvs -> dset_defaults d kvs its = Ok kvs' ->
  (forall t w, dict_get (VStr t) kvs = Some w -> dict_get (VStr t) kvs' = Some w) /\
  (forall s w, In (s, w) its -> dict_get (skey s) kvs = None -> exists w', dict_get (skey s) kvs' = Some w' /\
     (w' = w \/ (d = DPeer /\ s = "node"%string /\ exists n, w' = VObj CNode n))).
Proof.
  intros Hd. induction its as [|[s w] its IH]; intros N kvs kvs' HI; cbn [dset_defaults]; intros H.
  - apply Ok_inj in H; subst. split; [auto|easy].
  - cbn [map fst] in N. inversion N as [|? ? N0 N1]; subst. destruct (dict_get (skey s) kvs) as [w0|] eqn:E.
    + destruct (IH N1 _ _ HI H) as (A & B). split; [exact A|]. intros s1 w1 [Hi|Hi]; [injection Hi as <- <-; congruence|eauto].
    + apply bind_ok in H as (kvs1 & H1 & H2). destruct (dset_step _ _ _ _ _ Hd HI H1) as (HI1 & t1 & w1 & Ht & G & W & O).
      cbn [str_of skey] in Ht. assert (t1 = u s) by congruence. subst t1. destruct (IH N1 _ _ HI1 H2) as (A & B). split.
      * intros t w2 Q. apply A. rewrite O; [exact Q|]. intros ->. unfold skey in E. congruence.
      * intros s2 w2 [Hi|Hi] Q.
        -- injection Hi as <- <-. exists w1. split; [apply A; exact G|]. destruct W as [W|(D & S & n)]; [auto|].
           right. apply u_inj in S. auto.
        -- apply (B s2 w2 Hi). unfold skey. rewrite O; [exact Q|]. intros K. apply u_inj in K. subst s2.
           apply N0. apply in_map_iff. exists (s, w2). auto.
Qed.

(** the documented value of a key that is not given, by its name *)
Definition documented_default (k : string) : pyval :=
  if existsb (String.eqb k) ["task_id"; "subtask_id"; "path"; "checksum"]%string then VStr []
  else if existsb (String.eqb k) ["resources"; "percpu_usage"]%string then VList []
  else if existsb (String.eqb k) ["docker_images"; "op"]%string then VNone
  else if (k =? "extra_data")%string then VDict DPlain []
  else if (k =? "category")%string then VEnum EnFileCategory "results"
  else VInt 0.
Lemma peer_none k : In k ["address"; "port"; "node"]%string -> forall kvs, exists e, dset DPeer kvs (skey k) VNone = Err e.
Proof. intros [<-|[<-|[<-|[]]]] kvs; cbn; eauto. Qed.
Lemma dset_defaults_peer its : forall kvs kvs', dset_defaults DPeer kvs its = Ok kvs' ->
  forall s, In (s, VNone) its -> In s ["address"; "port"; "node"]%string -> (forall w, In (s, w) its -> w = VNone) -> NoDup (map fst its) ->
  dinv DPeer kvs -> dict_get (skey s) kvs <> None.
Proof.
  induction its as [|[s0 w0] its IH]; intros kvs kvs' H s Hi Hs U N HI; [easy|]. cbn [dset_defaults] in H. cbn [map fst] in N. inversion N as [|? ? N0 N1]; subst.
  destruct (String.string_dec s0 s) as [->|Hne].
  - assert (w0 = VNone) by (apply U; left; reflexivity). subst w0. destruct (dict_get (skey s) kvs); [discriminate|].
    destruct (peer_none s Hs kvs) as [e Q]. rewrite Q in H. discriminate H.
  - destruct Hi as [Hi|Hi]; [congruence|]. assert (U' : forall w, In (s, w) its -> w = VNone) by (intros w Hw; apply U; right; exact Hw).
    destruct (dict_get (skey s0) kvs) eqn:E; [exact (IH _ _ H s Hi Hs U' N1 HI)|].
    apply bind_ok in H as (kvs1 & H1 & H2). destruct (dset_step DPeer _ _ _ _ ltac:(discriminate) HI H1) as (HI1 & t1 & w1 & Ht & G & W & O).
    pose proof (IH _ _ H2 s Hi Hs U' N1 HI1) as Q. cbn [str_of skey] in Ht. assert (t1 = u s0) by congruence. subst t1.
    unfold skey in Q |- *. rewrite O in Q; [exact Q|]. intros K. apply u_inj in K. congruence.
Qed.
Lemma items_nodup d : NoDup (map fst (items d)).
Proof. apply snodup_NoDup. destruct d; vm_compute; reflexivity. Qed.
Lemma items_default d k w : d <> DPeer -> In (k, w) (items d) -> w = documented_default k.
Proof.
  intros Hd Hi. destruct d; try congruence; cbn [items In] in Hi;
    repeat (destruct Hi as [Hi|Hi]; [injection Hi as <- <-; reflexivity|]); contradiction.
Qed.
Lemma dict_built d dd l kvs k : d <> DPlain -> dict_new d (VDict dd l) = Ok (VDict d kvs) -> In k (documented_keys d) ->
  (forall pre k' v post, l = pre ++ (k', v) :: post -> str_of k' = Some (u k) -> (forall k1 v1, In (k1, v1) post -> str_of k1 <> Some (u k)) ->
     exists w, dict_get (VStr (u k)) kvs = Some w /\ (w = v \/ (d = DPeer /\ k = "node"%string /\ exists n, w = VObj CNode n))) /\
  ((forall k' v, In (k', v) l -> str_of k' <> Some (u k)) -> d <> DPeer /\ dict_get (VStr (u k)) kvs = Some (documented_default k)).
Proof.
  intros Hd H Hk. unfold dict_new in H. apply bind_ok in H as (kvs0 & H1 & H). apply bind_ok in H as (kvs1 & H2 & H).
  assert (kvs1 = kvs) by congruence. subst kvs1. clear H.
  assert (D0 : dinv d []) by (split; [constructor|easy]). destruct (dset_all_dinv _ _ _ _ Hd D0 H1) as [D1 _].
  destruct (dset_defaults_get d (items d) Hd (items_nodup d) _ _ D1 H2) as [A B].
  assert (I : exists w, In (k, w) (items d)).
  { destruct d; cbn [documented_keys In] in Hk; cbn [items In];
      repeat (destruct Hk as [<-|Hk]; [eexists; tauto|]); contradiction. }
  destruct I as [w I]. split.
  - intros pre k' v post -> Hk' N. destruct (dset_all_given d (u k) Hd _ _ _ _ _ _ D0 H1 Hk' N) as (w' & G & W).
    exists w'. split; [apply A; exact G|]. destruct W as [W|(-> & K & W)]; [auto|]. right. apply u_inj in K. auto.
  - intros N. assert (G : dict_get (VStr (u k)) kvs0 = None) by (rewrite (dset_all_get _ _ _ Hd _ _ D0 H1 N); reflexivity).
    assert (P : d <> DPeer).
    { intros ->. apply (dset_defaults_peer _ _ _ H2 k) in G; [contradiction| | | | |exact D1].
      - cbn [items In] in *. destruct I as [I|[I|[I|[]]]]; injection I as <- <-; tauto.
      - exact Hk.
      - intros w1 I1. cbn [items In] in I1. destruct I1 as [I1|[I1|[I1|[]]]]; injection I1 as <- <-; reflexivity.
      - apply items_nodup. }
    split; [exact P|]. destruct (B k w I G) as (w' & G' & [->|(D & _)]); [|contradiction].
    rewrite (items_default d k w P I) in G'. exact G'.
Qed.
