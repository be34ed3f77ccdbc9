(** * Proofs about [ReadSpec]: containers, frozen dicts and slots *)
From Verif Require Export ReadSpec VetFacts.

Lemma Forall_one {A} (P : A -> Prop) x : Forall P [x] <-> P x.
Proof. split; [intros H; inversion H; assumption|auto]. Qed.
Lemma Forall_two {A} (P : A -> Prop) x y : Forall P [x; y] <-> P x /\ P y.
Proof. rewrite Forall_cons_iff, Forall_one. reflexivity. Qed.
Lemma pure_is_str v s : pure v = true -> (is_str v s <-> v = VStr s).
Proof.
  intros P. rewrite <- str_of_iff. destruct v; cbn [str_of]; try (split; discriminate); try discriminate P. split; congruence.
Qed.
Lemma short_iff f v : pure v = true -> (validate_varchar128 f v = Ok tt <-> short_text v).
Proof. intros P. rewrite varchar128_iff. unfold short_text. split; intros (s & H & L); exists s; split; auto; apply (pure_is_str v s P); exact H. Qed.
Lemma anystr_iff f v : pure v = true -> (validate_anystr f v = Ok tt <-> exists s, v = VStr s).
Proof.
  intros P. unfold validate_anystr. destruct v; cbn [str_of]; try (split; [discriminate|intros [s H]; discriminate H]); try discriminate P. split; eauto.
Qed.
Lemma version_text_iff f v : pure v = true -> (validate_version f v = Ok tt <-> version_text v).
Proof.
  intros P. rewrite version_iff. unfold version_text. split; intros (s & ver & H & R); exists s, ver; (split; [apply (pure_is_str v s P); exact H|exact R]).
Qed.
Lemma vcheck_iff p f v : vcheck p f v = Ok tt <-> p v = true.
Proof. unfold vcheck, fail_unless. destruct (p v); split; congruence. Qed.
Lemma adict_iff f v : pure v = true -> (validate_dict f v = Ok tt <-> a_dict v).
Proof.
  intros P. rewrite dict_iff. unfold a_dict. split; [|intros [kvs ->]; eauto]. intros (c & kvs & ->). destruct c; try discriminate P. eauto.
Qed.
Lemma isdict_iff v : pure v = true -> (is_dict v = true <-> a_dict v).
Proof. intros P. unfold a_dict. destruct v; cbn [is_dict]; try (split; [discriminate|intros [x H]; discriminate H]). split; [|reflexivity]. destruct c; try discriminate P. eauto. Qed.
Lemma isdictor_iff c v : pure v = true -> (is_dict_or c v = true <-> a_dict v).
Proof. intros P. rewrite <- isdict_iff by exact P. destruct v; try reflexivity. discriminate P. Qed.
Ltac inl H := cbn [In] in H; repeat (destruct H as [H|H]; [try discriminate H; try subst|]); try contradiction.
Ltac each_slot Hk := cbn [cslots In] in Hk; repeat (destruct Hk as [<-|Hk]; [|]); try contradiction.


Lemma node_exact : exact_field CNode node_field.
Proof.
  intros k Hk. split.
  - intros v w P _. each_slot Hk; unfold converted; cbn [chook cvalidators existsb String.eqb Ascii.eqb Bool.eqb orb];
      rewrite ?Forall_one, ?(anystr_iff _ v P), ?(short_iff _ v P), ?port_iff, ?ipaddress_iff, ?integer_iff; fold (address v); fold (port_number v); fold (integer v).
    all: split; [intros H; inversion H; subst; try match goal with I : In _ _ |- _ => inl I end; eauto|].
    all: intros [Q ->].
    all: first [apply NF_key; exact Q
      |apply NF_port; [cbn; tauto|exact Q]
      |apply NF_addr; [cbn; tauto|exact Q]
      |apply NF_hyper; [cbn; tauto|exact Q]
      |apply NF_any; cbn; tauto
      |destruct Q as [s ->]; apply NF_name].
  - intros w _ H. inversion H; subst; try reflexivity.
Qed.
Lemma node_built v w : pure v = true -> ((do kw <- star_star v; node_new kw) = Ok w <-> node v w).
Proof. intros P. exact (built_iff CNode node_field v w node_exact P). Qed.
Lemma bytes_iff v : is_bytes v = true <-> exists b, v = VBytes b.
Proof. destruct v; cbn; split; try discriminate; try (intros [x H]; discriminate H); eauto. Qed.
Lemma int_check_iff p v : int_check p v = true <-> exists z, v = VInt z /\ p z = true.
Proof. destruct v; cbn; split; try discriminate; try (intros (x & H & _); discriminate H); eauto. intros (x & H & Q). congruence. Qed.
Lemma leb_timeout v : (exists z, v = VInt z) /\ (exists z, v = VInt z /\ (0 <=? z) = true) <-> exists z, v = VInt z /\ 0 <= z.
Proof. split; [intros [_ (z & -> & H)]; exists z; split; [reflexivity|apply Z.leb_le, H]|intros (z & -> & H); split; eauto]. exists z. split; [reflexivity|apply Z.leb_le, H]. Qed.
Lemma ltb_count v : (exists z, v = VInt z) /\ (exists z, v = VInt z /\ (0 <? z) = true) <-> exists z, v = VInt z /\ 0 < z.
Proof. split; [intros [_ (z & -> & H)]; exists z; split; [reflexivity|apply Z.ltb_lt, H]|intros (z & -> & H); split; eauto]. exists z. split; [reflexivity|apply Z.ltb_lt, H]. Qed.
Lemma enum_call_iff e v w : pure v = true -> (enum_call e v = Some w <-> exists m, In m (members e) /\ v = VStr (u m) /\ w = VEnum e m).
Proof.
  intros P. split; [|intros (m & Hm & -> & ->); exact (enum_call_str e m Hm)].
  destruct v; cbn [enum_call str_of]; try discriminate; try discriminate P.
  intros H. destruct (find _ _) as [m|] eqn:F; [|discriminate]. cbn [option_map] in H. apply Some_inj in H. apply find_some in F as [Hm F]. apply ustr_eqb_eq in F. subst. eauto.
Qed.
Lemma header_exact : exact_field CTaskHeader header_field.
Proof.
  intros k Hk. split.
  - intros v w P R. each_slot Hk; unfold converted; cbn [chook header_hook cvalidators existsb String.eqb Ascii.eqb Bool.eqb orb];
      rewrite ?Forall_one, ?Forall_two, ?vcheck_iff, ?(short_iff _ v P), ?boolean_iff, ?(version_text_iff _ v P), ?(adict_iff _ v P), ?(isdictor_iff _ v P), ?bytes_iff, ?integer_iff, ?int_check_iff,
        ?leb_timeout, ?ltb_count; fold (integer v).
    all: split.
    all: try (intros H; inversion H; subst; repeat match goal with I : In _ _ |- _ => inl I end; eauto; fail).
    all: try (intros [Q ->]; first [apply HF_int; [cbn; tauto|exact Q]|apply HF_text; [cbn; tauto|exact Q]|apply HF_prerequisites; exact Q|apply HF_version; exact Q]; fail).
    all: try (intros [(x & -> & Q) ->]; constructor; assumption).
    all: try (intros [[x ->] Q]; first [rewrite Q|apply Ok_inj in Q; rewrite <- Q]; constructor; fail).
    + intros H. inversion H; subst; repeat match goal with I : In _ _ |- _ => inl I end. match goal with N : node _ _ |- _ => rename N into N0 end.
      assert (D : a_dict v) by (inversion N0; subst; eexists; reflexivity). split; [exact D|]. destruct D as [kvs ->]. apply node_built in N0; [exact N0|exact P].
    + intros [[kvs ->] H]. constructor. apply node_built; assumption.
    + intros [_ H]. destruct (enum_call EnMarketType v) as [m|] eqn:C; [|discriminate H]. apply Ok_inj in H. subst m. apply (enum_call_iff _ _ _ P) in C as (m & Hm & -> & ->).
      constructor. exact Hm.
  - intros w _ H. inversion H; subst; try reflexivity.
    match goal with N : node _ _ |- _ => inversion N end.
Qed.
Lemma header_built v w : pure v = true -> (cnew_star CTaskHeader v = Ok w <-> header v w).
Proof. intros P. exact (built_iff CTaskHeader header_field v w header_exact P). Qed.

(** ** Frozen dicts *)
Lemma dset_known d kvs k v kvs' : d <> DPlain -> plainkey k = true -> dset d kvs k v = Ok kvs' -> exists s, In s (documented_keys d) /\ k = skey s.
Proof.
  intros Hd P H. assert (E : existsb (fun it => py_eq (skey (fst it)) k) (items d) = true).
  { unfold dset in H. destruct d; try congruence; apply bind_ok in H as (v1 & _ & H); apply bind_ok in H as (u1 & _ & H); destruct (negb (hashable k)); try discriminate H;
      match type of H with (if ?b then _ else _) = _ => destruct b eqn:E; [reflexivity|discriminate H] end. }
  apply existsb_exists in E as ([s w] & Hi & E). cbn [fst] in E. apply (pure_key s k P) in E. exists s. split; [|exact E].
  rewrite documented_items. apply (in_map fst) in Hi. exact Hi.
Qed.
Definition step_exact (d : dcls) (T : pyval * pyval -> pyval * pyval -> Prop) (k v : pyval) : Prop :=
  forall kvs kvs', dset d kvs k v = Ok kvs' <-> exists kv, T (k, v) kv /\ kvs' = dict_set (fst kv) (snd kv) kvs.
Definition loadable (d : dcls) : Prop := d = DCTD \/ d = DPeer \/ d = DCpuUsage \/ d = DThrottling.
Lemma taken_as d k v w : item_as d k v w -> taken d (skey k, v) (skey k, w).
Proof. intros H. exists k. auto. Qed.
Lemma dset_step_exact d k v : loadable d -> pure k = true -> pure v = true -> step_exact d (taken d) k v.
Proof.
  intros Hd Pk Pv kvs kvs'. split.
  - intros H. assert (N : d <> DPlain) by (destruct Hd as [->|[->|[->| ->]]]; discriminate).
    destruct (dset_known d kvs k v kvs' N (pure_plainkey _ Pk) H) as (s & Hs & ->). clear Pk N.
    enough (exists w, item_as d s v w /\ kvs' = dict_set (skey s) w kvs) as (w & I & ->) by (exists (skey s, w); split; [apply taken_as, I|reflexivity]).
    destruct Hd as [->|[->|[->| ->]]]; cbn [documented_keys In] in Hs; unfold dset in H.
    + repeat (destruct Hs as [<-|Hs]; [|]); try contradiction; cbn [bind] in H; apply bind_ok in H as (x & Hx & H);
        apply Ok_inj in H; subst kvs'; exists v; (split; [|reflexivity]); try (apply I_ctd; cbn; tauto);
        (apply I_id; [cbn; tauto|]); apply (short_iff (u "task_id") v Pv); unfold validate_varchar128.
      * destruct x. exact Hx.
      * apply varchar_iff. apply varchar_iff with (f := u "subtask_id"). destruct x. exact Hx.
    + repeat (destruct Hs as [<-|Hs]; [|]); try contradiction.
      * change (py_eq (skey "address") (skey "node")) with false in H. assert (H0 : exists x, validate_ipaddress (u "address") v = Ok x /\ kvs' = dict_set (skey "address") v kvs).
        { destruct v; cbn [bind] in H; apply bind_ok in H as (x & Hx & H); apply Ok_inj in H; exists x; auto. }
        destruct H0 as ([] & Hx & ->). exists v. split; [apply I_address|reflexivity]. apply ipaddress_iff in Hx. exact Hx.
      * change (py_eq (skey "port") (skey "node")) with false in H. assert (H0 : exists x, validate_port (u "port") v = Ok x /\ kvs' = dict_set (skey "port") v kvs).
        { destruct v; cbn [bind] in H; apply bind_ok in H as (x & Hx & H); apply Ok_inj in H; exists x; auto. }
        destruct H0 as ([] & Hx & ->). exists v. split; [apply I_port|reflexivity]. apply port_iff in Hx. exact Hx.
      * change (py_eq (skey "node") (skey "node")) with true in H. cbv iota in H.
        destruct v; try (cbn in H; discriminate H); try discriminate Pv.
        apply bind_ok in H as (n & Hn & H). apply bind_ok in H as (x & Hx & H). apply Ok_inj in H. subst kvs'. exists n. split; [|reflexivity]. apply I_node. apply node_built; assumption.
    + cbn [bind] in H. repeat (destruct Hs as [<-|Hs]; [|]); try contradiction; apply Ok_inj in H; subst kvs'; exists v; (split; [apply I_usage; cbn; tauto|reflexivity]).
    + cbn [bind] in H. repeat (destruct Hs as [<-|Hs]; [|]); try contradiction; apply Ok_inj in H; subst kvs'; exists v; (split; [apply I_throttling; cbn; tauto|reflexivity]).
  - intros ([k' w] & (s & E1 & E2 & I) & ->). cbn [fst snd] in E1, E2, I |- *. subst k k'. clear Pk.
    inversion I; subst; try (exfalso; destruct Hd as [Q|[Q|[Q|Q]]]; discriminate Q); clear Hd.
    + match goal with X : short_text w |- _ => apply (short_iff (u s) w Pv) in X; unfold validate_varchar128 in X end.
      match goal with X : In s _ |- _ => inl X end; unfold dset; cbn [bind];
      match goal with |- (do _ <- ?e; _) = _ => change e with (validate_varchar 128 (u "task_id") w) || change e with (validate_varchar 128 (u "subtask_id") w) end.
      all: match goal with X : _ = Ok tt |- _ => rewrite X; reflexivity end.
    + match goal with X : In s _ |- _ => inl X end; reflexivity.
    + match goal with X : address w |- _ => apply (ipaddress_iff (u "address") w) in X; rename X into Q end.
      destruct w; try discriminate Pv; unfold dset; cbn [bind]; change (py_eq (skey "address") (skey "node")) with false; cbv iota;
        cbn [bind str_of skey]; try discriminate Q; replace (dvalidator DPeer (u "address")) with (Some (validate_ipaddress (u "address"))) by reflexivity; rewrite Q; reflexivity.
    + match goal with X : port_number w |- _ => destruct X as (z & -> & Hz) end.
      unfold dset. cbn [bind str_of skey]. replace (dvalidator DPeer (u "port")) with (Some (validate_port (u "port"))) by reflexivity.
      assert (Q : validate_port (u "port") (VInt z) = Ok tt) by (apply port_iff; eauto). rewrite Q. reflexivity.
    + match goal with X : node v w |- _ => rename X into Q end. assert (D : exists a, w = VObj CNode a) by (inversion Q; eauto). destruct D as [a ->].
      assert (D : a_dict v) by (inversion Q; eexists; reflexivity). destruct D as [nk ->]. apply node_built in Q; [|exact Pv]. cbn [star_star] in Q.
      unfold dset. change (py_eq (skey "node") (skey "node")) with true. cbv iota. rewrite Q. reflexivity.
    + match goal with X : In s _ |- _ => cbn [documented_keys] in X; inl X end; reflexivity.
    + match goal with X : In s _ |- _ => cbn [documented_keys] in X; inl X end; reflexivity.
Qed.
Definition put (acc : list (pyval * pyval)) (kv : pyval * pyval) : list (pyval * pyval) := dict_set (fst kv) (snd kv) acc.
Lemma dset_all_exact d T l : (forall k v, In (k, v) l -> step_exact d T k v) -> forall acc r,
  dset_all d acc l = Ok r <-> exists l', Forall2 T l l' /\ r = fold_left put l' acc.
Proof.
  induction l as [|[k v] l IH]; intros H acc r; cbn [dset_all].
  - split; [intros Q; apply Ok_inj in Q; subst; exists []; auto|]. intros (l' & F & ->). inversion F; subst. reflexivity.
  - split.
    + intros Q. apply bind_ok in Q as (acc1 & Q1 & Q2). apply (H k v (or_introl eq_refl)) in Q1 as (kv & Tk & ->).
      apply IH in Q2 as (l' & F & ->); [|intros; apply H; right; assumption]. exists (kv :: l'). split; [constructor; assumption|reflexivity].
    + intros (l' & F & ->). inversion F as [|x kv xs l1 Tk F1]; subst. assert (Q : dset d acc k v = Ok (put acc kv)) by (apply (H k v (or_introl eq_refl)); eauto).
      rewrite Q. cbn [bind]. apply IH; [intros; apply H; right; assumption|]. exists l1. auto.
Qed.
Definition is_pair (x : pyval) (kv : pyval * pyval) : Prop := py_iter x = Some [fst kv; snd kv].
Lemma dset_iter_pairs d l : forall acc r, dset_iter d acc l = Ok r <-> exists kvs, Forall2 is_pair l kvs /\ dset_all d acc kvs = Ok r.
Proof.
  induction l as [|x l IH]; intros acc r; cbn [dset_iter].
  - split; [intros Q; exists []; auto|]. intros (kvs & F & Q). inversion F; subst. exact Q.
  - split.
    + destruct (py_iter x) as [[|k [|v [|? ?]]]|] eqn:X; try discriminate. intros Q. apply bind_ok in Q as (acc1 & Q1 & Q2). apply IH in Q2 as (kvs & F & Q2).
      exists ((k, v) :: kvs). split; [constructor; assumption|]. cbn [dset_all]. rewrite Q1. exact Q2.
    + intros (kvs & F & Q). inversion F as [|y [k v] ys kvs1 X F1]; subst. unfold is_pair in X. cbn [fst snd] in X. rewrite X. cbn [dset_all] in Q.
      apply bind_ok in Q as (acc1 & Q1 & Q2). rewrite Q1. cbn [bind]. apply IH. eauto.
Qed.
Lemma absent_snoc k k' v acc : k <> k' -> absent (acc ++ [(skey k, v)]) k' = absent acc k'.
Proof.
  intros N. unfold absent. enough (dict_get (skey k') (acc ++ [(skey k, v)]) = dict_get (skey k') acc) as -> by reflexivity.
  induction acc as [|[k0 v0] acc IH]; cbn [app dict_get].
  - destruct (py_eq (skey k) (skey k')) eqn:Q; [|reflexivity]. exfalso. cbn in Q. apply ustr_eqb_eq, u_inj in Q. contradiction.
  - destruct (py_eq k0 (skey k')); [reflexivity|exact IH].
Qed.
Lemma set_absent k v acc : absent acc k = true -> dict_set (skey k) v acc = acc ++ [(skey k, v)].
Proof.
  unfold absent. induction acc as [|[k0 v0] acc IH]; cbn [dict_get dict_set app]; [reflexivity|]. destruct (py_eq k0 (skey k)); [discriminate|]. intros H. rewrite IH by exact H. reflexivity.
Qed.
Lemma default_stored d k w acc : d <> DPlain -> d <> DPeer -> In (k, w) (items d) -> dset d acc (skey k) w = Ok (dict_set (skey k) w acc).
Proof.
  intros N1 N2 Hi. destruct d; try congruence; cbn [items In] in Hi; repeat (destruct Hi as [Hi|Hi]; [injection Hi as <- <-; reflexivity|]); contradiction.
Qed.
Lemma defaults_stored d its : d <> DPlain -> d <> DPeer -> incl its (items d) -> NoDup (map fst its) -> forall acc,
  dset_defaults d acc its = Ok (acc ++ map (fun k => (skey k, documented_default k)) (filter (absent acc) (map fst its))).
Proof.
  intros N1 N2. induction its as [|[k w] its IH]; intros I N acc; cbn [dset_defaults map fst filter]; [rewrite app_nil_r; reflexivity|].
  cbn [map fst] in N. inversion N as [|? ? N3 N4]; subst. assert (I' : incl its (items d)) by (intros x Hx; apply I; right; exact Hx).
  assert (A : absent acc k = match dict_get (skey k) acc with Some _ => false | None => true end) by reflexivity.
  destruct (dict_get (skey k) acc) eqn:G.
  - rewrite A. apply IH; assumption.
  - rewrite A. assert (Hi : In (k, w) (items d)) by (apply I; left; reflexivity). rewrite (default_stored d k w acc N1 N2 Hi), (set_absent k w acc A). cbn [bind].
    rewrite IH by assumption. f_equal. cbn [map]. rewrite <- app_assoc. cbn [app]. rewrite <- (items_default d k w N2 Hi). f_equal. f_equal. f_equal.
    apply filter_ext_in. intros k' Hk. apply absent_snoc. intros ->. contradiction.
Qed.
Lemma peer_defaults its : incl (map fst its) ["address"; "port"; "node"]%string -> (forall k w, In (k, w) its -> w = VNone) -> forall acc r,
  dset_defaults DPeer acc its = Ok r <-> filter (absent acc) (map fst its) = [] /\ r = acc.
Proof.
  induction its as [|[k w] its IH]; intros I D acc r; cbn [dset_defaults map fst filter].
  - split; [intros Q; apply Ok_inj in Q; auto|intros [_ ->]; reflexivity].
  - assert (I' : incl (map fst its) ["address"; "port"; "node"]%string) by (intros x Hx; apply I; right; exact Hx).
    assert (A : absent acc k = match dict_get (skey k) acc with Some _ => false | None => true end) by reflexivity.
    destruct (dict_get (skey k) acc) eqn:G; rewrite A; [apply IH; [exact I'|intros k0 w0 H0; apply (D k0 w0); right; exact H0]|].
    rewrite (D k w (or_introl eq_refl)). destruct (peer_none k (I k (or_introl eq_refl)) acc) as [e Q]. rewrite Q. cbn [bind]. split; [discriminate|intros [H _]; discriminate H].
Qed.
Lemma defaults_exact d acc r : d <> DPlain -> (dset_defaults d acc (items d) = Ok r <-> (d = DPeer -> defaults d acc = []) /\ r = acc ++ defaults d acc).
Proof.
  intros N. unfold defaults. rewrite documented_items. destruct (dcls_eq_dec d DPeer) as [->|N2].
  - rewrite peer_defaults.
    + split; [intros [-> ->]; rewrite app_nil_r; auto|]. intros [H R]. specialize (H eq_refl). rewrite H, app_nil_r in R. split; [|exact R]. apply map_eq_nil in H. exact H.
    + intros x Hx. exact Hx.
    + intros k w Hi. cbn [items In] in Hi. repeat (destruct Hi as [Hi|Hi]; [congruence|]). contradiction.
  - rewrite (defaults_stored d (items d) N N2 (fun x H => H) (items_nodup d)). split; [intros Q; apply Ok_inj in Q; split; [congruence|auto]|intros [_ ->]; reflexivity].
Qed.
Lemma pairs_pure v kvs : pure v = true -> pairs_of v kvs -> forall k w, In (k, w) kvs -> pure k = true /\ pure w = true.
Proof.
  intros P H. destruct H as [d kvs|v l kvs Nd L F].
  - destruct d; try discriminate P. apply pure_dict in P as [P _]. exact P.
  - pose proof (pure_iter v l P L) as PL. clear L P. induction F as [|x kv l kvs X F IH]; intros k w Hi; [contradiction|].
    destruct Hi as [->|Hi]; [|exact (IH (fun y Hy => PL y (or_intror Hy)) k w Hi)]. cbn [fst snd] in X.
    pose proof (pure_iter x _ (PL x (or_introl eq_refl)) X) as PX. split; apply PX; cbn; auto.
Qed.
Lemma fold_assigned l' : fold_left put l' [] = assigned l'.
Proof. reflexivity. Qed.
Lemma dict_new_pairs d v w : dict_new d v = Ok w <-> exists kvs r, pairs_of v kvs /\ dset_all d [] kvs = Ok r /\ exists r', dset_defaults d r (items d) = Ok r' /\ w = VDict d r'.
Proof.
  unfold dict_new. split.
  - intros H. apply bind_ok in H as (r & H1 & H). apply bind_ok in H as (r' & H2 & H). apply Ok_inj in H. subst w.
    assert (Q : exists kvs, pairs_of v kvs /\ dset_all d [] kvs = Ok r).
    { assert (G : forall l, (forall d kvs, v <> VDict d kvs) -> py_iter v = Some l -> dset_iter d [] l = Ok r -> exists kvs, pairs_of v kvs /\ dset_all d [] kvs = Ok r).
      { intros l Nd L Q. apply dset_iter_pairs in Q as (kvs0 & F & Q). exists kvs0. split; [exact (P_items v l kvs0 Nd L F)|exact Q]. }
      destruct v; try (match type of H1 with context [py_iter ?x] => destruct (py_iter x) as [l0|] eqn:L; [|discriminate H1] end; apply (G l0); [intros; discriminate|reflexivity|exact H1]).
      eexists. split; [constructor|exact H1]. }
    destruct Q as (kvs & Q1 & Q2). eauto 10.
  - intros (kvs & r & Q1 & Q2 & r' & Q3 & ->).
    assert (Q : (match v with VDict _ l => dset_all d [] l | _ => match py_iter v with Some l => dset_iter d [] l | None => Err ETypeError end end) = Ok r).
    { destruct Q1 as [d0 kvs|v l kvs Nd L F]; [exact Q2|]. assert (Q : dset_iter d [] l = Ok r) by (apply dset_iter_pairs; eauto). destruct v; try (rewrite L; exact Q). exfalso. eapply Nd. reflexivity. }
    rewrite Q. cbn [bind]. rewrite Q3. reflexivity.
Qed.
Lemma frozen_exact d v w : loadable d -> pure v = true -> (dict_new d v = Ok w <-> frozen d v w).
Proof.
  intros Hd P. assert (N : d <> DPlain) by (destruct Hd as [->|[->|[->| ->]]]; discriminate). rewrite dict_new_pairs.
  assert (S : forall kvs, pairs_of v kvs -> forall k v, In (k, v) kvs -> step_exact d (taken d) k v).
  { intros kvs Hk k v0 Hi. destruct (pairs_pure v kvs P Hk k v0 Hi). apply dset_step_exact; assumption. }
  split.
  - intros (kvs & r & Q1 & Q2 & r' & Q3 & ->). apply (dset_all_exact d (taken d) kvs (S kvs Q1)) in Q2 as (l' & F & ->). rewrite fold_assigned in Q3.
    apply (defaults_exact d _ _ N) in Q3 as [Q3 ->]. econstructor; eassumption.
  - intros F. destruct F as [v l l' Q1 F D]. exists l, (assigned l'). split; [exact Q1|]. split; [apply (dset_all_exact d (taken d) l (S l Q1)); eauto|].
    eexists. split; [|reflexivity]. apply (defaults_exact d _ _ N). auto.
Qed.

(** ** Statistics *)
Lemma kwargs_names kvs : (forall k v, In (k, v) kvs -> exists s, s <> "self"%string /\ k = skey s) -> exists kw, kwargs_of kvs = Ok kw.
Proof.
  induction kvs as [|[k v] kvs IH]; intros H; cbn [kwargs_of]; [eauto|].
  destruct (H k v (or_introl eq_refl)) as (s & Hs & ->). cbn [str_of skey]. destruct IH as [r Hr]; [intros; apply (H k v0); right; assumption|].
  destruct (ustr_eqb (u s) (u "self")) eqn:Q; [|rewrite Hr; cbn [bind]; eauto]. exfalso. apply ustr_eqb_eq, u_inj in Q. contradiction.
Qed.
Lemma Forall2_left {A B} (R : A -> B -> Prop) l l' x : Forall2 R l l' -> In x l -> exists y, In y l' /\ R x y.
Proof. intros F. induction F as [|a b l l' Hab F IH]; intros Hi; [contradiction|]. destruct Hi as [->|Hi]; [exists b; cbn; auto|]. destruct (IH Hi) as (y & Hy & Ry). exists y. cbn. auto. Qed.
Lemma frozen_kw d v w : d = DCpuUsage \/ d = DThrottling -> pure v = true -> a_dict v ->
  ((do kw <- star_star v; dict_new_kw d kw) = Ok w <-> frozen d v w).
Proof.
  intros Hd P [kvs ->]. assert (L : loadable d) by (unfold loadable; tauto). rewrite <- (frozen_exact d _ w L P).
  pose proof P as P0. apply pure_dict in P0 as (P0 & _ & _). cbn [star_star]. destruct (kwargs_of kvs) as [kw|e] eqn:K; cbn [bind].
  - unfold dict_new_kw. rewrite <- (kwargs_texts _ _ K (fun k v Hi => proj1 (P0 k v Hi))). reflexivity.
  - split; [discriminate|]. intros H. exfalso. apply (frozen_exact d _ w L P) in H. inversion H as [v0 l l' Q1 F D]; subst.
    inversion Q1 as [d0 kvs0|v0 l0 kvs0 Nd]; subst; [|eapply Nd; reflexivity].
    destruct (kwargs_names l) as [kw Hk]; [|congruence]. intros k v Hi. destruct (Forall2_left _ _ _ _ F Hi) as ([k' w] & _ & s & E & _ & I). cbn [fst snd] in E, I. exists s. split; [|exact E].
    intros ->. destruct Hd as [->| ->]; inversion I; subst; match goal with X : In _ _ |- _ => cbn [documented_keys] in X; inl X end.
Qed.
Lemma dropped_iff (R : pyval -> pyval -> Prop) v w : a_dict v -> (nonempty R v w <-> if truthy v then R v w else w = VNone).
Proof.
  intros [kvs ->]. destruct kvs as [|kv kvs]; cbn [truthy].
  - split; [intros H; inversion H; subst; [reflexivity|congruence]|intros ->; constructor].
  - split; [intros H; inversion H; subst; assumption|]. intros H. constructor; [discriminate|exact H].
Qed.
Lemma nonempty_dict (R : pyval -> pyval -> Prop) v w : nonempty R v w -> a_dict v.
Proof. intros H. inversion H; eexists; reflexivity. Qed.
Lemma hook_iff (h : pyval -> result pyval) (R : pyval -> pyval -> Prop) v w : a_dict v -> (h v = Ok w <-> R v w) ->
  ((if truthy v then h v else Ok VNone) = Ok w <-> nonempty R v w).
Proof.
  intros D H. rewrite (dropped_iff R v w D). destruct (truthy v); [exact H|]. split; [intros Q; apply Ok_inj in Q; auto|intros ->; reflexivity].
Qed.
Lemma dict_and (A B C : Prop) : (C -> A) -> (A -> (B <-> C)) -> (C <-> A /\ B).
Proof. tauto. Qed.
Lemma cpu_exact : exact_field CCpu cpu_field.
Proof.
  intros k Hk. split.
  - intros v w P _. each_slot Hk; unfold converted; cbn [chook cvalidators]; unfold cpu_hook; cbn [String.eqb Ascii.eqb Bool.eqb]; rewrite Forall_one, (adict_iff _ v P).
    + transitivity (nonempty (frozen DCpuUsage) v w); [split; [intros H; inversion H; assumption|constructor; assumption]|].
      apply dict_and; [apply nonempty_dict|]. intros D. apply (hook_iff (fun v => do kw <- star_star v; dict_new_kw DCpuUsage kw)); [exact D|]. apply frozen_kw; auto.
    + transitivity (nonempty (frozen DThrottling) v w); [split; [intros H; inversion H; assumption|constructor; assumption]|].
      apply dict_and; [apply nonempty_dict|]. intros D. apply (hook_iff (fun v => do kw <- star_star v; dict_new_kw DThrottling kw)); [exact D|]. apply frozen_kw; auto.
  - intros w _ H. inversion H; subst; match goal with X : nonempty _ _ _ |- _ => inversion X end.
Qed.
Lemma blkio_exact : exact_field CBlockIo (fun _ => same a_dict).
Proof.
  intros k Hk. split.
  - intros v w P _. unfold converted. cbn [chook cvalidators]. rewrite Forall_one, vcheck_iff, (isdict_iff v P). reflexivity.
  - intros w _ [H _]. destruct H as [kvs H]. discriminate H.
Qed.
Lemma pids_exact : exact_field CPid (fun _ => same integer).
Proof.
  intros k Hk. split.
  - intros v w P _. unfold converted. cbn [chook cvalidators]. rewrite Forall_one, integer_iff. reflexivity.
  - intros w _ [H _]. destruct H as [z H]. discriminate H.
Qed.
Lemma memory_exact : exact_field CMemory memory_field.
Proof.
  intros k Hk. split.
  - intros v w P _. each_slot Hk; unfold converted; cbn [chook cvalidators String.eqb Ascii.eqb Bool.eqb];
      rewrite Forall_one, ?vcheck_iff, ?(isdict_iff v P), ?(adict_iff _ v P), ?boolean_iff, ?integer_iff; fold (integer v).
    all: split; [intros H; inversion H; subst; repeat match goal with I : In _ _ |- _ => inl I end; eauto|].
    all: intros [Q ->]; first [apply MF_data; [cbn; tauto|exact Q]|apply MF_cache; exact Q|destruct Q as [b ->]; apply MF_hierarchy].
  - intros w _ H. inversion H; subst; try reflexivity.
Qed.
Lemma provider_exact : exact_field CProvider provider_field.
Proof.
  intros k Hk. split.
  - intros v w P _. each_slot Hk; unfold converted; cbn [chook cvalidators]; unfold provider_hook; cbn [String.eqb Ascii.eqb Bool.eqb]; rewrite Forall_one, vcheck_iff, (isdictor_iff _ v P).
    + transitivity (nonempty (built CBlockIo (fun _ => same a_dict)) v w); [split; [intros H; inversion H; assumption|constructor; assumption]|].
      apply dict_and; [apply nonempty_dict|]. intros D. apply (hook_iff (fun v => do kw <- star_star v; leaf_new CBlockIo kw)); [exact D|]. exact (built_iff CBlockIo _ v w blkio_exact P).
    + transitivity (nonempty (built CCpu cpu_field) v w); [split; [intros H; inversion H; assumption|constructor; assumption]|].
      apply dict_and; [apply nonempty_dict|]. intros D. apply (hook_iff (fun v => do kw <- star_star v; leaf_new CCpu kw)); [exact D|]. exact (built_iff CCpu _ v w cpu_exact P).
    + transitivity (nonempty (built CMemory memory_field) v w); [split; [intros H; inversion H; assumption|constructor; assumption]|].
      apply dict_and; [apply nonempty_dict|]. intros D. apply (hook_iff (fun v => do kw <- star_star v; leaf_new CMemory kw)); [exact D|]. exact (built_iff CMemory _ v w memory_exact P).
    + transitivity (nonempty (built CPid (fun _ => same integer)) v w); [split; [intros H; inversion H; assumption|constructor; assumption]|].
      apply dict_and; [apply nonempty_dict|]. intros D. apply (hook_iff (fun v => do kw <- star_star v; leaf_new CPid kw)); [exact D|]. exact (built_iff CPid _ v w pids_exact P).
  - intros w _ H. inversion H; subst; match goal with X : nonempty _ _ _ |- _ => inversion X end.
Qed.
Lemma stats_built v w : pure v = true -> (cnew_star CProvider v = Ok w <-> stats v w).
Proof. intros P. exact (built_iff CProvider provider_field v w provider_exact P). Qed.

(** ** File entries *)
Definition as_category (kv : pyval * pyval) : pyval * pyval :=
  (fst kv, if py_eq (fst kv) (skey "category") then match enum_call EnFileCategory (snd kv) with Some m => m | None => snd kv end else snd kv).
Lemma category_in_place kvs : nodup_keys (map fst kvs) = true -> (forall k v, In (k, v) kvs -> pure k = true) ->
  match enum_call EnFileCategory (match dict_get (skey "category") kvs with Some v => v | None => VNone end) with
  | Some m => dict_set (skey "category") m kvs
  | None => kvs
  end = map as_category kvs.
Proof.
  induction kvs as [|[k v] kvs IH]; intros N P; [reflexivity|]. cbn [map fst nodup_keys] in N. apply andb_true_iff in N as [N1 N2].
  cbn [dict_get map dict_set]. unfold as_category at 1. cbn [fst snd]. destruct (py_eq k (skey "category")) eqn:Q.
  - assert (R : map as_category kvs = kvs).
    { apply pure_key_r in Q; [|apply pure_plainkey, (P k v); left; reflexivity]. subst k. clear IH N2. rewrite <- (map_id kvs) at 2. apply map_ext_in. intros [k1 v1] Hi. unfold as_category. cbn [fst snd].
      destruct (py_eq k1 (skey "category")) eqn:Q; [|reflexivity]. exfalso. apply pure_key_r in Q; [|apply pure_plainkey, (P k1 v1); right; exact Hi]. subst k1.
      rewrite forallb_forall in N1. specialize (N1 (skey "category") (in_map fst _ _ Hi)). discriminate N1. }
    rewrite R. destruct (enum_call EnFileCategory v); reflexivity.
  - rewrite <- IH; [|exact N2|intros; eapply P; right; eassumption]. destruct (enum_call _ _); reflexivity.
Qed.
Definition file_step (kv kv' : pyval * pyval) : Prop :=
  kv' = kv /\ exists k, fst kv = skey k /\ (In k ["path"; "checksum"; "size"]%string \/ (k = "category"%string /\ exists m, snd kv = VEnum EnFileCategory m)).
Lemma file_step_exact k v : plainkey k = true -> step_exact DFileInfo file_step k v.
Proof.
  intros P kvs kvs'. split.
  - intros H. destruct (dset_known DFileInfo kvs k v kvs' ltac:(discriminate) P H) as (s & Hs & ->). exists (skey s, v).
    assert (Q : kvs' = dict_set (skey s) v kvs /\ (In s ["path"; "checksum"; "size"]%string \/ (s = "category"%string /\ exists m, v = VEnum EnFileCategory m))).
    { unfold dset in H. cbn [bind] in H. cbn [documented_keys In] in Hs. apply bind_ok in H as (x & Hx & H). repeat (destruct Hs as [<-|Hs]; [|]); try contradiction; apply Ok_inj in H; (split; [auto|]); try (left; cbn; tauto).
      right. split; [reflexivity|]. destruct v; try discriminate Hx. destruct e; try discriminate Hx. eauto. }
    destruct Q as [-> Q]. split; [|reflexivity]. split; [reflexivity|]. exists s. auto.
  - intros (kv & [-> (s & E & Q)] & ->). cbn [fst snd] in *. subst k. destruct Q as [Q|[-> [m ->]]]; [inl Q; reflexivity|reflexivity].
Qed.
Lemma file_taken k v kv : pure k = true -> pure v = true -> (taken DFileInfo (k, v) kv <-> file_step (as_category (k, v)) kv).
Proof.
  intros Pk Pv. split.
  - intros (s & E1 & E2 & I). destruct kv as [k' w]. cbn [fst snd] in *. subst k k'. inversion I; subst.
    + match goal with X : In s _ |- _ => rename X into Hs end. assert (A : as_category (skey s, w) = (skey s, w)) by (inl Hs; reflexivity). rewrite A. split; [reflexivity|]. exists s. auto.
    + match goal with X : In _ _ |- _ => rename X into Hm end. unfold as_category. cbn [fst snd]. change (py_eq (skey "category") (skey "category")) with true. cbv iota.
      rewrite (enum_call_str EnFileCategory m Hm). split; [reflexivity|]. exists "category"%string. cbn [fst snd]. split; [reflexivity|]. right. split; [reflexivity|]. eauto.
  - intros [-> (s & E & Q)]. unfold as_category in E, Q |- *. cbn [fst snd] in E, Q |- *. subst k. exists s. cbn [fst snd]. split; [reflexivity|]. split; [reflexivity|].
    destruct Q as [Q|[-> [m Q]]].
    + assert (A : py_eq (skey s) (skey "category") = false) by (inl Q; reflexivity). rewrite A. apply I_file. exact Q.
    + change (py_eq (skey "category") (skey "category")) with true in Q |- *. cbv iota in Q |- *. destruct (enum_call EnFileCategory v) as [x|] eqn:C.
      * apply (enum_call_iff _ _ _ Pv) in C as (m0 & Hm & -> & ->). apply I_category. exact Hm.
      * subst v. discriminate Pv.
Qed.
Lemma Forall2_map_left {A B C} (R : B -> C -> Prop) (f : A -> B) l l' : Forall2 R (map f l) l' <-> Forall2 (fun a c => R (f a) c) l l'.
Proof.
  revert l'. induction l as [|a l IH]; intros l'; cbn [map]; split; intros F; inversion F; subst; constructor; try assumption; apply IH; assumption.
Qed.
Lemma Forall2_iff_in {A B} (R S : A -> B -> Prop) l l' : (forall x y, In x l -> (R x y <-> S x y)) -> Forall2 R l l' <-> Forall2 S l l'.
Proof.
  intros H. split; intros F; induction F as [|x y l l' X F IH]; constructor; try (apply H; [left; reflexivity|exact X]); apply IH; intros; apply H; right; assumption.
Qed.
Lemma and_iff_compat_l' (A B C : Prop) : (A -> (B <-> C)) -> (A /\ B <-> A /\ C).
Proof. tauto. Qed.
Lemma file_exact v w : pure v = true -> (deser_file v = Ok w <-> a_dict v /\ frozen DFileInfo v w).
Proof.
  intros P. assert (E : deser_file v = Ok w -> a_dict v) by (destruct v; try discriminate; destruct c; try discriminate P; intros; eexists; reflexivity).
  transitivity (a_dict v /\ deser_file v = Ok w); [tauto|]. apply and_iff_compat_l'. clear E. intros [kvs ->]. pose proof P as P0. apply pure_dict in P0 as (P0 & _ & N).
  cbn [deser_file]. cbv zeta. rewrite (category_in_place kvs N (fun k v Hi => proj1 (P0 k v Hi))). rewrite dict_new_pairs.
  assert (S : forall k v, In (k, v) (map as_category kvs) -> step_exact DFileInfo file_step k v).
  { intros k v Hi. apply in_map_iff in Hi as ([k0 v0] & Q & Hi). unfold as_category in Q. cbn [fst snd] in Q. apply file_step_exact. assert (k0 = k) by congruence. subst k0.
    apply pure_plainkey. exact (proj1 (P0 _ _ Hi)). }
  assert (T : forall l', Forall2 file_step (map as_category kvs) l' <-> Forall2 (taken DFileInfo) kvs l').
  { intros l'. rewrite Forall2_map_left. apply Forall2_iff_in. intros [k v] y Hi. destruct (P0 _ _ Hi). symmetry. apply file_taken; assumption. }
  split.
  - intros (kvs0 & r & Q1 & Q2 & r' & Q3 & ->). assert (kvs0 = map as_category kvs) as -> by (inversion Q1 as [|? ? ? Nd]; subst; [reflexivity|exfalso; eapply Nd; reflexivity]).
    apply (dset_all_exact DFileInfo file_step _ S) in Q2 as (l' & F & ->). apply T in F. rewrite fold_assigned in Q3. apply defaults_exact in Q3 as [Q3 ->]; [|discriminate].
    econstructor; [constructor|exact F|exact Q3].
  - intros F. inversion F as [v0 l l' Q1 F1 D]; subst. assert (l = kvs) as -> by (inversion Q1 as [|? ? ? Nd]; subst; [reflexivity|exfalso; eapply Nd; reflexivity]).
    exists (map as_category kvs), (assigned l'). split; [constructor|]. split; [apply (dset_all_exact DFileInfo file_step _ S); exists l'; split; [apply T, F1|reflexivity]|].
    eexists. split; [|reflexivity]. apply defaults_exact; [discriminate|]. auto.
Qed.

(** ** Slots that hold no message *)
Lemma mapM_exact {A B} (f : A -> result B) (R : A -> B -> Prop) l : (forall x, In x l -> forall y, f x = Ok y <-> R x y) -> forall r,
  mapM f l = Ok r <-> Forall2 R l r.
Proof.
  induction l as [|x l IH]; intros H r; cbn [mapM].
  - split; [intros Q; apply Ok_inj in Q; subst; constructor|]. intros F. inversion F. reflexivity.
  - split.
    + intros Q. apply bind_ok in Q as (y & Hy & Q). apply bind_ok in Q as (r1 & Hr & Q). apply Ok_inj in Q. subst r. constructor; [apply H; [left; reflexivity|exact Hy]|].
      apply IH; [intros; apply H; right; assumption|exact Hr].
    + intros F. inversion F as [|x0 y l0 r1 Hx Hl]; subst. assert (Q : f x = Ok y) by (apply H; [left; reflexivity|exact Hx]). rewrite Q. cbn [bind].
      assert (Q1 : mapM f l = Ok r1) by (apply IH; [intros; apply H; right; assumption|exact Hl]). rewrite Q1. reflexivity.
Qed.
Lemma header_dict v w : header v w -> a_dict v.
Proof. intros H. inversion H. eexists. reflexivity. Qed.
Lemma node_dict v w : node v w -> a_dict v.
Proof. intros H. inversion H. eexists. reflexivity. Qed.
Lemma stats_dict v w : stats v w -> a_dict v.
Proof. intros H. inversion H. eexists. reflexivity. Qed.
Lemma and_files l r : Forall2 (fun v w => a_dict v /\ frozen DFileInfo v w) l r <-> Forall a_dict l /\ Forall2 (frozen DFileInfo) l r.
Proof.
  split.
  - intros F. induction F as [|x y l r [H1 H2] F [IH1 IH2]]; split; constructor; assumption.
  - intros [F1 F2]. induction F2 as [|x y l r H F IH]; constructor; inversion F1; subst; auto.
Qed.
Lemma plain_exact kd k v w : (forall d an il, kd <> KMsg d an il) -> pure v = true -> (deser_plain kd k v = Ok w <-> plain_as kd v w).
Proof.
  intros Hk P. destruct kd as [|e|d an il| | | | | | | | | |]; cbn [deser_plain].
  - split; [intros H; apply Ok_inj in H; subst; constructor|]. intros H. inversion H; subst; reflexivity.
  - destruct (is_none v) eqn:N.
    + destruct v; try discriminate N. split; [intros H; apply Ok_inj in H; subst; constructor; eauto|]. intros H. inversion H; subst; reflexivity.
    + transitivity (enum_call e v = Some w); [destruct (enum_call e v); split; congruence|]. rewrite (enum_call_iff _ _ _ P). split.
      * intros (m & Hm & -> & ->). constructor. exact Hm.
      * intros H. inversion H; subst; [discriminate N|eauto].
  - exfalso. eapply Hk. reflexivity.
  - destruct (truthy v) eqn:T.
    + split.
      * intros H. apply bind_ok in H as (x & _ & H). apply A_node; [exact T|]. apply node_built; assumption.
      * intros H. inversion H as [|? Q| | |v0 w0 T0 Hn| | | | | | | | |]; subst; [destruct Q as [[? Q]|[Q|[Q|Q]]]; discriminate Q|congruence|].
        destruct (node_dict _ _ Hn) as [kvs ->]. cbn [validate_dict bind]. apply node_built in Hn; [exact Hn|exact P].
    + split; [intros H; apply Ok_inj in H; subst; constructor; exact T|]. intros H. inversion H; subst; try reflexivity. congruence.
  - transitivity (exists l r, v = VList l /\ w = VList r /\ Forall2 (frozen DPeer) l r).
    + destruct v; try (split; [discriminate|intros (? & ? & Q & _); discriminate Q]). rewrite pure_list in P.
      assert (M : forall r, mapM (dict_new DPeer) l = Ok r <-> Forall2 (frozen DPeer) l r).
      { apply mapM_exact. intros x Hx y. apply frozen_exact; [unfold loadable; tauto|exact (P x Hx)]. }
      split; [intros H; apply bind_ok in H as (r & Hr & H); apply Ok_inj in H; subst; exists l, r; split; [reflexivity|]; split; [reflexivity|]; apply M, Hr|].
      intros (l0 & r & Q & -> & F). assert (l0 = l) as -> by congruence. apply M in F. rewrite F. reflexivity.
    + split; [intros (l & r & -> & -> & F); constructor; exact F|]. intros H. inversion H; subst; [|eauto]. destruct H0 as [[? Q]|[Q|[Q|Q]]]; discriminate Q.
  - transitivity (exists l r, v = VList l /\ w = VList r /\ Forall2 header l r).
    + destruct v; try (split; [discriminate|intros (? & ? & Q & _); discriminate Q]). rewrite pure_list in P.
      assert (M : forall r, mapM (fun h => do _ <- validate_dict (u "tasks") h; cnew_star CTaskHeader h) l = Ok r <-> Forall2 header l r).
      { apply mapM_exact. intros x Hx y. rewrite <- (header_built x y (P x Hx)). split; [intros H; apply bind_ok in H as (t & _ & H); exact H|].
        intros H. pose proof H as H0. apply (header_built x y (P x Hx)) in H0. destruct (header_dict _ _ H0) as [kvs ->]. exact H. }
      split; [intros H; apply bind_ok in H as (r & Hr & H); apply Ok_inj in H; subst; exists l, r; split; [reflexivity|]; split; [reflexivity|]; apply M, Hr|].
      intros (l0 & r & Q & -> & F). assert (l0 = l) as -> by congruence. apply M in F. rewrite F. reflexivity.
    + split; [intros (l & r & -> & -> & F); constructor; exact F|]. intros H. inversion H; subst; [|eauto]. destruct H0 as [[? Q]|[Q|[Q|Q]]]; discriminate Q.
  - destruct (is_none v) eqn:N.
    + destruct v; try discriminate N. split; [intros H; apply Ok_inj in H; subst; constructor; auto|]. intros H. inversion H as [| | | | | | |v0 w0 Hh| | | | | |]; subst; [reflexivity|]. destruct (header_dict _ _ Hh) as [? Q]. discriminate Q.
    + rewrite (header_built v w P). split; [apply A_header|]. intros H. inversion H; subst; [discriminate N|assumption].
  - destruct (is_none v) eqn:N.
    + destruct v; try discriminate N. split; [intros H; apply Ok_inj in H; subst; constructor; auto|]. intros H. inversion H; subst; reflexivity.
    + split.
      * intros H. apply bind_ok in H as ([] & Hi & H). apply integer_iff in Hi as [z ->]. destruct (z <? 0) eqn:Z0; [discriminate H|]. apply Ok_inj in H. subst w. constructor. apply Z.ltb_ge, Z0.
      * intros H. inversion H; subst; [discriminate N|]. cbn [validate_integer bind]. destruct (z <? 0) eqn:Z0; [apply Z.ltb_lt in Z0; lia|]. reflexivity.
  - split.
    + intros H. apply bind_ok in H as ([] & Hi & H). apply positive_iff in Hi as (z & -> & Hz). apply Ok_inj in H. subst w. constructor. exact Hz.
    + intros H. inversion H; subst; [destruct H0 as [[? Q]|[Q|[Q|Q]]]; discriminate Q|]. assert (Q : validate_positive_integer (u k) (VInt z) = Ok tt) by (apply positive_iff; eauto). rewrite Q. reflexivity.
  - rewrite (frozen_exact DCTD v w (or_introl eq_refl) P). split; [apply A_ctd|]. intros H. inversion H; subst; [destruct H0 as [[? Q]|[Q|[Q|Q]]]; discriminate Q|assumption].
  - split.
    + intros H. apply bind_ok in H as ([] & Hi & H). apply integer_iff in Hi as [z ->]. apply Ok_inj in H. subst w. constructor.
    + intros H. inversion H; subst; [destruct H0 as [[? Q]|[Q|[Q|Q]]]; discriminate Q|]. reflexivity.
  - destruct (is_none v) eqn:N.
    + destruct v; try discriminate N. split; [intros H; apply Ok_inj in H; subst; constructor; auto|]. intros H. inversion H as [| | | | | | | | | | | |v0 w0 Hh|]; subst; [reflexivity|]. destruct (stats_dict _ _ Hh) as [? Q]. discriminate Q.
    + rewrite (stats_built v w P). split; [apply A_stats|]. intros H. inversion H; subst; [discriminate N|assumption].
  - transitivity (exists l r, py_iter v = Some l /\ w = VList r /\ Forall a_dict l /\ Forall2 (frozen DFileInfo) l r).
    + destruct (py_iter v) as [l|] eqn:L; [|split; [discriminate|intros (? & ? & Q & _); discriminate Q]]. pose proof (pure_iter v l P L) as Pl.
      assert (M : forall r, mapM deser_file l = Ok r <-> Forall a_dict l /\ Forall2 (frozen DFileInfo) l r).
      { intros r. rewrite <- and_files. apply mapM_exact. intros x Hx y. apply file_exact. exact (Pl x Hx). }
      split; [intros H; apply bind_ok in H as (r & Hr & H); apply Ok_inj in H; subst; exists l, r; split; [reflexivity|]; split; [reflexivity|]; apply M, Hr|].
      intros (l0 & r & Q & -> & F). assert (l0 = l) as -> by congruence. apply M in F. rewrite F. reflexivity.
    + split; [intros (l & r & L & -> & F1 & F2); econstructor; eassumption|]. intros H. inversion H; subst; [destruct H0 as [[? Q]|[Q|[Q|Q]]]; discriminate Q|eauto 10].
Qed.

(** ** Which slots are given *)
Lemma put_get k k' v' acc : pure k' = true -> (forall k0 v0, In (k0, v0) acc -> pure k0 = true) ->
  dict_get (skey k) (dict_set k' v' acc) = if py_eq k' (skey k) then Some v' else dict_get (skey k) acc.
Proof.
  intros Pk. induction acc as [|[k0 v0] acc IH]; intros Pa; cbn [dict_set dict_get]; [reflexivity|].
  assert (P0 : plainkey k0 = true) by (apply pure_plainkey, (Pa k0 v0); left; reflexivity). destruct (py_eq k0 k') eqn:Q; cbn [dict_get].
  - destruct (py_eq k0 (skey k)) eqn:Q0.
    + apply (pure_key_r k k0 P0) in Q0. subst k0. apply (pure_key k k' (pure_plainkey _ Pk)) in Q. subst k'. destruct (py_eq (skey k) (skey k)) eqn:R; [reflexivity|]. cbn in R. rewrite ustr_eqb_refl in R. discriminate R.
    + destruct (py_eq k' (skey k)) eqn:Q1; [|reflexivity]. apply (pure_key_r k k' (pure_plainkey _ Pk)) in Q1. subst k'. congruence.
  - rewrite IH by (intros; eapply Pa; right; eassumption). destruct (py_eq k0 (skey k)) eqn:Q0; [|reflexivity].
    destruct (py_eq k' (skey k)) eqn:Q1; [|reflexivity]. exfalso. apply (pure_key_r k k0 P0) in Q0. apply (pure_key_r k k' (pure_plainkey _ Pk)) in Q1. subst.
    cbn in Q. rewrite ustr_eqb_refl in Q. discriminate Q.
Qed.
Lemma put_keys k v acc k0 v0 : In (k0, v0) (dict_set k v acc) -> k0 = k \/ exists v1, In (k0, v1) acc.
Proof. intros H. destruct (in_dict_set _ _ _ _ _ H) as [Q|[_ [Q|[_ Q]]]]; eauto. Qed.
Lemma last_given k v l : (forall k0 v0, In (k0, v0) l -> pure k0 = true) -> forall acc, (forall k0 v0, In (k0, v0) acc -> pure k0 = true) ->
  (dict_get (skey k) (fold_left put l acc) = Some v <->
   (exists pre post, l = pre ++ (skey k, v) :: post /\ forall v', ~ In (skey k, v') post) \/
   ((forall v', ~ In (skey k, v') l) /\ dict_get (skey k) acc = Some v)).
Proof.
  induction l as [|[k1 v1] l IH]; intros Pl acc Pa; cbn [fold_left].
  - split; [intros H; right; split; [intros v' []|exact H]|]. intros [(pre & post & Q & _)|[_ H]]; [destruct pre; discriminate Q|exact H].
  - assert (P1 : pure k1 = true) by (apply (Pl k1 v1); left; reflexivity). unfold put at 2. cbn [fst snd]. rewrite IH.
    + rewrite (put_get k k1 v1 acc P1 Pa). split.
      * intros [(pre & post & -> & N)|[N G]]; [left; exists ((k1, v1) :: pre), post; auto|]. destruct (py_eq k1 (skey k)) eqn:Q.
        -- apply (pure_key_r k k1 (pure_plainkey _ P1)) in Q. subst k1. apply Some_inj in G. subst v1. left. exists [], l. auto.
        -- right. split; [|exact G]. intros v' [E|Hi]; [|exact (N v' Hi)]. assert (k1 = skey k) by congruence. subst k1. cbn in Q. rewrite ustr_eqb_refl in Q. discriminate Q.
      * intros [(pre & post & E & N)|[N G]].
        -- destruct pre as [|p pre]; cbn [app] in E; [|left; exists pre, post; split; [congruence|exact N]].
           right. assert (k1 = skey k /\ v1 = v /\ l = post) as (-> & -> & ->) by (repeat split; congruence). split; [exact N|]. cbn. rewrite ustr_eqb_refl. reflexivity.
        -- right. split; [intros v' Hi; apply (N v'); right; exact Hi|]. destruct (py_eq k1 (skey k)) eqn:Q; [|exact G].
           exfalso. apply (pure_key_r k k1 (pure_plainkey _ P1)) in Q. subst k1. apply (N v1). left. reflexivity.
    + intros k0 v0 Hi. apply (Pl k0 v0). right. exact Hi.
    + intros k0 v0 Hi. apply put_keys in Hi as [->|[v2 Hi]]; [exact P1|eapply Pa; exact Hi].
Qed.
Lemma dict_pairs l : forall acc kvs, dict_of_pairs l acc = Some kvs <-> exists ps, Forall2 is_pair l ps /\ (forall k v, In (k, v) ps -> hashable k = true) /\ kvs = fold_left put ps acc.
Proof.
  induction l as [|x l IH]; intros acc kvs; cbn [dict_of_pairs].
  - split; [intros H; apply Some_inj in H; subst; exists []; split; [constructor|]; split; [intros k v []|reflexivity]|]. intros (ps & F & _ & ->). inversion F. reflexivity.
  - split.
    + destruct (py_iter x) as [[|k [|v [|? ?]]]|] eqn:X; try discriminate. destruct (hashable k) eqn:Hk; [|discriminate]. intros H. apply IH in H as (ps & F & Hh & ->).
      exists ((k, v) :: ps). split; [constructor; assumption|]. split; [|reflexivity]. intros k0 v0 [E|Hi]; [congruence|eapply Hh; exact Hi].
    + intros (ps & F & Hh & ->). inversion F as [|y [k v] ys ps1 X F1]; subst. unfold is_pair in X. cbn [fst snd] in X. rewrite X. rewrite (Hh k v (or_introl eq_refl)).
      apply IH. exists ps1. split; [exact F1|]. split; [intros; eapply Hh; right; eassumption|reflexivity].
Qed.
Lemma nodup_split pre k (v : pyval) (post : list (pyval * pyval)) : nodup_keys (map fst (pre ++ (skey k, v) :: post)) = true -> forall v', ~ In (skey k, v') post.
Proof.
  induction pre as [|p pre IH]; cbn [app map nodup_keys fst]; intros N v' Hi; apply andb_true_iff in N as [N1 N2]; [|exact (IH N2 v' Hi)].
  rewrite forallb_forall in N1. specialize (N1 (skey k) (in_map fst _ _ Hi)). cbn in N1. rewrite ustr_eqb_refl in N1. discriminate N1.
Qed.
Lemma nodup_get k v (kvs : list (pyval * pyval)) : (forall k v, In (k, v) kvs -> pure k = true) -> nodup_keys (map fst kvs) = true -> (dict_get (skey k) kvs = Some v <-> In (skey k, v) kvs).
Proof.
  induction kvs as [|[k0 v0] kvs IH]; intros P N; cbn [dict_get In]; [split; [discriminate|contradiction]|].
  pose proof (nodup_split [] k v0 kvs) as NS. cbn [app] in NS. cbn [map fst nodup_keys] in N. pose proof N as N0. apply andb_true_iff in N0 as [N1 N2].
  destruct (py_eq k0 (skey k)) eqn:Q.
  - apply pure_key_r in Q; [|apply pure_plainkey, (P k0 v0); left; reflexivity]. subst k0. split; [intros H; left; congruence|]. intros [H|H]; [congruence|]. exfalso. exact (NS N v H).
  - rewrite IH; [|intros; eapply P; right; eassumption|exact N2]. split; [auto|]. intros [H|H]; [|exact H]. exfalso. assert (k0 = skey k) by congruence. subst k0. cbn in Q. rewrite ustr_eqb_refl in Q. discriminate Q.
Qed.
Lemma given_exact s k v : pure s = true -> (dict_get (skey k) (sent_slots s) = Some v <-> supplied s k v).
Proof.
  intros P. unfold sent_slots, supplied. assert (D : (exists kvs, s = VDict DPlain kvs) \/ (forall d kvs, s <> VDict d kvs)).
  { destruct s; try (right; intros; discriminate). destruct c; try discriminate P. left. eauto. }
  destruct D as [[kvs ->]|D].
  - cbn [py_dict_of]. apply pure_dict in P as (P & Hh & N). rewrite (nodup_get k v kvs (fun k v Hi => proj1 (P k v Hi)) N). split.
    + intros Hi. apply in_split in Hi as (pre & post & ->). exists pre, post. split; [constructor|]. split; [|exact (nodup_split _ _ _ _ N)].
      intros k' v' Hi. apply (Hh k' v'). apply in_app_iff in Hi. apply in_app_iff. cbn [In]. tauto.
    + intros (pre & post & Q & _). inversion Q as [|? ? ? Nd]; subst; [|exfalso; eapply Nd; reflexivity]. apply in_app_iff. cbn [In]. tauto.
  - assert (E : py_dict_of s = match py_iter s with Some l => dict_of_pairs l [] | None => None end) by (destruct s; try reflexivity; exfalso; eapply D; reflexivity).
    rewrite E. clear E. split.
    + destruct (py_iter s) as [l|] eqn:L; [|discriminate]. destruct (dict_of_pairs l []) as [kvs|] eqn:K; [|discriminate]. apply dict_pairs in K as (ps & F & Hh & ->).
      assert (Q : pairs_of s ps) by exact (P_items s l ps D L F).
      rewrite last_given; [|intros k0 v0 Hi; exact (proj1 (pairs_pure s ps P Q k0 v0 Hi))|intros k0 v0 []].
      intros [(pre & post & -> & N)|[_ G]]; [|discriminate G]. exists pre, post. split; [exact Q|]. split; [|exact N].
      intros k' v' Hi. apply (Hh k' v'). apply in_app_iff in Hi. apply in_app_iff. cbn [In]. tauto.
    + intros (pre & post & Q & Hh & N). pose proof (pairs_pure s _ P Q) as PQ. inversion Q as [|? l ? Nd L F]; subst; [exfalso; eapply D; reflexivity|]. rewrite L.
      assert (K : dict_of_pairs l [] = Some (fold_left put (pre ++ (skey k, v) :: post) [])).
      { apply dict_pairs. eexists. split; [exact F|]. split; [|reflexivity]. intros k0 v0 Hi. apply in_app_iff in Hi. cbn [In] in Hi.
        destruct Hi as [Hi|[Hi|Hi]]; [apply (Hh k0 v0); apply in_app_iff; auto| |apply (Hh k0 v0); apply in_app_iff; auto]. assert (k0 = skey k) by congruence. subst k0. reflexivity. }
      rewrite K. apply last_given; [intros k0 v0 Hi; exact (proj1 (PQ k0 v0 Hi))|intros k0 v0 []|]. left. eauto.
Qed.
