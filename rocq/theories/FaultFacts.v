(** * What containers and frozen dicts blame for the values they refuse *)
From Verif Require Export ReadExact.

(** [failing r o]: [r] raises, FieldError for the field [o], or something else if [o] is None *)
Definition field_of (e : exn) : option ustr := match e with EFieldError f => Some f | _ => None end.
Definition failing {A} (r : result A) (o : option ustr) : Prop := exists e, r = Err e /\ field_of e = o.

(** ** Containers *)
(** slot [k] of a container made of [kvs] gets a value *)
Definition fits (c : ccls) (F : string -> pyval -> pyval -> Prop) (kvs : list (pyval * pyval)) (k : string) : Prop :=
  ((forall v, ~ In (skey k, v) kvs) /\ crequired c k = false) \/
  (In (skey k, VNone) kvs /\ crequired c k = false) \/ exists v w, In (skey k, v) kvs /\ F k v w.
(** keys that can be keyword arguments *)
Definition keywords (kvs : list (pyval * pyval)) : Prop := forall k v, In (k, v) kvs -> exists s, k = VStr s /\ s <> u "self".
(** slots are looked at in the order of the class, then names that are not slots in the
    order given; [G k v o]: slot [k] refuses [v] *)
Inductive unbuilt (c : ccls) (G : string -> pyval -> option ustr -> Prop) (F : string -> pyval -> pyval -> Prop) : pyval -> option ustr -> Prop :=
| Ub_call v : (forall kvs, v = VDict DPlain kvs -> ~ keywords kvs) -> unbuilt c G F v None
| Ub_missing kvs k pre post : keywords kvs -> cslots c = pre ++ k :: post -> Forall (fits c F kvs) pre ->
    (forall v, ~ In (skey k, v) kvs) -> crequired c k = true -> unbuilt c G F (VDict DPlain kvs) (Some (u k))
| Ub_slot kvs k pre post v o : keywords kvs -> cslots c = pre ++ k :: post -> Forall (fits c F kvs) pre ->
    In (skey k, v) kvs -> v <> VNone \/ crequired c k = true -> G k v o -> unbuilt c G F (VDict DPlain kvs) o
| Ub_unknown kvs1 s v kvs2 : keywords (kvs1 ++ (VStr s, v) :: kvs2) -> Forall (fits c F (kvs1 ++ (VStr s, v) :: kvs2)) (cslots c) ->
    (forall k w, In (k, w) kvs1 -> exists n, In n (cslots c) /\ k = skey n) -> (forall n, In n (cslots c) -> s <> u n) ->
    unbuilt c G F (VDict DPlain (kvs1 ++ (VStr s, v) :: kvs2)) (Some s).
(** the slot refuses the value under its own name *)
Definition own (F : string -> pyval -> pyval -> Prop) (k : string) (v : pyval) (o : option ustr) : Prop := (forall w, ~ F k v w) /\ o = Some (u k).
Definition no_node : pyval -> option ustr -> Prop := unbuilt CNode (own node_field) node_field.
Inductive header_fault : string -> pyval -> option ustr -> Prop :=
| HX_own k v : k <> "task_owner"%string -> (forall w, ~ header_field k v w) -> header_fault k v (Some (u k))
| HX_no_dict v : ~ a_dict v -> header_fault "task_owner" v (Some (u "task_owner"))
| HX_owner v o : a_dict v -> no_node v o -> header_fault "task_owner" v o.
Definition no_header : pyval -> option ustr -> Prop := unbuilt CTaskHeader header_fault header_field.
(** the dicts of the processor's statistics have no validators: only unknown keys are refused, by a KeyError or TypeError *)
Inductive cpu_fault : string -> pyval -> option ustr -> Prop :=
| CX_no_dict k v : ~ a_dict v -> cpu_fault k v (Some (u k))
| CX_keys k v : a_dict v -> (forall w, ~ cpu_field k v w) -> cpu_fault k v None.
Inductive provider_fault : string -> pyval -> option ustr -> Prop :=
| PX_no_dict k v : ~ a_dict v -> provider_fault k v (Some (u k))
| PX_blkio kvs o : kvs <> [] -> unbuilt CBlockIo (own (fun _ => same a_dict)) (fun _ => same a_dict) (VDict DPlain kvs) o -> provider_fault "blkio_stats" (VDict DPlain kvs) o
| PX_cpu kvs o : kvs <> [] -> unbuilt CCpu cpu_fault cpu_field (VDict DPlain kvs) o -> provider_fault "cpu_stats" (VDict DPlain kvs) o
| PX_memory kvs o : kvs <> [] -> unbuilt CMemory (own memory_field) memory_field (VDict DPlain kvs) o -> provider_fault "memory_stats" (VDict DPlain kvs) o
| PX_pids kvs o : kvs <> [] -> unbuilt CPid (own (fun _ => same integer)) (fun _ => same integer) (VDict DPlain kvs) o -> provider_fault "pids_stats" (VDict DPlain kvs) o.
Definition no_stats : pyval -> option ustr -> Prop := unbuilt CProvider provider_fault provider_field.

(** ** Frozen dicts *)
Definition validated (d : dcls) : list string :=
  match d with DCTD => ["task_id"; "subtask_id"] | DFileInfo => ["category"] | DPeer => ["address"; "port"; "node"] | _ => [] end%string.
Inductive item_fault (d : dcls) : pyval -> pyval -> option ustr -> Prop :=
| IX_own k v : In k (validated d) -> (forall w, ~ item_as d k v w) -> (d = DPeer -> k = "node"%string -> ~ a_dict v) -> item_fault d (skey k) v (Some (u k))
| IX_node v o : d = DPeer -> a_dict v -> no_node v o -> item_fault d (skey "node") v o
| IX_unknown k v : (forall s, In s (documented_keys d) -> k <> skey s) -> item_fault d k v None.
(** items are assigned in the order given, then the documented values of missing keys; a
    peer's are refused by its own validators *)
Inductive unfrozen (d : dcls) : pyval -> option ustr -> Prop :=
| Uf_scalar v : (forall d' kvs, v <> VDict d' kvs) -> py_iter v = None -> unfrozen d v None
| Uf_dict d' l1 l1' k v l2 o : Forall2 (taken d) l1 l1' -> item_fault d k v o -> unfrozen d (VDict d' (l1 ++ (k, v) :: l2)) o
| Uf_item v xs x ys l1 l1' k w o : (forall d' kvs, v <> VDict d' kvs) -> py_iter v = Some (xs ++ x :: ys) -> Forall2 is_pair xs l1 -> Forall2 (taken d) l1 l1' ->
    py_iter x = Some [k; w] -> item_fault d k w o -> unfrozen d v o
| Uf_no_pair v xs x ys l1 l1' : (forall d' kvs, v <> VDict d' kvs) -> py_iter v = Some (xs ++ x :: ys) -> Forall2 is_pair xs l1 -> Forall2 (taken d) l1 l1' ->
    (forall k w, py_iter x <> Some [k; w]) -> unfrozen d v None
| Uf_missing v l l' k pre post : d = DPeer -> pairs_of v l -> Forall2 (taken d) l l' -> documented_keys d = pre ++ k :: post ->
    (forall k', In k' pre -> exists w, In (skey k', w) l') -> (forall w, ~ In (skey k, w) l') -> unfrozen d v (Some (u k)).

(** ** Slots *)
Inductive slot_fault : skind -> string -> pyval -> option ustr -> Prop :=
| SX_value kd k v : (exists e, kd = KEnum e) \/ In kd [KCpu; KNum; KInt] -> (forall w, ~ plain_as kd v w) -> slot_fault kd k v (Some (u k))
| SX_no_dict k v : truthy v = true -> ~ a_dict v -> slot_fault KNode k v (Some (u k))
| SX_node k v o : truthy v = true -> a_dict v -> no_node v o -> slot_fault KNode k v o
| SX_no_list kd k v : In kd [KPeers; KTasks] -> (forall l, v <> VList l) -> slot_fault kd k v (Some (u k))
| SX_peer k l1 x l2 r o : Forall2 (frozen DPeer) l1 r -> unfrozen DPeer x o -> slot_fault KPeers k (VList (l1 ++ x :: l2)) o
| SX_no_task k l1 x l2 r : Forall2 header l1 r -> ~ a_dict x -> slot_fault KTasks k (VList (l1 ++ x :: l2)) (Some (u k))
| SX_task k l1 x l2 r o : Forall2 header l1 r -> a_dict x -> no_header x o -> slot_fault KTasks k (VList (l1 ++ x :: l2)) o
| SX_header k v o : v <> VNone -> no_header v o -> slot_fault KHeader k v o
| SX_ctd k v o : unfrozen DCTD v o -> slot_fault KCtd k v o
| SX_stats k v o : v <> VNone -> no_stats v o -> slot_fault KStats k v o
| SX_no_files k v : py_iter v = None -> slot_fault KFiles k v None
| SX_no_file k v l1 x l2 r : py_iter v = Some (l1 ++ x :: l2) -> Forall a_dict l1 -> Forall2 (frozen DFileInfo) l1 r -> ~ a_dict x -> slot_fault KFiles k v None
| SX_file k v l1 x l2 r o : py_iter v = Some (l1 ++ x :: l2) -> Forall a_dict l1 -> Forall2 (frozen DFileInfo) l1 r -> a_dict x -> unfrozen DFileInfo x o -> slot_fault KFiles k v o.

(** ** Proofs *)
Lemma failing_err {A} e o : @failing A (Err e) o <-> field_of e = o.
Proof. split; [intros (e' & Q & H); congruence|]. intros H. exists e. auto. Qed.
Lemma failing_ok {A} (x : A) o : ~ failing (Ok x) o.
Proof. intros (e & Q & _). discriminate Q. Qed.
Lemma failing_bind {A B} (r : result A) (f : A -> result B) o : failing (do x <- r; f x) o <-> failing r o \/ exists x, r = Ok x /\ failing (f x) o.
Proof.
  destruct r as [x|e]; cbn [bind].
  - split; [eauto|]. intros [H|(y & Q & H)]; [destruct (failing_ok _ _ H)|]. apply Ok_inj in Q. subst. auto.
  - rewrite !failing_err. split; [auto|]. intros [H|(y & Q & _)]; [exact H|discriminate Q].
Qed.
Lemma failing_mapM {A B} (f : A -> result B) l o : failing (mapM f l) o <-> exists pre x post r, l = pre ++ x :: post /\ mapM f pre = Ok r /\ failing (f x) o.
Proof.
  split.
  - induction l as [|x l IH]; cbn [mapM]; [intros H; destruct (failing_ok _ _ H)|]. rewrite failing_bind. intros [H|(y & Hx & H)].
    + exists [], x, l, []. auto.
    + apply failing_bind in H as [H|(r & _ & H)]; [|destruct (failing_ok _ _ H)]. destruct (IH H) as (pre & x' & post & r & -> & Hp & H').
      exists (x :: pre), x', post, (y :: r). split; [reflexivity|]. split; [|exact H']. cbn [mapM]. rewrite Hx. cbn [bind]. rewrite Hp. reflexivity.
  - intros (pre & x & post & r & -> & Hp & Hx). revert r Hp. induction pre as [|y pre IH]; intros r Hp; cbn [app mapM].
    + apply failing_bind. auto.
    + cbn [mapM] in Hp. apply bind_ok in Hp as (z & Hz & Hp). apply bind_ok in Hp as (r' & Hr & _). rewrite Hz. cbn [bind]. apply failing_bind. left. eauto.
Qed.
(** what is not read fails *)
Lemma fails_or {A} (r : result A) : (exists x, r = Ok x) \/ exists o, failing r o.
Proof. destruct r as [x|e]; [eauto|]. right. exists (field_of e), e. auto. Qed.

Lemma cinit_failing h c kw o : failing (cinit h c kw) o <-> failing (cload_slots h c kw) o.
Proof.
  unfold cinit. destruct (cload_slots h c kw) as [a|e]; [split; intros H; destruct (failing_ok _ _ H)|].
  destruct e; cbn [is_field_error]; rewrite !failing_err; reflexivity.
Qed.
Lemma find_split {A} (f : A -> bool) l x : find f l = Some x <-> exists l1 l2, l = l1 ++ x :: l2 /\ f x = true /\ forallb (fun y => negb (f y)) l1 = true.
Proof.
  induction l as [|y l IH]; cbn [find].
  - split; [discriminate|]. intros ([|? ?] & ? & Q & _); discriminate Q.
  - destruct (f y) eqn:Fy.
    + split.
      * intros H. assert (y = x) by congruence. subst. exists [], l. auto.
      * intros ([|z l1] & l2 & Q & Fx & N); [cbn [app] in Q; congruence|]. cbn [app] in Q. assert (z = y) by congruence. subst z. cbn [forallb] in N. rewrite Fy in N. discriminate N.
    + rewrite IH. split.
      * intros (l1 & l2 & -> & Fx & N). exists (y :: l1), l2. split; [reflexivity|]. split; [exact Fx|]. cbn [forallb]. rewrite Fy, N. reflexivity.
      * intros ([|z l1] & l2 & Q & Fx & N); [cbn [app] in Q; congruence|]. cbn [app] in Q. cbn [forallb] in N. apply andb_true_iff in N as [_ N]. exists l1, l2. split; [congruence|auto].
Qed.
Lemma known_twice c (l : list (ustr * pyval)) : forallb (fun kv => negb (negb (cknown c (fst kv)))) l = forallb (fun kv => cknown c (fst kv)) l.
Proof. induction l as [|x l IH]; cbn [forallb]; [reflexivity|]. rewrite negb_involutive, IH. reflexivity. Qed.
Lemma load_failing h c kw o : failing (cload_slots h c kw) o <->
  (exists pre k post r, cslots c = pre ++ k :: post /\ mapM (cload_slot h c kw) pre = Ok r /\ failing (cload_slot h c kw k) o) \/
  (exists a kw1 s v kw2, mapM (cload_slot h c kw) (cslots c) = Ok a /\ kw = kw1 ++ (s, v) :: kw2 /\ forallb (fun kv => cknown c (fst kv)) kw1 = true /\
     cknown c s = false /\ o = Some s).
Proof.
  unfold cload_slots. rewrite failing_bind, failing_mapM. apply or_iff_compat_l. split.
  - intros (a & Ha & H). destruct (find _ kw) as [[s v]|] eqn:Fd; [|destruct (failing_ok _ _ H)]. apply failing_err in H. cbn [field_of] in H.
    apply find_split in Fd as (kw1 & kw2 & -> & Fs & N). exists a, kw1, s, v, kw2. split; [exact Ha|]. split; [reflexivity|]. split.
    + rewrite known_twice in *; exact N.
    + split; [apply negb_true_iff, Fs|congruence].
  - intros (a & kw1 & s & v & kw2 & Ha & -> & N & Fs & ->). exists a. split; [exact Ha|].
    assert (Fd : find (fun kv => negb (cknown c (fst kv))) (kw1 ++ (s, v) :: kw2) = Some (s, v)).
    { apply find_split. exists kw1, kw2. split; [reflexivity|]. split; [apply negb_true_iff, Fs|]. rewrite known_twice in *; exact N. }
    rewrite Fd. apply failing_err. reflexivity.
Qed.
Lemma known_iff c s : cknown c s = true <-> exists n, In n (cslots c) /\ s = u n.
Proof.
  unfold cknown. rewrite existsb_exists. split; intros (n & H1 & H2); exists n; (split; [exact H1|]); [apply ustr_eqb_eq in H2; auto|apply ustr_eqb_eq; auto].
Qed.
Lemma keywords_of kvs : (forall k v, In (k, v) kvs -> pure k = true) -> (keywords kvs <-> exists kw, kwargs_of kvs = Ok kw).
Proof.
  induction kvs as [|[k v] kvs IH]; intros P; cbn [kwargs_of]; [split; [eauto|intros _ k v []]|].
  assert (P' : forall k v, In (k, v) kvs -> pure k = true) by (intros; eapply P; right; eassumption). specialize (IH P'). split.
  - intros H. destruct (H k v (or_introl eq_refl)) as (s & -> & Ns). cbn [str_of]. destruct (ustr_eqb s (u "self")) eqn:Q; [apply ustr_eqb_eq in Q; contradiction|].
    destruct (proj1 IH) as [kw Hk]; [intros k0 v0 Hi; apply (H k0 v0); right; exact Hi|]. rewrite Hk. cbn [bind]. eauto.
  - intros [kw H]. destruct (str_of k) as [s|] eqn:S; [|discriminate H]. destruct (ustr_eqb s (u "self")) eqn:Q; [discriminate H|]. apply bind_ok in H as (r & Hr & _).
    intros k0 v0 [E|Hi]; [|exact (proj2 IH (ex_intro _ r Hr) k0 v0 Hi)]. assert (k0 = k) by congruence. subst k0. exists s. split.
    + apply pure_text; [apply pure_plainkey, (P k v); left; reflexivity|exact S].
    + intros ->. rewrite ustr_eqb_refl in Q. discriminate Q.
Qed.
Lemma kwargs_failing kvs o : failing (kwargs_of kvs) o -> o = None.
Proof.
  revert o. induction kvs as [|[k v] kvs IH]; intros o; cbn [kwargs_of]; [intros H; destruct (failing_ok _ _ H)|].
  destruct (str_of k); [|intros H; apply failing_err in H; auto]. destruct (ustr_eqb _ _); [intros H; apply failing_err in H; auto|].
  intros H. apply failing_bind in H as [H|(x & _ & H)]; [exact (IH _ H)|destruct (failing_ok _ _ H)].
Qed.

(** [G] describes exactly how the slots of the class refuse values *)
Definition exact_fault (c : ccls) (G : string -> pyval -> option ustr -> Prop) : Prop :=
  forall k v o, In k (cslots c) -> pure v = true -> v <> VNone \/ crequired c k = true -> (failing (cdeser_slot (chook c) c k v) o <-> G k v o).
Lemma fits_loads c F kw k : exact_field c F -> In k (cslots c) -> (forall k v, In (k, v) kw -> pure v = true) -> NoDup (map fst kw) ->
  (fits c F (map (fun kv => (VStr (fst kv), snd kv)) kw) k <-> exists y, cload_slot (chook c) c kw k = Ok y).
Proof.
  intros HF Ik P N.
  assert (G : forall k v, In (VStr k, v) (map (fun kv => (VStr (fst kv), snd kv)) kw) <-> kw_get k kw = Some v).
  { intros k0 v. rewrite (kw_given kw k0 N), in_map_iff. split.
    - intros ([k' v'] & E & Hi). cbn [fst snd] in E. assert (k' = k0 /\ v' = v) as [-> ->] by (split; congruence). exact Hi.
    - intros Hi. exists (k0, v). auto. }
  unfold fits, cload_slot. destruct (kw_get (u k) kw) as [v|] eqn:K.
  - assert (Pv : pure v = true) by (apply (kw_given kw (u k) N) in K; exact (P _ _ K)). split.
    + intros [[H _]|[[H R]|(v0 & w & H & W)]].
      * exfalso. apply (H v). apply G, K.
      * apply G in H. assert (v = VNone) by congruence. subst v. unfold cdeser_slot. rewrite R. cbn. eauto.
      * apply G in H. assert (v0 = v) by congruence. subst v0. assert (D : exists w, cdeser_slot (chook c) c k v = Ok w).
        { destruct (is_none v && negb (crequired c k)) eqn:X.
          - apply andb_true_iff in X as [X1 X2]. exists v. unfold cdeser_slot. rewrite X1, X2. reflexivity.
          - assert (X' : v <> VNone \/ crequired c k = true).
            { apply andb_false_iff in X as [X|X]; [left; intros ->; discriminate X|right; destruct (crequired c k); auto]. }
            exists w. apply cdeser_slot_ok. right. split; [exact X'|]. apply (proj1 (HF k Ik)); assumption. }
        destruct D as [w' D]. rewrite D. cbn [bind]. eauto.
    + intros [y H]. apply bind_ok in H as (w & H & _). apply cdeser_slot_ok in H as [(-> & R & ->)|(X & V & W)].
      * right. left. split; [apply G, K|exact R].
      * right. right. exists v, w. split; [apply G, K|]. apply (proj1 (HF k Ik)); auto.
  - split.
    + intros [[_ R]|[[H _]|(v & w & H & _)]]; [rewrite R; eauto|exfalso; apply G in H; congruence|exfalso; apply G in H; congruence].
    + intros [y H]. destruct (crequired c k) eqn:R; [discriminate H|]. left. split; [|reflexivity]. intros v H0. apply G in H0. congruence.
Qed.
Lemma mapM_all {A B} (f : A -> result B) l : (exists r, mapM f l = Ok r) <-> Forall (fun x => exists y, f x = Ok y) l.
Proof.
  induction l as [|x l IH]; cbn [mapM]; [split; eauto|]. split.
  - intros [r H]. apply bind_ok in H as (y & Hy & H). apply bind_ok in H as (r' & Hr & _). constructor; [eauto|]. apply IH. eauto.
  - intros H. inversion H as [|? ? [y Hy] Hl]; subst. apply IH in Hl as [r Hr]. rewrite Hy. cbn [bind]. rewrite Hr. cbn [bind]. eauto.
Qed.
Lemma Forall_impl_in {A} (P Q : A -> Prop) l : (forall x, In x l -> P x -> Q x) -> Forall P l -> Forall Q l.
Proof. rewrite !Forall_forall. auto. Qed.
Lemma unbuilt_iff c G F v o : exact_field c F -> exact_fault c G -> pure v = true -> (failing (cnew_star c v) o <-> unbuilt c G F v o).
Proof.
  intros HF HG P. unfold cnew_star. rewrite failing_bind. unfold cnew. split.
  - intros [H|(kw & Hkw & H)].
    + assert (o = None) as ->.
      { destruct v; try (apply failing_err in H; auto; fail). exact (kwargs_failing _ _ H). }
      apply Ub_call. intros kvs -> K. apply pure_dict in P as (P & _). apply (keywords_of kvs (fun k v Hi => proj1 (P k v Hi))) in K as [kw K]. cbn [star_star] in H. rewrite K in H. destruct (failing_ok _ _ H).
    + destruct v; try discriminate Hkw. destruct c0; try discriminate P. cbn [star_star] in Hkw. apply pure_dict in P as (P & _ & N).
      assert (Kw : keywords kvs) by (apply (keywords_of kvs (fun k v Hi => proj1 (P k v Hi))); eauto).
      pose proof (kwargs_texts _ _ Hkw (fun k v Hi => proj1 (P k v Hi))) as Q. subst kvs. apply texts_nodup in N. clear Hkw.
      assert (Pw : forall k v, In (k, v) kw -> pure v = true) by (intros k v Hi; apply (proj2 (P (VStr k) v (proj2 (in_map_iff _ _ _) (ex_intro _ (k, v) (conj eq_refl Hi)))))).
      assert (FL : forall l, incl l (cslots c) -> forall r, mapM (cload_slot (chook c) c kw) l = Ok r -> Forall (fits c F (map (fun kv => (VStr (fst kv), snd kv)) kw)) l).
      { intros l Il r Hr. assert (H0 := proj1 (mapM_all _ _) (ex_intro _ r Hr)). revert H0. apply Forall_impl_in. intros x Hx Hy. apply (fits_loads c F kw x HF (Il x Hx) Pw N). exact Hy. }
      apply cinit_failing, load_failing in H as [(pre & k & post & r & Hc & Hp & Hk)|(a & kw1 & s & v & kw2 & Ha & E & Kn & Un & ->)].
      * assert (Il : incl pre (cslots c)) by (intros x Hx; rewrite Hc; apply in_or_app; auto).
        assert (Ik : In k (cslots c)) by (rewrite Hc; apply in_or_app; right; left; reflexivity).
        specialize (FL pre Il r Hp). unfold cload_slot in Hk. destruct (kw_get (u k) kw) as [v|] eqn:K.
        -- apply (kw_given kw (u k) N) in K. apply failing_bind in Hk as [Hk|(x & _ & Hk)]; [|destruct (failing_ok _ _ Hk)].
           assert (X : v <> VNone \/ crequired c k = true).
           { destruct (is_none v && negb (crequired c k)) eqn:X; [exfalso; unfold cdeser_slot in Hk; rewrite X in Hk; exact (failing_ok _ _ Hk)|].
             apply andb_false_iff in X as [X|X]; [left; intros ->; discriminate X|right; destruct (crequired c k); auto]. }
           apply (Ub_slot _ _ _ _ k pre post v o); [exact Kw|exact Hc|exact FL| |exact X|apply HG; [exact Ik|exact (Pw _ _ K)|exact X|exact Hk]].
           apply in_map_iff. exists (u k, v). auto.
        -- destruct (crequired c k) eqn:R; [|destruct (failing_ok _ _ Hk)]. apply failing_err in Hk. cbn [field_of] in Hk. subst o.
           apply (Ub_missing _ _ _ _ k pre post); [exact Kw|exact Hc|exact FL| |exact R]. intros v Hi. apply in_map_iff in Hi as ([k' v'] & E & Hi). cbn [fst snd] in E.
           assert (k' = u k) by (unfold skey in E; congruence). subst k'. apply (kw_given kw (u k) N) in Hi. congruence.
      * specialize (FL (cslots c) (fun x H => H) a Ha). subst kw. rewrite map_app in *. cbn [map fst snd] in *.
        apply (Ub_unknown c G F _ s v); [exact Kw|exact FL| |].
        -- intros k w Hi. apply in_map_iff in Hi as ([k' v'] & E & Hi). cbn [fst snd] in E. rewrite forallb_forall in Kn. specialize (Kn _ Hi). cbn [fst] in Kn.
           apply known_iff in Kn as (n & Hn & ->). exists n. split; [exact Hn|]. unfold skey. congruence.
        -- intros n Hn ->. assert (X : cknown c (u n) = true) by (apply known_iff; eauto). congruence.
  - intros B. destruct B as [v H|kvs k pre post Kw Hc FL Nk R|kvs k pre post v o Kw Hc FL Hi X HGk|kvs1 s v kvs2 Kw FL Kn Un].
    + left. destruct v; try (apply failing_err; reflexivity). destruct c0; try discriminate P. cbn [star_star]. specialize (H kvs eq_refl).
      apply pure_dict in P as (P & _). destruct (fails_or (kwargs_of kvs)) as [Q|[o Q]].
      * exfalso. apply H. apply (keywords_of kvs (fun k v Hi => proj1 (P k v Hi))). exact Q.
      * rewrite <- (kwargs_failing _ _ Q). exact Q.
    + right. apply pure_dict in P as (P & _ & N). destruct (proj1 (keywords_of kvs (fun k v Hi => proj1 (P k v Hi))) Kw) as [kw Hkw]. exists kw. cbn [star_star]. split; [exact Hkw|].
      pose proof (kwargs_texts _ _ Hkw (fun k v Hi => proj1 (P k v Hi))) as Q. subst kvs. apply texts_nodup in N.
      assert (Pw : forall k v, In (k, v) kw -> pure v = true) by (intros k0 v0 Hi; apply (proj2 (P (VStr k0) v0 (proj2 (in_map_iff _ _ _) (ex_intro _ (k0, v0) (conj eq_refl Hi)))))).
      assert (Il : incl pre (cslots c)) by (intros x Hx; rewrite Hc; apply in_or_app; auto).
      apply cinit_failing, load_failing. left. assert (M : exists r, mapM (cload_slot (chook c) c kw) pre = Ok r).
      { apply mapM_all. revert FL. apply Forall_impl_in. intros x Hx Hf. apply (fits_loads c F kw x HF (Il x Hx) Pw N). exact Hf. }
      destruct M as [r Hr]. exists pre, k, post, r. split; [exact Hc|]. split; [exact Hr|]. unfold cload_slot.
      destruct (kw_get (u k) kw) as [v|] eqn:K; [|rewrite R; apply failing_err; reflexivity]. exfalso. apply (kw_given kw (u k) N) in K. apply (Nk v). apply in_map_iff. exists (u k, v). auto.
    + right. apply pure_dict in P as (P & _ & N). destruct (proj1 (keywords_of kvs (fun k v Hi => proj1 (P k v Hi))) Kw) as [kw Hkw]. exists kw. cbn [star_star]. split; [exact Hkw|].
      pose proof (kwargs_texts _ _ Hkw (fun k v Hi => proj1 (P k v Hi))) as Q. subst kvs. apply texts_nodup in N.
      assert (Pw : forall k v, In (k, v) kw -> pure v = true) by (intros k0 v0 Hj; apply (proj2 (P (VStr k0) v0 (proj2 (in_map_iff _ _ _) (ex_intro _ (k0, v0) (conj eq_refl Hj)))))).
      assert (Il : incl pre (cslots c)) by (intros x Hx; rewrite Hc; apply in_or_app; auto).
      assert (Ik : In k (cslots c)) by (rewrite Hc; apply in_or_app; right; left; reflexivity).
      apply cinit_failing, load_failing. left. assert (M : exists r, mapM (cload_slot (chook c) c kw) pre = Ok r).
      { apply mapM_all. revert FL. apply Forall_impl_in. intros x Hx Hf. apply (fits_loads c F kw x HF (Il x Hx) Pw N). exact Hf. }
      destruct M as [r Hr]. exists pre, k, post, r. split; [exact Hc|]. split; [exact Hr|]. unfold cload_slot.
      apply in_map_iff in Hi as ([k' v'] & E & Hi). cbn [fst snd] in E. assert (k' = u k /\ v' = v) as [-> ->] by (unfold skey in E; split; congruence).
      rewrite (proj2 (kw_given kw (u k) N v) Hi). apply failing_bind. left. apply HG; [exact Ik|exact (Pw _ _ Hi)|exact X|exact HGk].
    + right. apply pure_dict in P as (P & _ & N). destruct (proj1 (keywords_of _ (fun k v Hi => proj1 (P k v Hi))) Kw) as [kw Hkw]. exists kw. cbn [star_star]. split; [exact Hkw|].
      pose proof (kwargs_texts _ _ Hkw (fun k v Hi => proj1 (P k v Hi))) as Q.
      symmetry in Q. apply map_eq_app in Q as (kw1 & kw' & -> & Q1 & Q2). apply map_eq_cons in Q2 as ([s' v'] & kw2 & -> & Q2 & Q3). cbn [fst snd] in Q2.
      assert (s' = s /\ v' = v) as [-> ->] by (split; congruence). subst kvs1 kvs2. clear Q2 Hkw.
      replace (map (fun kv : ustr * pyval => (VStr (fst kv), snd kv)) kw1 ++ (VStr s, v) :: map (fun kv : ustr * pyval => (VStr (fst kv), snd kv)) kw2)
        with (map (fun kv : ustr * pyval => (VStr (fst kv), snd kv)) (kw1 ++ (s, v) :: kw2)) in * by (rewrite map_app; reflexivity).
      set (kw := kw1 ++ (s, v) :: kw2) in *. apply texts_nodup in N.
      assert (Pw : forall k v, In (k, v) kw -> pure v = true) by (intros k0 v0 Hj; apply (proj2 (P (VStr k0) v0 (proj2 (in_map_iff _ _ _) (ex_intro _ (k0, v0) (conj eq_refl Hj)))))).
      apply cinit_failing, load_failing. right. assert (M : exists r, mapM (cload_slot (chook c) c kw) (cslots c) = Ok r).
      { apply mapM_all. revert FL. apply Forall_impl_in. intros x Hx Hf. apply (fits_loads c F kw x HF Hx Pw N). exact Hf. }
      destruct M as [a Ha]. exists a, kw1, s, v, kw2. split; [exact Ha|]. split; [reflexivity|]. split.
      * apply forallb_forall. intros [k w] Hi. cbn [fst]. apply known_iff. destruct (Kn (VStr k) w) as (n & Hn & E); [apply in_map_iff; exists (k, w); auto|]. exists n. split; [exact Hn|]. unfold skey in E. congruence.
      * split; [|reflexivity]. destruct (cknown c s) eqn:X; [|reflexivity]. apply known_iff in X as (n & Hn & ->). exfalso. exact (Un n Hn eq_refl).
Qed.
