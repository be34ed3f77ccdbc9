(** * Which decoded values are read as which containers, dicts and messages *)
From Verif Require Export LoadFacts DictFacts IpFacts.

Definition short_text (v : pyval) : Prop := exists s, v = VStr s /\ Z.of_nat (List.length s) <= 128.
Definition port_number (v : pyval) : Prop := exists z, v = VInt z /\ 1 <= z <= 65534.
Definition integer (v : pyval) : Prop := exists z, v = VInt z.
Definition address (v : pyval) : Prop :=
  (exists s, v = VStr s /\ (ipv4 s \/ ipv6 s)) \/
  (exists b, v = VBytes b /\ (List.length b = 4%nat \/ List.length b = 16%nat)) \/
  (exists z, v = VInt z /\ 0 <= z < 2 ^ 128) \/ (exists b, v = VBool b).
Definition version_text (v : pyval) : Prop := exists s ver, v = VStr s /\ spells_version s ver.
Definition a_dict (v : pyval) : Prop := exists kvs, v = VDict DPlain kvs.
Definition same (P : pyval -> Prop) (v w : pyval) : Prop := P v /\ w = v.

(** ** Containers: [F k v w] says that field [k], given as [v], holds [w] *)
Inductive built (c : ccls) (F : string -> pyval -> pyval -> Prop) : pyval -> pyval -> Prop :=
| Built kvs a :
    (forall k v, In (k, v) kvs -> exists s, In s (cslots c) /\ k = skey s) -> map fst a = cslots c ->
    (forall k w, In (k, w) a ->
       ((forall v, ~ In (skey k, v) kvs) /\ crequired c k = false /\ w = cdefault c k) \/
       (In (skey k, VNone) kvs /\ crequired c k = false /\ w = VNone) \/
       (exists v, In (skey k, v) kvs /\ F k v w)) ->
    built c F (VDict DPlain kvs) (VObj c a).
(** a truthy dict goes to a container, an empty one is dropped *)
Inductive nonempty (R : pyval -> pyval -> Prop) : pyval -> pyval -> Prop :=
| Dropped : nonempty R (VDict DPlain []) VNone
| Kept kvs w : kvs <> [] -> R (VDict DPlain kvs) w -> nonempty R (VDict DPlain kvs) w.

Inductive node_field : string -> pyval -> pyval -> Prop :=
| NF_name s : node_field "node_name" (VStr s) (VStr s)
| NF_key v : short_text v -> node_field "key" v v
| NF_port k v : In k ["prv_port"; "pub_port"; "p2p_prv_port"; "p2p_pub_port"]%string -> port_number v -> node_field k v v
| NF_addr k v : In k ["prv_addr"; "pub_addr"]%string -> address v -> node_field k v v
| NF_hyper k v : In k ["hyperdrive_prv_port"; "hyperdrive_pub_port"]%string -> integer v -> node_field k v v
| NF_any k v : In k ["prv_addresses"; "port_statuses"; "nat_type"]%string -> node_field k v v.
Definition node : pyval -> pyval -> Prop := built CNode node_field.

Inductive header_field : string -> pyval -> pyval -> Prop :=
| HF_mask b : header_field "mask" (VBytes b) (VMask b)
| HF_signature b : header_field "signature" (VBytes b) (VBytes b)
| HF_int k v : In k ["timestamp"; "deadline"; "estimated_memory"; "max_price"; "subtask_budget"]%string -> integer v -> header_field k v v
| HF_text k v : In k ["task_id"; "environment"]%string -> short_text v -> header_field k v v
| HF_owner v n : node v n -> header_field "task_owner" v n
| HF_timeout z : 0 <= z -> header_field "subtask_timeout" (VInt z) (VInt z)
| HF_count z : 0 < z -> header_field "subtasks_count" (VInt z) (VInt z)
| HF_prerequisites v : a_dict v -> header_field "environment_prerequisites" v v
| HF_version v : version_text v -> header_field "min_version" v v
| HF_concent b : header_field "concent_enabled" (VBool b) (VBool b)
| HF_market m : In m ["Brass"; "Usage"]%string -> header_field "market_type" (VStr (u m)) (VEnum EnMarketType m).
Definition header : pyval -> pyval -> Prop := built CTaskHeader header_field.

(** ** Frozen dicts *)
(** the pairs in what is given: a dict's, or the items of something that are pairs *)
Inductive pairs_of : pyval -> list (pyval * pyval) -> Prop :=
| P_dict d kvs : pairs_of (VDict d kvs) kvs
| P_items v l kvs : (forall d kvs, v <> VDict d kvs) -> py_iter v = Some l ->
    Forall2 (fun x kv => py_iter x = Some [fst kv; snd kv]) l kvs -> pairs_of v kvs.
(** assigned one after another *)
Definition assigned (l : list (pyval * pyval)) : list (pyval * pyval) := fold_left (fun acc kv => dict_set (fst kv) (snd kv) acc) l [].
Definition absent (kvs : list (pyval * pyval)) (k : string) : bool := match dict_get (skey k) kvs with Some _ => false | None => true end.
(** the documented value of every key that is not there *)
Definition defaults (d : dcls) (kvs : list (pyval * pyval)) : list (pyval * pyval) :=
  map (fun k => (skey k, documented_default k)) (filter (absent kvs) (documented_keys d)).
Inductive item_as : dcls -> string -> pyval -> pyval -> Prop :=
| I_id k v : In k ["task_id"; "subtask_id"]%string -> short_text v -> item_as DCTD k v v
| I_ctd k v : In k ["deadline"; "extra_data"; "performance"; "docker_images"; "resources"]%string -> item_as DCTD k v v
| I_file k v : In k ["path"; "checksum"; "size"]%string -> item_as DFileInfo k v v
| I_category m : In m ["results"; "resources"]%string -> item_as DFileInfo "category" (VStr (u m)) (VEnum EnFileCategory m)
| I_address v : address v -> item_as DPeer "address" v v
| I_port v : port_number v -> item_as DPeer "port" v v
| I_node v n : node v n -> item_as DPeer "node" v n
| I_usage k v : In k (documented_keys DCpuUsage) -> item_as DCpuUsage k v v
| I_throttling k v : In k (documented_keys DThrottling) -> item_as DThrottling k v v.
Definition taken (d : dcls) (kv kv' : pyval * pyval) : Prop :=
  exists k, fst kv = skey k /\ fst kv' = skey k /\ item_as d k (snd kv) (snd kv').
(** each pair is checked, the last one for a key counts, keys not given get their
    defaults; a peer has none *)
Inductive frozen (d : dcls) : pyval -> pyval -> Prop :=
| Frozen v l l' : pairs_of v l -> Forall2 (taken d) l l' -> (d = DPeer -> defaults d (assigned l') = []) ->
    frozen d v (VDict d (assigned l' ++ defaults d (assigned l'))).

(** ** Statistics *)
Inductive cpu_field : string -> pyval -> pyval -> Prop :=
| CF_usage v w : nonempty (frozen DCpuUsage) v w -> cpu_field "cpu_usage" v w
| CF_throttling v w : nonempty (frozen DThrottling) v w -> cpu_field "throttling_data" v w.
Inductive memory_field : string -> pyval -> pyval -> Prop :=
| MF_data k v : In k ["kernel_tcp_usage"; "kernel_usage"; "swap_usage"; "usage"; "stats"]%string -> a_dict v -> memory_field k v v
| MF_cache v : integer v -> memory_field "cache" v v
| MF_hierarchy b : memory_field "use_hierarchy" (VBool b) (VBool b).
Inductive provider_field : string -> pyval -> pyval -> Prop :=
| PF_blkio v w : nonempty (built CBlockIo (fun _ => same a_dict)) v w -> provider_field "blkio_stats" v w
| PF_cpu v w : nonempty (built CCpu cpu_field) v w -> provider_field "cpu_stats" v w
| PF_memory v w : nonempty (built CMemory memory_field) v w -> provider_field "memory_stats" v w
| PF_pids v w : nonempty (built CPid (fun _ => same integer)) v w -> provider_field "pids_stats" v w.
Definition stats : pyval -> pyval -> Prop := built CProvider provider_field.

(** ** Slots *)
(** slot [k] is given as [v]: by the last pair of that name, if all there is are pairs
    with hashable keys *)
Definition supplied (s : pyval) (k : string) (v : pyval) : Prop :=
  exists pre post, pairs_of s (pre ++ (skey k, v) :: post) /\ (forall k' v', In (k', v') (pre ++ post) -> hashable k' = true) /\
    forall v', ~ In (skey k, v') post.
(** what a slot that holds no message is read as *)
Inductive plain_as : skind -> pyval -> pyval -> Prop :=
| A_value v : plain_as KPlain v v
| A_null kd : (exists e, kd = KEnum e) \/ kd = KHeader \/ kd = KCpu \/ kd = KStats -> plain_as kd VNone VNone
| A_member e m : In m (members e) -> plain_as (KEnum e) (VStr (u m)) (VEnum e m)
| A_no_node v : truthy v = false -> plain_as KNode v v
| A_node v w : truthy v = true -> node v w -> plain_as KNode v w
| A_peers l r : Forall2 (frozen DPeer) l r -> plain_as KPeers (VList l) (VList r)
| A_tasks l r : Forall2 header l r -> plain_as KTasks (VList l) (VList r)
| A_header v w : header v w -> plain_as KHeader v w
| A_cpu z : 0 <= z -> plain_as KCpu (VInt z) (VInt z)
| A_number z : 1 <= z -> plain_as KNum (VInt z) (VInt z)
| A_ctd v w : frozen DCTD v w -> plain_as KCtd v w
| A_int z : plain_as KInt (VInt z) (VInt z)
| A_stats v w : stats v w -> plain_as KStats v w
| A_files v l r : py_iter v = Some l -> Forall a_dict l -> Forall2 (frozen DFileInfo) l r -> plain_as KFiles v (VList r).
(** what the constructor leaves in slot [k] of class [c] that was read as [w] *)
Definition kept (c : mcls) (k : string) (w : pyval) : pyval :=
  match c with
  | MPeers | MTasks | MResourcePeers | MGossip => if truthy w then w else VList []
  | MWantToComputeTask | MTaskToCompute =>
      if (k =? "concent_enabled")%string then VBool (truthy w)
      else if (k =? "num_subtasks")%string && is_none w then VInt 1 else w
  | MTaskFailure => if (k =? "reason")%string && is_none w then VEnum EnTaskFailure "ComputationError" else w
  | _ => w
  end.
(** [read c s a]: slots [s] are read as the attributes [a] of a message of class [c] *)
Inductive read : mcls -> pyval -> attrs_t -> Prop :=
| Read_session s : read MStartSessionResponse s [("conn_id"%string, VNone)]
| Read c s a : c <> MStartSessionResponse -> map fst a = slot_names c ->
    (forall k w, In (k, w) a ->
       ((forall v, ~ supplied s k v) /\ w = kept c k VNone) \/
       exists v w0, supplied s k v /\ slot_as (slot_kind c k) v w0 /\ w = kept c k w0) -> read c s a
with slot_as : skind -> pyval -> pyval -> Prop :=
| S_plain kd v w : plain_as kd v w -> slot_as kd v w
| S_absent d il v i : py_iter v = Some [i; VNone] -> slot_as (KMsg d true il) v VNone
| S_one d an v i v' w : py_iter v = Some [i; v'] -> py_eq i (VBool false) = true -> nested d v' w -> slot_as (KMsg d an false) v w
| S_many d v i l r : py_iter v = Some [i; VList l] -> py_eq i (VBool true) = true -> l <> [] -> Forall2 (nested d) l r ->
    slot_as (KMsg d false true) v (VList r)
with nested : mcls -> pyval -> pyval -> Prop :=
| Nested d v h sig s ty ts enc a : py_iter v = Some [h; sig; s] -> py_iter h = Some [ty; ts; enc] -> read d s a ->
    nested d v (VMsg d ty ts enc sig a).

(** ** Proofs: containers *)
Definition exact_field (c : ccls) (F : string -> pyval -> pyval -> Prop) : Prop :=
  forall k, In k (cslots c) ->
    (forall v w, pure v = true -> v <> VNone \/ crequired c k = true ->
       (F k v w <-> Forall (fun f => f (u k) v = Ok tt) (cvalidators c k) /\ converted c k v w)) /\
    (forall w, crequired c k = false -> F k VNone w -> w = VNone).
Lemma kwargs_texts kvs : forall kw, kwargs_of kvs = Ok kw -> (forall k v, In (k, v) kvs -> pure k = true) ->
  kvs = map (fun kv => (VStr (fst kv), snd kv)) kw.
Proof.
  induction kvs as [|[k v] kvs IH]; intros kw H P; cbn [kwargs_of] in H.
  - apply Ok_inj in H. subst. reflexivity.
  - destruct (str_of k) as [s|] eqn:S; [|discriminate]. destruct (ustr_eqb s (u "self")); [discriminate|]. apply bind_ok in H as (r & Hr & H). apply Ok_inj in H. subst kw.
    cbn [map fst snd]. rewrite <- (IH r Hr) by (intros k0 v0 Hi; apply (P k0 v0); right; exact Hi).
    assert (Q : k = VStr s) by (apply pure_text; [apply pure_plainkey, (P k v); left; reflexivity|exact S]). subst k. reflexivity.
Qed.
Lemma kwargs_slots c kvs : (forall k v, In (k, v) kvs -> exists s, In s (cslots c) /\ k = skey s) -> exists kw, kwargs_of kvs = Ok kw.
Proof.
  induction kvs as [|[k v] kvs IH]; intros H; cbn [kwargs_of]; [eauto|].
  destruct (H k v (or_introl eq_refl)) as (s & Hs & ->). cbn [str_of skey]. destruct IH as [r Hr]; [intros; apply (H k v0); right; assumption|].
  destruct (ustr_eqb (u s) (u "self")) eqn:Q; [|rewrite Hr; cbn [bind]; eauto]. exfalso.
  apply ustr_eqb_eq in Q. apply u_inj in Q. subst s. destruct c; cbn [cslots In] in Hs; repeat (destruct Hs as [Hs|Hs]; [discriminate Hs|]); contradiction.
Qed.
Lemma kw_given (kw : list (ustr * pyval)) k : NoDup (map fst kw) -> forall v, kw_get k kw = Some v <-> In (k, v) kw.
Proof.
  induction kw as [|[k0 v0] kw IH]; intros N v; cbn [kw_get In]; [split; [discriminate|contradiction]|].
  cbn [map fst] in N. inversion N as [|? ? N0 N1]; subst. destruct (ustr_eqb k0 k) eqn:Q.
  - apply ustr_eqb_eq in Q. subst k0. split.
    + intros H. apply Some_inj in H. subst. auto.
    + intros [H|H]; [congruence|]. exfalso. apply N0. apply in_map_iff. exists (k, v). auto.
  - rewrite (IH N1). split; [auto|]. intros [H|H]; [|exact H]. exfalso. assert (k0 = k) by congruence. subst. rewrite ustr_eqb_refl in Q. discriminate.
Qed.
Lemma texts_nodup (kw : list (ustr * pyval)) : nodup_keys (map fst (map (fun kv => (VStr (fst kv), snd kv)) kw)) = true -> NoDup (map fst kw).
Proof.
  induction kw as [|[k v] kw IH]; cbn [map fst nodup_keys]; [constructor|]. intros H. apply andb_true_iff in H as [H1 H2].
  constructor; [|exact (IH H2)]. intros Hi. apply in_map_iff in Hi as ([k' v'] & E & Hi). cbn [fst] in E. subst k'.
  rewrite forallb_forall in H1. specialize (H1 (VStr k)). cbn [py_eq] in H1. rewrite map_map in H1.
  assert (Q : negb (py_eq (VStr k) (VStr k)) = true) by (apply H1; apply in_map_iff; exists (k, v'); auto).
  cbn in Q. rewrite ustr_eqb_refl in Q. discriminate.
Qed.
Lemma built_iff c F v w : exact_field c F -> pure v = true -> (cnew_star c v = Ok w <-> built c F v w).
Proof.
  intros HF P. unfold cnew_star. split.
  - intros H. apply bind_ok in H as (kw & Hkw & H). destruct v; try discriminate Hkw. destruct c0; try discriminate P. cbn [star_star] in Hkw.
    apply pure_dict in P as (P & _ & N). pose proof (kwargs_texts _ _ Hkw (fun k v Hi => proj1 (P k v Hi))) as Q. subst kvs.
    apply texts_nodup in N. apply cnew_iff in H as (Hk & a & -> & Ha & Hs).
    assert (G : forall k v, In (VStr k, v) (map (fun kv => (VStr (fst kv), snd kv)) kw) <-> kw_get k kw = Some v).
    { intros k v. rewrite (kw_given kw k N). rewrite in_map_iff. split.
      - intros ([k' v'] & E & Hi). cbn [fst snd] in E. assert (k' = k /\ v' = v) as [-> ->] by (split; congruence). exact Hi.
      - intros Hi. exists (k, v). auto. }
    constructor; [|exact Ha|].
    + intros k v Hi. apply in_map_iff in Hi as ([k' v'] & E & Hi). cbn [fst snd] in E. destruct (Hk _ _ Hi) as (s & Hs1 & ->). exists s. split; [exact Hs1|]. unfold skey. congruence.
    + intros k w Hi. specialize (Hs k w Hi). unfold slot_outcome in Hs.
      assert (Ik : In k (cslots c)) by (rewrite <- Ha; apply (in_map fst) in Hi; exact Hi).
      destruct (kw_get (u k) kw) as [v|] eqn:K.
      * apply G in K. fold (skey k) in K. destruct Hs as [(-> & R & ->)|(R & V & W)]; [right; left; auto|right; right].
        exists v. split; [exact K|]. apply (proj1 (HF k Ik) v w); [exact (proj2 (P _ _ K))|exact R|split; assumption].
      * left. split; [|exact Hs]. intros v Hv. apply G in Hv. congruence.
  - intros B. destruct B as [kvs a Hk Ha Hs]. cbn [star_star]. destruct (kwargs_slots c kvs Hk) as [kw Hkw]. rewrite Hkw. cbn [bind].
    apply pure_dict in P as (P & _ & N). pose proof (kwargs_texts _ _ Hkw (fun k v Hi => proj1 (P k v Hi))) as Q. subst kvs. clear Hkw.
    apply texts_nodup in N. 
    assert (G : forall k v, In (VStr k, v) (map (fun kv => (VStr (fst kv), snd kv)) kw) <-> kw_get k kw = Some v).
    { intros k v. rewrite (kw_given kw k N). rewrite in_map_iff. split.
      - intros ([k' v'] & E & Hi). cbn [fst snd] in E. assert (k' = k /\ v' = v) as [-> ->] by (split; congruence). exact Hi.
      - intros Hi. exists (k, v). auto. }
    apply cnew_iff. split.
    + intros k v Hi. destruct (Hk (VStr k) v) as (s & Hs1 & E); [apply in_map_iff; exists (k, v); auto|]. exists s. split; [exact Hs1|]. unfold skey in E. congruence.
    + exists a. split; [reflexivity|]. split; [exact Ha|]. intros k w Hi. specialize (Hs k w Hi). unfold slot_outcome.
      assert (Ik : In k (cslots c)) by (rewrite <- Ha; apply (in_map fst) in Hi; exact Hi).
      destruct Hs as [(H1 & R & W)|[(H1 & R & W)|(v & H1 & W)]].
      * destruct (kw_get (u k) kw) as [v|] eqn:K; [exfalso; apply G in K; exact (H1 v K)|auto].
      * apply G in H1. rewrite H1. left. auto.
      * pose proof (proj2 (P _ _ H1)) as Pv. apply G in H1. rewrite H1. destruct (is_none v) eqn:Nv.
        -- destruct v; try discriminate Nv. destruct (crequired c k) eqn:R; [right; split; [auto|]; apply (proj1 (HF k Ik)); auto|].
           left. split; [reflexivity|]. split; [reflexivity|]. exact (proj2 (HF k Ik) w R W).
        -- assert (NV : v <> VNone) by (intros ->; discriminate Nv). right. split; [auto|]. apply (proj1 (HF k Ik)); auto.
Qed.
