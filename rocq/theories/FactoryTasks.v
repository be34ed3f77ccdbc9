(** * What the factory of signed tasks produces *)
From Verif Require Export FactoryFacts NoteFacts.

Definition node_attrs (key name : ustr) : attrs_t :=
  [("node_name", VStr name); ("key", VStr key); ("prv_port", VNone); ("pub_port", VNone); ("p2p_prv_port", VNone); ("p2p_pub_port", VNone);
   ("prv_addr", VNone); ("pub_addr", VNone); ("prv_addresses", VList []); ("hyperdrive_prv_port", VNone); ("hyperdrive_pub_port", VNone);
   ("port_statuses", VDict DPlain []); ("nat_type", VList [])]%string.
Definition short (s : ustr) : Prop := (Z.of_nat (List.length s) <=? 128) = true.
Lemma node_kw_made kw key name : short key ->
  (forall k, In k (cslots CNode) -> kw_get (u k) kw = Some (attr_get_or_none k (node_attrs key name)) \/
     (kw_get (u k) kw = None /\ cdefault CNode k = attr_get_or_none k (node_attrs key name))) ->
  find (fun kv => negb (cknown CNode (fst kv))) kw = None ->
  node_new kw = Ok (VObj CNode (node_attrs key name)).
Proof.
  intros S H F. unfold node_new, cinit, cload_slots.
  rewrite (proj2 (mapM_ok (cload_slot (fun _ => None) CNode kw) (cslots CNode) (node_attrs key name))).
  - cbn [bind]. rewrite F. reflexivity.
  - unfold short in S. unfold cslots, node_attrs.
    assert (V1 : forall f, validate_varchar128 f (VStr key) = Ok tt) by (intros f; unfold validate_varchar128, validate_varchar; cbn [str_of]; rewrite S; reflexivity).
    repeat (constructor; [match goal with |- cload_slot _ _ _ ?k = _ => destruct (H k) as [Q|[Q D]]; [cbn; tauto|..] end; unfold cload_slot; rewrite Q; [|rewrite <- ?D; reflexivity || (exfalso; discriminate D)]; unfold cdeser_slot;
      cbn [attr_get_or_none node_attrs attr_get String.eqb Ascii.eqb Bool.eqb is_none andb]; cbn -[validate_varchar128]; rewrite ?V1; reflexivity|]).
    constructor.
Qed.
Lemma node_made key name : short key -> node_factory key name = Ok (VObj CNode (node_attrs key name)).
Proof.
  intros S. apply node_kw_made; [exact S| |reflexivity].
  intros k Hk. cbn [cslots In] in Hk. repeat (destruct Hk as [<-|Hk]; [first [left; reflexivity | right; split; reflexivity]|]). destruct Hk.
Qed.
Lemma node_dict key name : to_dict (VObj CNode (node_attrs key name)) = Ok (VDict DPlain (map (fun kv => (skey (fst kv), snd kv)) (node_attrs key name))).
Proof. reflexivity. Qed.
Lemma node_again key name kw : short key -> star_star (VDict DPlain (map (fun kv => (skey (fst kv), snd kv)) (node_attrs key name))) = Ok kw ->
  node_new kw = Ok (VObj CNode (node_attrs key name)).
Proof.
  intros S H. assert (kw = map (fun kv => (u (fst kv), snd kv)) (node_attrs key name)) as -> by (apply Ok_inj; rewrite <- H; reflexivity).
  apply node_kw_made; [exact S| |reflexivity].
  intros k Hk. left. cbn [cslots In] in Hk. repeat (destruct Hk as [<-|Hk]; [reflexivity|]). destruct Hk.
Qed.

(** ** The header *)
Definition header_attrs (d : header_draws) (key id : ustr) : attrs_t :=
  [("mask", VMask (d_mask d)); ("timestamp", VInt (d_now d)); ("signature", VNone); ("task_id", VStr id);
   ("task_owner", VObj CNode (node_attrs key (d_name d))); ("deadline", VInt (d_later d + 3600)); ("subtask_timeout", VInt (d_timeout d));
   ("market_type", VEnum EnMarketType "Brass"); ("environment", VStr (u "DEFAULT")); ("environment_prerequisites", VNone);
   ("min_version", VStr (fake_version (d_major d) (d_minor d) (d_patch d))); ("estimated_memory", VInt (d_memory d));
   ("max_price", VInt (d_max_price d)); ("subtask_budget", VInt (d_budget d)); ("subtasks_count", VInt (d_count d)); ("concent_enabled", VNone)]%string.
Definition header_kw (d : header_draws) (key id : ustr) : list (ustr * pyval) :=
    [(u "mask", VBytes (d_mask d)); (u "timestamp", VInt (d_now d)); (u "task_id", VStr id);
     (u "market_type", VEnum EnMarketType "Brass"); (u "task_owner", VDict DPlain (map (fun kv => (skey (fst kv), snd kv)) (node_attrs key (d_name d))));
     (u "deadline", VInt (d_later d + 3600));
     (u "subtask_timeout", VInt (d_timeout d)); (u "environment", VStr (u "DEFAULT"));
     (u "min_version", VStr (fake_version (d_major d) (d_minor d) (d_patch d))); (u "estimated_memory", VInt (d_memory d));
     (u "max_price", VInt (d_max_price d)); (u "subtask_budget", VInt (d_budget d)); (u "subtasks_count", VInt (d_count d))].
(** the ranges the factory draws from; faker's numbers end at 9999 unless told otherwise,
    its names and the texts are short and can be encoded; the clock is past 1970 *)
Definition a_name (s : ustr) : Prop := short s /\ forallb scalar s = true.
Definition header_ok (d : header_draws) : Prop :=
  List.length (d_mask d) = 32%nat /\ 0 <= d_now d < 2 ^ 62 /\ 0 <= d_later d < 2 ^ 62 /\ 0 <= d_uuid d < 2 ^ 128 /\ a_name (d_name d) /\
  60 <= d_timeout d <= 600 /\ 0 <= d_major d <= 9999 /\ 0 <= d_minor d <= 9999 /\ 0 <= d_patch d <= 9999 /\ 0 <= d_memory d <= 4096 /\
  10 <= d_max_price d <= 50 /\ 10 <= d_budget d <= 50 /\ 1 <= d_count d <= 256.
Lemma short_uuid z : short (uuid_str z).
Proof. unfold short, uuid_str. rewrite !app_length, !hexlify_length. unfold uuid_bytes. repeat rewrite ?skipn_length, ?firstn_length, ?be_enc_length. reflexivity. Qed.
Lemma header_made C d key id : header_ok d -> short key -> short id ->
  cnew CTaskHeader (header_kw d key id) = Ok (VObj CTaskHeader (header_attrs d key id)) /\ made C (header_attrs d key id).
Proof.
  intros (_ & _ & _ & _ & _ & T & [V1 _] & [V2 _] & [V3 _] & _ & _ & _ & N) S Si.
  assert (H : cnew CTaskHeader (header_kw d key id) = Ok (VObj CTaskHeader (header_attrs d key id))).
  { unfold cnew, cinit, cload_slots. change (chook CTaskHeader) with header_hook.
    rewrite (proj2 (mapM_ok (cload_slot header_hook CTaskHeader (header_kw d key id)) (cslots CTaskHeader) (header_attrs d key id))); [reflexivity|].
    unfold cslots, header_attrs.
    constructor; [reflexivity|]. constructor; [reflexivity|]. constructor; [reflexivity|].
    constructor. { unfold cload_slot. change (kw_get (u "task_id") (header_kw d key id)) with (Some (VStr id)). unfold cdeser_slot.
      change (cvalidators CTaskHeader "task_id") with [validate_varchar128]. change (header_hook "task_id") with (@None (pyval -> result pyval)).
      cbn [is_none andb run_validators]. unfold validate_varchar128, validate_varchar. cbn [str_of]. unfold short in Si. rewrite Si. reflexivity. }
    constructor. { unfold cload_slot. change (kw_get (u "task_owner") (header_kw d key id)) with (Some (VDict DPlain (map (fun kv => (skey (fst kv), snd kv)) (node_attrs key (d_name d))))).
      unfold cdeser_slot. change (cvalidators CTaskHeader "task_owner") with [vcheck (is_dict_or CNode)].
      cbn [is_none andb run_validators vcheck is_dict_or fail_unless bind].
      change (header_hook "task_owner") with (Some (fun v => match v with VObj CNode _ => Ok v | _ => do kw <- star_star v; node_new kw end)). cbv beta iota.
      destruct (star_star (VDict DPlain (map (fun kv => (skey (fst kv), snd kv)) (node_attrs key (d_name d))))) as [kw|e] eqn:Q; [|discriminate Q].
      cbn [bind]. rewrite (node_again _ _ _ S Q). reflexivity. }
    constructor; [reflexivity|].
    constructor. { unfold cload_slot. change (kw_get (u "subtask_timeout") (header_kw d key id)) with (Some (VInt (d_timeout d))). unfold cdeser_slot.
      change (cvalidators CTaskHeader "subtask_timeout") with [validate_integer; vcheck (int_check (fun z => 0 <=? z))]. change (header_hook "subtask_timeout") with (@None (pyval -> result pyval)).
      cbn [is_none andb run_validators validate_integer bind]. unfold vcheck, int_check. replace (0 <=? d_timeout d) with true by lia. reflexivity. }
    do 3 (constructor; [reflexivity|]).
    constructor. { unfold cload_slot. change (kw_get (u "min_version") (header_kw d key id)) with (Some (VStr (fake_version (d_major d) (d_minor d) (d_patch d)))). unfold cdeser_slot.
      change (cvalidators CTaskHeader "min_version") with [validate_version]. change (header_hook "min_version") with (@None (pyval -> result pyval)).
      cbn [is_none andb run_validators]. unfold validate_version. cbn [str_of]. rewrite (fake_version_parses _ _ _ V1 V2 V3). reflexivity. }
    do 3 (constructor; [reflexivity|]).
    constructor. { unfold cload_slot. change (kw_get (u "subtasks_count") (header_kw d key id)) with (Some (VInt (d_count d))). unfold cdeser_slot.
      change (cvalidators CTaskHeader "subtasks_count") with [validate_integer; vcheck (int_check (fun z => 0 <? z))]. change (header_hook "subtasks_count") with (@None (pyval -> result pyval)).
      cbn [is_none andb run_validators validate_integer bind]. unfold vcheck, int_check. replace (0 <? d_count d) with true by lia. reflexivity. }
    repeat (constructor; [reflexivity|]). constructor. }
  split; [exact H|]. apply made_new with (kw := header_kw d key id); [|exact H].
  intros n Hn. change (kw_get (u "task_owner") (header_kw d key id)) with (Some (VDict DPlain (map (fun kv => (skey (fst kv), snd kv)) (node_attrs key (d_name d))))) in Hn. discriminate Hn.
Qed.
Lemma scalar_hex b : forallb scalar (hexlify b) = true.
Proof.
  apply forallb_forall. intros c Hc. pose proof (proj1 (forallb_forall is_lhex (hexlify b)) (hexlify_lhex b) c Hc) as H.
  unfold is_lhex in H. unfold scalar. lia.
Qed.
Lemma scalar_uuid z : forallb scalar (uuid_str z) = true.
Proof. apply forallb_forall. intros c Hc. apply uuid_str_chars in Hc as [Hc| ->]; [unfold is_lhex in Hc; unfold scalar; lia|reflexivity]. Qed.
Lemma scalar_version a b c : 0 <= a -> 0 <= b -> 0 <= c -> forallb scalar (fake_version a b c) = true.
Proof.
  intros Ha Hb Hc. unfold fake_version. rewrite !forallb_app.
  assert (D : forall n, 0 <= n -> forallb scalar (dec_str n) = true).
  { intros n Hn. destruct (dec_str_spec n Hn) as (_ & D & _). rewrite forallb_forall in *. intros x Hx. specialize (D x Hx). unfold is_digit in D. unfold scalar. lia. }
  rewrite !D by assumption. reflexivity.
Qed.

(** ** Everything can be dumped *)
Definition encw (v : pyval) : bool := encb v && wirewf v && selfeq v.
Definition bnd (n : Z) (v : pyval) : Prop := encw v = true /\ vsize v <= n.
Lemma encw_iff v : encw v = true <-> encb v = true /\ wirewf v = true /\ selfeq v = true.
Proof. unfold encw. rewrite !andb_true_iff. tauto. Qed.
Lemma encw_list l : encw (VList l) = forallb encw l.
Proof.
  unfold encw. cbn [encb wirewf selfeq]. induction l as [|x l IH]; [reflexivity|]. cbn [forallb]. rewrite <- IH.
  destruct (encb x), (wirewf x), (selfeq x), (forallb encb l), (forallb wirewf l), (forallb selfeq l); reflexivity.
Qed.
Lemma encw_tuple l : encw (VTuple l) = forallb encw l.
Proof. exact (encw_list l). Qed.
Lemma bnd_dumps n v : bnd n v -> n < 2 ^ 64 -> exists b, dumps v = Ok b.
Proof. intros [H1 H2] H. apply encw_iff in H1 as [H1 _]. destruct (dumps_iff v) as [[_ Q]|[Q _]]; [lia|exact Q|congruence]. Qed.
Lemma bnd_weak n m v : bnd n v -> n <= m -> bnd m v.
Proof. intros [H1 H2] H. split; [exact H1|lia]. Qed.
Lemma bnd_int z : 0 <= z < 2 ^ 63 -> bnd 100 (VInt z).
Proof.
  intros H. split; [reflexivity|]. cbn [vsize]. unfold magnitude. replace (0 <=? z) with true by lia.
  assert (Z.log2 z < 64). { destruct (Z.eq_dec z 0) as [->|N]; [reflexivity|]. apply Z.log2_lt_pow2; lia. }
  assert (Z.log2 z / 8 <= 8) by (apply Z.div_le_upper_bound; lia). lia.
Qed.
Lemma bnd_str s : a_name s -> bnd 1000 (VStr s).
Proof.
  intros [S H]. split; [apply encw_iff; split; [exact H|split; reflexivity]|]. cbn [vsize]. unfold short in S.
  assert (L : (List.length (flat_map utf8_enc1 s) <= 4 * List.length s)%nat).
  { clear. induction s as [|c s IH]; [cbn; lia|]. cbn [flat_map List.length]. rewrite app_length.
    assert (List.length (utf8_enc1 c) <= 4)%nat; [|lia]. unfold utf8_enc1. repeat match goal with |- context [if ?b then _ else _] => destruct b end; cbn; lia. }
  lia.
Qed.
Lemma bnd_bytes b : (List.length b <= 200)%nat -> bnd 1000 (VBytes b).
Proof. intros H. split; [reflexivity|]. cbn [vsize]. unfold blen. lia. Qed.
Lemma zsum_bound {A} (f : A -> Z) n l : Forall (fun x => f x <= n) l -> zsum (map f l) <= n * Z.of_nat (List.length l).
Proof. unfold zsum. induction 1 as [|x l H _ IH]; cbn [map fold_right List.length]; lia. Qed.
Lemma bnd_list n l : Forall (bnd n) l -> bnd (1 + n * Z.of_nat (List.length l)) (VList l).
Proof.
  intros H. split.
  - rewrite encw_list. apply forallb_forall. rewrite Forall_forall in H. intros x Hx. apply (H x Hx).
  - cbn [vsize]. pose proof (zsum_bound vsize n l) as Q. rewrite Forall_forall in *. assert (zsum (map vsize l) <= n * Z.of_nat (List.length l)); [|lia]. apply Q. intros x Hx. apply (H x Hx).
Qed.
Lemma bnd_tuple n l : Forall (bnd n) l -> bnd (1 + n * Z.of_nat (List.length l)) (VTuple l).
Proof. intros H. destruct (bnd_list n l H) as [H1 H2]. split; [rewrite encw_tuple, <- encw_list; exact H1|exact H2]. Qed.
Lemma bnd_dict n c kvs : forallb (fun kv => match fst kv with VStr _ => true | _ => false end) kvs && nodup_keys (map fst kvs) = true ->
  Forall (fun kv => bnd n (fst kv) /\ bnd n (snd kv)) kvs -> bnd (1 + 2 * n * Z.of_nat (List.length kvs)) (VDict c kvs).
Proof.
  intros K H. split.
  - apply andb_true_iff in K as [K1 K2]. rewrite forallb_forall in K1. rewrite Forall_forall in H.
    assert (K3 : map (fun kv => norm (fst kv)) kvs = map fst kvs).
    { apply map_ext_in. intros [k v] Hk. specialize (K1 _ Hk). cbn [fst] in *. destruct k; try discriminate K1. reflexivity. }
    apply encw_iff. cbn [encb wirewf selfeq]. rewrite K3, K2, !andb_true_iff. repeat split; try reflexivity.
    all: apply forallb_forall; intros x Hx; destruct (H x Hx) as [[Q1 _] [Q2 _]]; apply encw_iff in Q1 as (P1 & P2 & P3); apply encw_iff in Q2 as (P4 & P5 & P6); specialize (K1 x Hx).
    + apply andb_true_iff; auto.
    + destruct (fst x); try discriminate K1. reflexivity.
    + apply andb_true_iff; auto.
    + apply andb_true_iff; auto.
  - cbn [vsize]. pose proof (zsum_bound (fun kv => vsize (fst kv) + vsize (snd kv)) (2 * n) kvs) as Q. rewrite Forall_forall in *.
    assert (zsum (map (fun kv => vsize (fst kv) + vsize (snd kv)) kvs) <= 2 * n * Z.of_nat (List.length kvs)); [|lia]. apply Q. intros x Hx. destruct (H x Hx) as [[_ ?] [_ ?]]. lia.
Qed.
Lemma bnd_closed n v : encw v && (vsize v <=? n) = true -> bnd n v.
Proof. intros H. apply andb_true_iff in H as [H1 H2]. split; [exact H1|lia]. Qed.
Lemma hex_name b : List.length b = 64%nat -> a_name (hexlify b).
Proof. intros L. split; [|apply scalar_hex]. unfold short. rewrite hexlify_length, L. reflexivity. Qed.
Lemma uuid_name z : a_name (uuid_str z).
Proof. split; [apply short_uuid|apply scalar_uuid]. Qed.
Lemma dec_digits n : 0 <= n <= 9999 -> (List.length (dec_str n) <= 14)%nat.
Proof.
  intros H. assert (G : forall f z, (List.length (dec_str_f f z) <= f)%nat).
  { induction f as [|f IH]; intros z; cbn [dec_str_f]; [cbn; lia|]. rewrite app_length. cbn [List.length]. destruct (z <? 10); [cbn; lia|]. specialize (IH (z / 10)). lia. }
  unfold dec_str. eapply Nat.le_trans; [apply G|]. assert (Z.log2 n <= Z.log2 9999) by (apply Z.log2_le_mono; lia). change (Z.log2 9999) with 13 in *. lia.
Qed.
Lemma version_name a b c : 0 <= a <= 9999 -> 0 <= b <= 9999 -> 0 <= c <= 9999 -> a_name (fake_version a b c).
Proof.
  intros Ha Hb Hc. split; [|apply scalar_version; lia]. unfold short, fake_version. rewrite !app_length. pose proof (dec_digits a Ha). pose proof (dec_digits b Hb). pose proof (dec_digits c Hc).
  change (List.length (u ".")) with 1%nat. lia.
Qed.
Ltac bnds := repeat first
  [ apply Forall_nil
  | apply Forall_cons
  | match goal with |- _ /\ _ => split end
  | (eapply bnd_weak; [apply bnd_closed with (n := 1000); reflexivity|lia])
  | (eapply bnd_weak; [apply bnd_int; lia|lia])
  | (eapply bnd_weak; [apply bnd_str; first [assumption|apply uuid_name]|lia]) ].
(** the entries of the header's dict *)
Definition header_dict (d : header_draws) (key id : ustr) (sg : pyval) : list (pyval * pyval) :=
  [(skey "mask", VBytes (d_mask d)); (skey "timestamp", VInt (d_now d)); (skey "signature", sg); (skey "task_id", VStr id);
   (skey "task_owner", VDict DPlain (map (fun kv => (skey (fst kv), snd kv)) (node_attrs key (d_name d)))); (skey "deadline", VInt (d_later d + 3600)); (skey "subtask_timeout", VInt (d_timeout d));
   (skey "market_type", VStr (u "Brass")); (skey "environment", VStr (u "DEFAULT")); (skey "environment_prerequisites", VNone);
   (skey "min_version", VStr (fake_version (d_major d) (d_minor d) (d_patch d))); (skey "estimated_memory", VInt (d_memory d));
   (skey "max_price", VInt (d_max_price d)); (skey "subtask_budget", VInt (d_budget d)); (skey "subtasks_count", VInt (d_count d)); (skey "concent_enabled", VNone)].
Definition a_sig (sg : pyval) : Prop := sg = VNone \/ exists b, sg = VBytes b /\ List.length b = 65%nat.
Lemma header_dict_entries d key id sg : header_ok d -> a_name key -> a_name id -> a_sig sg ->
  Forall (fun kv => bnd 100000 (fst kv) /\ bnd 100000 (snd kv)) (header_dict d key id sg).
Proof.
  intros (M & T1 & T2 & _ & Nm & T3 & V1 & V2 & V3 & T4 & T5 & T6 & T7) S Si Hs. pose proof (version_name _ _ _ V1 V2 V3) as V. unfold header_dict.
  assert (Bm : bnd 1000 (VBytes (d_mask d))) by (apply bnd_bytes; lia).
  assert (Bs : bnd 1000 sg) by (destruct Hs as [->|(b & -> & Hb)]; [apply bnd_closed; reflexivity|apply bnd_bytes; lia]).
  assert (Bn : bnd 100000 (VDict DPlain (map (fun kv => (skey (fst kv), snd kv)) (node_attrs key (d_name d))))).
  { eapply bnd_weak; [apply bnd_dict with (n := 1000); [reflexivity|]|vm_compute; discriminate]. unfold node_attrs. cbn [map fst snd]. bnds. }
  bnds; cbn [fst snd]; bnds; try (eapply bnd_weak; [eassumption|lia]).
Qed.
Lemma header_to_dict d key id sg : a_sig sg ->
  to_dict_kvs CTaskHeader (attr_set "signature" sg (header_attrs d key id)) = Ok (header_dict d key id sg).
Proof. intros [->|(b & -> & _)]; reflexivity. Qed.
Lemma header_hashes C d key id sg : header_ok d -> a_name key -> a_name id -> a_sig sg ->
  exists h, header_hash C (attr_set "signature" sg (header_attrs d key id)) = Ok h.
Proof.
  intros Hd S Si Hs. unfold header_hash. rewrite header_to_dict by exact Hs. cbn [bind].
  destruct (bnd_dumps (1 + 2 * 100000 * 16) (VDict DPlain (dict_del "signature" (header_dict d key id sg)))) as [b ->]; [|reflexivity|cbn [bind]; eauto].
  eapply bnd_weak; [apply bnd_dict with (n := 100000); [reflexivity|]|].
  - pose proof (header_dict_entries d key id sg Hd S Si Hs) as F. rewrite Forall_forall in *. intros kv Hkv. apply F. unfold dict_del in Hkv. apply filter_In in Hkv. apply Hkv.
  - vm_compute. discriminate.
Qed.

(** ** The offer *)
Definition wtct_attrs (h : pyval) (key addr : ustr) : attrs_t :=
  [("perf_index", VNone); ("cpu_usage", VNone); ("max_resource_size", VNone); ("max_memory_size", VNone); ("price", wtct_price);
   ("num_subtasks", VInt 1); ("concent_enabled", VBool false); ("extra_data", VNone); ("provider_public_key", VStr key);
   ("provider_ethereum_address", VStr addr); ("task_header", h)]%string.
Lemma wtct_init E now c a key addr :
  msg_init E now MWantToComputeTask None VNone (VList [])
    [("provider_public_key", VStr key); ("provider_ethereum_address", VStr addr); ("task_header", VObj c a); ("price", wtct_price)]%string =
  Ok (VMsg MWantToComputeTask (VInt (type_of MWantToComputeTask)) (VInt now) (VBool false) VNone (wtct_attrs (VObj c a) key addr)).
Proof. reflexivity. Qed.
Definition wtct_slots (d : header_draws) (key id : ustr) (sg : pyval) (pkey addr : ustr) : pyval :=
  VList [VList [skey "perf_index"; VNone]; VList [skey "cpu_usage"; VNone]; VList [skey "max_resource_size"; VNone]; VList [skey "max_memory_size"; VNone];
   VList [skey "price"; wtct_price]; VList [skey "num_subtasks"; VInt 1]; VList [skey "concent_enabled"; VBool false]; VList [skey "extra_data"; VNone];
   VList [skey "provider_public_key"; VStr pkey]; VList [skey "provider_ethereum_address"; VStr addr];
   VList [skey "task_header"; VDict DPlain (header_dict d key id sg)]].
Lemma wtct_slots_ok d key id sg pkey addr : a_sig sg ->
  slots MWantToComputeTask (wtct_attrs (VObj CTaskHeader (attr_set "signature" sg (header_attrs d key id))) pkey addr) = Ok (wtct_slots d key id sg pkey addr).
Proof. intros [->|(b & -> & _)]; reflexivity. Qed.
Lemma wtct_bnd d key id sg pkey addr : header_ok d -> a_name key -> a_name id -> a_sig sg -> a_name pkey -> a_name addr ->
  bnd 1000000000 (wtct_slots d key id sg pkey addr).
Proof.
  intros Hd S Si Hs P A. unfold wtct_slots.
  assert (Bh : bnd 10000000 (VDict DPlain (header_dict d key id sg))).
  { eapply bnd_weak; [apply bnd_dict with (n := 100000); [reflexivity|]; apply header_dict_entries; assumption|vm_compute; discriminate]. }
  eapply bnd_weak; [apply bnd_list with (n := 30000000)|vm_compute; discriminate].
  repeat (apply Forall_cons; [eapply bnd_weak; [apply bnd_list with (n := 10000000); bnds; exact Bh|vm_compute; discriminate]|]). apply Forall_nil.
Qed.
Lemma address_name C p : crypto_ok C -> a_name (address_of (keccak C) p).
Proof.
  intros HC. unfold address_of, checksum_address. cbv zeta.
  assert (G : forall s h, forallb is_lhex s = true -> forallb scalar (checksum_digits s h) = true /\ (List.length (checksum_digits s h) <= List.length s)%nat).
  { induction s as [|c s IH]; intros h H; [split; [reflexivity|cbn; lia]|]. cbn [forallb] in H. apply andb_true_iff in H as [H1 H2].
    destruct h as [|x h]; cbn [checksum_digits]; [split; [reflexivity|cbn; lia]|]. destruct (IH h H2) as [I1 I2]. split; [|cbn [List.length]; lia].
    cbn [forallb]. rewrite I1, andb_true_r. unfold is_lhex in H1. unfold checksum_digit, scalar. destruct ((97 <=? c) && negb ((48 <=? x) && (x <=? 55))) eqn:Q; lia. }
  set (b := skipn 12 (keccak C p)). destruct (G (hexlify b) (hexlify (keccak C (map z2b (hexlify b)))) (hexlify_lhex b)) as [G1 G2].
  split; [|rewrite forallb_app, G1; reflexivity]. unfold short. rewrite app_length. change (List.length (u "0x")) with 2%nat.
  assert (Lb : List.length b = 20%nat) by (unfold b; rewrite skipn_length, (keccak_len _ HC); reflexivity).
  rewrite hexlify_length, Lb in G2. unfold ustr in *. lia.
Qed.

(** ** The task definition *)
Definition ctd_kvs (id1 id2 resource : ustr) (now : Z) : list (pyval * pyval) :=
  [(skey "task_id", VStr id1); (skey "subtask_id", VStr id2); (skey "deadline", VInt (now + 86400)); (skey "extra_data", blender_extra);
   (skey "resources", VList [VStr resource]); (skey "performance", VInt 0); (skey "docker_images", VNone)].
Lemma dset_id k s kvs : In k ["task_id"; "subtask_id"]%string -> short s -> dset DCTD kvs (skey k) (VStr s) = Ok (dict_set (skey k) (VStr s) kvs).
Proof.
  intros H S. unfold dset. cbn [bind].
  assert (V : exists f, (match str_of (skey k) with Some s0 => match dvalidator DCTD s0 with Some g => g (VStr s) | None => Ok tt end | None => Ok tt end) = validate_varchar 128 f (VStr s)).
  { destruct H as [<-|[<-|[]]]; eexists; reflexivity. }
  destruct V as [f ->]. unfold validate_varchar. cbn [str_of]. unfold short in S. rewrite S. destruct H as [<-|[<-|[]]]; reflexivity.
Qed.
Lemma ctd_made id1 id2 resource now : short id1 -> short id2 -> ctd_factory id1 id2 resource now = Ok (VDict DCTD (ctd_kvs id1 id2 resource now)).
Proof.
  intros S1 S2. unfold ctd_factory, dict_new_kw, dict_new. cbn [map fst snd dset_all]. fold (skey "task_id"). fold (skey "subtask_id").
  rewrite (dset_id "task_id" id1) by (cbn; auto). cbn [bind]. rewrite (dset_id "subtask_id" id2) by (cbn; auto). reflexivity.
Qed.
Lemma ctd_schema id1 id2 resource now : short id1 -> short id2 -> schema DCTD (ctd_kvs id1 id2 resource now).
Proof.
  intros S1 S2. pose proof (ctd_made id1 id2 resource now S1 S2) as H. unfold ctd_factory, dict_new_kw in H.
  apply dict_new_schema in H as (kvs & Q & S); [|discriminate]. assert (kvs = ctd_kvs id1 id2 resource now) by congruence. subst. exact S.
Qed.
Lemma ctd_bnd id1 id2 resource now : a_name id1 -> a_name id2 -> a_name resource -> 0 <= now < 2 ^ 62 -> bnd 1000000 (VDict DCTD (ctd_kvs id1 id2 resource now)).
Proof.
  intros S1 S2 S3 H. eapply bnd_weak; [apply bnd_dict with (n := 10000); [reflexivity|]|vm_compute; discriminate]. unfold ctd_kvs.
  assert (B1 : bnd 10000 (VList [VStr resource])) by (eapply bnd_weak; [apply bnd_list with (n := 1000); bnds|vm_compute; discriminate]).
  assert (B2 : bnd 10000 blender_extra) by (apply bnd_closed; vm_compute; reflexivity).
  bnds; cbn [fst snd]; bnds; assumption.
Qed.

(** ** The task *)
Definition ttc_attrs (rkey : ustr) (eth : pyval) (pkey : ustr) (ctd w : pyval) (hash : ustr) (size price : Z) (es : pyval) : attrs_t :=
  [("requestor_id", VStr rkey); ("requestor_public_key", VStr rkey); ("requestor_ethereum_public_key", eth); ("provider_id", VStr pkey);
   ("compute_task_def", ctd); ("want_to_compute_task", w); ("package_hash", VStr hash); ("size", VInt size); ("concent_enabled", VBool false);
   ("price", VInt price); ("resources_options", VNone); ("ethsig", es); ("promissory_note_sig", VNone); ("concent_promissory_note_sig", VNone)]%string.
Lemma ttc_init E now rkey pkey kvs c ty ts enc sig a hash size price :
  msg_init E now MTaskToCompute None VNone (VList [])
    [("requestor_id", VStr rkey); ("provider_id", VStr pkey); ("compute_task_def", VDict DCTD kvs); ("requestor_public_key", VStr rkey);
     ("want_to_compute_task", VMsg c ty ts enc sig a); ("package_hash", VStr hash); ("size", VInt size); ("price", VInt price);
     ("resources_options", VNone)]%string =
  Ok (VMsg MTaskToCompute (VInt (type_of MTaskToCompute)) (VInt now) (VBool false) VNone
       (ttc_attrs rkey VNone pkey (VDict DCTD kvs) (VMsg c ty ts enc sig a) hash size price VNone)).
Proof. reflexivity. Qed.
(** the ranges of the draws of a TaskToCompute *)
Definition task_ok (d : task_draws) : Prop :=
  header_ok (d_header d) /\ a_name (d_id1 d) /\ a_name (d_id2 d) /\ a_name (d_resource d) /\ 0 <= d_ctd_now d < 2 ^ 62 /\
  0 <= d_wtct_now d < 2 ^ 62 /\ 0 <= d_ttc_now d < 2 ^ 62 /\ a_name (u "sha1:" ++ d_sha1 d) /\ 2 ^ 20 <= d_size d <= 10 * 2 ^ 20 /\
  2 ^ 20 <= d_price d <= 10 * 2 ^ 20 /\ 0 <= d_task d < 2 ^ 128 /\ 0 <= d_subtask d < 2 ^ 128.

Lemma getattr_ttc ty ts enc sig rkey eth pkey ctd w hash size price es k : In k (slot_names MTaskToCompute) ->
  getattr k (VMsg MTaskToCompute ty ts enc sig (ttc_attrs rkey eth pkey ctd w hash size price es)) =
  Ok (attr_get_or_none k (ttc_attrs rkey eth pkey ctd w hash size price es)).
Proof. apply getattr_slot. Qed.
(** a key pair as ECCx holds it: the private key is not empty *)
Definition pair_keys (C : crypto) (priv pub : bytes) : Prop := exists x k s, priv = x :: k /\ secret_of C priv = Some s /\ pub_of C s = Some pub.
Lemma header_task_id_of rkey eth pkey ctd hash size price es wty wts wenc wsig d id sg pk' addr ty ts enc sig :
  header_task_id (VMsg MTaskToCompute ty ts enc sig (ttc_attrs rkey eth pkey ctd
    (VMsg MWantToComputeTask wty wts wenc wsig (wtct_attrs (VObj CTaskHeader (attr_set "signature" sg (header_attrs d rkey id))) pk' addr)) hash size price es)) = Ok (VStr id).
Proof.
  unfold header_task_id. rewrite getattr_ttc by slots_in. change (attr_get_or_none "requestor_id" _) with (VStr rkey). cbn [bind]. cbv zeta.
  rewrite getattr_ttc by slots_in. cbn [bind]. change (attr_get_or_none "want_to_compute_task" (ttc_attrs rkey eth pkey ctd
    (VMsg MWantToComputeTask wty wts wenc wsig (wtct_attrs (VObj CTaskHeader (attr_set "signature" sg (header_attrs d rkey id))) pk' addr)) hash size price es)) with
    (VMsg MWantToComputeTask wty wts wenc wsig (wtct_attrs (VObj CTaskHeader (attr_set "signature" sg (header_attrs d rkey id))) pk' addr)).
  rewrite getattr_slot by slots_in. cbn [bind]. change (attr_get_or_none "task_header" (wtct_attrs (VObj CTaskHeader (attr_set "signature" sg (header_attrs d rkey id))) pk' addr)) with
   (VObj CTaskHeader (attr_set "signature" sg (header_attrs d rkey id))).
  change (getattr "task_owner" (VObj CTaskHeader (attr_set "signature" sg (header_attrs d rkey id)))) with (Ok (VObj CNode (node_attrs rkey (d_name d)))). cbn [bind].
  change (getattr "key" (VObj CNode (node_attrs rkey (d_name d)))) with (Ok (VStr rkey)). cbn [bind].
  change (getattr "task_id" (VObj CTaskHeader (attr_set "signature" sg (header_attrs d rkey id)))) with (Ok (VStr id)).
  rewrite (py_eq_str_l (VStr rkey) (VStr rkey) rkey eq_refl). cbn [str_of]. rewrite ustr_eqb_refl. reflexivity.
Qed.
Lemma ctd_assign_ttc k s rkey eth pkey kvs w hash size price es ty ts enc sig : In k ["task_id"; "subtask_id"]%string -> short s ->
  ctd_assign (VMsg MTaskToCompute ty ts enc sig (ttc_attrs rkey eth pkey (VDict DCTD kvs) w hash size price es)) k (VStr s) =
  Ok (VMsg MTaskToCompute ty ts enc sig (ttc_attrs rkey eth pkey (VDict DCTD (dict_set (skey k) (VStr s) kvs)) w hash size price es)).
Proof.
  intros H S. unfold ctd_assign. rewrite getattr_ttc by slots_in.
  change (attr_get_or_none "compute_task_def" (ttc_attrs rkey eth pkey (VDict DCTD kvs) w hash size price es)) with (VDict DCTD kvs). cbn [bind].
  rewrite (dset_id k s kvs H S). reflexivity.
Qed.
(** the message built, in full *)
Lemma signed_task_built E d kr rk kp pk : crypto_ok (cr E) -> task_ok d -> pair_keys (cr E) kr rk -> pair_keys (cr E) kp pk -> pair_keys (cr E) (fst (d_eth d)) (snd (d_eth d)) ->
  exists id sid hs ws es ts,
    let h0 := header_attrs (d_header d) (hexlify rk) id in let h := attr_set "signature" (VBytes hs) h0 in
    let wa := wtct_attrs (VObj CTaskHeader h) (hexlify pk) (address_of (keccak (cr E)) pk) in
    let w := VMsg MWantToComputeTask (VInt (type_of MWantToComputeTask)) (VInt (d_wtct_now d)) (VBool false) (VBytes ws) wa in
    let a := ttc_attrs (hexlify rk) (VStr (hexlify (snd (d_eth d)))) (hexlify pk)
       (VDict DCTD (ctd_kvs id sid (d_resource d) (d_ctd_now d))) w (u "sha1:" ++ d_sha1 d) (d_size d) (d_price d) in
    fake_golem_uuid (d_uuid (d_header d)) (VStr (hexlify rk)) = Ok id /\ fake_golem_uuid (d_subtask d) (VStr (hexlify rk)) = Ok sid /\
    made (cr E) h0 /\ header_sign (cr E) h0 kr = Ok h /\
    sign_message E (VMsg MWantToComputeTask (VInt (type_of MWantToComputeTask)) (VInt (d_wtct_now d)) (VBool false) VNone wa) kp = Ok w /\
    generate_ethsig E (VMsg MTaskToCompute (VInt (type_of MTaskToCompute)) (VInt (d_ttc_now d)) (VBool false) VNone (a VNone)) (fst (d_eth d)) =
      Ok (VMsg MTaskToCompute (VInt (type_of MTaskToCompute)) (VInt (d_ttc_now d)) (VBool false) VNone (a (VBytes es))) /\
    sign_message E (VMsg MTaskToCompute (VInt (type_of MTaskToCompute)) (VInt (d_ttc_now d)) (VBool false) VNone (a (VBytes es))) kr =
      Ok (VMsg MTaskToCompute (VInt (type_of MTaskToCompute)) (VInt (d_ttc_now d)) (VBool false) (VBytes ts) (a (VBytes es))) /\
    List.length ts = 65%nat /\ (exists x, slots MTaskToCompute (a (VBytes es)) = Ok x /\ bnd (2 ^ 40) x) /\
    signed_task E d (Some (kr, rk)) (Some (kp, pk)) =
      Ok (VMsg MTaskToCompute (VInt (type_of MTaskToCompute)) (VInt (d_ttc_now d)) (VBool false) (VBytes ts) (a (VBytes es))).
Proof.
  intros HC (Hh & I1 & I2 & I3 & T1 & T2 & T3 & Sh & Z1 & Z2 & R1 & R2) (x1 & k1 & s1 & Ek1 & K1 & P1) (x2 & k2 & s2 & Ek2 & K2 & P2) (x3 & k3 & s3 & Ek3 & K3 & P3).
  pose proof (hex_name rk (pub_len _ HC _ _ P1)) as Nr. pose proof (hex_name pk (pub_len _ HC _ _ P2)) as Np. pose proof (hex_name _ (pub_len _ HC _ _ P3)) as Ne.
  pose proof Hh as Hh'. destruct Hh' as (_ & _ & _ & Ru & _).
  destruct (fake_uuid_checks (d_uuid (d_header d)) rk Ru) as (id & Hid & _). destruct (fake_uuid_checks (d_subtask d) rk R2) as (sid & Hsid & _).
  assert (Uid : forall r i, fake_golem_uuid r (VStr (hexlify rk)) = Ok i -> a_name i).
  { intros r i Hi. unfold fake_golem_uuid in Hi. apply bind_ok in Hi as (n & _ & Hi). apply Ok_inj in Hi. subst i. apply uuid_name. }
  pose proof (Uid _ _ Hid) as Nid. pose proof (Uid _ _ Hsid) as Nsid.
  destruct (header_made (cr E) (d_header d) (hexlify rk) id Hh (proj1 Nr) (proj1 Nid)) as [Hn Hm].
  destruct (header_hashes (cr E) (d_header d) (hexlify rk) id VNone Hh Nr Nid (or_introl eq_refl)) as [hh Hhh].
  change (attr_set "signature" VNone (header_attrs (d_header d) (hexlify rk) id)) with (header_attrs (d_header d) (hexlify rk) id) in Hhh.
  destruct (ecdsa_sign_total (cr E) kr hh s1 HC K1) as [hs Hhs].
  assert (Lhs : List.length hs = 65%nat) by (destruct (ecdsa_sign_ok _ _ _ _ HC Hhs) as (? & ? & _ & _ & L & _); exact L).
  assert (Hhsig : header_sign (cr E) (header_attrs (d_header d) (hexlify rk) id) kr = Ok (attr_set "signature" (VBytes hs) (header_attrs (d_header d) (hexlify rk) id))).
  { unfold header_sign. rewrite Hhh. cbn [bind]. rewrite Hhs. reflexivity. }
  set (addr := address_of (keccak (cr E)) pk). pose proof (address_name (cr E) pk HC) as Na. fold addr in Na.
  set (h := attr_set "signature" (VBytes hs) (header_attrs (d_header d) (hexlify rk) id)) in *.
  set (wa := wtct_attrs (VObj CTaskHeader h) (hexlify pk) addr).
  assert (As : a_sig (VBytes hs)) by (right; eauto).
  pose proof (wtct_slots_ok (d_header d) (hexlify rk) id (VBytes hs) (hexlify pk) addr As) as Ws. fold h in Ws. fold wa in Ws.
  pose proof (wtct_bnd (d_header d) (hexlify rk) id (VBytes hs) (hexlify pk) addr Hh Nr Nid As Np Na) as Wb.
  assert (Hw : forall sg, exists x, short_hash E (VMsg MWantToComputeTask (VInt (type_of MWantToComputeTask)) (VInt (d_wtct_now d)) (VBool false) sg wa) = Ok x).
  { intros sg. cbn [short_hash]. unfold payload_of. rewrite Ws. cbn [bind]. destruct (bnd_dumps _ _ Wb eq_refl) as [p Hp]. rewrite Hp. cbn [bind]. unfold hash_payload.
    destruct (bnd_dumps (1 + 1000 * 2) (VList [VInt (type_of MWantToComputeTask); VInt (d_wtct_now d)])) as [q Hq]; [apply bnd_list; bnds|reflexivity|]. rewrite Hq. cbn [bind]. eauto. }
  destruct (Hw VNone) as [wh Hwh]. destruct (ecdsa_sign_total (cr E) kp wh s2 HC K2) as [ws Hws].
  assert (Lws : List.length ws = 65%nat) by (destruct (ecdsa_sign_ok _ _ _ _ HC Hws) as (? & ? & _ & _ & L & _); exact L).
  set (w := VMsg MWantToComputeTask (VInt (type_of MWantToComputeTask)) (VInt (d_wtct_now d)) (VBool false) (VBytes ws) wa).
  destruct (Hw (VBytes ws)) as [wh' Hwh']. fold w in Hwh'.
  set (ctd := VDict DCTD (ctd_kvs id sid (d_resource d) (d_ctd_now d))).
  set (a := ttc_attrs (hexlify rk) (VStr (hexlify (snd (d_eth d)))) (hexlify pk) ctd w (u "sha1:" ++ d_sha1 d) (d_size d) (d_price d)).
  destruct (generates_ethsig E (VInt (type_of MTaskToCompute)) (VInt (d_ttc_now d)) (VBool false) VNone (a VNone) (fst (d_eth d)) s3
     (VInt (type_of MWantToComputeTask)) (VInt (d_wtct_now d)) (VBool false) (VBytes ws) wa wh' HC K3) as [m1 Hm1].
  { unfold a. change (truthy (attr_get_or_none _ _)) with (truthy (VStr (hexlify (snd (d_eth d))))). pose proof (hexlify_length (snd (d_eth d))) as Q. rewrite (pub_len _ HC _ _ P3) in Q.
    destruct (hexlify (snd (d_eth d))); [discriminate Q|reflexivity]. }
  { reflexivity. }
  { exact Hwh'. }
  destruct (generated_ethsig E _ _ _ _ _ _ _ HC Hm1) as (s3' & p3 & es & _ & _ & Em1 & Les & _). change (attr_set "ethsig" (VBytes es) (a VNone)) with (a (VBytes es)) in Em1. subst m1.
  (* the slots of the whole message *)
  assert (Ts : exists x, slots MTaskToCompute (a (VBytes es)) = Ok x /\ bnd (2 ^ 40) x).
  { pose (x := VList [VList [skey "requestor_id"; VStr (hexlify rk)]; VList [skey "requestor_public_key"; VStr (hexlify rk)];
       VList [skey "requestor_ethereum_public_key"; VStr (hexlify (snd (d_eth d)))]; VList [skey "provider_id"; VStr (hexlify pk)];
       VList [skey "compute_task_def"; ctd];
       VList [skey "want_to_compute_task"; VTuple [VBool false; VTuple [VTuple [VInt (type_of MWantToComputeTask); VInt (d_wtct_now d); VBool false]; VBytes ws; wtct_slots (d_header d) (hexlify rk) id (VBytes hs) (hexlify pk) addr]]];
       VList [skey "package_hash"; VStr (u "sha1:" ++ d_sha1 d)%list]; VList [skey "size"; VInt (d_size d)]; VList [skey "concent_enabled"; VBool false];
       VList [skey "price"; VInt (d_price d)]; VList [skey "resources_options"; VNone]; VList [skey "ethsig"; VBytes es];
       VList [skey "promissory_note_sig"; VNone]; VList [skey "concent_promissory_note_sig"; VNone]]).
    exists x. split.
    - unfold a, w. unfold slots, ttc_attrs. cbn [map fst snd].
      assert (Q : ser_slot MTaskToCompute "want_to_compute_task" (VMsg MWantToComputeTask (VInt (type_of MWantToComputeTask)) (VInt (d_wtct_now d)) (VBool false) (VBytes ws) wa) =
        Ok (VTuple [VBool false; VTuple [VTuple [VInt (type_of MWantToComputeTask); VInt (d_wtct_now d); VBool false]; VBytes ws; wtct_slots (d_header d) (hexlify rk) id (VBytes hs) (hexlify pk) addr]])).
      { unfold ser_slot, ser_slot_with. change (slot_kind MTaskToCompute "want_to_compute_task") with (KMsg MWantToComputeTask false false). cbv iota. unfold ser_single. change (mcls_eqb MWantToComputeTask MWantToComputeTask) with true. cbv iota.
        rewrite wire_msg, Ws. reflexivity. }
      rewrite Q. reflexivity.
    - unfold x. eapply bnd_weak; [apply bnd_list with (n := 20000000000)|vm_compute; discriminate].
      assert (Bc : bnd 1000000 ctd) by (apply ctd_bnd; assumption).
      assert (Bws : bnd 1000 (VBytes ws)) by (apply bnd_bytes; lia). assert (Bes : bnd 1000 (VBytes es)) by (apply bnd_bytes; lia).
      clearbody ctd. revert Wb. generalize (wtct_slots (d_header d) (hexlify rk) id (VBytes hs) (hexlify pk) addr). intros wsl Wb.
      assert (Bh : bnd 100000 (VTuple [VInt (type_of MWantToComputeTask); VInt (d_wtct_now d); VBool false])) by (eapply bnd_weak; [apply bnd_tuple with (n := 1000); bnds|vm_compute; discriminate]).
      revert Bh. generalize (VTuple [VInt (type_of MWantToComputeTask); VInt (d_wtct_now d); VBool false]). intros hd Bh.
      assert (Bw : bnd 3100000000 (VTuple [hd; VBytes ws; wsl])).
      { eapply bnd_weak; [apply bnd_tuple with (n := 1000000000)|vm_compute; discriminate].
        repeat (apply Forall_cons; [eapply bnd_weak; [eassumption|lia]|]). apply Forall_nil. }
      revert Bw. generalize (VTuple [hd; VBytes ws; wsl]). intros wv Bw.
      assert (Bv : bnd 6500000000 (VTuple [VBool false; wv])).
      { eapply bnd_weak; [apply bnd_tuple with (n := 3100000000); bnds; exact Bw|vm_compute; discriminate]. }
      revert Bv. generalize (VTuple [VBool false; wv]). intros vv Bv.
      repeat (apply Forall_cons; [eapply bnd_weak; [apply bnd_list with (n := 6500000000); bnds; try (eapply bnd_weak; [eassumption|lia])|vm_compute; discriminate]|]). apply Forall_nil. }
  destruct Ts as (x & Hx & Bx).
  assert (Ht : exists th, short_hash E (VMsg MTaskToCompute (VInt (type_of MTaskToCompute)) (VInt (d_ttc_now d)) (VBool false) VNone (a (VBytes es))) = Ok th).
  { cbn [short_hash]. unfold payload_of. rewrite Hx. cbn [bind]. destruct (bnd_dumps _ _ Bx eq_refl) as [p Hp]. rewrite Hp. cbn [bind]. unfold hash_payload.
    destruct (bnd_dumps (1 + 1000 * 2) (VList [VInt (type_of MTaskToCompute); VInt (d_ttc_now d)])) as [q Hq]; [apply bnd_list; bnds|reflexivity|]. rewrite Hq. cbn [bind]. eauto. }
  destruct Ht as [th Hth]. destruct (ecdsa_sign_total (cr E) kr th s1 HC K1) as [ts Hts].
  assert (Hwsig : sign_message E (VMsg MWantToComputeTask (VInt (type_of MWantToComputeTask)) (VInt (d_wtct_now d)) (VBool false) VNone wa) kp = Ok w).
  { cbn [sign_message]. rewrite Hwh. cbn [bind]. rewrite Hws. reflexivity. }
  assert (Htsig : sign_message E (VMsg MTaskToCompute (VInt (type_of MTaskToCompute)) (VInt (d_ttc_now d)) (VBool false) VNone (a (VBytes es))) kr =
      Ok (VMsg MTaskToCompute (VInt (type_of MTaskToCompute)) (VInt (d_ttc_now d)) (VBool false) (VBytes ts) (a (VBytes es)))).
  { cbn [sign_message]. rewrite Hth. cbn [bind]. rewrite Hts. reflexivity. }
  exists id, sid, hs, ws, es, ts. cbv zeta. fold h. fold addr. fold wa. fold w. fold ctd. fold a.
  do 7 (split; [assumption|]).
  split; [destruct (ecdsa_sign_ok _ _ _ _ HC Hts) as (? & ? & _ & _ & L & _); exact L|]. split; [exists x; auto|].
  unfold signed_task. cbn [snd fst option_map]. rewrite (ctd_made _ _ _ _ (proj1 I1) (proj1 I2)). cbn [bind].
  unfold header_factory. rewrite Hid. cbn [bind]. rewrite (node_made _ _ (proj1 Nr)). cbn [bind]. rewrite node_dict. cbn [bind].
  fold (header_kw (d_header d) (hexlify rk) id). rewrite Hn. cbn [bind]. subst kr. rewrite Hhsig. cbn [bind].
  unfold wtct_factory, pubkey_to_address. cbn [str_of]. rewrite hexstr_hexlify. cbn [bind]. fold addr. rewrite wtct_init. fold h. fold wa. cbn [bind].
  subst kp. cbn [sign_hook]. rewrite Hwsig. cbn [bind]. unfold w at 1. rewrite ttc_init. fold w. cbn [bind].
  unfold task_id_hook. unfold w at 1. unfold wa at 1. unfold h at 1. rewrite header_task_id_of. cbn [bind]. rewrite getattr_ttc by slots_in.
  change (attr_get_or_none "requestor_id" _) with (VStr (hexlify rk)). cbn [bind].
  replace (truthy (VStr id)) with true.
  2: { clear -Hid. unfold fake_golem_uuid in Hid. apply bind_ok in Hid as (n & _ & Hi). apply Ok_inj in Hi. subst id. generalize (d_uuid (d_header d) / 2 ^ 48 * 2 ^ 48 + n). intros z. cbn [truthy].
       assert (Q : uuid_str z <> []). { intros Q. assert (List.length (uuid_str z) = 0%nat) by (rewrite Q; reflexivity). revert H. unfold uuid_str. cbv zeta. rewrite !app_length. change (List.length (u "-")) with 1%nat. lia. }
       destruct (uuid_str z); [congruence|reflexivity]. }
  cbn [bind]. rewrite ctd_assign_ttc by (first [cbn; tauto|apply Nid]). cbn [bind].
  unfold subtask_id_hook. rewrite getattr_ttc by slots_in. change (attr_get_or_none "requestor_id" _) with (VStr (hexlify rk)). cbn [bind]. rewrite Hsid. cbn [bind].
  rewrite ctd_assign_ttc by (first [cbn; tauto|apply Nsid]). cbn [bind].
  change (VDict DCTD (dict_set (skey "subtask_id") (VStr sid) (dict_set (skey "task_id") (VStr id) (ctd_kvs (d_id1 d) (d_id2 d) (d_resource d) (d_ctd_now d))))) with ctd.
  unfold ethsig_hook. rewrite getattr_ttc by slots_in. change (truthy (attr_get_or_none "requestor_ethereum_public_key" _)) with false. cbn [bind]. cbv iota.
  change (set_attr "requestor_ethereum_public_key" ?v (VMsg MTaskToCompute ?ty ?ts ?enc ?sig ?b)) with (Ok (VMsg MTaskToCompute ty ts enc sig (attr_set "requestor_ethereum_public_key" v b))).
  cbn [bind]. change (attr_set "requestor_ethereum_public_key" (VStr (hexlify (snd (d_eth d)))) _) with (a VNone).
  rewrite Hm1. rewrite Ek3. cbn [bind sign_hook]. exact Htsig.
Qed.

(** ** What the message is worth *)
Lemma wtct_mok C d key id hs pkey addr kr : made C (header_attrs d key id) -> header_sign C (header_attrs d key id) kr = Ok (attr_set "signature" (VBytes hs) (header_attrs d key id)) ->
  mok MWantToComputeTask (wtct_attrs (VObj CTaskHeader (attr_set "signature" (VBytes hs) (header_attrs d key id))) pkey addr).
Proof.
  intros HM HS. pose proof (made_ok C _ (made_signed C _ _ _ HM HS)) as O. constructor.
  - reflexivity.
  - intros k w H. cbn [wtct_attrs In] in H.
    repeat (destruct H as [H|H]; [injection H as <- <-; split; [cbn; intros Q; first [discriminate Q|eauto]|cbn; eauto with zarith]|]); try contradiction.
  - intros k w d0 an il H K. cbn [wtct_attrs In] in H.
    repeat (destruct H as [H|H]; [injection H as <- <-; discriminate K|]). destruct H.
Qed.
Lemma signed_task_good E priv pk rk ck d : crypto_ok (cr E) -> key_pairs (cr E) priv pk rk ck -> (forall o, priv o <> []) ->
  pair_keys (cr E) (fst (d_eth d)) (snd (d_eth d)) -> task_ok d ->
  exists m w h id, signed_task E d (Some (priv ORequestor, rk)) (Some (priv OProvider, pk)) = Ok m /\ honest E priv pk rk m /\
    verify_owners E m (VBytes pk) (VBytes rk) (VBytes ck) = Ok tt /\ vet E MTaskToCompute m = Ok tt /\
    getattr "want_to_compute_task" m = Ok w /\ verify_signature E w (VBytes pk) = Ok tt /\
    getattr "task_header" w = Ok h /\ getattr "task_id" h = Ok id /\ getattr "task_id" m = Ok id.
Proof.
  intros HC KP NE Ke Hd.
  assert (PK : forall o, exists p, pair_keys (cr E) (priv o) p /\ p = match o with OProvider => pk | ORequestor => rk | OConcent => ck end).
  { intros o. destruct (KP o) as (s & K & P). eexists. split; [|reflexivity]. specialize (NE o). destruct (priv o) as [|x k] eqn:Q; [congruence|]. exists x, k, s. auto. }
  destruct (PK ORequestor) as (? & Kr & ->). destruct (PK OProvider) as (? & Kp & ->).
  destruct (signed_task_built E d _ rk _ pk HC Hd Kr Kp Ke) as (id & sid & hs & ws & es & ts & Hid & Hsid & HM & HS & HW & HG & HT & _ & _ & HB). cbv zeta in *.
  set (h := attr_set "signature" (VBytes hs) (header_attrs (d_header d) (hexlify rk) id)) in *.
  set (wa := wtct_attrs (VObj CTaskHeader h) (hexlify pk) (address_of (keccak (cr E)) pk)) in *.
  set (w := VMsg MWantToComputeTask (VInt (type_of MWantToComputeTask)) (VInt (d_wtct_now d)) (VBool false) (VBytes ws) wa) in *.
  set (ctd := VDict DCTD (ctd_kvs id sid (d_resource d) (d_ctd_now d))) in *.
  set (a := ttc_attrs (hexlify rk) (VStr (hexlify (snd (d_eth d)))) (hexlify pk) ctd w (u "sha1:" ++ d_sha1 d) (d_size d) (d_price d)) in *.
  set (m := VMsg MTaskToCompute (VInt (type_of MTaskToCompute)) (VInt (d_ttc_now d)) (VBool false) (VBytes ts) (a (VBytes es))) in *.
  assert (Mw : mok MWantToComputeTask wa) by (eapply wtct_mok; eassumption).
  assert (Sh : forall r i, fake_golem_uuid r (VStr (hexlify rk)) = Ok i -> short i).
  { intros r i Hi. unfold fake_golem_uuid in Hi. apply bind_ok in Hi as (n & _ & Hi). apply Ok_inj in Hi. subst i. apply short_uuid. }
  assert (Mt : mok MTaskToCompute (a (VBytes es))).
  { constructor.
    - reflexivity.
    - intros k v H. cbn [a ttc_attrs In] in H.
      repeat (destruct H as [H|H]; [injection H as <- <-; split; [intros Q; first [discriminate Q|eauto]|first [exact I|cbn; eauto]]|]); try contradiction.
      eexists. split; [reflexivity|]. apply ctd_schema; eauto.
    - intros k v d0 an il H K. cbn [a ttc_attrs In] in H.
      repeat (destruct H as [H|H]; [injection H as <- <-; first [discriminate K|injection K as <- <- <-]|]); try contradiction.
      right. left. split; [reflexivity|]. do 5 eexists. split; [reflexivity|exact Mw]. }
  assert (Hon : honest E priv pk rk m).
  { eapply (honest_task E priv pk rk) with (r := VStr (hexlify rk)) (p := VStr (hexlify pk)) (h0 := header_attrs (d_header d) (hexlify rk) id) (h := h) (wa := wa); try eassumption.
    - intros k v Hk. apply attr_get_In in Hk. cbn [a ttc_attrs In] in Hk. repeat (destruct Hk as [Hk|Hk]; [injection Hk as <- <-; reflexivity|]). destruct Hk.
    - reflexivity.
    - apply decode_hexlify.
    - reflexivity.
    - reflexivity.
    - apply decode_hexlify.
    - reflexivity. }
  exists m, w, (VObj CTaskHeader h), (VStr id). split; [exact HB|]. split; [exact Hon|]. split; [exact (honest_accepted _ _ _ _ _ _ HC KP Hon)|].
  split.
  { unfold vet. change (is_task_message MTaskToCompute) with true. cbv iota. change (is_valid m) with (Ok tt). cbn [bind].
    destruct (generated_ethsig E _ _ _ _ _ _ _ HC HG) as (s3 & p3 & sg & Ks & Ps & Em & _ & V).
    assert (V' : verify_ethsig E (VMsg MTaskToCompute (VInt (type_of MTaskToCompute)) (VInt (d_ttc_now d)) (VBool false) VNone (a (VBytes es))) = Ok tt).
    { apply V. change (attr_get_or_none "requestor_ethereum_public_key" (a VNone)) with (VStr (hexlify (snd (d_eth d)))). rewrite decode_hexlify.
      destruct Ke as (x & k & s & _ & K1 & K2). congruence. }
    unfold verify_ethsig in V'. rewrite !(getattr_slot MTaskToCompute) in V' by slots_in.
    unfold verify_ethsig. unfold m. rewrite !(getattr_slot MTaskToCompute) by slots_in. rewrite V'. cbn [bind].
    assert (T : forall k i r, In k ["task_id"; "subtask_id"]%string -> 0 <= r < 2 ^ 128 -> fake_golem_uuid r (VStr (hexlify rk)) = Ok i ->
       dict_get (skey k) (ctd_kvs id sid (d_resource d) (d_ctd_now d)) = Some (VStr i) -> validate_taskid_key m k = Ok tt).
    { intros k i r _ Hr Hi Hg. unfold validate_taskid_key, m. rewrite !(getattr_slot MTaskToCompute) by slots_in. cbn [bind].
      change (attr_get_or_none "compute_task_def" (a (VBytes es))) with ctd. change (attr_get_or_none "requestor_id" (a (VBytes es))) with (VStr (hexlify rk)).
      unfold ctd_item, ctd. rewrite Hg. cbn [bind]. unfold check_id_hex_seed. rewrite decode_hexlify. cbn [bind].
      destruct (fake_uuid_checks r rk Hr) as (i' & Hi' & Hc & _). assert (i' = i) by congruence. subst i'. rewrite Hc, Z.eqb_refl. reflexivity. }
    destruct Hd as ((_ & _ & _ & Ru & _) & _ & _ & _ & _ & _ & _ & _ & _ & _ & _ & R2).
    unfold validate_taskid. fold m. rewrite (T "task_id"%string id _ ltac:(cbn; tauto) Ru Hid eq_refl). cbn [bind]. exact (T "subtask_id"%string sid _ ltac:(cbn; tauto) R2 Hsid eq_refl). }
  split; [reflexivity|]. split.
  { destruct (sign_verifies _ _ _ _ HC HW) as (sk & q & c1 & t1 & t2 & t3 & t4 & t5 & t6 & K1 & K2 & _ & _ & _ & _ & V).
    destruct Kp as (x & k & s & _ & K3 & K4). assert (q = pk) by congruence. subst q. exact V. }
  split; [reflexivity|]. split; reflexivity.
Qed.
