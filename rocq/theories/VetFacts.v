(** * What loading guarantees: errors, nested classes, TaskToCompute, lists
    (C12, C13, C14, C23, C24, C55) *)
From Coq Require Import Permutation.
From Verif Require Export DataFacts TotalFacts.

(** ** Errors *)
Lemma load_error E now bs decf ct pub e : ver_parse (our_version E) <> None ->
  deserialize E now bs decf ct pub = Err e ->
  is_message_error e = true \/ exists c a, received E decf bs c a /\ careless c a.
Proof.
  intros HV H. destruct (deserialize_err _ _ _ _ _ _ _ HV H) as [M|(c & t & enc & sig & a & R & T & D & L & V)]; [left; exact M|].
  destruct (vet_careless _ _ _ _ _ _ _ T L D V) as [M|C]; [left; exact M|right; eauto].
Qed.
Lemma load_error_class E now bs decf ct pub e : ver_parse (our_version E) <> None ->
  deserialize E now bs decf ct pub = Err e -> ~ In (be_dec (firstn 2 bs)) [2002; 2010; 4004]%Z -> is_message_error e = true.
Proof.
  intros HV H N. destruct (load_error _ _ _ _ _ _ _ HV H) as [M|(c & a & [R _] & C)]; [exact M|]. exfalso. apply N. rewrite R.
  clear -C. destruct c; try (exfalso; exact C); vm_compute; auto.
Qed.

(** ** Contents of received messages *)
Lemma unpack_type h ty ts enc : unpack_header h = Ok (ty, ts, enc) -> be_dec (firstn 2 h) = ty.
Proof. unfold unpack_header. destruct (Nat.eqb (List.length h) HDR_LEN); [|discriminate]. intros H. apply Ok_inj in H. congruence. Qed.
Lemma load_received E now bs decf ct pub c ty ts enc sig a : c <> MHello ->
  deserialize E now bs decf ct pub = Ok (VMsg c ty ts enc sig a) -> received E decf bs c a.
Proof.
  intros N H. apply deserialize_ok in H as (L & ty0 & ts0 & enc0 & c0 & Hu & T & Hc & _ & H).
  assert (Hc0 : c0 <> MHello -> c0 = c /\ received E decf bs c a).
  { intros N0. rewrite class_load_split in H by exact N0. apply bind_ok in H as (m & B & H). apply bind_ok in H as (_ & _ & H). apply Ok_inj in H. subst m.
    apply base_load_ok in B as (p & s & a0 & a' & Hp & Hs & Ha & Hk & E0 & _). apply Ok_inj in Hk. subst a'.
    assert (c0 = c) by congruence. subst c0. split; [reflexivity|].
    assert (SV : set_version E c (post_init c a0) = post_init c a0) by (destruct c; reflexivity || congruence). rewrite SV in E0.
    apply registry_number in Hc. split.
    - apply unpack_type in Hu. rewrite firstn_firstn in Hu. rewrite <- Hc. exact Hu.
    - rewrite skipn_skipn' in Hp. exists enc0, p, s, a0. repeat (split; [assumption|]). congruence. }
  destruct (mcls_eqb c0 MHello) eqn:Q; [|apply Hc0; intros ->; discriminate Q]. exfalso.
  apply mcls_eqb_eq in Q. subst c0. apply class_load_hello in H as (v & _ & _ & H).
  apply base_load_ok in H as (p & s & a0 & a' & _ & _ & _ & _ & E0 & _). congruence.
Qed.
Lemma mapM_slot rec c kvs l : forall a k, mapM (load_slot rec c kvs) l = Ok a -> NoDup l -> In k l ->
  load_slot rec c kvs k = Ok (k, attr_get_or_none k a).
Proof.
  induction l as [|k0 l IH]; intros a k H ND Hin; [destruct Hin|]. cbn [mapM] in H.
  apply bind_ok in H as ([k1 w] & H0 & H). apply bind_ok in H as (r & Hr & H). apply Ok_inj in H. subst a.
  assert (k1 = k0).
  { unfold load_slot in H0. destruct (dict_get (skey k0) kvs); [apply bind_ok in H0 as (v' & _ & H0)|]; apply Ok_inj in H0; congruence. }
  subst k1. inversion ND as [|? ? N0 ND']; subst. unfold attr_get_or_none. cbn [attr_get].
  destruct (String.eqb_spec k0 k) as [->|Ne]; [exact H0|]. destruct Hin as [E|Hin]; [congruence|]. exact (IH r k Hr ND' Hin).
Qed.
Definition sent_slots (s : pyval) : list (pyval * pyval) := match py_dict_of s with Some kvs => kvs | None => [] end.
Lemma load_attrs_slot n c s a k : load_attrs (S n) c s = Ok a -> c <> MStartSessionResponse -> In k (slot_names c) ->
  match dict_get (skey k) (sent_slots s) with
  | None => attr_get_or_none k a = VNone
  | Some v => deser_slot (load_attrs n) c k v = Ok (attr_get_or_none k a)
  end.
Proof.
  intros H N Hk. cbn [load_attrs] in H. unfold load_slots in H. cbv zeta in H. fold (sent_slots s) in H.
  assert (G : mapM (load_slot (load_attrs n) c (sent_slots s)) (slot_names c) = Ok a).
  { destruct c; try congruence; (destruct (mapM _ _) as [x|e] eqn:M; [congruence|]; exfalso; destruct e; cbn in H; discriminate). }
  apply mapM_slot with (k := k) in G; [|apply slot_names_NoDup|exact Hk]. unfold load_slot in G.
  destruct (dict_get (skey k) (sent_slots s)) as [v|]; [|apply Ok_inj in G; congruence].
  apply bind_ok in G as (v' & Hv & G). apply Ok_inj in G. assert (v' = attr_get_or_none k a) by congruence. subst v'. exact Hv.
Qed.
Lemma upd_other k k' f a : k <> k' -> attr_get_or_none k (upd k' f a) = attr_get_or_none k a.
Proof. intros H. unfold upd, attr_get_or_none. rewrite Py.attr_get_set_other by exact H. reflexivity. Qed.
Lemma post_init_msg c k d an il a : slot_kind c k = KMsg d an il -> attr_get_or_none k (post_init c a) = attr_get_or_none k a.
Proof.
  intros K. destruct c; try reflexivity; cbn [post_init]; rewrite ?upd_other; try reflexivity; intros ->; discriminate K.
Qed.
(** a message slot of a received message is None exactly if it was not sent, or sent
    as None and optional *)
Lemma sent_present n c s a k d an il : load_attrs n c s = Ok a -> slot_kind c k = KMsg d an il ->
  let w := attr_get_or_none k (post_init c a) in
  match dict_get (skey k) (sent_slots s) with
  | None => w = VNone
  | Some v => (an = true /\ w = VNone) \/
              (exists ty ts enc sig b, w = VMsg d ty ts enc sig b) \/ (exists l, w = VList l)
  end.
Proof.
  cbv zeta. intros H K. rewrite (post_init_msg _ _ _ _ _ _ K). destruct n as [|n]; [discriminate H|].
  assert (N : c <> MStartSessionResponse) by (intros ->; destruct (slot_kind_cases MStartSessionResponse k) as [[E|[]]|E];
    [assert (k = "conn_id"%string) by congruence; subst; discriminate K|rewrite (slot_kind_default _ _ E) in K; discriminate K]).
  pose proof (load_attrs_slot n c s a k H N (msg_slot_name _ _ _ _ _ K)) as G. destruct (dict_get _ _) as [v|]; [|exact G].
  unfold deser_slot in G. rewrite K in G. set (w := attr_get_or_none k a) in *. clearbody w.
  assert (One : forall x y, deser_single (load_attrs n) d an k x = Ok y -> (an = true /\ y = VNone) \/ exists ty ts enc sig b, y = VMsg d ty ts enc sig b).
  { intros x y Q. unfold deser_single in Q. destruct (is_none x); [destruct an; [|discriminate]; left; split; [reflexivity|]; apply Ok_inj in Q; congruence|]. right.
    destruct (py_iter x) as [[|h [|sg [|s0 [|]]]]|]; try discriminate.
    destruct (py_iter h) as [[|ty [|ts [|en [|]]]]|]; try (cbn in Q; discriminate).
    destruct (load_attrs n d s0) as [b|e]; cbn [bind as_field_error] in Q; [|exfalso; destruct e; cbn in Q; discriminate].
    apply Ok_inj in Q. subst y. eauto 8. }
  unfold deser_message in G. destruct (py_iter v) as [[|b [|v' [|]]]|]; try discriminate.
  destruct (_ && _); [discriminate|]. destruct (_ && _).
  - destruct v'; try discriminate. apply bind_ok in G as (r & _ & G). apply Ok_inj in G. right. right. exists r. congruence.
  - destruct (One _ _ G) as [Q|Q]; auto.
Qed.
(** every message slot at every depth *)
Lemma loaded_slot c a k d an il : loaded c a -> slot_kind c k = KMsg d an il ->
  exists w, attr_get k a = Some w /\ (w = VNone \/ loaded_nested loaded d an il w).
Proof.
  intros [F _ N] K. pose proof (msg_slot_name _ _ _ _ _ K) as Hk. rewrite <- F in Hk.
  destruct (attr_get_some _ _ Hk) as (w & Hw & Hin). exists w. split; [exact Hw|]. exact (N _ _ _ _ _ Hin K).
Qed.
Lemma loaded_follow p : forall c ty ts enc sig a n, loaded c a -> follow p (VMsg c ty ts enc sig a) = Some n ->
  n = VNone \/ exists d ty' ts' enc' sig' b, n = VMsg d ty' ts' enc' sig' b /\ loaded d b.
Proof.
  induction p as [|[k i] p IH]; intros c ty ts enc sig a n L H; cbn [follow] in H.
  - apply Some_inj in H. right. exists c, ty, ts, enc, sig, a. auto.
  - destruct (slot_kind c k) as [| |d an il| | | | | | | | | |] eqn:K; try discriminate.
    destruct (loaded_slot _ _ _ _ _ _ L K) as (w & Hw & Hn). rewrite Hw in H.
    assert (None_ : forall x, follow p VNone = Some x -> x = VNone) by (intros x Q; destruct p as [|[? ?] ?]; cbn [follow] in Q; [congruence|discriminate]).
    assert (One : forall m, loaded_one loaded d m -> follow p m = Some n -> n = VNone \/ exists d0 ty' ts' enc' sig' b, n = VMsg d0 ty' ts' enc' sig' b /\ loaded d0 b).
    { intros m (y1 & y2 & y3 & y4 & b & -> & _ & _ & _ & _ & Lb) Q. exact (IH _ _ _ _ _ _ _ Lb Q). }
    destruct Hn as [->|[[-> _]|[[_ O]|(_ & l & -> & _ & F)]]].
    + destruct i; [|discriminate]. left. apply None_, H.
    + destruct i; [|discriminate]. left. apply None_, H.
    + apply One with (m := w); [exact O|]. destruct O as (y1 & y2 & y3 & y4 & b & -> & _). destruct i; [exact H|discriminate].
    + destruct (nth_error l i) as [m|] eqn:Q; [|discriminate]. apply One with (m := m); [|exact H].
      rewrite Forall_forall in F. apply F. eapply nth_error_In, Q.
Qed.
Lemma declared_classes E now bs decf ct pub m p n c ty ts enc sig a k d an il :
  deserialize E now bs decf ct pub = Ok m -> follow p m = Some n -> n = VMsg c ty ts enc sig a -> slot_kind c k = KMsg d an il ->
  exists w, attr_get k a = Some w /\
    (w = VNone \/
     (il = false /\ exists ty' ts' enc' sig' b, w = VMsg d ty' ts' enc' sig' b) \/
     (il = true /\ exists l, w = VList l /\ l <> [] /\ Forall (fun x => exists ty' ts' enc' sig' b, x = VMsg d ty' ts' enc' sig' b) l)).
Proof.
  intros H Hp -> K. apply deserialize_loaded in H as (c0 & t & en & sg & v & a0 & -> & L & _).
  assert (N : c0 <> MHello).
  { intros ->. destruct p as [|[k0 i] p]; cbn [follow] in Hp.
    - apply Some_inj in Hp. assert (c = MHello) by congruence. subst c. pose proof (rank_decreases _ _ _ _ _ K) as R. cbn in R. lia.
    - destruct (slot_kind MHello k0) as [| |d0 an0 il0| | | | | | | | | |] eqn:K0; try discriminate. pose proof (rank_decreases _ _ _ _ _ K0) as R. cbn in R. lia. }
  rewrite full_not_hello in Hp by exact N.
  destruct (loaded_follow _ _ _ _ _ _ _ _ L Hp) as [Q|(d0 & ty' & ts' & en' & sg' & b & Q & Lb)]; [discriminate|].
  assert (d0 = c /\ b = a) as [-> ->] by (split; congruence). destruct (loaded_slot _ _ _ _ _ _ Lb K) as (w & Hw & Hn). exists w. split; [exact Hw|].
  assert (One : forall x, loaded_one loaded d x -> exists ty' ts' enc' sig' b, x = VMsg d ty' ts' enc' sig' b)
    by (intros x (y1 & y2 & y3 & y4 & b0 & -> & _); eauto 8).
  destruct Hn as [->|[[-> _]|[[-> O]|(-> & l & -> & Nl & F)]]]; [left; reflexivity|left; reflexivity|right; left; auto|].
  right. right. split; [reflexivity|]. exists l. split; [reflexivity|]. split; [exact Nl|]. eapply Forall_impl; [|exact F]. exact One.
Qed.

(** ** The type number inside a nested header *)
Lemma nested_type E c ts0 enc0 sig0 a0 d ty ts enc sig b h : crypto_ok (cr E) ->
  wirewf (VList [ty; ts]) = true ->
  short_hash E (VMsg c (VInt (type_of c)) (VInt ts0) enc0 sig0 a0) = Ok h ->
  short_hash E (VMsg d ty ts enc sig b) = Ok h ->
  sha1_collision E (VMsg c (VInt (type_of c)) (VInt ts0) enc0 sig0 a0) (VMsg d ty ts enc sig b) \/
  (norm ty = VInt (type_of c) /\ norm ts = VInt ts0 /\ payload_of d b = payload_of c a0).
Proof.
  intros HC W H1 H2. cbn [short_hash] in H1, H2. apply bind_ok in H1 as (p1 & P1 & H1). apply bind_ok in H2 as (p2 & P2 & H2).
  unfold hash_payload in H1, H2. apply bind_ok in H1 as (d1 & D1 & H1). apply bind_ok in H2 as (d2 & D2 & H2). cbv zeta in H1, H2.
  assert (X : forall c b x, match c with MHello => do v <- version_bytes b; Ok (sha1 (cr E) x ++ v) | _ => Ok (sha1 (cr E) x) end = Ok h ->
    exists v, h = sha1 (cr E) x ++ v).
  { intros c0 b0 x H. destruct c0; try (exists []; rewrite app_nil_r; congruence). apply bind_ok in H as (v & _ & H). exists v. congruence. }
  apply X in H1 as [v1 H1]. apply X in H2 as [v2 H2].
  assert (L : sha1 (cr E) (d1 ++ p1) = sha1 (cr E) (d2 ++ p2) /\ v1 = v2).
  { apply app_inj_len; [rewrite !(sha1_len _ HC); reflexivity|congruence]. }
  destruct L as [L _].
  destruct (bytes_eqb (d1 ++ p1) (d2 ++ p2)) eqn:Q; [right|left].
  2: { exists (d1 ++ p1), (d2 ++ p2). split; [|split; [|split; [intros Q'; rewrite Q', bytes_eqb_refl in Q; discriminate|exact L]]].
       - exists c, (VInt (type_of c)), (VInt ts0), enc0, sig0, a0, d1, p1. auto.
       - exists d, ty, ts, enc, sig, b, d2, p2. auto. }
  apply bytes_eqb_eq in Q. rewrite P1, P2.
  unfold dumps in D1, D2. destruct (Cbor.enc (VList [VInt (type_of c); VInt ts0])) as [b1|] eqn:B1; [|discriminate].
  destruct (Cbor.enc (VList [ty; ts])) as [b2|] eqn:B2; [|discriminate]. apply Ok_inj in D1, D2. subst b1 b2.
  destruct (enc_prefix_free (VList [VInt (type_of c); VInt ts0]) (VList [ty; ts]) d1 d2 p1 p2 B1 B2 eq_refl W Q) as (V & _ & Q').
  cbn [norm map] in V. split; [congruence|]. split; congruence.
Qed.

(** ** TaskToCompute *)
(** what [generate_ethsig] leaves behind: only [ethsig] changed, and the result
    verifies exactly when the message names the public key of the key used *)
Lemma generated_ethsig E ty ts enc sig a priv m' : crypto_ok (cr E) ->
  generate_ethsig E (VMsg MTaskToCompute ty ts enc sig a) priv = Ok m' ->
  exists s p sg, secret_of (cr E) priv = Some s /\ pub_of (cr E) s = Some p /\
    m' = VMsg MTaskToCompute ty ts enc sig (attr_set "ethsig" (VBytes sg) a) /\ List.length sg = 65%nat /\
    (verify_ethsig E m' = Ok tt <-> decode_hex (attr_get_or_none "requestor_ethereum_public_key" a) = Ok p).
Proof.
  intros HC H. unfold generate_ethsig in H. rewrite !(getattr_slot MTaskToCompute) in H by slots_in. cbn [bind] in H.
  destruct (negb _); [discriminate|]. apply bind_ok in H as (h & Hh & H). apply bind_ok in H as (sg & Hs & H). apply Ok_inj in H. subst m'.
  destruct (ecdsa_sign_ok _ _ _ _ HC Hs) as (s & p & Ks & Kp & L & V). exists s, p, sg.
  repeat (split; [first [assumption|reflexivity]|]).
  unfold verify_ethsig. rewrite !(getattr_slot MTaskToCompute) by slots_in. cbn [bind].
  rewrite DataFacts.attr_get_set_same. rewrite !DataFacts.attr_get_set_other by discriminate.
  destruct (attr_get_or_none "want_to_compute_task" a) eqn:W; try discriminate Hh.
  destruct (decode_hex _) as [k|e]; cbn [bind]; [|split; discriminate]. rewrite Hh. cbn [bind].
  apply ecdsa_verify_ok in V as (_ & sg' & Eg & R). assert (sg' = sg) by congruence. subst sg'. split; intros G.
  - apply ecdsa_verify_ok in G as (_ & sg' & Eg' & R'). f_equal. congruence.
  - assert (k = p) by congruence. subst k. apply ecdsa_verify_ok. split; [apply (pub_len _ HC _ _ Kp)|]. eauto.
Qed.
Lemma generates_ethsig E ty ts enc sig a priv s wty wts wenc wsig wa h : crypto_ok (cr E) -> secret_of (cr E) priv = Some s ->
  truthy (attr_get_or_none "requestor_ethereum_public_key" a) = true ->
  attr_get_or_none "want_to_compute_task" a = VMsg MWantToComputeTask wty wts wenc wsig wa ->
  short_hash E (VMsg MWantToComputeTask wty wts wenc wsig wa) = Ok h ->
  exists m', generate_ethsig E (VMsg MTaskToCompute ty ts enc sig a) priv = Ok m'.
Proof.
  intros HC Ks T W Hh. unfold generate_ethsig. rewrite !(getattr_slot MTaskToCompute) by slots_in. cbn [bind]. rewrite T, W, Hh. cbn [negb bind].
  destruct (ecdsa_sign_total _ _ h _ HC Ks) as [sg ->]. cbn [bind]. eauto.
Qed.
Lemma loaded_ttc E now bs decf ct pub ty ts enc sig a :
  deserialize E now bs decf ct pub = Ok (VMsg MTaskToCompute ty ts enc sig a) ->
  (exists k h sg w, attr_get_or_none "want_to_compute_task" a = w /\
     (exists wty wts wenc wsig wa, w = VMsg MWantToComputeTask wty wts wenc wsig wa) /\
     decode_hex (attr_get_or_none "requestor_ethereum_public_key" a) = Ok k /\ List.length k = 64%nat /\
     short_hash E w = Ok h /\ attr_get_or_none "ethsig" a = VBytes sg /\
     recover (cr E) sg (sha3_256 (cr E) h) = Some (x04 :: k)) /\
  exists seed, decode_hex (attr_get_or_none "requestor_id" a) = Ok seed /\
  forall name, name = "task_id"%string \/ name = "subtask_id"%string ->
  exists d kvs x t z, attr_get_or_none "compute_task_def" a = VDict d kvs /\ dict_get (skey name) kvs = Some x /\
    str_of x = Some t /\ uuid_parse t = Some z /\ z mod 2 ^ 48 = be_dec (firstn 6 seed).
Proof.
  intros H. pose proof H as H0. apply deserialize_loaded in H0 as (c & t & en & sg & v & a0 & E0 & L & _ & _ & _ & V).
  assert (c = MTaskToCompute) by congruence. subst c. cbn [full] in E0. assert (a0 = a) by congruence. subst a0.
  specialize (V ltac:(discriminate)). unfold vet in V. cbn [is_task_message is_valid bind] in V. apply bind_ok in V as ([] & V1 & V).
  unfold validate_taskid in V. apply bind_ok in V as ([] & V2 & V3). split.
  - unfold verify_ethsig in V1. rewrite !(getattr_slot MTaskToCompute) in V1 by slots_in. cbn [bind] in V1.
    destruct (loaded_slot _ _ "want_to_compute_task" _ _ _ L eq_refl) as (w & Hw & Hn). unfold attr_get_or_none at 1 in V1. rewrite Hw in V1.
    destruct Hn as [->|[[_ Q]|[[_ O]|[Q _]]]]; try discriminate. destruct O as (y1 & y2 & y3 & y4 & b & -> & _).
    apply bind_ok in V1 as (k & Hk & V1). apply bind_ok in V1 as (h & Hh & V1). apply ecdsa_verify_ok in V1 as (Lp & sg' & Es & R).
    exists k, h, sg', (VMsg MWantToComputeTask y1 y2 y3 y4 b).
    split; [unfold attr_get_or_none; rewrite Hw; reflexivity|]. split; [eauto 8|].
    assert (Hw' : attr_get_or_none "want_to_compute_task" a = VMsg MWantToComputeTask y1 y2 y3 y4 b) by (unfold attr_get_or_none; rewrite Hw; reflexivity).
    rewrite Hw' in Hh. repeat (split; [assumption|]). exact R.
  - assert (G : forall name, validate_taskid_key (VMsg MTaskToCompute ty ts enc sig a) name = Ok tt ->
      exists seed d kvs x t z, decode_hex (attr_get_or_none "requestor_id" a) = Ok seed /\ attr_get_or_none "compute_task_def" a = VDict d kvs /\ dict_get (skey name) kvs = Some x /\
        str_of x = Some t /\ uuid_parse t = Some z /\ z mod 2 ^ 48 = be_dec (firstn 6 seed)).
    { intros name G. unfold validate_taskid_key in G. rewrite !(getattr_slot MTaskToCompute) in G by slots_in. cbn [bind] in G.
      apply bind_ok in G as (x & Hx & G). apply bind_ok in G as (bb & Hb & G). destruct bb; [|discriminate].
      unfold ctd_item in Hx. destruct (attr_get_or_none "compute_task_def" a) as [| | | | | | | |d kvs| | | | |]; try discriminate Hx.
      destruct (dict_get (skey name) kvs) as [x0|] eqn:Q; [|discriminate]. apply Ok_inj in Hx. subst x0.
      unfold check_id_hex_seed in Hb. apply bind_ok in Hb as (seed & Hs & Hb). unfold check_id_seed in Hb.
      destruct (py_uuid x) as [z|e] eqn:U; [|exfalso; destruct e; discriminate Hb]. apply Ok_inj in Hb. apply Z.eqb_eq in Hb.
      assert (Ht : exists t, str_of x = Some t /\ uuid_parse t = Some z).
      { destruct x as [| | | | | | | | |e0 s0| | | |]; try discriminate U; cbn [py_uuid str_of] in U |- *.
        - destruct (uuid_parse s) eqn:P; [|discriminate]. apply Ok_inj in U. subst. eauto.
        - destruct (is_string_enum e0); [|discriminate]. destruct (uuid_parse (u s0)) eqn:P; [|discriminate]. apply Ok_inj in U. subst. eauto. }
      destruct Ht as (tx & Ht & Hp). exists seed, d, kvs, x, tx, z. repeat (split; [assumption||reflexivity|]). symmetry. exact Hb. }
    destruct (G _ V2) as (seed & d & kvs & x & tx & z & Hs & R). exists seed. split; [exact Hs|].
    intros name [->| ->]; [exists d, kvs, x, tx, z; exact R|].
    destruct (G _ V3) as (seed' & d' & kvs' & x' & tx' & z' & Hs' & R'). assert (seed' = seed) by congruence. subst seed'. exists d', kvs', x', tx', z'. exact R'.
Qed.

(** a vetted TaskToCompute nested in a message that is sent arrives vetted *)
Lemma vetted_arrives E E' now c t enc0 sig v a key encf m' bs ct decf pub m2 p ty ts enc sg b :
  cr E' = cr E -> crypto_ok (cr E) -> (forall s, sig = VBytes s -> List.length s = 65%nat) ->
  1262304000 < t < 32819212800 ->
  mok c a -> hello_ok E' c v ->
  (forall s, slots c a = Ok s -> wirewf s = true /\ (vdepth s < cdepth E')%nat) ->
  (forall p, payload_of c a = Ok p -> undoes encf decf c p) ->
  serialize E (VMsg c (VInt (type_of c)) (VInt t) enc0 sig (full c v a)) key encf = (m', Ok bs) ->
  deserialize E' now bs decf ct pub = Ok m2 -> p <> [] ->
  follow p m' = Some (VMsg MTaskToCompute ty ts enc sg b) ->
  verify_ethsig E (VMsg MTaskToCompute ty ts enc sg b) = Ok tt ->
  validate_taskid (VMsg MTaskToCompute ty ts enc sg b) = Ok tt ->
  exists n', follow p m2 = Some n' /\ verify_ethsig E' n' = Ok tt /\ validate_taskid n' = Ok tt.
Proof.
  intros HE HC HL HT M HH W U H HD NE Hp V1 V2.
  destruct (trip_ends E E' now c t enc0 sig v a key encf m' bs ct decf pub m2 HE HC HL HT M HH W U H HD) as [_ B].
  destruct (B _ _ Hp) as (n' & Hn & _ & S). exists n'. split; [exact Hn|].
  destruct (S NE) as [[Q _]|(d & ty1 & ts1 & en1 & sg1 & b1 & b' & _ & Q & -> & AR & Mb)]; [discriminate|].
  assert (d = MTaskToCompute /\ b1 = b) as [-> ->] by (split; congruence).
  assert (V1' : verify_ethsig E (VMsg MTaskToCompute (norm ty1) (norm ts1) enc sg b) = Ok tt) by (rewrite <- V1; reflexivity).
  split; [exact (ethsig_arrives E E' _ _ _ _ _ _ b b' HE Mb AR V1')|].
  unfold validate_taskid in V2 |- *. apply bind_ok in V2 as ([] & V2 & V3).
  assert (V2' : validate_taskid_key (VMsg MTaskToCompute (norm ty1) (norm ts1) enc sg b) "task_id" = Ok tt) by (rewrite <- V2; reflexivity).
  assert (V3' : validate_taskid_key (VMsg MTaskToCompute (norm ty1) (norm ts1) enc sg b) "subtask_id" = Ok tt) by (rewrite <- V3; reflexivity).
  rewrite (taskid_arrives "task_id" _ _ _ _ (norm en1) (norm sg1) b b' Mb AR (or_introl eq_refl) V2'). cbn [bind].
  exact (taskid_arrives "subtask_id" _ _ _ _ (norm en1) (norm sg1) b b' Mb AR (or_intror eq_refl) V3').
Qed.

(** ** Lists *)
Lemma list_slot_sent E decf bs c a k kd : received E decf bs c a ->
  ((c = MPeers /\ k = "peers"%string /\ kd = KPeers) \/ (c = MTasks /\ k = "tasks"%string /\ kd = KTasks)) ->
  attr_get_or_none k a = VList [] \/ exists v, deser_plain kd k v = Ok (attr_get_or_none k a).
Proof.
  intros [_ (enc & p & s & a0 & _ & _ & Ha & ->)] Hc.
  assert (G : attr_get_or_none k a0 = VNone \/ exists v, deser_plain kd k v = Ok (attr_get_or_none k a0)).
  { change FUEL with (S 7) in Ha.
    destruct Hc as [(-> & -> & ->)|(-> & -> & ->)].
    - pose proof (load_attrs_slot 7 MPeers s a0 "peers" Ha ltac:(discriminate) ltac:(slots_in)) as G.
      destruct (dict_get _ _) as [v|]; [right; exists v; exact G|left; exact G].
    - pose proof (load_attrs_slot 7 MTasks s a0 "tasks" Ha ltac:(discriminate) ltac:(slots_in)) as G.
      destruct (dict_get _ _) as [v|]; [right; exists v; exact G|left; exact G]. }
  assert (P : attr_get_or_none k (post_init c a0) = or_empty (attr_get_or_none k a0)).
  { destruct Hc as [(-> & -> & ->)|(-> & -> & ->)]; cbn [post_init]; unfold upd, attr_get_or_none; rewrite Py.attr_get_set_same; reflexivity. }
  rewrite P. destruct G as [->|(v & G)]; [left; reflexivity|]. unfold or_empty. destruct (truthy (attr_get_or_none k a0)); [right; eauto|left; reflexivity].
Qed.
Lemma loaded_peers E now bs decf ct pub ty ts enc sig a :
  deserialize E now bs decf ct pub = Ok (VMsg MPeers ty ts enc sig a) ->
  exists l, attr_get_or_none "peers" a = VList l /\
    Forall (fun p => exists kvs, p = VDict DPeer kvs /\
      Permutation (map (fun kv => str_of (fst kv)) kvs) [Some (u "address"); Some (u "port"); Some (u "node")] /\
      (forall k v, In (k, v) kvs -> str_of k = Some (u "address") -> ip_ok v = true) /\
      (forall k v, In (k, v) kvs -> str_of k = Some (u "port") -> exists z, v = VInt z /\ 1 <= z <= 65534) /\
      (forall k v, In (k, v) kvs -> str_of k = Some (u "node") -> exists n, v = VObj CNode n)) l.
Proof.
  intros H. apply load_received in H; [|discriminate].
  destruct (list_slot_sent _ _ _ _ _ "peers" KPeers H ltac:(auto)) as [->|(v & G)]; [exists []; auto|].
  cbn [deser_plain] in G. destruct v as [| | | | | |l| | | | | | |]; try discriminate G. apply bind_ok in G as (r & Hr & G). apply Ok_inj in G. exists r. split; [congruence|].
  refine (mapM_each _ (fun _ => True) _ _ _ _ (fun _ _ => I) Hr). intros x p _ Hp.
  destruct (dict_invariant DPeer x p [] ltac:(discriminate) Hp) as (kvs & -> & P & V). cbn [fold_left] in P, V. exists kvs. split; [reflexivity|]. split; [exact P|].
  split; [|split]; intros k v Hin Hk; destruct (V _ _ _ Hin Hk) as (V1 & V2 & V3); auto.
Qed.
Lemma loaded_tasks E now bs decf ct pub ty ts enc sig a :
  deserialize E now bs decf ct pub = Ok (VMsg MTasks ty ts enc sig a) ->
  exists l, attr_get_or_none "tasks" a = VList l /\
    Forall (fun h => exists kw ha, cnew CTaskHeader kw = Ok h /\ h = VObj CTaskHeader ha) l.
Proof.
  intros H. apply load_received in H; [|discriminate].
  destruct (list_slot_sent _ _ _ _ _ "tasks" KTasks H ltac:(auto)) as [->|(v & G)]; [exists []; auto|].
  cbn [deser_plain] in G. destruct v as [| | | | | |l| | | | | | |]; try discriminate G. apply bind_ok in G as (r & Hr & G). apply Ok_inj in G. exists r. split; [congruence|].
  refine (mapM_each _ (fun _ => True) _ _ _ _ (fun _ _ => I) Hr). intros x h _ Hh. cbv beta in Hh. apply bind_ok in Hh as ([] & _ & Hh).
  unfold cnew_star in Hh. apply bind_ok in Hh as (kw & _ & Hh). exists kw. pose proof Hh as Hh'. apply cnew_iff in Hh' as (_ & ha & -> & _). exists ha. auto.
Qed.
(** and what can be sent *)
Lemma sent_tasks v s : slots MTasks [("tasks"%string, v)] = Ok s -> exists l, v = VList l /\ Forall (fun h => exists c a, h = VObj c a) l.
Proof.
  intros H. apply (proj1 (slots_inv MTasks [("tasks"%string, v)] s eq_refl)) in H as (l & _ & F). inversion F as [|? ? ? ? [_ H] _]; subst. cbn [fst snd] in H.
  change (ser_slot MTasks "tasks" v) with (ser_plain KTasks "tasks" v) in H. cbn [ser_plain] in H. destruct v as [| | | | | |t| | | | | | |]; try discriminate H.
  apply bind_ok in H as (r & Hr & _). rewrite collect_map in Hr. exists t. split; [reflexivity|]. clear F. revert r Hr.
  induction t as [|h t IH]; intros r Hr; constructor; cbn [mapM] in Hr; apply bind_ok in Hr as (x & Hx & Hr).
  - destruct h; try discriminate Hx. eauto.
  - apply bind_ok in Hr as (r0 & Hr & _). eapply IH; eauto.
Qed.
Lemma sent_peers v s : slots MPeers [("peers"%string, v)] = Ok s -> exists l, py_iter v = Some l /\ Forall (fun p => exists kvs, p = VDict DPeer kvs) l.
Proof.
  intros H. apply (proj1 (slots_inv MPeers [("peers"%string, v)] s eq_refl)) in H as (l & _ & F). inversion F as [|? ? ? ? [_ H] _]; subst. cbn [fst snd] in H.
  change (ser_slot MPeers "peers" v) with (ser_plain KPeers "peers" v) in H. cbn [ser_plain] in H. destruct (py_iter v) as [t|]; try discriminate H.
  apply bind_ok in H as (r & Hr & _). rewrite collect_map in Hr. exists t. split; [reflexivity|]. clear F. revert r Hr.
  induction t as [|h t IH]; intros r Hr; constructor; cbn [mapM] in Hr; apply bind_ok in Hr as (x & Hx & Hr).
  - destruct h as [| | | | | | | |dc kvs| | | | |]; try discriminate Hx. destruct dc; try discriminate Hx. eauto.
  - apply bind_ok in Hr as (r0 & Hr & _). eapply IH; eauto.
Qed.
