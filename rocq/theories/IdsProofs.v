(** * Proofs about identifiers (idgenerator.py) *)
From Verif Require Export Ids.

Lemma generate_id_ok last now cs seed :
  generate_id last now cs seed
  = (Ok (uuid_str (uuid1_int (uuid1_ticks last now) cs (seed_to_node seed))), Some (uuid1_ticks last now)).
Proof.
  unfold generate_id, uuid1. pose proof (seed_to_node_range seed).
  replace ((0 <=? seed_to_node seed) && (seed_to_node seed <? 2 ^ 48)) with true by lia. reflexivity.
Qed.

Lemma uuid_node_range z : 0 <= uuid_node z < 2 ^ 48.
Proof. unfold uuid_node. apply Z.mod_pos_bound. lia. Qed.

Lemma generate_new_id_from_id_ok last now cs s z :
  py_uuid s = Ok z ->
  generate_new_id_from_id last now cs s
  = (Ok (uuid_str (uuid1_int (uuid1_ticks last now) cs (uuid_node z))), Some (uuid1_ticks last now)).
Proof.
  intros H. unfold generate_new_id_from_id, uuid1. rewrite H. pose proof (uuid_node_range z).
  replace ((0 <=? uuid_node z) && (uuid_node z <? 2 ^ 48)) with true by lia. reflexivity.
Qed.

Lemma check_id_seed_str z seed :
  0 <= z < 2 ^ 128 -> check_id_seed (VStr (uuid_str z)) seed = Ok (seed_to_node seed =? uuid_node z).
Proof. intros H. unfold check_id_seed, py_uuid. rewrite (uuid_parse_str z H). reflexivity. Qed.

Lemma check_generated last now cs seed id last' seed2 :
  generate_id last now cs seed = (Ok id, last') ->
  check_id_seed (VStr id) seed2 = Ok (be_dec (firstn 6 seed2) =? be_dec (firstn 6 seed)).
Proof.
  rewrite generate_id_ok. intros [= <- <-]. pose proof (seed_to_node_range seed).
  rewrite check_id_seed_str by (apply uuid1_int_range; lia).
  rewrite uuid1_int_node by lia. reflexivity.
Qed.

Lemma check_generated_iff last now cs seed id last' seed2 :
  generate_id last now cs seed = (Ok id, last') ->
  (6 <= List.length seed)%nat -> (6 <= List.length seed2)%nat ->
  (check_id_seed (VStr id) seed2 = Ok true <-> firstn 6 seed2 = firstn 6 seed).
Proof.
  intros H L1 L2. rewrite (check_generated _ _ _ _ _ _ seed2 H). split.
  - intros [= E]. apply Z.eqb_eq in E. apply be_dec_inj; [|exact E].
    rewrite !firstn_length. lia.
  - intros ->. rewrite Z.eqb_refl. reflexivity.
Qed.

(** ** Histories *)
Inductive id_call :=
| GenSeed (seed : bytes)
| GenHex (hex_seed : pyval)
| GenFrom (id_ : pyval).
(** one call together with the clock reading and clock sequence it observes *)
Record id_step := { st_call : id_call; st_now : Z; st_cs : Z }.

Definition id_run1 (last : option Z) (s : id_step) : result ustr * option Z :=
  match st_call s with
  | GenSeed b => generate_id last (st_now s) (st_cs s) b
  | GenHex h => generate_id_from_hex last (st_now s) (st_cs s) h
  | GenFrom i => generate_new_id_from_id last (st_now s) (st_cs s) i
  end.
Fixpoint id_run (last : option Z) (l : list id_step) : list (result ustr) :=
  match l with
  | [] => []
  | s :: r => let '(x, last') := id_run1 last s in x :: id_run last' r
  end.
Definition oks {A} (l : list (result A)) : list A :=
  flat_map (fun r => match r with Ok a => [a] | Err _ => [] end) l.

Definition lt_last (last : option Z) (t : Z) : Prop := match last with Some l => l < t | None => True end.

Lemma id_run1_spec last s :
  (exists e, id_run1 last s = (Err e, last)) \/
  (exists node, 0 <= node < 2 ^ 48 /\
     id_run1 last s = (Ok (uuid_str (uuid1_int (uuid1_ticks last (st_now s)) (st_cs s) node)),
                       Some (uuid1_ticks last (st_now s)))).
Proof.
  unfold id_run1. destruct (st_call s) as [b|h|i].
  - right. exists (seed_to_node b). split; [apply seed_to_node_range|apply generate_id_ok].
  - unfold generate_id_from_hex. destruct (decode_hex h) as [b|e].
    + right. exists (seed_to_node b). split; [apply seed_to_node_range|apply generate_id_ok].
    + left. eauto.
  - destruct (py_uuid i) as [z|e] eqn:E.
    + right. exists (uuid_node z). split; [apply uuid_node_range|apply generate_new_id_from_id_ok, E].
    + left. exists e. unfold generate_new_id_from_id. rewrite E. reflexivity.
Qed.

Lemma id_run_inv l : forall last M,
  Forall (fun s => 0 <= st_now s <= M) l ->
  (match last with Some t => 0 <= t <= M | None => True end) ->
  M + Z.of_nat (List.length l) < 2 ^ 60 ->
  NoDup (oks (id_run last l)) /\
  (forall x, In x (oks (id_run last l)) ->
     exists t cs node, x = uuid_str (uuid1_int t cs node) /\ 0 <= node < 2 ^ 48 /\
       0 <= t < 2 ^ 60 /\ lt_last last t).
Proof.
  induction l as [|s l IH]; intros last M HF HL HM.
  - split; [constructor|intros x []].
  - inversion HF as [|? ? Hs HF']; subst. cbn [List.length] in HM.
    cbn [id_run]. destruct (id_run1_spec last s) as [[e E]|[node [Hn E]]]; rewrite E.
    + change (oks (Err e :: id_run last l)) with (oks (id_run last l)).
      apply (IH last M); auto. lia.
    + set (t := uuid1_ticks last (st_now s)) in *.
      assert (Ht : 0 <= t <= M + 1 /\ lt_last last t).
      { unfold t, uuid1_ticks, lt_last. destruct last as [t0|]; [|lia].
        destruct (st_now s <=? t0) eqn:C; lia. }
      destruct (IH (Some t) (M + 1)) as [IH1 IH2].
      { eapply Forall_impl; [|exact HF']. cbn. intros; lia. }
      { lia. }
      { lia. }
      cbn [oks flat_map app]. fold (oks (id_run (Some t) l)).
      split.
      * constructor; [|exact IH1]. intros Hin.
        destruct (IH2 _ Hin) as (t' & cs' & n' & Ex & Hn' & Ht' & Hlt). cbn [lt_last] in Hlt.
        apply uuid_str_inj in Ex; try (apply uuid1_int_range; lia).
        apply uuid1_int_ts_inj in Ex; lia.
      * intros x [<-|Hin].
        -- exists t, (st_cs s), node. repeat split; try lia. apply Ht.
        -- destruct (IH2 _ Hin) as (t' & cs' & n' & Ex & Hn' & Ht' & Hlt). cbn [lt_last] in Hlt.
           exists t', cs', n'. repeat split; auto; try lia.
           unfold lt_last in *. destruct last; lia.
Qed.

Lemma id_run_nodup l last M :
  Forall (fun s => 0 <= st_now s <= M) l ->
  (match last with Some t => 0 <= t <= M | None => True end) ->
  M + Z.of_nat (List.length l) < 2 ^ 60 ->
  NoDup (oks (id_run last l)).
Proof. intros H1 H2 H3. exact (proj1 (id_run_inv l last M H1 H2 H3)). Qed.

Lemma new_id_keeps_node last now cs id_ z id' last' :
  py_uuid id_ = Ok z ->
  generate_new_id_from_id last now cs id_ = (Ok id', last') ->
  exists z', py_uuid (VStr id') = Ok z' /\ uuid_node z' = uuid_node z.
Proof.
  intros H. rewrite (generate_new_id_from_id_ok last now cs id_ z H). intros [= <- <-].
  pose proof (uuid_node_range z). eexists. split.
  - unfold py_uuid. rewrite uuid_parse_str by (apply uuid1_int_range; lia). reflexivity.
  - apply uuid1_int_node. lia.
Qed.

Lemma new_id_keeps_checks last now cs id_ id' last' :
  generate_new_id_from_id last now cs id_ = (Ok id', last') ->
  forall seed, check_id_seed (VStr id') seed = check_id_seed id_ seed.
Proof.
  intros H seed. destruct (py_uuid id_) as [z|e] eqn:E.
  - destruct (new_id_keeps_node _ _ _ _ _ _ _ E H) as (z' & E1 & E2).
    unfold check_id_seed. rewrite E, E1, E2. reflexivity.
  - unfold generate_new_id_from_id in H. rewrite E in H. discriminate.
Qed.

Lemma bytes32_uuid_roundtrip z : 0 <= z < 2 ^ 128 -> bytes32_to_uuid (uuid_to_bytes32 z) = Ok z.
Proof.
  intros H. unfold bytes32_to_uuid, uuid_to_bytes32, uuid_bytes.
  rewrite firstn_app_exact by apply be_enc_length. rewrite be_enc_length. cbn [Nat.eqb].
  rewrite be_dec_enc_small; [reflexivity|]. exact H.
Qed.

Lemma encode_hex_ok b : b <> [] -> encode_hex (VBytes b) = Ok (hexlify b).
Proof. destruct b; [congruence|reflexivity]. Qed.

Lemma hexlify_ascii b : is_ascii (hexlify b) = true.
Proof.
  unfold is_ascii. apply forallb_forall. intros c Hc.
  pose proof (hexlify_lhex b) as Hl. rewrite forallb_forall in Hl. apply Hl in Hc.
  unfold is_lhex in Hc. lia.
Qed.
Lemma decode_hexlify b : decode_hex (VStr (hexlify b)) = Ok b.
Proof. unfold decode_hex. rewrite hexlify_ascii, unhex_hexlify. reflexivity. Qed.

Lemma decode_encode_hex b : b <> [] -> exists s, encode_hex (VBytes b) = Ok s /\ decode_hex (VStr s) = Ok b.
Proof. intros H. rewrite (encode_hex_ok b H). eexists; split; [reflexivity|apply decode_hexlify]. Qed.

Lemma id_carries_seed last now cs seed :
  exists id last', generate_id last now cs seed = (Ok id, last') /\
    forall seed2,
      check_id_seed (VStr id) seed2 = Ok (be_dec (firstn 6 seed2) =? be_dec (firstn 6 seed)).
Proof.
  eexists. eexists. split; [apply generate_id_ok|]. intros seed2.
  eapply check_generated. apply generate_id_ok.
Qed.
Lemma hex_variant last now cs b :
  generate_id_from_hex last now cs (VStr (hexlify b)) = generate_id last now cs b /\
  forall id_, check_id_hex_seed id_ (VStr (hexlify b)) = check_id_seed id_ b.
Proof.
  unfold generate_id_from_hex, check_id_hex_seed. rewrite decode_hexlify. split; reflexivity.
Qed.
Lemma uuid_text_round_trip z : 0 <= z < 2 ^ 128 -> py_uuid (VStr (uuid_str z)) = Ok z.
Proof. intros H. unfold py_uuid. rewrite (uuid_parse_str z H). reflexivity. Qed.
