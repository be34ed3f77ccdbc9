(** * The flag that says a payload is encrypted *)
From Verif Require Export LaterFacts.

Lemma vet_flag E c ty ts e1 e2 s a : vet E c (VMsg c ty ts e1 s a) = Ok tt -> vet E c (VMsg c ty ts e2 s a) = Ok tt.
Proof.
  destruct c; try (intros H; exact H). unfold vet. cbn [is_task_message is_valid]. unfold verdict_valid.
  change (getattr "ack_report_computed_task" (VMsg MVerdictReportComputedTask ty ts e1 s a)) with (getattr "ack_report_computed_task" (VMsg MVerdictReportComputedTask ty ts e2 s a)).
  change (getattr "force_report_computed_task" (VMsg MVerdictReportComputedTask ty ts e1 s a)) with (getattr "force_report_computed_task" (VMsg MVerdictReportComputedTask ty ts e2 s a)).
  destruct (getattr "ack_report_computed_task" _) as [x|]; [|discriminate]. cbn [bind]. destruct (getattr _ x) as [y|]; [|discriminate]. cbn [bind]. destruct (getattr _ y) as [z|]; [|discriminate]. cbn [bind].
  destruct (getattr "force_report_computed_task" _) as [x'|]; [|discriminate]. cbn [bind]. destruct (getattr _ x') as [y'|]; [|discriminate]. cbn [bind]. destruct (getattr _ y') as [z'|]; [|discriminate]. cbn [bind].
  destruct (val_eq z' z) as [[]|]; [reflexivity| |discriminate]. cbn [bind msg_repr]. destruct (slots _ a) as [|[]]; discriminate.
Qed.
Lemma check_flag E c ty ts e1 e2 s a p pub : check_sender E (VMsg c ty ts e1 s a) p pub = check_sender E (VMsg c ty ts e2 s a) p pub.
Proof. reflexivity. Qed.
Lemma base_flag E c ty ts f f' data data' decf decf' pub kw sig a :
  base_load E c ty ts f data decf pub kw = Ok (VMsg c (VInt ty) (VInt ts) (VBool f) sig a) ->
  firstn 65 data' = firstn 65 data -> decrypted decf' f' (skipn 65 data') = decrypted decf f (skipn 65 data) ->
  base_load E c ty ts f' data' decf' pub kw = Ok (VMsg c (VInt ty) (VInt ts) (VBool f') sig a).
Proof.
  intros H Q1 Q2. apply base_load_ok in H as (payload & s & a1 & a2 & Hp & Hs & Ha & Ha' & Hm & K). apply base_load_ok. exists payload, s, a1, a2.
  rewrite Q2, Q1. repeat (split; [assumption|]). split; [congruence|]. exact K.
Qed.
(** what a frame is loaded as depends on its type, its time, its signature, the payload
    found after decryption and, for Hello, the version field *)
Lemma only_content E now msg msg' decf decf' ct pub c ty ts f sig a :
  deserialize E now msg decf ct pub = Ok (VMsg c ty ts (VBool f) sig a) -> (76 < List.length msg')%nat ->
  firstn 10 msg' = firstn 10 msg -> firstn 65 (body c msg') = firstn 65 (body c msg) ->
  (c = MHello -> slice_last 32 (skipn 11 msg') = slice_last 32 (skipn 11 msg)) ->
  let f' := negb (bytes_eqb (firstn 1 (skipn 10 msg')) [x00]) in
  decrypted decf' f' (skipn 65 (body c msg')) = decrypted decf f (skipn 65 (body c msg)) ->
  deserialize E now msg' decf' ct pub = Ok (VMsg c ty ts (VBool f') sig a).
Proof.
  intros H L' Q10 Q65 QV f' QP. apply deserialize_ok in H as (L & ty0 & ts0 & e0 & c0 & Hu & T & Hg & Ht & H).
  destruct (class_load_msg _ _ _ _ _ _ _ _ _ H) as (sg & a0 & Q).
  assert (c0 = c /\ ty = VInt ty0 /\ ts = VInt ts0 /\ e0 = f /\ sig = VBytes sg /\ a0 = a) as (-> & -> & -> & -> & -> & ->) by (repeat split; congruence). clear Q.
  assert (S : forall n k m, (n + k <= 10)%nat -> firstn k (skipn n (firstn 11 m)) = firstn k (skipn n (firstn 10 (m : bytes)))).
  { intros n k m B. rewrite !firstn_skipn_comm, !firstn_firstn. f_equal. f_equal. lia. }
  assert (Hu' : unpack_header (firstn 11 msg') = Ok (ty0, ts0, f')).
  { unfold unpack_header in *. unfold HDR_LEN in *. rewrite firstn_length_le in * by lia. rewrite Nat.eqb_refl in *. apply Ok_inj in Hu.
    assert (ty0 = be_dec (firstn 2 (firstn 11 msg)) /\ ts0 = be_dec (firstn 8 (skipn 2 (firstn 11 msg)))) as [-> ->] by (split; congruence).
    pose proof (S 0%nat 2%nat msg' ltac:(lia)) as S1. pose proof (S 0%nat 2%nat msg ltac:(lia)) as S2. cbn [skipn] in S1, S2. rewrite S1, S2, !S by lia. rewrite Q10. unfold f'.
    replace (skipn 10 (firstn 11 msg')) with (firstn 1 (skipn 10 msg')) by (rewrite firstn_skipn_comm; reflexivity). reflexivity. }
  apply deserialize_ok. split; [exact L'|]. exists ty0, ts0, f', c. repeat (split; [assumption|]). rewrite <- !body_skip in Q65, QP.
  destruct (mcls_eqb c MHello) eqn:QH.
  - apply mcls_eqb_eq in QH. subst c. apply class_load_hello in H as (v & Hv & Hg' & H). apply class_load_hello. exists v. rewrite QV by reflexivity.
    split; [exact Hv|]. split; [exact Hg'|]. eapply base_flag; [exact H|exact Q65|exact QP].
  - assert (NH : c <> MHello) by (intros ->; discriminate QH). rewrite class_load_split in * by exact NH.
    apply bind_ok in H as (m & H & HV). apply bind_ok in HV as ([] & HV & Q). apply Ok_inj in Q. subst m.
    replace (body' c (skipn 11 msg')) with (skipn 11 msg') in * by (destruct c; reflexivity || congruence).
    replace (body' c (skipn 11 msg)) with (skipn 11 msg) in * by (destruct c; reflexivity || congruence).
    rewrite (base_flag _ _ _ _ _ f' _ (skipn 11 msg') _ decf' _ _ _ _ H Q65 QP). cbn [bind]. rewrite (vet_flag _ _ _ _ (VBool f) (VBool f') _ _ HV). reflexivity.
Qed.
Lemma payload_loads E now msg decf ct pub c ty ts f sig a payload :
  deserialize E now msg decf ct pub = Ok (VMsg c ty ts (VBool f) sig a) -> decrypted decf f (skipn 65 (body c msg)) = Ok payload ->
  exists s, loads (cdepth E) payload = Ok s.
Proof.
  intros H HP. apply deserialize_ok in H as (_ & ty0 & ts0 & e0 & c0 & _ & _ & _ & _ & H). rewrite <- body_skip in HP.
  destruct (class_load_msg _ _ _ _ _ _ _ _ _ H) as (sg & a0 & Q). assert (c0 = c /\ e0 = f) as [-> ->] by (split; congruence).
  assert (B : exists kw m, base_load E c ty0 ts0 f (body' c (skipn 11 msg)) decf pub kw = Ok m).
  { destruct (mcls_eqb c MHello) eqn:QH.
    - apply mcls_eqb_eq in QH. subst c. apply class_load_hello in H as (v & _ & _ & H). eauto.
    - assert (NH : c <> MHello) by (intros ->; discriminate QH). rewrite class_load_split in H by exact NH. apply bind_ok in H as (m & H & _).
      replace (body' c (skipn 11 msg)) with (skipn 11 msg) by (destruct c; reflexivity || congruence). eauto. }
  destruct B as (kw & m & B). apply base_load_ok in B as (p & s & _ & _ & Hp & Hs & _). exists s. congruence.
Qed.
(** the frame with another flag and another payload *)
Definition sealed (c : mcls) (msg : bytes) (flag : byte) (p : bytes) : bytes :=
  firstn 10 msg ++ [flag] ++ firstn 65 (body c msg) ++ p ++ match c with MHello => slice_last 32 (skipn 11 msg) | _ => [] end.
(** the frame with the flag cleared and the payload in the clear *)
Definition in_clear (c : mcls) (msg payload : bytes) : bytes := sealed c msg x00 payload.
Lemma slice_last_len n (b : bytes) : (n <= List.length b)%nat -> List.length (slice_last n b) = n.
Proof. intros H. unfold slice_last. rewrite skipn_length. lia. Qed.
Lemma reframed E now msg decf decf' ct pub c ty ts f sig a flag p payload :
  deserialize E now msg decf ct pub = Ok (VMsg c ty ts (VBool f) sig a) -> decrypted decf f (skipn 65 (body c msg)) = Ok payload ->
  (c = MHello -> 108 <= List.length msg)%nat -> p <> [] -> let f' := negb (bytes_eqb [flag] [x00]) in
  decrypted decf' f' p = Ok payload -> deserialize E now (sealed c msg flag p) decf' ct pub = Ok (VMsg c ty ts (VBool f') sig a).
Proof.
  intros H HP LH NP f' HD. assert (L : (76 < List.length msg)%nat) by (apply deserialize_ok in H as [L _]; exact L).
  assert (L10 : List.length (firstn 10 msg) = 10%nat) by (apply firstn_length_le; lia).
  set (sfx := match c with MHello => slice_last 32 (skipn 11 msg) | _ => [] end) in *.
  assert (LB : List.length (firstn 65 (body c msg)) = 65%nat).
  { apply firstn_length_le. destruct (mcls_eqb c MHello) eqn:QH.
    - apply mcls_eqb_eq in QH. subst c. cbn [body]. specialize (LH eq_refl). rewrite firstn_length, skipn_length. lia.
    - replace (body c msg) with (skipn 11 msg) by (destruct c; reflexivity || discriminate QH). rewrite skipn_length. lia. }
  assert (LC : (76 < List.length (sealed c msg flag p))%nat).
  { unfold sealed. fold sfx. rewrite !app_length, L10, LB. destruct p; [congruence|]. cbn [List.length]. lia. }
  assert (S11 : skipn 11 (sealed c msg flag p) = firstn 65 (body c msg) ++ p ++ sfx).
  { unfold sealed. fold sfx. rewrite app_assoc. apply skipn_app_exact. rewrite app_length, L10. reflexivity. }
  assert (B : body c (sealed c msg flag p) = firstn 65 (body c msg) ++ p).
  { destruct (mcls_eqb c MHello) eqn:QH.
    - apply mcls_eqb_eq in QH. subst c. cbn [body]. rewrite S11. specialize (LH eq_refl).
      assert (L32 : List.length sfx = 32%nat) by (apply slice_last_len; rewrite skipn_length; lia).
      rewrite app_assoc. apply firstn_app_exact. unfold sealed. fold sfx. rewrite !app_length, L10, L32. cbn [List.length body]. lia.
    - assert (Q : body c (sealed c msg flag p) = skipn 11 (sealed c msg flag p)) by (destruct c; reflexivity || discriminate QH). rewrite Q, S11.
      assert (sfx = []) as -> by (unfold sfx; destruct c; reflexivity || discriminate QH). rewrite app_nil_r. reflexivity. }
  assert (F : firstn 1 (skipn 10 (sealed c msg flag p)) = [flag]).
  { unfold sealed. rewrite skipn_app_exact by exact L10. reflexivity. }
  pose proof (only_content E now msg (sealed c msg flag p) decf decf' ct pub c ty ts f sig a H LC) as O.
  rewrite F in O. cbv zeta in O. fold f' in O. apply O.
  - unfold sealed. apply firstn_app_exact. exact L10.
  - rewrite B. apply firstn_app_exact. exact LB.
  - intros ->. rewrite S11. unfold slice_last at 1. rewrite app_assoc. specialize (LH eq_refl).
    assert (L32 : List.length sfx = 32%nat) by (apply slice_last_len; rewrite skipn_length; lia).
    rewrite app_length, L32. apply skipn_app_exact. lia.
  - rewrite B, skipn_app_exact by exact LB. rewrite HP. exact HD.
Qed.
Lemma plain_accepted E now msg decf decf' ct pub c ty ts f sig a payload :
  deserialize E now msg decf ct pub = Ok (VMsg c ty ts (VBool f) sig a) -> decrypted decf f (skipn 65 (body c msg)) = Ok payload ->
  (c = MHello -> 108 <= List.length msg)%nat ->
  deserialize E now (in_clear c msg payload) decf' ct pub = Ok (VMsg c ty ts (VBool false) sig a).
Proof.
  intros H HP LH. apply (reframed E now msg decf decf' ct pub c ty ts f sig a x00 payload payload H HP LH); [|reflexivity].
  intros ->. destruct (payload_loads _ _ _ _ _ _ _ _ _ _ _ _ _ H HP) as [s Hs]. unfold loads in Hs. destruct (cdepth E); discriminate Hs.
Qed.
(** without a private key, [load] takes the payload as it is, whatever the flag says *)
Lemma no_key E now st mgr hd flag rest k pub ct c ty ts f sig a : List.length hd = 10%nat -> flag <> x00 -> key_given k = false ->
  load E now st mgr (hd ++ [x00] ++ rest) k pub ct = Ok (VMsg c ty ts (VBool f) sig a) ->
  load E now st mgr (hd ++ [flag] ++ rest) k pub ct = Ok (VMsg c ty ts (VBool true) sig a).
Proof.
  intros L NF K H. unfold load in *.
  assert (F : negb (bytes_eqb (firstn 1 (skipn 10 (hd ++ [flag] ++ rest))) [x00]) = true).
  { rewrite skipn_app_exact by exact L. cbn [app firstn]. destruct (bytes_eqb [flag] [x00]) eqn:B; [|reflexivity]. apply bytes_eqb_eq in B. congruence. }
  assert (S : forall b, skipn 11 (hd ++ [b] ++ rest) = rest) by (intros b; rewrite app_assoc; apply skipn_app_exact; rewrite app_length, L; reflexivity).
  assert (LL : forall b, List.length (hd ++ [b] ++ rest) = List.length (hd ++ [x00] ++ rest)) by (intros b; rewrite !app_length; reflexivity).
  assert (LM : (76 < List.length (hd ++ [x00] ++ rest))%nat) by (apply deserialize_ok in H as [LM _]; exact LM).
  assert (B : body c (hd ++ [flag] ++ rest) = body c (hd ++ [x00] ++ rest)) by (unfold body; rewrite !S, (LL flag); reflexivity).
  assert (DD : forall b p, decrypted (load_decrypt E st mgr k) b p = Ok p) by (intros b p; destruct k as [[|]|]; try discriminate K; destruct b; reflexivity).
  pose proof (only_content E now _ (hd ++ [flag] ++ rest) (load_decrypt E st mgr k) (load_decrypt E st mgr k) ct pub c ty ts f sig a H) as O.
  cbv zeta in O. rewrite F in O. apply O.
  - rewrite LL. exact LM.
  - rewrite !firstn_app_exact by exact L. reflexivity.
  - rewrite B. reflexivity.
  - intros _. rewrite !S. reflexivity.
  - rewrite !DD, B. reflexivity.
Qed.
(** a frame sealed by anyone who knows its payload *)
Lemma sealed_accepted E now msg decf decf' ct pub c ty ts f sig a flag p payload : flag <> x00 -> p <> [] ->
  deserialize E now msg decf ct pub = Ok (VMsg c ty ts (VBool f) sig a) -> decrypted decf f (skipn 65 (body c msg)) = Ok payload ->
  (c = MHello -> 108 <= List.length msg)%nat -> decf' p = Ok payload ->
  deserialize E now (sealed c msg flag p) decf' ct pub = Ok (VMsg c ty ts (VBool true) sig a).
Proof.
  intros NF NP H HP LH HD.
  assert (Q : negb (bytes_eqb [flag] [x00]) = true) by (destruct (bytes_eqb [flag] [x00]) eqn:B; [apply bytes_eqb_eq in B; congruence|reflexivity]).
  pose proof (reframed E now msg decf decf' ct pub c ty ts f sig a flag p payload H HP LH NP) as R. cbv zeta in R. rewrite Q in R. apply R.
  cbn [decrypted]. rewrite HD. reflexivity.
Qed.
