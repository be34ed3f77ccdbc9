(** * What share of all digests a mask matches (C37, C38) *)
From Verif Require Export Mask.

(** masking.py 51-52 *)
Definition mask_to_bytes (m : bytes) : bytes := m.

Definition low_bits (n : nat) : list Z := map Z.of_nat (seq 0 n).
Definition clear_of (n : nat) (m d : Z) : Prop := forall i, (i < n)%nat -> Z.testbit m (Z.of_nat i) = true -> Z.testbit d (Z.of_nat i) = false.
Lemma filter_map_comm {A B} (f : A -> B) (p : B -> bool) l : filter p (map f l) = map f (filter (fun x => p (f x)) l).
Proof. induction l as [|x l IH]; [reflexivity|]. cbn [map filter]. rewrite IH. destruct (p (f x)); reflexivity. Qed.
Lemma half_bit m i : Z.testbit (m / 2) (Z.of_nat i) = Z.testbit m (Z.of_nat (S i)).
Proof. rewrite <- Z.div2_div, Z.div2_spec, Z.shiftr_spec by lia. f_equal. lia. Qed.
Lemma count_step_low n m : List.length (filter (Z.testbit m) (low_bits (S n))) =
  ((if Z.odd m then 1 else 0) + List.length (filter (Z.testbit (m / 2)) (low_bits n)))%nat.
Proof.
  unfold low_bits. cbn [seq map filter]. rewrite <- seq_shift, map_map. change (Z.of_nat 0) with 0. rewrite Z.bit0_odd.
  assert (G : List.length (filter (Z.testbit m) (map (fun x => Z.of_nat (S x)) (seq 0 n))) = List.length (filter (Z.testbit (m / 2)) (map Z.of_nat (seq 0 n)))).
  { rewrite !filter_map_comm, !map_length. f_equal. apply filter_ext. intros i. symmetry. apply half_bit. }
  destruct (Z.odd m); cbn [List.length]; rewrite G; reflexivity.
Qed.
Lemma share n : forall m, exists l, NoDup l /\ (forall d, In d l <-> 0 <= d < 2 ^ Z.of_nat n /\ clear_of n m d) /\
  Z.of_nat (List.length l) * 2 ^ Z.of_nat (List.length (filter (Z.testbit m) (low_bits n))) = 2 ^ Z.of_nat n.
Proof.
  induction n as [|n IH]; intros m.
  - exists [0]. split; [repeat constructor; intros []|]. split; [|reflexivity]. intros d. cbn [In]. split.
    + intros [<-|[]]. split; [cbn; lia|]. intros i Hi. lia.
    + intros [H _]. left. change (2 ^ Z.of_nat 0) with 1 in H. lia.
  - destruct (IH (m / 2)) as (l & N & I & L). rewrite count_step_low.
    assert (P : 2 ^ Z.of_nat (S n) = 2 * 2 ^ Z.of_nat n) by (rewrite Nat2Z.inj_succ, Z.pow_succ_r by lia; reflexivity).
    assert (Inj : forall e, FinFun.Injective (fun d => 2 * d + e)) by (intros e x y; lia).
    assert (K : forall d, clear_of (S n) m d <-> clear_of n (m / 2) (d / 2) /\ (Z.odd m = true -> Z.odd d = false)).
    { intros d. split.
      - intros H. split; [|intros O; rewrite <- Z.bit0_odd in *; exact (H 0%nat ltac:(lia) O)].
        intros i Hi. rewrite !half_bit. apply H. lia.
      - intros [H O] [|i] Hi; [change (Z.of_nat 0) with 0; rewrite !Z.bit0_odd; exact O|]. rewrite <- !half_bit. apply H. lia. }
    exists (map (fun d => 2 * d + 0) l ++ (if Z.odd m then [] else map (fun d => 2 * d + 1) l)). split; [|split].
    + destruct (Z.odd m); [rewrite app_nil_r; apply FinFun.Injective_map_NoDup; auto|]. apply NoDup_app; try (apply FinFun.Injective_map_NoDup; auto).
      intros x H1 H2. apply in_map_iff in H1 as (y & <- & _). apply in_map_iff in H2 as (w & H2 & _). lia.
    + intros d. rewrite in_app_iff, P, K. pose proof (Z.div_mod d 2 ltac:(lia)) as DM. rewrite Zmod_odd in DM.
      assert (E0 : In d (map (fun d => 2 * d + 0) l) <-> Z.odd d = false /\ In (d / 2) l).
      { rewrite in_map_iff. split.
        - intros (y & <- & Hy). split; [rewrite Z.add_0_r, Z.odd_mul; reflexivity|]. replace ((2 * y + 0) / 2) with y; [exact Hy|]. apply Z.div_unique with 0; lia.
        - intros [O Hy]. exists (d / 2). split; [rewrite O in DM; lia|exact Hy]. }
      assert (E1 : In d (map (fun d => 2 * d + 1) l) <-> Z.odd d = true /\ In (d / 2) l).
      { rewrite in_map_iff. split.
        - intros (y & <- & Hy). split; [rewrite Z.odd_add, Z.odd_mul; reflexivity|]. replace ((2 * y + 1) / 2) with y; [exact Hy|]. apply Z.div_unique with 1; lia.
        - intros [O Hy]. exists (d / 2). split; [rewrite O in DM; lia|exact Hy]. }
      rewrite E0. rewrite I in *. destruct (Z.odd m).
      * cbn [In]. destruct (Z.odd d); intuition (try discriminate; try lia).
      * rewrite E1. destruct (Z.odd d); intuition (try discriminate; try lia).
    + rewrite app_length, map_length, P, <- L. destruct (Z.odd m).
      * cbn [List.length]. rewrite Nat.add_0_r, Nat.add_1_l, Nat2Z.inj_succ, Z.pow_succ_r by lia. ring.
      * rewrite map_length, Nat.add_0_l, Nat2Z.inj_add. ring.
Qed.
Lemma digest_range (b : bytes) : List.length b = 32%nat -> 0 <= be_dec b < 2 ^ 256.
Proof. intros H. pose proof (be_dec_range b) as R. unfold blen in R. rewrite H in R. change (2 ^ 256) with (256 ^ Z.of_nat 32). lia. Qed.
Lemma num_low m : num_bits m = Z.of_nat (List.length (filter (Z.testbit (mask_int m)) (low_bits 256))).
Proof. unfold num_bits, to_bits, ALL_BITS, low_bits. reflexivity. Qed.
Lemma mask_share m : exists l, NoDup l /\ (forall d, In d l -> 0 <= d < 2 ^ 256) /\
  (forall sha256 addr, List.length (sha256 addr) = 32%nat -> (matches sha256 m addr = true <-> In (be_dec (sha256 addr)) l)) /\
  Z.of_nat (List.length l) = 2 ^ (256 - num_bits m).
Proof.
  destruct (share 256 (mask_int m)) as (l & N & I & L). exists l. split; [exact N|]. split; [intros d H; apply I in H as [H _]; exact H|]. split.
  - intros sha addr H. rewrite (matches_iff _ _ _ H), I. split.
    + intros G. split; [exact (digest_range _ H)|]. intros i Hi T. apply G, in_to_bits. split; [lia|exact T].
    + intros [_ G] b Hb. apply in_to_bits in Hb as [R T]. specialize (G (Z.to_nat b) ltac:(lia)). rewrite Z2Nat.id in G by lia. exact (G T).
  - pose proof (to_bits_length m) as R. assert (L' : Z.of_nat (List.length l) * 2 ^ num_bits m = 2 ^ 256) by (rewrite num_low; exact L). clear L.
    apply Z.mul_cancel_r with (p := 2 ^ num_bits m); [pose proof (Z.pow_pos_nonneg 2 (num_bits m)); lia|].
    rewrite <- Z.pow_add_r by lia. replace (256 - num_bits m + num_bits m) with 256 by lia. exact L'.
Qed.
Lemma share_arith k d p n : 0 <= k <= 256 -> 1 <= d -> n = 2 ^ (256 - k) -> (forall j, 0 <= j -> (p <= d * 2 ^ j <-> k <= j)) ->
  p * n <= d * 2 ^ 256 /\ (d < p -> d * 2 ^ 256 < 2 * (p * n)) /\ (p <= d -> n = 2 ^ 256).
Proof.
  intros B Hd -> K. assert (E : 2 ^ 256 = 2 ^ k * 2 ^ (256 - k)) by (rewrite <- Z.pow_add_r by lia; f_equal; lia).
  assert (Q : 0 < 2 ^ (256 - k)) by (apply Z.pow_pos_nonneg; lia). split; [|split].
  - rewrite E, Z.mul_assoc. apply Z.mul_le_mono_nonneg_r; [lia|]. apply K; lia.
  - intros H. assert (0 < k) by (destruct (Z.ltb_spec 0 k); [assumption|]; exfalso; assert (p <= d * 2 ^ 0) by (apply K; lia); lia).
    assert (X : d * 2 ^ (k - 1) < p) by (destruct (Z.ltb_spec (d * 2 ^ (k - 1)) p); [assumption|]; exfalso; assert (k <= k - 1) by (apply K; lia); lia).
    rewrite E. replace (2 ^ k) with (2 * 2 ^ (k - 1)) by (rewrite <- Z.pow_succ_r by lia; f_equal; lia).
    clear - X Q. set (A := 2 ^ (k - 1)) in *. set (B := 2 ^ (256 - k)) in *. clearbody A B.
    replace (d * (2 * A * B)) with (2 * ((d * A) * B)) by ring. apply Z.mul_lt_mono_pos_l; [lia|]. apply Z.mul_lt_mono_pos_r; assumption.
  - intros H. assert (k <= 0) by (apply K; lia). f_equal. lia.
Qed.
(** of [potential] workers with digests spread evenly, more than half of [desired] and at most [desired] match *)
Lemma task_share sample F d p : sample_ok sample -> floor_log2_ok F -> 1 <= d <= 2 ^ 40 -> 1 <= p <= 2 ^ 40 ->
  exists m l, get_mask_for_task sample F d p = Ok m /\ NoDup l /\ (forall x, In x l -> 0 <= x < 2 ^ 256) /\
  (forall sha256 addr, List.length (sha256 addr) = 32%nat -> (matches sha256 m addr = true <-> In (be_dec (sha256 addr)) l)) /\
  p * Z.of_nat (List.length l) <= d * 2 ^ 256 /\
  (d < p -> d * 2 ^ 256 < 2 * (p * Z.of_nat (List.length l))) /\ (p <= d -> Z.of_nat (List.length l) = 2 ^ 256).
Proof.
  intros Hs HF Hd Hp. destruct (mask_for_task sample F d p Hs HF Hd Hp) as (m & G & _ & K). destruct (mask_share m) as (l & N & R & M & L).
  exists m, l. split; [exact G|]. split; [exact N|]. split; [exact R|]. split; [exact M|].
  exact (share_arith (num_bits m) d p _ (to_bits_length m) (proj1 Hd) L K).
Qed.
(** a mask is determined by what it matches *)
Lemma mask_determined m1 m2 : List.length m1 = 32%nat -> List.length m2 = 32%nat ->
  ((forall sha256 addr, List.length (sha256 addr) = 32%nat -> matches sha256 m1 addr = matches sha256 m2 addr) <-> mask_to_bytes m1 = mask_to_bytes m2).
Proof.
  intros L1 L2. unfold mask_to_bytes. split; [|intros <- sha addr _; reflexivity]. intros H.
  assert (S : forall m b, 0 <= b < 256 -> (matches (fun _ => be_enc 32 (2 ^ b)) m [] = true <-> ~ In b (to_bits m))).
  { intros m b Hb. rewrite matches_iff by apply be_enc_length.
    assert (D : be_dec (be_enc 32 (2 ^ b)) = 2 ^ b).
    { rewrite be_dec_enc. apply Z.mod_small. change (256 ^ Z.of_nat 32) with (2 ^ 256). split; [apply Z.pow_nonneg; lia|apply Z.pow_lt_mono_r; lia]. }
    rewrite D. split.
    - intros G I. specialize (G b I). rewrite Z.pow2_bits_true in G by lia. discriminate.
    - intros G c I. rewrite Z.pow2_bits_eqb by lia. apply Z.eqb_neq. intros ->. exact (G I). }
  assert (T : to_bits m1 = to_bits m2).
  { unfold to_bits. apply filter_ext_in. intros b Hb. apply in_all_bits in Hb.
    pose proof (S m1 b Hb) as S1. pose proof (S m2 b Hb) as S2. rewrite (H (fun _ => be_enc 32 (2 ^ b)) [] (be_enc_length _ _)) in S1.
    rewrite in_to_bits in S1, S2. destruct (Z.testbit (mask_int m1) b), (Z.testbit (mask_int m2) b), (matches (fun _ => be_enc 32 (2 ^ b)) m2 []); intuition congruence. }
  pose proof (from_to_bits m1 L1) as F1. pose proof (from_to_bits m2 L2) as F2. rewrite T in F1. congruence.
Qed.
