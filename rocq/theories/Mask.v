(** * datastructures/masking.py. A [Mask] is its [byte_repr]; a Python set of
    ints is a list of integers (order irrelevant, see the theorems). *)
From Coq Require FinFun.
From Verif Require Export Fl.

(** masking.py 11-13 *)
Definition MASK_BYTES : nat := 32.
Definition MASK_LEN : Z := 256.
Definition ALL_BITS : list Z := map Z.of_nat (seq 0 256).

(** masking.py 15-16 (default argument) *)
Definition empty_mask : bytes := zeros MASK_BYTES.
(** masking.py 54-55 *)
Definition mask_int (m : bytes) : Z := be_dec m.
(** masking.py 44-46 *)
Definition to_bits (m : bytes) : list Z := filter (Z.testbit (mask_int m)) ALL_BITS.
(** masking.py 40-42 *)
Definition num_bits (m : bytes) : Z := Z.of_nat (List.length (to_bits m)).

(** masking.py 61-64: a negative bit number is a ValueError ([1 << x]), a bit
    number above 255 an OverflowError ([to_bytes]) *)
Definition bits_to_int (bits : list Z) : Z := fold_right (fun x acc => Z.lor (Z.shiftl 1 x) acc) 0 bits.
Definition bits_to_bytes (bits : list Z) : result bytes :=
  if existsb (fun x => x <? 0) bits then Err EValueError
  else if bits_to_int bits <? 2 ^ 256 then Ok (be_enc MASK_BYTES (bits_to_int bits))
  else Err EOverflowError.
(** masking.py 75-78 *)
Definition from_bits (bits : list Z) : result bytes := bits_to_bytes bits.

(** set difference *)
Definition zmem (x : Z) (l : list Z) : bool := existsb (Z.eqb x) l.
Definition set_diff (a b : list Z) : list Z := filter (fun x => negb (zmem x b)) a.

Section WithRandom.
(** [random.sample(population, k)], an arbitrary function *)
Context (sample : list Z -> Z -> list Z).

(** masking.py 18-27 *)
Definition increase (m : bytes) (n : Z) : result bytes :=
  let bits := to_bits m in
  let n := Z.min n (MASK_LEN - Z.of_nat (List.length bits)) in
  if n <? 0 then Err EValueError
  else if n =? 0 then Ok m
  else bits_to_bytes (bits ++ sample (set_diff ALL_BITS bits) n).

(** masking.py 29-38 *)
Definition decrease (m : bytes) (n : Z) : result bytes :=
  let bits := to_bits m in
  let n := Z.min n (Z.of_nat (List.length bits)) in
  if n <? 0 then Err EValueError
  else if n =? 0 then Ok m
  else bits_to_bytes (set_diff bits (sample bits n)).

(** masking.py 66-73 *)
Definition generate (n : Z) : result bytes :=
  let n := Z.min n MASK_LEN in
  if n <? 0 then Err EValueError else from_bits (sample ALL_BITS n).

(** masking.py 84-93; [floor_log2 m e] is [math.floor(math.log2(x))] of the
    float x = m * 2^e *)
Definition get_mask_for_task (floor_log2 : Z -> Z -> Z) (desired potential : Z) : result bytes :=
  if potential <? 1 then Ok empty_mask
  else
    do q <- py_truediv desired potential;
    match q with
    | FFin m e => if 0 <? m then generate (Z.max (- floor_log2 m e) 0) else Err EValueError
    | _ => Err EValueError
    end.
End WithRandom.

(** masking.py 57-59 *)
Definition matches (sha256 : bytes -> bytes) (m addr : bytes) : bool :=
  Z.land (be_dec (sha256 addr)) (mask_int m) =? 0.

(** what [random.sample] guarantees: [k] distinct elements of the population *)
Definition sample_ok (sample : list Z -> Z -> list Z) : Prop :=
  forall pop k, NoDup pop -> 0 <= k <= Z.of_nat (List.length pop) ->
    NoDup (sample pop k) /\ incl (sample pop k) pop /\ Z.of_nat (List.length (sample pop k)) = k.
(** a deterministic instance *)
Definition first_sample (pop : list Z) (k : Z) : list Z := firstn (Z.to_nat k) pop.
Lemma NoDup_firstn {A} n (l : list A) : NoDup l -> NoDup (firstn n l).
Proof.
  revert n; induction l as [|x l IH]; intros n H; destruct n; cbn; try constructor.
  - inversion H; subst. intros Hin. apply H2. rewrite <- (firstn_skipn n l). apply in_or_app. auto.
  - inversion H; auto.
Qed.
Lemma first_sample_ok : sample_ok first_sample.
Proof.
  intros pop k Hn Hk. unfold first_sample. repeat split.
  - apply NoDup_firstn, Hn.
  - intros x Hx. rewrite <- (firstn_skipn (Z.to_nat k) pop). apply in_or_app. auto.
  - rewrite firstn_length. lia.
Qed.

(** ** Bits *)
Lemma NoDup_app {A} (a b : list A) :
  NoDup a -> NoDup b -> (forall x, In x a -> In x b -> False) -> NoDup (a ++ b).
Proof.
  intros Ha Hb H. induction Ha as [|x a Hx Ha IH]; [exact Hb|]. cbn [app]. constructor.
  - rewrite in_app_iff. intros [C|C]; [contradiction|]. apply (H x); [left; reflexivity|exact C].
  - apply IH. intros y H1 H2. apply (H y); [right; exact H1|exact H2].
Qed.
Lemma in_all_bits b : In b ALL_BITS <-> 0 <= b < 256.
Proof.
  unfold ALL_BITS. rewrite in_map_iff. split.
  - intros (n & <- & H). apply in_seq in H. lia.
  - intros H. exists (Z.to_nat b). split; [lia|]. apply in_seq. lia.
Qed.
Lemma all_bits_nodup : NoDup ALL_BITS.
Proof.
  unfold ALL_BITS. apply FinFun.Injective_map_NoDup; [|apply seq_NoDup]. intros a b H. lia.
Qed.
Lemma all_bits_length : Z.of_nat (List.length ALL_BITS) = 256.
Proof. reflexivity. Qed.

Lemma in_to_bits m b : In b (to_bits m) <-> 0 <= b < 256 /\ Z.testbit (mask_int m) b = true.
Proof. unfold to_bits. rewrite filter_In, in_all_bits. tauto. Qed.
Lemma to_bits_nodup m : NoDup (to_bits m).
Proof. apply NoDup_filter, all_bits_nodup. Qed.
Lemma to_bits_length m : 0 <= num_bits m <= 256.
Proof.
  unfold num_bits. split; [lia|]. rewrite <- all_bits_length. apply inj_le.
  apply NoDup_incl_length; [apply to_bits_nodup|]. intros b Hb. apply in_to_bits in Hb. apply in_all_bits. tauto.
Qed.

Lemma zmem_in x l : zmem x l = true <-> In x l.
Proof.
  unfold zmem. rewrite existsb_exists. split.
  - intros (y & H & E). apply Z.eqb_eq in E. subst. exact H.
  - intros H. exists x. split; [exact H|apply Z.eqb_refl].
Qed.
Lemma in_set_diff x a b : In x (set_diff a b) <-> In x a /\ ~ In x b.
Proof.
  unfold set_diff. rewrite filter_In, negb_true_iff. rewrite <- (zmem_in x b).
  destruct (zmem x b); intuition congruence.
Qed.

Lemma bits_to_int_nonneg bits : (forall x, In x bits -> 0 <= x) -> 0 <= bits_to_int bits.
Proof.
  induction bits as [|x bits IH]; cbn [bits_to_int fold_right]; intros H; [lia|].
  apply Z.lor_nonneg. split.
  - apply Z.shiftl_nonneg. lia.
  - apply IH. intros y Hy. apply H. right. exact Hy.
Qed.
Lemma testbit_bits bits i :
  0 <= i -> (forall x, In x bits -> 0 <= x) -> Z.testbit (bits_to_int bits) i = zmem i bits.
Proof.
  intros Hi. induction bits as [|x bits IH]; intros H; [apply Z.testbit_0_l|].
  change (bits_to_int (x :: bits)) with (Z.lor (Z.shiftl 1 x) (bits_to_int bits)).
  rewrite Z.lor_spec, IH by (intros y Hy; apply H; right; exact Hy).
  cbn [zmem existsb]. fold (zmem i bits). f_equal.
  rewrite Z.shiftl_1_l. pose proof (H x (or_introl eq_refl)).
  rewrite Z.pow2_bits_eqb by lia. apply Z.eqb_sym.
Qed.

Lemma high_bits_zero z n : 0 <= z -> 0 <= n ->
  (forall i, n <= i -> Z.testbit z i = false) -> z < 2 ^ n.
Proof.
  intros Hz Hn H. assert (E : z = z mod 2 ^ n).
  { apply Z.bits_inj'. intros i Hi. destruct (Z.ltb_spec i n).
    - rewrite Z.mod_pow2_bits_low by lia. reflexivity.
    - rewrite Z.mod_pow2_bits_high by lia. apply H. lia. }
  rewrite E. apply Z.mod_pos_bound. apply Z.pow_pos_nonneg; lia.
Qed.

Lemma bits_to_bytes_ok bits :
  (forall x, In x bits -> 0 <= x < 256) ->
  exists m, bits_to_bytes bits = Ok m /\ List.length m = 32%nat /\
    (forall b, In b (to_bits m) <-> In b bits).
Proof.
  intros H. unfold bits_to_bytes.
  assert (E1 : existsb (fun x => x <? 0) bits = false).
  { destruct (existsb _ bits) eqn:E; [|reflexivity]. apply existsb_exists in E as (x & Hx & Hl).
    apply H in Hx. lia. }
  rewrite E1.
  assert (Hp : forall x, In x bits -> 0 <= x) by (intros x Hx; apply H in Hx; lia).
  pose proof (bits_to_int_nonneg bits Hp) as Hn.
  assert (Hlt : bits_to_int bits < 2 ^ 256).
  { apply high_bits_zero; try lia. intros i Hi. rewrite testbit_bits by (try lia; auto).
    destruct (zmem i bits) eqn:E; [|reflexivity]. apply zmem_in, H in E. lia. }
  replace (bits_to_int bits <? 2 ^ 256) with true by (symmetry; apply Z.ltb_lt; exact Hlt).
  eexists. split; [reflexivity|]. split; [apply be_enc_length|].
  intros b. rewrite in_to_bits. unfold mask_int.
  rewrite be_dec_enc_small by (change (256 ^ Z.of_nat MASK_BYTES) with (2 ^ 256); split; assumption).
  split.
  - intros [Hb Ht]. rewrite testbit_bits in Ht by (try lia; auto). apply zmem_in, Ht.
  - intros Hb. split; [apply H, Hb|]. rewrite testbit_bits; [apply zmem_in, Hb| apply H in Hb; lia|auto].
Qed.

Lemma bits_to_bytes_refuse bits :
  (exists x, In x bits /\ ~ (0 <= x < 256)) -> exists e, bits_to_bytes bits = Err e.
Proof.
  intros (x & Hx & Hr). unfold bits_to_bytes.
  destruct (existsb (fun x => x <? 0) bits) eqn:E1; [eauto|].
  assert (Hp : forall x, In x bits -> 0 <= x).
  { intros y Hy. destruct (Z.leb_spec 0 y); [assumption|]. exfalso.
    assert (existsb (fun x => x <? 0) bits = true) by (apply existsb_exists; exists y; split; [auto|lia]). congruence. }
  destruct (bits_to_int bits <? 2 ^ 256) eqn:E2; [|eauto]. exfalso.
  assert (T : Z.testbit (bits_to_int bits) x = true).
  { rewrite testbit_bits; [apply zmem_in, Hx|auto|auto]. }
  apply Z.ltb_lt in E2. pose proof (bits_to_int_nonneg bits Hp). pose proof (Hp _ Hx).
  rewrite Z.bits_above_log2 in T; [discriminate|assumption|].
  destruct (Z.eqb_spec (bits_to_int bits) 0) as [E|].
  - rewrite E in *. change (Z.log2 0) with 0. lia.
  - apply Z.log2_lt_pow2; [lia|]. apply Z.lt_le_trans with (2 ^ 256); [assumption|]. apply Z.pow_le_mono_r; lia.
Qed.

(** equality of sets without duplicates gives equal counts *)
Lemma nodup_same_length (a b : list Z) :
  NoDup a -> NoDup b -> (forall x, In x a <-> In x b) -> List.length a = List.length b.
Proof.
  intros Ha Hb H. apply Nat.le_antisymm; apply NoDup_incl_length; auto; intros x; apply H.
Qed.

Lemma from_to_bits m : List.length m = 32%nat -> from_bits (to_bits m) = Ok m.
Proof.
  intros Hl. unfold from_bits.
  destruct (bits_to_bytes_ok (to_bits m)) as (m' & E & L & B).
  { intros x Hx. apply in_to_bits in Hx. tauto. }
  rewrite E. f_equal. apply be_dec_inj; [congruence|].
  apply Z.bits_inj'. intros i Hi.
  assert (S : forall k : bytes, List.length k = 32%nat -> 256 <= i -> Z.testbit (be_dec k) i = false).
  { intros k Hk Hge. pose proof (be_dec_range k) as R. unfold blen in R. rewrite Hk in R.
    destruct (Z.eqb_spec (be_dec k) 0) as [Z0|]; [rewrite Z0; apply Z.testbit_0_l|].
    apply Z.bits_above_log2; [lia|]. apply Z.log2_lt_pow2; [lia|].
    apply Z.lt_le_trans with (2 ^ 256); [change (2 ^ 256) with (256 ^ Z.of_nat 32); lia|].
    apply Z.pow_le_mono_r; lia. }
  destruct (Z.ltb_spec i 256); [|rewrite !S by auto; reflexivity].
  specialize (B i). rewrite !in_to_bits in B. unfold mask_int in B.
  destruct (Z.testbit (be_dec m') i), (Z.testbit (be_dec m) i); intuition congruence.
Qed.

Lemma from_bits_spec bits :
  (forall x, In x bits -> 0 <= x < 256) ->
  exists m, from_bits bits = Ok m /\ List.length m = 32%nat /\
    NoDup (to_bits m) /\ forall b, In b (to_bits m) <-> In b bits.
Proof.
  intros H. destruct (bits_to_bytes_ok bits H) as (m & E & L & B).
  exists m. split; [exact E|]. split; [exact L|]. split; [apply to_bits_nodup|exact B].
Qed.

Section Ops.
Context (sample : list Z -> Z -> list Z) (Hsample : sample_ok sample).

Lemma increase_aux (m : bytes) bits n :
  0 <= n -> NoDup bits -> (forall x, In x bits -> In x ALL_BITS) ->
  exists m', (let k := Z.min n (MASK_LEN - Z.of_nat (List.length bits)) in
              if k <? 0 then Err EValueError
              else if k =? 0 then Ok m
              else bits_to_bytes (bits ++ sample (set_diff ALL_BITS bits) k)) = Ok m' /\
    (m' = m /\ Z.min 256 (Z.of_nat (List.length bits) + n) = Z.of_nat (List.length bits) \/
     List.length m' = 32%nat /\ (forall b, In b bits -> In b (to_bits m')) /\
     num_bits m' = Z.min 256 (Z.of_nat (List.length bits) + n)).
Proof.
  intros Hn Hb Hi. cbv zeta.
  assert (HL : Z.of_nat (List.length bits) <= 256).
  { rewrite <- all_bits_length. apply inj_le. apply NoDup_incl_length; assumption. }
  assert (Hk : exists k, k = Z.min n (MASK_LEN - Z.of_nat (List.length bits))) by eauto.
  destruct Hk as [k Ek]. rewrite <- Ek. unfold MASK_LEN in Ek.
  replace (k <? 0) with false by lia. destruct (k =? 0) eqn:E0.
  - exists m. split; [reflexivity|]. left. split; [reflexivity|lia].
  - pose proof (in_set_diff) as Hd. 
    assert (Hpop : NoDup (set_diff ALL_BITS bits)) by (apply NoDup_filter, all_bits_nodup).
    assert (Hin : forall x, In x (set_diff ALL_BITS bits) <-> In x ALL_BITS /\ ~ In x bits) by (intros x; apply in_set_diff).
    generalize dependent (set_diff ALL_BITS bits). intros pop Hpop Hin.
    assert (Hlen : Z.of_nat (List.length pop) = 256 - Z.of_nat (List.length bits)).
    { assert (E : List.length (bits ++ pop) = List.length ALL_BITS).
      { apply nodup_same_length.
        - apply NoDup_app; [exact Hb|exact Hpop|]. intros x H1 H2. apply Hin in H2. tauto.
        - apply all_bits_nodup.
        - intros x. rewrite in_app_iff, Hin. split; [intros [H|H]; [apply Hi, H|tauto]|].
          intros H. destruct (zmem x bits) eqn:E; [left; apply zmem_in, E|right].
          split; [exact H|]. intros C. apply zmem_in in C. congruence. }
      rewrite app_length in E. pose proof all_bits_length as A. rewrite <- E in A. lia. }
    destruct (Hsample pop k Hpop ltac:(lia)) as (S1 & S2 & S3).
    destruct (bits_to_bytes_ok (bits ++ sample pop k)) as (m' & E & L & B).
    { intros x Hx. apply in_app_iff in Hx as [Hx|Hx]; [apply in_all_bits, Hi, Hx|].
      apply S2, Hin in Hx. apply in_all_bits. tauto. }
    exists m'. split; [exact E|]. right. split; [exact L|]. split.
    + intros b Hbb. apply B. apply in_app_iff. auto.
    + unfold num_bits. rewrite (nodup_same_length (to_bits m') (bits ++ sample pop k)).
      * rewrite app_length. lia.
      * apply to_bits_nodup.
      * apply NoDup_app; [exact Hb|exact S1|]. intros x H1 H2. apply S2, Hin in H2. tauto.
      * exact B.
Qed.

Lemma increase_spec m n :
  0 <= n ->
  exists m', increase sample m n = Ok m' /\
    (forall b, In b (to_bits m) -> In b (to_bits m')) /\
    num_bits m' = Z.min 256 (num_bits m + n) /\
    (List.length m = 32%nat -> List.length m' = 32%nat).
Proof.
  intros Hn. pose proof (to_bits_nodup m) as Hd.
  assert (Hi : forall x, In x (to_bits m) -> In x ALL_BITS).
  { intros x Hx. apply in_to_bits in Hx. apply in_all_bits. tauto. }
  destruct (increase_aux m (to_bits m) n Hn Hd Hi) as (m' & E & [[-> K]|(L & I & C)]).
  - exists m. split; [exact E|]. split; [auto|]. split; [symmetry; exact K|auto].
  - exists m'. split; [exact E|]. split; [exact I|]. split; [exact C|auto].
Qed.

Lemma decrease_aux (m : bytes) bits n :
  0 <= n -> NoDup bits -> (forall x, In x bits -> In x ALL_BITS) ->
  exists m', (let k := Z.min n (Z.of_nat (List.length bits)) in
              if k <? 0 then Err EValueError
              else if k =? 0 then Ok m
              else bits_to_bytes (set_diff bits (sample bits k))) = Ok m' /\
    (m' = m /\ Z.max 0 (Z.of_nat (List.length bits) - n) = Z.of_nat (List.length bits) \/
     List.length m' = 32%nat /\ (forall b, In b (to_bits m') -> In b bits) /\
     num_bits m' = Z.max 0 (Z.of_nat (List.length bits) - n)).
Proof.
  intros Hn Hb Hi. cbv zeta.
  assert (Hk : exists k, k = Z.min n (Z.of_nat (List.length bits))) by eauto.
  destruct Hk as [k Ek]. rewrite <- Ek.
  replace (k <? 0) with false by lia. destruct (k =? 0) eqn:E0.
  - exists m. split; [reflexivity|]. left. split; [reflexivity|lia].
  - destruct (Hsample bits k Hb ltac:(lia)) as (S1 & S2 & S3).
    assert (Hin : forall x, In x (set_diff bits (sample bits k)) <-> In x bits /\ ~ In x (sample bits k)) by (intros x; apply in_set_diff).
    assert (Hnd : NoDup (set_diff bits (sample bits k))) by (apply NoDup_filter, Hb).
    destruct (bits_to_bytes_ok (set_diff bits (sample bits k))) as (m' & E & L & B).
    { intros x Hx. apply Hin in Hx as [Hx _]. apply in_all_bits, Hi, Hx. }
    exists m'. split; [exact E|]. right. split; [exact L|]. split.
    + intros b Hbb. apply B, Hin in Hbb. tauto.
    + unfold num_bits. rewrite (nodup_same_length (to_bits m') (set_diff bits (sample bits k))); auto using to_bits_nodup.
      assert (E2 : List.length (sample bits k ++ set_diff bits (sample bits k)) = List.length bits).
      { apply nodup_same_length; auto.
        - apply NoDup_app; [exact S1|exact Hnd|]. intros x H1 H2. apply Hin in H2. tauto.
        - intros x. rewrite in_app_iff, Hin. split; [intros [H|H]; [apply S2, H|tauto]|].
          intros H. destruct (zmem x (sample bits k)) eqn:Em; [left; apply zmem_in, Em|right].
          split; [exact H|]. intros C. apply zmem_in in C. congruence. }
      rewrite app_length in E2. lia.
Qed.

Lemma decrease_spec m n :
  0 <= n ->
  exists m', decrease sample m n = Ok m' /\
    (forall b, In b (to_bits m') -> In b (to_bits m)) /\
    num_bits m' = Z.max 0 (num_bits m - n) /\
    (List.length m = 32%nat -> List.length m' = 32%nat).
Proof.
  intros Hn. pose proof (to_bits_nodup m) as Hd.
  assert (Hi : forall x, In x (to_bits m) -> In x ALL_BITS).
  { intros x Hx. apply in_to_bits in Hx. apply in_all_bits. tauto. }
  destruct (decrease_aux m (to_bits m) n Hn Hd Hi) as (m' & E & [[-> K]|(L & I & C)]).
  - exists m. split; [exact E|]. split; [auto|]. split; [symmetry; exact K|auto].
  - exists m'. split; [exact E|]. split; [exact I|]. split; [exact C|auto].
Qed.

Lemma generate_spec n :
  0 <= n -> exists m, generate sample n = Ok m /\ List.length m = 32%nat /\ num_bits m = Z.min n 256.
Proof.
  intros Hn. unfold generate, MASK_LEN. cbv zeta.
  assert (Hk : exists k, k = Z.min n 256) by eauto. destruct Hk as [k Ek]. rewrite <- Ek.
  replace (k <? 0) with false by lia.
  assert (Hr : 0 <= k <= Z.of_nat (List.length ALL_BITS)) by (rewrite all_bits_length; lia).
  destruct (Hsample ALL_BITS k all_bits_nodup Hr) as (S1 & S2 & S3).
  generalize dependent (sample ALL_BITS k). intros smp S1 S2 S3.
  destruct (bits_to_bytes_ok smp) as (m & E & L & B).
  { intros x Hx. apply in_all_bits, S2, Hx. }
  exists m. split; [exact E|]. split; [exact L|].
  unfold num_bits. rewrite (nodup_same_length (to_bits m) smp (to_bits_nodup m) S1 B). exact S3.
Qed.
Lemma negative_aux {A} (x y : Z) (r : result A) : x < 0 -> (if Z.min x y <? 0 then Err EValueError else r) = Err EValueError.
Proof. intros H. replace (Z.min x y <? 0) with true by lia. reflexivity. Qed.
Lemma negative_refused m n :
  n < 0 -> increase sample m n = Err EValueError /\ decrease sample m n = Err EValueError
           /\ generate sample n = Err EValueError.
Proof. intros H. split; [|split]; exact (negative_aux _ _ _ H). Qed.

(** keeps conversion from evaluating symbolic masks bit by bit *)
Local Opaque increase decrease generate num_bits to_bits.

(** histories of increase/decrease *)
Inductive mask_op := Inc (n : Z) | Dec (n : Z).
Definition mask_step (m : bytes) (o : mask_op) : bytes :=
  match (match o with Inc n => increase sample m n | Dec n => decrease sample m n end) with
  | Ok m' => m'
  | Err _ => m
  end.
(** the number of bits, tracked independently *)
Definition count_step (k : Z) (o : mask_op) : Z :=
  match o with
  | Inc n => if n <? 0 then k else Z.min 256 (k + n)
  | Dec n => if n <? 0 then k else Z.max 0 (k - n)
  end.
Lemma mask_step_spec m o :
  List.length m = 32%nat ->
  List.length (mask_step m o) = 32%nat /\ num_bits (mask_step m o) = count_step (num_bits m) o.
Proof.
  intros Hm. unfold mask_step, count_step. destruct o as [n|n]; destruct (Z.ltb_spec n 0) as [E|E].
  - rewrite (proj1 (negative_refused m n E)). split; [exact Hm|reflexivity].
  - destruct (increase_spec m n E) as (m' & -> & _ & C & L). split; [exact (L Hm)|exact C].
  - rewrite (proj1 (proj2 (negative_refused m n E))). split; [exact Hm|reflexivity].
  - destruct (decrease_spec m n E) as (m' & -> & _ & C & L). split; [exact (L Hm)|exact C].
Qed.
Lemma fold_sim {S O K} (step : S -> O -> S) (cstep : K -> O -> K) (inv : S -> Prop) (f : S -> K) :
  (forall s o, inv s -> inv (step s o) /\ f (step s o) = cstep (f s) o) ->
  forall ops s, inv s -> inv (fold_left step ops s) /\ f (fold_left step ops s) = fold_left cstep ops (f s).
Proof.
  intros H. induction ops as [|o ops IH]; intros s Hs; [split; [exact Hs|reflexivity]|].
  destruct (H s o Hs) as [S1 S2]. cbn [fold_left]. rewrite <- S2. exact (IH _ S1).
Qed.
Lemma mask_history ops m :
  List.length m = 32%nat ->
  List.length (fold_left mask_step ops m) = 32%nat /\
  num_bits (fold_left mask_step ops m) = fold_left count_step ops (num_bits m).
Proof. exact (fold_sim mask_step count_step (fun m => List.length m = 32%nat) num_bits mask_step_spec ops m). Qed.
End Ops.

(** ** Matching *)
Lemma matches_iff sha256 m addr :
  List.length (sha256 addr) = 32%nat ->
  (matches sha256 m addr = true <->
   forall b, In b (to_bits m) -> Z.testbit (be_dec (sha256 addr)) b = false).
Proof.
  intros Hl. unfold matches. rewrite Z.eqb_eq. split.
  - intros H b Hb. apply in_to_bits in Hb as [Hr Hb].
    assert (T : Z.testbit (Z.land (be_dec (sha256 addr)) (mask_int m)) b = false) by (rewrite H; apply Z.testbit_0_l).
    rewrite Z.land_spec, Hb, andb_true_r in T. exact T.
  - intros H. apply Z.bits_inj'. intros i Hi. rewrite Z.testbit_0_l, Z.land_spec.
    destruct (Z.ltb_spec i 256).
    + destruct (Z.testbit (mask_int m) i) eqn:E; [|apply andb_false_r].
      rewrite H; [reflexivity|]. apply in_to_bits. auto.
    + pose proof (be_dec_range (sha256 addr)) as R. unfold blen in R. rewrite Hl in R.
      replace (Z.testbit (be_dec (sha256 addr)) i) with false; [reflexivity|]. symmetry.
      destruct (Z.eqb_spec (be_dec (sha256 addr)) 0) as [E|]; [rewrite E; apply Z.testbit_0_l|].
      apply Z.bits_above_log2; [lia|]. apply Z.log2_lt_pow2; [lia|].
      apply Z.lt_le_trans with (2 ^ 256); [change (2 ^ 256) with (256 ^ Z.of_nat 32); lia|].
      apply Z.pow_le_mono_r; lia.
Qed.
Lemma empty_mask_bits : to_bits empty_mask = [].
Proof. vm_compute. reflexivity. Qed.
Lemma empty_matches sha256 addr : matches sha256 empty_mask addr = true.
Proof.
  unfold matches. replace (mask_int empty_mask) with 0 by (vm_compute; reflexivity).
  rewrite Z.land_0_r. reflexivity.
Qed.
Lemma matches_increase sample sha256 m n m' addr :
  sample_ok sample -> List.length (sha256 addr) = 32%nat ->
  increase sample m n = Ok m' -> matches sha256 m' addr = true -> matches sha256 m addr = true.
Proof.
  intros Hs Hl E H. destruct (Z.leb_spec 0 n).
  - destruct (increase_spec sample Hs m n ltac:(assumption)) as (x & E2 & I & _).
    rewrite E in E2. injection E2 as <-. rewrite matches_iff in * by assumption. auto.
  - destruct (negative_refused sample m n ltac:(assumption)) as (E2 & _). congruence.
Qed.
Lemma matches_decrease sample sha256 m n m' addr :
  sample_ok sample -> List.length (sha256 addr) = 32%nat ->
  decrease sample m n = Ok m' -> matches sha256 m addr = true -> matches sha256 m' addr = true.
Proof.
  intros Hs Hl E H. destruct (Z.leb_spec 0 n).
  - destruct (decrease_spec sample Hs m n ltac:(assumption)) as (x & E2 & I & _).
    rewrite E in E2. injection E2 as <-. rewrite matches_iff in * by assumption. auto.
  - destruct (negative_refused sample m n ltac:(assumption)) as (_ & E2 & _). congruence.
Qed.

(** ** Mask size for a task *)

(** what is assumed of [math.floor(math.log2(x))] for a float x = m * 2^e > 0:
    it is at least j when x >= 2^j, and below j when x <= 2^j * (1 - 2^-41)
    (the libm result may be off for arguments closer to a power of two) *)
Definition floor_log2_ok (F : Z -> Z -> Z) : Prop :=
  forall m e j, 0 < m ->
    (2 ^ Z.max 0 (j - e) <= m * 2 ^ Z.max 0 (e - j) -> j <= F m e) /\
    (m * 2 ^ Z.max 0 (e - j) * 2 ^ 41 <= 2 ^ Z.max 0 (j - e) * (2 ^ 41 - 1) -> F m e < j).
Lemma exact_floor_log2_ok : floor_log2_ok (fun m e => Z.log2 m + e).
Proof.
  intros m e j Hm. pose proof (Z.log2_spec m Hm) as [L1 L2]. pose proof (Z.log2_nonneg m) as Hnn.
  split; intros H.
  - destruct (Z.leb_spec j e); [lia|]. rewrite (Z.max_r 0 (j - e)) in H by lia.
    rewrite (Z.max_l 0 (e - j)) in H by lia. change (2 ^ 0) with 1 in H. rewrite Z.mul_1_r in H.
    assert (j - e <= Z.log2 m); [|lia]. apply Z.log2_le_pow2; lia.
  - destruct (Z.ltb_spec (Z.log2 m + e) j); [assumption|exfalso].
    destruct (Z.leb_spec j e).
    + rewrite (Z.max_l 0 (j - e)) in H by lia. change (2 ^ 0) with 1 in H.
      assert (0 < 2 ^ Z.max 0 (e - j)) by (apply Z.pow_pos_nonneg; lia). nia.
    + rewrite (Z.max_r 0 (j - e)) in H by lia. rewrite (Z.max_l 0 (e - j)) in H by lia.
      change (2 ^ 0) with 1 in H.
      assert (2 ^ (j - e) <= 2 ^ Z.log2 m) by (apply Z.pow_le_mono_r; lia).
      assert (0 < 2 ^ (j - e)) by (apply Z.pow_pos_nonneg; lia). nia.
Qed.

Lemma fdiv_log2 F d p j :
  floor_log2_ok F -> 1 <= d <= 2 ^ 40 -> 1 <= p <= 2 ^ 40 -> 0 <= j ->
  let '(m, e) := fdiv_pos d p in
  0 < m /\ (p <= d * 2 ^ j <-> - j <= F m e).
Proof.
  intros HF Hd Hp Hj. unfold fdiv_pos.
  assert (He : fdiv_exp d p <= 0) by (apply fdiv_exp_nonpos; change (2 ^ 53) with (8192 * 2 ^ 40); nia).
  pose proof (fdiv_exp_spec d p ltac:(lia) ltac:(lia)) as [Hlo Hhi]. cbv zeta in Hlo, Hhi.
  set (e := fdiv_exp d p) in *. clearbody e.
  rewrite (scale_up_nonpos e He) in *. rewrite Z.mul_1_r in *.
  assert (Hsc : scale_up (- e) = 2 ^ (- e)) by (unfold scale_up; rewrite Z.max_r by lia; reflexivity).
  rewrite Hsc in *.
  pose proof (rdiv_rne_spec (d * 2 ^ (- e)) p ltac:(lia)) as Hr.
  pose proof (rdiv_rne_ge (d * 2 ^ (- e)) p (2 ^ 52) ltac:(lia) ltac:(lia)) as Hm52.
  pose proof (rdiv_rne_ge (d * 2 ^ (- e)) p) as Hge.
  set (m := rdiv_rne (d * 2 ^ (- e)) p) in *. clearbody m.
  split; [lia|]. destruct (HF m e (- j) ltac:(lia)) as [F1 F2].
  assert (Pj : 0 < 2 ^ j) by (apply Z.pow_pos_nonneg; lia).
  split; intros H.
  - apply F1. destruct (Z.leb_spec 0 (- j - e)).
    + rewrite (Z.max_r 0 (- j - e)) by lia. rewrite (Z.max_l 0 (e - - j)) by lia.
      change (2 ^ 0) with 1. rewrite Z.mul_1_r. apply Hge; [lia|].
      replace (- e) with (j + (- j - e)) at 1 by lia. rewrite Z.pow_add_r by lia.
      assert (0 < 2 ^ (- j - e)) by (apply Z.pow_pos_nonneg; lia).
      rewrite Z.mul_assoc. rewrite (Z.mul_comm (2 ^ (- j - e)) p).
      apply Z.mul_le_mono_nonneg_r; lia.
    + rewrite (Z.max_l 0 (- j - e)) by lia. change (2 ^ 0) with 1.
      assert (0 < 2 ^ Z.max 0 (e - - j)) by (apply Z.pow_pos_nonneg; lia).
      replace 1 with (1 * 1) by reflexivity. apply Z.mul_le_mono_nonneg; lia.
  - destruct (Z.leb_spec p (d * 2 ^ j)) as [|Hlt]; [assumption|exfalso].
    assert (F m e < - j); [|lia]. apply F2. clear F1 F2 H Hge.
    assert (Hs : 53 <= - j - e).
    { destruct (Z.leb_spec 53 (- j - e)) as [|Hc]; [assumption|exfalso].
      (* d * 2^-e >= 2^52 * p > 2^52 * d * 2^j *)
      assert (B : d * 2 ^ (52 + j) < d * 2 ^ (- e)).
      { rewrite Z.pow_add_r by lia. apply Z.lt_le_trans with (2 ^ 52 * p); [|exact Hlo].
        replace (d * (2 ^ 52 * 2 ^ j)) with (2 ^ 52 * (d * 2 ^ j)) by ring.
        apply Z.mul_lt_mono_pos_l; [reflexivity|exact Hlt]. }
      apply Z.mul_lt_mono_pos_l in B; [|lia].
      apply Z.pow_lt_mono_r_iff in B; lia. }
    rewrite (Z.max_r 0 (- j - e)) by lia. rewrite (Z.max_l 0 (e - - j)) by lia.
    change (2 ^ 0) with 1. rewrite Z.mul_1_r.
    assert (E : d * 2 ^ (- e) = d * 2 ^ j * 2 ^ (- j - e)).
    { rewrite <- Z.mul_assoc, <- Z.pow_add_r by lia. f_equal. f_equal. lia. }
    rewrite E in *.
    assert (Hbig : 2 ^ 53 <= 2 ^ (- j - e)) by (apply Z.pow_le_mono_r; lia).
    set (S := 2 ^ (- j - e)) in *. clearbody S. set (D := d * 2 ^ j) in *. clearbody D.
    clear Hs Hlo Hhi E Hsc Hm52 He Pj HF.
    (* m*p <= D*S + p/2 <= (p-1)*S + p/2 *)
    assert (HD : D * S <= (p - 1) * S) by (apply Z.mul_le_mono_nonneg_r; lia).
    assert (HM : 2 * (m * p) <= 2 * ((p - 1) * S) + p) by lia.
    assert (P1 : 2 * (p * S) <= 2 ^ 41 * S).
    { replace (2 * (p * S)) with (2 * p * S) by ring. apply Z.mul_le_mono_nonneg_r; lia. }
    apply Z.mul_le_mono_pos_r with (p := 2 * p); [lia|].
    replace (m * 2 ^ 41 * (2 * p)) with (2 ^ 41 * (2 * (m * p))) by ring.
    replace (S * (2 ^ 41 - 1) * (2 * p)) with (2 ^ 42 * (p * S) - 2 * (p * S)) by ring.
    replace ((p - 1) * S) with (p * S - S) in HM by ring.
    set (MP := m * p) in *. set (PS := p * S) in *. clearbody MP PS. lia.
Qed.

Lemma mask_for_task sample F d p :
  sample_ok sample -> floor_log2_ok F -> 1 <= d <= 2 ^ 40 -> 1 <= p <= 2 ^ 40 ->
  exists m, get_mask_for_task sample F d p = Ok m /\ List.length m = 32%nat /\
    forall j, 0 <= j -> (p <= d * 2 ^ j <-> num_bits m <= j).
Proof.
  intros Hs HF Hd Hp. unfold get_mask_for_task. replace (p <? 1) with false by lia.
  unfold py_truediv. replace (p =? 0) with false by lia. replace (d =? 0) with false by lia.
  rewrite (Z.abs_eq d), (Z.abs_eq p) by lia.
  pose proof (fun j => fdiv_log2 F d p j HF Hd Hp) as K. destruct (fdiv_pos d p) as [m e].
  cbn [bind]. replace (Z.sgn d * Z.sgn p * m) with m by lia.
  destruct (K 0 ltac:(lia)) as [Hm _]. replace (0 <? m) with true by lia.
  destruct (generate_spec sample Hs (Z.max (- F m e) 0) ltac:(lia)) as (x & E & L & C).
  exists x. split; [exact E|]. split; [exact L|]. intros j Hj. rewrite C.
  destruct (K j Hj) as [_ K1]. rewrite K1.
  destruct (K 40 ltac:(lia)) as [_ K40].
  assert (- 40 <= F m e) by (apply K40; nia). lia.
Qed.
Lemma mask_no_workers sample F d p : p < 1 -> get_mask_for_task sample F d p = Ok empty_mask.
Proof. intros H. unfold get_mask_for_task. replace (p <? 1) with true by lia. reflexivity. Qed.

(** ** Binary text *)
(** the [n] last binary digits of [v] *)
Fixpoint bin_digits (n : nat) (v : Z) : ustr :=
  match n with O => [] | S n' => bin_digits n' (v / 2) ++ [48 + v mod 2] end.
(** masking.py 48-49: [format(int, '0256b')], as many digits as needed and at least 256 *)
Definition to_bin (m : bytes) : ustr := bin_digits (Z.to_nat (Z.max MASK_LEN (Z.log2 (mask_int m) + 1))) (mask_int m).
(** masking.py 80-82: the items of a dict with text keys are keywords of [Mask]; the value is kept
    unchecked and only bytes are considered *)
Definition mask_from_dict (kvs : list (string * bytes)) : result bytes :=
  match kvs with
  | [] => Ok empty_mask
  | [(k, v)] => if String.eqb k "byte_repr" then Ok v else Err ETypeError
  | _ => Err ETypeError
  end.

(** [int(s, 2)] *)
Definition read_bin (s : ustr) : Z := fold_left (fun acc d => 2 * acc + (d - 48)) s 0.
Lemma read_digits n v : 0 <= v < 2 ^ Z.of_nat n -> read_bin (bin_digits n v) = v.
Proof.
  revert v. induction n as [|n IH]; intros v H.
  - change (2 ^ Z.of_nat 0) with 1 in H. unfold read_bin. cbn [bin_digits fold_left]. lia.
  - cbn [bin_digits]. unfold read_bin. rewrite fold_left_app. cbn [fold_left]. fold (read_bin (bin_digits n (v / 2))).
    rewrite IH; [pose proof (Z.div_mod v 2 ltac:(lia)); lia|].
    rewrite Nat2Z.inj_succ, Z.pow_succ_r in H by lia. split; [apply Z.div_pos; lia|apply Z.div_lt_upper_bound; lia].
Qed.
Lemma bin_digits_map n v : 0 <= v -> bin_digits n v = map (fun i => 48 + (v / 2 ^ Z.of_nat i) mod 2) (rev (seq 0 n)).
Proof.
  revert v. induction n as [|n IH]; intros v H; [reflexivity|]. cbn [bin_digits seq rev]. rewrite map_app. cbn [map].
  change (2 ^ Z.of_nat 0) with 1. rewrite Z.div_1_r. f_equal. rewrite IH by (apply Z.div_pos; lia). rewrite <- seq_shift, <- map_rev, map_map.
  apply map_ext. intros i. rewrite Nat2Z.inj_succ, Z.pow_succ_r by lia. rewrite Z.div_div by lia. reflexivity.
Qed.
Lemma bin_digits_length n v : List.length (bin_digits n v) = n.
Proof. revert v. induction n as [|n IH]; intros v; [reflexivity|]. cbn [bin_digits]. rewrite app_length, IH. cbn [List.length]. lia. Qed.
Lemma to_bin_spec m :
  read_bin (to_bin m) = mask_int m /\ Forall (fun d => d = 48 \/ d = 49) (to_bin m) /\
  (List.length m = 32%nat -> List.length (to_bin m) = 256%nat /\ Z.of_nat (count_occ Z.eq_dec (to_bin m) 49) = num_bits m).
Proof.
  pose proof (be_dec_range m) as R. fold (mask_int m) in R. set (v := mask_int m) in *. unfold to_bin. fold v.
  set (n := Z.to_nat (Z.max MASK_LEN (Z.log2 v + 1))). pose proof (Z.log2_nonneg v) as G.
  split; [|split].
  - apply read_digits. split; [lia|]. destruct (Z.eq_dec v 0) as [Q|N]; [rewrite Q; apply Z.pow_pos_nonneg; lia|].
    destruct (Z.log2_spec v) as [_ B]; [lia|]. eapply Z.lt_le_trans; [exact B|]. apply Z.pow_le_mono_r; [lia|]. unfold n. rewrite Z2Nat.id; lia.
  - rewrite bin_digits_map by lia. apply Forall_forall. intros d Hd. apply in_map_iff in Hd as (i & <- & _).
    pose proof (Z.mod_pos_bound (v / 2 ^ Z.of_nat i) 2 ltac:(lia)). lia.
  - intros L. unfold blen in R. rewrite L in R. change (256 ^ Z.of_nat 32) with (2 ^ 256) in R.
    assert (N : n = 256%nat).
    { unfold n, MASK_LEN. destruct (Z.eq_dec v 0) as [Q|N]; [rewrite Q; reflexivity|].
      assert (Z.log2 v < 256) by (apply Z.log2_lt_pow2; lia). rewrite Z.max_l by lia. reflexivity. }
    rewrite bin_digits_length. split; [exact N|]. rewrite N. unfold num_bits, to_bits, ALL_BITS. fold v. rewrite bin_digits_map by lia. f_equal.
    clear N L n R G. generalize 256%nat as k. induction k as [|k IH]; [reflexivity|]. rewrite seq_S, rev_app_distr, !map_app, filter_app, app_length, <- IH.
    cbn [rev app map filter Nat.add].
    assert (T : Z.testbit v (Z.of_nat k) = true <-> (v / 2 ^ Z.of_nat k) mod 2 = 1) by (apply Z.testbit_true; lia).
    cbn [count_occ]. destruct (Z.testbit v (Z.of_nat k)).
    + rewrite (proj1 T eq_refl). change (48 + 1) with 49. destruct (Z.eq_dec 49 49); [|congruence]. cbn [List.length]. lia.
    + pose proof (Z.mod_pos_bound (v / 2 ^ Z.of_nat k) 2 ltac:(lia)) as B. destruct (Z.eq_dec _ 49) as [Q|Q].
      * exfalso. assert (X : (v / 2 ^ Z.of_nat k) mod 2 = 1) by lia. apply T in X. discriminate X.
      * cbn [List.length]. lia.
Qed.
Lemma to_bin_inj m1 m2 : List.length m1 = List.length m2 -> to_bin m1 = to_bin m2 -> m1 = m2.
Proof.
  intros L H. destruct (to_bin_spec m1) as (R1 & _). destruct (to_bin_spec m2) as (R2 & _). rewrite H, R2 in R1. unfold mask_int in R1.
  rewrite <- (be_enc_dec (List.length m1) m1) by reflexivity. rewrite <- (be_enc_dec (List.length m1) m2) by auto. rewrite R1. reflexivity.
Qed.
