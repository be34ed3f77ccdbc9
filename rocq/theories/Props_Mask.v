(** * Property theorems: masks (C36, C37, C38).
    [sample] is any function behaving like [random.sample] ([sample_ok]: k
    distinct members of the population); a mask is its byte string; sets of bits
    are duplicate-free lists compared by membership. *)
From Verif Require Import TextFacts.

(** ** C36 *)
Theorem C36_from_bits_then_to_bits :
  forall bits, (forall x, In x bits -> 0 <= x < 256) ->
  exists m, from_bits bits = Ok m /\ List.length m = 32%nat /\
    NoDup (to_bits m) /\ forall b, In b (to_bits m) <-> In b bits.
Proof. exact from_bits_spec. Qed.
Print Assumptions C36_from_bits_then_to_bits.

Theorem C36_from_bits_refuses_other_bits :
  forall bits, (exists x, In x bits /\ ~ (0 <= x < 256)) -> exists e, from_bits bits = Err e.
Proof. exact bits_to_bytes_refuse. Qed.
Print Assumptions C36_from_bits_refuses_other_bits.

Theorem C36_to_bits_then_from_bits :
  forall m, List.length m = 32%nat -> from_bits (to_bits m) = Ok m.
Proof. exact from_to_bits. Qed.
Print Assumptions C36_to_bits_then_from_bits.

Theorem C36_increase :
  forall sample, sample_ok sample -> forall m n, 0 <= n ->
  exists m', increase sample m n = Ok m' /\
    (forall b, In b (to_bits m) -> In b (to_bits m')) /\
    num_bits m' = Z.min 256 (num_bits m + n) /\
    (List.length m = 32%nat -> List.length m' = 32%nat).
Proof. exact increase_spec. Qed.
Print Assumptions C36_increase.

Theorem C36_decrease :
  forall sample, sample_ok sample -> forall m n, 0 <= n ->
  exists m', decrease sample m n = Ok m' /\
    (forall b, In b (to_bits m') -> In b (to_bits m)) /\
    num_bits m' = Z.max 0 (num_bits m - n) /\
    (List.length m = 32%nat -> List.length m' = 32%nat).
Proof. exact decrease_spec. Qed.
Print Assumptions C36_decrease.

Theorem C36_generate :
  forall sample, sample_ok sample -> forall n, 0 <= n ->
  exists m, generate sample n = Ok m /\ List.length m = 32%nat /\ num_bits m = Z.min n 256.
Proof. exact generate_spec. Qed.
Print Assumptions C36_generate.

Theorem C36_negative_refused :
  forall sample m n, n < 0 ->
  increase sample m n = Err EValueError /\ decrease sample m n = Err EValueError
  /\ generate sample n = Err EValueError.
Proof. exact negative_refused. Qed.
Print Assumptions C36_negative_refused.

(** over any history of increase/decrease calls (refused ones change nothing)
    the number of set bits is the clamped running sum *)
Theorem C36_history :
  forall sample, sample_ok sample -> forall ops m, List.length m = 32%nat ->
  List.length (fold_left (mask_step sample) ops m) = 32%nat /\
  num_bits (fold_left (mask_step sample) ops m) =
  fold_left (fun k o => match o with
                        | Inc n => if n <? 0 then k else Z.min 256 (k + n)
                        | Dec n => if n <? 0 then k else Z.max 0 (k - n)
                        end) ops (num_bits m).
Proof. exact mask_history. Qed.
Print Assumptions C36_history.

(** the binary text reads back as the mask's integer; for masks of 32 bytes it has one
    digit per bit and a 1 for each bit that is set *)
Theorem C36_binary_text :
  forall m, read_bin (to_bin m) = mask_int m /\ Forall (fun d => d = 48 \/ d = 49) (to_bin m) /\
  (List.length m = 32%nat -> List.length (to_bin m) = 256%nat /\ Z.of_nat (count_occ Z.eq_dec (to_bin m) 49) = num_bits m).
Proof. exact to_bin_spec. Qed.
Print Assumptions C36_binary_text.
Theorem C36_binary_text_unique :
  forall m1 m2, List.length m1 = List.length m2 -> to_bin m1 = to_bin m2 -> m1 = m2.
Proof. exact to_bin_inj. Qed.
Print Assumptions C36_binary_text_unique.
(** a mask is made from a dict with exactly its bytes, or from the empty dict *)
Theorem C36_from_dict :
  forall kvs m,
  mask_from_dict kvs = Ok m <-> (kvs = [("byte_repr"%string, m)] \/ (kvs = [] /\ m = zeros 32)).
Proof. exact mask_from_dict_exact. Qed.
Print Assumptions C36_from_dict.
Example C36_ex :
  sample_ok first_sample
  /\ (do m <- increase first_sample (zeros 32) 3; Ok (to_bits m)) = Ok [0; 1; 2]
  /\ (do m <- from_bits [7; 255; 0]; Ok (to_bits m)) = Ok [0; 7; 255]
  /\ (do m <- from_bits [7; 255; 0]; do m <- decrease first_sample m 2; Ok (to_bits m)) = Ok [255]
  /\ (exists x, In x [3; 256] /\ ~ (0 <= x < 256)).
Proof.
  split; [exact first_sample_ok|]. split; [vm_compute; reflexivity|].
  split; [vm_compute; reflexivity|]. split; [vm_compute; reflexivity|].
  exists 256. split; [right; left; reflexivity|]. intros [_ H]. discriminate H.
Qed.

(** ** C37 [sha256] is any function with 32-byte results *)
Theorem C37_matches_iff_no_common_bit :
  forall sha256 m addr, List.length (sha256 addr) = 32%nat ->
  (matches sha256 m addr = true <->
   forall b, In b (to_bits m) -> Z.testbit (be_dec (sha256 addr)) b = false).
Proof. exact matches_iff. Qed.
Print Assumptions C37_matches_iff_no_common_bit.

Theorem C37_empty_mask_matches_all :
  forall sha256 addr, matches sha256 (zeros 32) addr = true.
Proof. exact empty_matches. Qed.
Print Assumptions C37_empty_mask_matches_all.

Theorem C37_increase_never_adds :
  forall sample sha256 m n m' addr, sample_ok sample -> List.length (sha256 addr) = 32%nat ->
  increase sample m n = Ok m' -> matches sha256 m' addr = true -> matches sha256 m addr = true.
Proof. exact matches_increase. Qed.
Print Assumptions C37_increase_never_adds.

Theorem C37_decrease_never_removes :
  forall sample sha256 m n m' addr, sample_ok sample -> List.length (sha256 addr) = 32%nat ->
  decrease sample m n = Ok m' -> matches sha256 m addr = true -> matches sha256 m' addr = true.
Proof. exact matches_decrease. Qed.
Print Assumptions C37_decrease_never_removes.

Example C37_ex :
  let sha := fun b : bytes => be_enc 32 (be_dec b) in
  (forall a, List.length (sha a) = 32%nat)
  /\ (do m <- from_bits [0; 2]; Ok (matches sha m [x02], matches sha m [x06])) = Ok (true, false).
Proof. split; [intros a; apply be_enc_length|vm_compute; reflexivity]. Qed.

(** ** C38 For at most 2^40 desired and potential workers, [get_mask_for_task]
    succeeds with the least number of bits k such that potential <= desired * 2^k.
    [F] stands for the composition of [math.log2] and [math.floor]; all that is
    assumed of it is [floor_log2_ok] (exact at and above powers of two, below
    them by a relative margin of 2^-41). *)
Theorem C38_mask_for_task :
  forall sample F desired potential,
  sample_ok sample -> floor_log2_ok F ->
  1 <= desired <= 2 ^ 40 -> 1 <= potential <= 2 ^ 40 ->
  exists m, get_mask_for_task sample F desired potential = Ok m /\ List.length m = 32%nat /\
    forall k, 0 <= k -> (potential <= desired * 2 ^ k <-> num_bits m <= k).
Proof. exact mask_for_task. Qed.
Print Assumptions C38_mask_for_task.

Theorem C38_no_potential_workers :
  forall sample F desired potential, potential < 1 ->
  get_mask_for_task sample F desired potential = Ok (zeros 32).
Proof. exact mask_no_workers. Qed.
Print Assumptions C38_no_potential_workers.

Example C38_ex :
  let F := fun m e => Z.log2 m + e in
  let bits d p := do m <- get_mask_for_task first_sample F d p; Ok (num_bits m) in
  floor_log2_ok F /\ bits 3 25 = Ok 4 /\ bits 3 24 = Ok 3 /\ bits 30 24 = Ok 0
  /\ bits 1 (2 ^ 40) = Ok 40.
Proof.
  cbv zeta. split; [exact exact_floor_log2_ok|]. repeat split; vm_compute; reflexivity.
Qed.
