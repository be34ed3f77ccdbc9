(** * Property theorems: deposits and time limits (C41, C42, C43) *)
From Verif Require Import TextFacts.

(** ** C41 *)
Theorem C41_deposits :
  forall price,
  requestor_deposit_amount price = (2 * price, 4 * price) /\
  provider_deposit_amount price = (price, 4 * price) /\
  (0 <= price <-> fst (requestor_deposit_amount price) <= snd (requestor_deposit_amount price)) /\
  (0 <= price <-> fst (provider_deposit_amount price) <= snd (provider_deposit_amount price)) /\
  (0 <= price -> price <= fst (requestor_deposit_amount price)
                 /\ price <= fst (provider_deposit_amount price)).
Proof. exact deposits. Qed.
Print Assumptions C41_deposits.

(** ** C42 Beyond the one minute lead-in, the time is the least whole number [n]
    of seconds in which [rate] KB/s (1 KB = 1024 bytes) transfers [size] bytes;
    for all sizes below 2^53 bytes, although the code divides in floating point. *)
Theorem C42_download_time_least :
  forall size rate, 0 <= size < 2 ^ 53 -> 0 < rate ->
  exists n, maximum_download_time size rate = Ok ((60 + n) * 1000000) /\ 0 <= n /\
    forall m, size <= m * (rate * 1024) <-> n <= m.
Proof. exact mdt_least. Qed.
Print Assumptions C42_download_time_least.
Example C42_download_time_least_ex :
  maximum_download_time 49153 48 = Ok ((60 + 2) * 1000000)
  /\ maximum_download_time 49152 48 = Ok ((60 + 1) * 1000000)
  /\ maximum_download_time 9007199254740991 3 = Ok ((60 + 2932031007403) * 1000000).
Proof. repeat split; vm_compute; reflexivity. Qed.

(** larger payloads or slower links never get less time *)
Theorem C42_download_time_monotone :
  forall s1 s2 r1 r2 t1 t2,
  0 <= s1 <= s2 -> s2 < 2 ^ 53 -> 0 < r2 <= r1 ->
  maximum_download_time s1 r1 = Ok t1 -> maximum_download_time s2 r2 = Ok t2 -> t1 <= t2.
Proof. exact mdt_monotone. Qed.
Print Assumptions C42_download_time_monotone.

(** without the size limit the claim is false: rounding gives too little time *)
Theorem C42_huge_sizes_refuted :
  exists size rate n, 0 <= size /\ 0 < rate /\
    maximum_download_time size rate = Ok ((60 + n) * 1000000) /\ n * (rate * 1024) < size.
Proof. exact mdt_large_refuted. Qed.
Print Assumptions C42_huge_sizes_refuted.

(** what is true of every size: [n] is the least number of seconds that suffices, up
    to 1/64 s *)
Theorem C42_any_size :
  forall size rate t, 0 <= size -> 0 < rate -> maximum_download_time size rate = Ok t ->
  exists n, t = (60 + n) * 1000000 /\ (n - 1) * (rate * 1024) < size /\ 64 * size <= (64 * n + 1) * (rate * 1024).
Proof. exact mdt_any_size. Qed.
Print Assumptions C42_any_size.
Example C42_any_size_ex : maximum_download_time (2 ^ 56 + 1) 48 = Ok ((60 + 1466015503702) * 1000000).
Proof. vm_compute. reflexivity. Qed.

(** a zero rate, and sizes that take 2^47 seconds or more, are refused *)
Theorem C42_refused :
  forall size rate,
  maximum_download_time size 0 = Err EZeroDivisionError /\
  (0 < rate -> 2 ^ 47 * (rate * 1024) <= size -> maximum_download_time size rate = Err EOverflowError).
Proof. intros size rate. split; [exact (mdt_zero_rate size)|exact (mdt_overflow size rate)]. Qed.
Print Assumptions C42_refused.
Example C42_refused_ex : 0 < 48 /\ 2 ^ 47 * (48 * 1024) <= 2 ^ 63.
Proof. split; vm_compute; congruence. Qed.

(** ** C43 In microseconds; 4 concent messaging times of 4 minutes each, three
    download times at the default rate of 48 KB/s, half of the subtask timeout. *)
Theorem C43_verification_time :
  forall size ts deadline, 0 <= size < 2 ^ 53 ->
  -62135596800 <= ts <= 253402300799 -> -62135596800 <= deadline <= 253402300799 ->
  exists mdt, maximum_download_time size 48 = Ok mdt /\
  subtask_verification_time size ts deadline
    = Ok (4 * (4 * 60 * 1000000) + 3 * mdt + (deadline - ts) * 500000).
Proof. exact svt_formula. Qed.
Print Assumptions C43_verification_time.
Example C43_verification_time_ex :
  subtask_verification_time 100 1500000000 1500003601 = Ok 2943500000.
Proof. vm_compute. reflexivity. Qed.

Theorem C43_verification_time_monotone :
  forall s1 s2 ts d1 d2 t1 t2,
  0 <= s1 <= s2 -> s2 < 2 ^ 53 -> -62135596800 <= ts <= 253402300799 ->
  -62135596800 <= d1 <= d2 -> d2 <= 253402300799 ->
  subtask_verification_time s1 ts d1 = Ok t1 -> subtask_verification_time s2 ts d2 = Ok t2 -> t1 <= t2.
Proof. exact svt_monotone. Qed.
Print Assumptions C43_verification_time_monotone.

(** only dates outside the years 1 to 9999 are refused *)
Theorem C43_refused :
  forall size ts deadline, 0 <= size < 2 ^ 53 ->
  ((exists e, subtask_verification_time size ts deadline = Err e) <->
   ~ (-62135596800 <= ts <= 253402300799 /\ -62135596800 <= deadline <= 253402300799)).
Proof. exact svt_refused. Qed.
Print Assumptions C43_refused.
Example C43_refused_ex : subtask_verification_time 100 1500000000 253402300800 = Err EValueError.
Proof. vm_compute. reflexivity. Qed.
