(** * helpers.py and constants.py. A [datetime.timedelta] is a number of
    microseconds. *)
From Verif Require Export Fl.

Definition US : Z := 1000000.
(** constants.py 9-46 *)
Definition MMTT : Z := 5 * US.
Definition MTD : Z := 10 * US.
Definition MAT : Z := 135 * US.
Definition MAX_CONCENT_PING_INTERVAL : Z := 60 * US.
Definition CMT : Z := 4 * MAX_CONCENT_PING_INTERVAL.
Definition FAT : Z := 4 * CMT.
Definition AVCT : Z := 3 * CMT + FAT.
Definition PDT : Z := 12 * 3600 * US.
Definition DOWNLOAD_LEADIN_TIME : Z := 60 * US.
Definition DEFAULT_UPLOAD_RATE : Z := 48.

(** limits of [datetime.timedelta]: at most 999999999 days either way *)
Definition td_check (us : Z) : result Z :=
  let days := us / (86400 * US) in
  if (-999999999 <=? days) && (days <=? 999999999) then Ok us else Err EOverflowError.

(** helpers.py 23-41 *)
Definition maximum_download_time (size rate : Z) : result Z :=
  let bytes_per_sec := rate * 2 ^ 10 in
  do q <- py_truediv size bytes_per_sec;
  do secs <- py_ceil q;
  do download_time <- td_check (secs * US);
  td_check (DOWNLOAD_LEADIN_TIME + download_time).

(** [datetime.utcfromtimestamp(ts)] for an int: years 1..9999.
    (Simplification: ints outside the C time_t range raise OverflowError.) *)
Definition utc_ok (ts : Z) : bool := (-62135596800 <=? ts) && (ts <=? 253402300799).

(** [0.5 * td]: exact ratio 1/2, half to even *)
Definition td_half (us : Z) : Z := rdiv_rne us 2.

(** helpers.py 7-20; the arguments are report_computed_task.size,
    task_to_compute.timestamp and compute_task_def['deadline'] (ints) *)
Definition subtask_verification_time (size ttc_timestamp deadline : Z) : result Z :=
  do mdt <- maximum_download_time size DEFAULT_UPLOAD_RATE;
  if negb (utc_ok ttc_timestamp) then Err EValueError else
  if negb (utc_ok deadline) then Err EValueError else
  let subtask_timeout := (deadline - ttc_timestamp) * US in
  do m3 <- td_check (3 * mdt);
  do a <- td_check (4 * CMT + m3);
  td_check (a + td_half subtask_timeout).

(** helpers.py 44-46 *)
Definition requestor_deposit_amount (p : Z) : Z * Z := (p * 2, p * 4).
(** helpers.py 49-51 *)
Definition provider_deposit_amount (p : Z) : Z * Z := (p, 4 * p).

(** ** Proofs *)
Lemma td_check_ok us : - (86399999913600 * US) <= us < 86400000000000 * US -> td_check us = Ok us.
Proof.
  unfold td_check, US. intros H.
  replace ((-999999999 <=? us / (86400 * 1000000)) && (us / (86400 * 1000000) <=? 999999999)) with true; [reflexivity|].
  symmetry. lia.
Qed.

Lemma mdt_ceil size rate :
  0 <= size < 2 ^ 53 -> 0 < rate ->
  maximum_download_time size rate = Ok (DOWNLOAD_LEADIN_TIME + - ((- size) / (rate * 2 ^ 10)) * US).
Proof.
  intros Hs Hr. unfold maximum_download_time. cbv zeta.
  assert (Hb : 0 < rate * 2 ^ 10) by lia. set (b := rate * 2 ^ 10) in *.
  assert (Hc : 0 <= - ((- size) / b) <= 2 ^ 43).
  { assert (1024 <= b) by (unfold b; lia). clearbody b.
    pose proof (Z.div_mod (- size) b ltac:(lia)). pose proof (Z.mod_pos_bound (- size) b ltac:(lia)).
    split; [|]. { assert (- size / b <= 0) by (apply Z.div_le_upper_bound; lia). lia. }
    assert (- 2 ^ 43 <= - size / b) by (apply Z.div_le_lower_bound; nia). lia. }
  assert (Q : exists q, py_truediv size b = Ok q /\ py_ceil q = Ok (- ((- size) / b))).
  { unfold py_truediv. replace (b =? 0) with false by lia.
    destruct (size =? 0) eqn:E0.
    - apply Z.eqb_eq in E0. subst. eexists. split; [reflexivity|]. reflexivity.
    - rewrite (Z.abs_eq size), (Z.abs_eq b) by lia.
      pose proof (ceil_fdiv size b ltac:(lia) ltac:(lia)) as H. destruct (fdiv_pos size b) as [m e].
      eexists. split; [reflexivity|]. cbn [py_ceil].
      replace (Z.sgn size * Z.sgn b * m) with m by lia. rewrite H. reflexivity. }
  destruct Q as (q & -> & Q2). cbn [bind]. rewrite Q2. cbn [bind].
  set (c := - (- size / b)) in *. clearbody c.
  rewrite td_check_ok by (unfold US; lia). cbn [bind].
  apply td_check_ok. unfold DOWNLOAD_LEADIN_TIME, US. lia.
Qed.

Lemma ceil_div_least a b n : 0 < b -> (a <= n * b <-> - ((- a) / b) <= n).
Proof.
  intros Hb. pose proof (Z.div_mod (- a) b ltac:(lia)). pose proof (Z.mod_pos_bound (- a) b ltac:(lia)).
  split; intros; nia.
Qed.

Lemma mdt_least size rate :
  0 <= size < 2 ^ 53 -> 0 < rate ->
  exists n, maximum_download_time size rate = Ok ((60 + n) * 1000000) /\ 0 <= n /\
    forall m, size <= m * (rate * 1024) <-> n <= m.
Proof.
  intros Hs Hr. exists (- ((- size) / (rate * 2 ^ 10))). rewrite mdt_ceil by assumption.
  unfold DOWNLOAD_LEADIN_TIME, US. change (2 ^ 10) with 1024. repeat split.
  - f_equal. ring.
  - assert (- size / (rate * 1024) <= 0) by (apply Z.div_le_upper_bound; lia). lia.
  - apply ceil_div_least; lia.
  - apply ceil_div_least; lia.
Qed.

Lemma mdt_monotone s1 s2 r1 r2 t1 t2 :
  0 <= s1 <= s2 -> s2 < 2 ^ 53 -> 0 < r2 <= r1 ->
  maximum_download_time s1 r1 = Ok t1 -> maximum_download_time s2 r2 = Ok t2 -> t1 <= t2.
Proof.
  intros H1 H2 H3 E1 E2.
  destruct (mdt_least s1 r1 ltac:(lia) ltac:(lia)) as (n1 & F1 & P1 & M1).
  destruct (mdt_least s2 r2 ltac:(lia) ltac:(lia)) as (n2 & F2 & P2 & M2).
  rewrite E1 in F1. rewrite E2 in F2. injection F1 as ->. injection F2 as ->.
  assert (n1 <= n2); [|lia]. apply M1. pose proof (proj2 (M2 n2) ltac:(lia)). nia.
Qed.

Lemma td_half_even n : td_half (n * US) = n * 500000.
Proof.
  unfold td_half, rdiv_rne, US. replace (n * 1000000) with ((n * 500000) * 2) by ring.
  rewrite Z.div_mul, Z.mod_mul by lia. reflexivity.
Qed.

Lemma svt_formula size ts deadline :
  0 <= size < 2 ^ 53 ->
  -62135596800 <= ts <= 253402300799 -> -62135596800 <= deadline <= 253402300799 ->
  exists mdt, maximum_download_time size 48 = Ok mdt /\
  subtask_verification_time size ts deadline
    = Ok (4 * (4 * 60 * 1000000) + 3 * mdt + (deadline - ts) * 500000).
Proof.
  intros Hs Ht Hd. unfold subtask_verification_time, DEFAULT_UPLOAD_RATE.
  rewrite mdt_ceil by lia. eexists. split; [reflexivity|]. cbn [bind]. unfold utc_ok.
  replace ((-62135596800 <=? ts) && (ts <=? 253402300799)) with true by lia.
  replace ((-62135596800 <=? deadline) && (deadline <=? 253402300799)) with true by lia. cbn [negb].
  assert (Hc : 0 <= - ((- size) / (48 * 2 ^ 10)) <= 2 ^ 38).
  { change (48 * 2 ^ 10) with 49152. change (2 ^ 38) with 274877906944. lia. }
  set (c := - (- size / (48 * 2 ^ 10))) in *. clearbody c.
  assert (- 315537897599 <= deadline - ts <= 315537897599) by lia.
  set (t := deadline - ts) in *. clearbody t.
  rewrite (td_check_ok (3 * _)) by (unfold DOWNLOAD_LEADIN_TIME, US; lia). cbn [bind].
  rewrite td_check_ok by (unfold CMT, MAX_CONCENT_PING_INTERVAL, DOWNLOAD_LEADIN_TIME, US; lia). cbn [bind].
  rewrite td_half_even.
  rewrite td_check_ok by (unfold CMT, MAX_CONCENT_PING_INTERVAL, DOWNLOAD_LEADIN_TIME, US; lia).
  reflexivity.
Qed.

Lemma svt_monotone s1 s2 ts d1 d2 t1 t2 :
  0 <= s1 <= s2 -> s2 < 2 ^ 53 -> -62135596800 <= ts <= 253402300799 ->
  -62135596800 <= d1 <= d2 -> d2 <= 253402300799 ->
  subtask_verification_time s1 ts d1 = Ok t1 -> subtask_verification_time s2 ts d2 = Ok t2 -> t1 <= t2.
Proof.
  intros H1 H2 H3 H4 H5 E1 E2.
  destruct (svt_formula s1 ts d1 ltac:(lia) ltac:(lia) ltac:(lia)) as (m1 & M1 & F1).
  destruct (svt_formula s2 ts d2 ltac:(lia) ltac:(lia) ltac:(lia)) as (m2 & M2 & F2).
  rewrite E1 in F1. rewrite E2 in F2. injection F1 as ->. injection F2 as ->.
  pose proof (mdt_monotone s1 s2 48 48 m1 m2 H1 H2 ltac:(lia) M1 M2). lia.
Qed.

Lemma mdt_large_refuted :
  exists size rate n, 0 <= size /\ 0 < rate /\
    maximum_download_time size rate = Ok ((60 + n) * 1000000) /\ n * (rate * 1024) < size.
Proof. exists (2 ^ 53 + 1), 1, (2 ^ 43). repeat split; vm_compute; congruence. Qed.

Lemma deposits p :
  requestor_deposit_amount p = (2 * p, 4 * p) /\ provider_deposit_amount p = (p, 4 * p) /\
  (0 <= p <-> fst (requestor_deposit_amount p) <= snd (requestor_deposit_amount p)) /\
  (0 <= p <-> fst (provider_deposit_amount p) <= snd (provider_deposit_amount p)) /\
  (0 <= p -> p <= fst (requestor_deposit_amount p) /\ p <= fst (provider_deposit_amount p)).
Proof.
  unfold requestor_deposit_amount, provider_deposit_amount. cbn [fst snd].
  repeat split; try (f_equal; ring); lia.
Qed.
