(** * The time allowed for verifying a received report (C43) *)
From Verif Require Export FilesFacts TextFacts.
Local Open Scope Z_scope.

(** a number given to [/] or [utcfromtimestamp]; a bool is an int.  Simplification: with
    a float Python computes, which is not modelled; [EFuel] marks the case *)
Definition num_arg (v : pyval) : result Z :=
  match v with
  | VInt z => Ok z
  | VBool b => Ok (if b then 1 else 0)
  | VFloat _ => Err EFuel
  | _ => Err ETypeError
  end.
(** [v['deadline']] for None and for dicts, all that a ComputeTaskDef slot holds *)
Definition deadline_of (v : pyval) : result pyval :=
  match v with
  | VDict _ kvs => match dict_get (skey "deadline") kvs with Some d => Ok d | None => Err EKeyError end
  | _ => Err ETypeError
  end.
(** helpers.py 7-20 on a message: the attributes are read and used in this order *)
Definition svt_of (m : pyval) : result Z :=
  do s <- getattr "size" m; do n <- num_arg s;
  do _ <- maximum_download_time n DEFAULT_UPLOAD_RATE;
  do t <- getattr "task_to_compute" m;
  do ts <- (match t with VMsg _ _ ts _ _ _ => Ok ts | _ => Err EAttributeError end);
  do tz <- num_arg ts;
  if negb (utc_ok tz) then Err EValueError else
  do d <- getattr "compute_task_def" t; do dl <- deadline_of d; do dz <- num_arg dl;
  subtask_verification_time n tz dz.

Lemma svt_reads ty ts enc sig a n cty t cenc csig b kvs d :
  attr_get "size" a = Some (VInt n) -> attr_get "task_to_compute" a = Some (VMsg MTaskToCompute cty (VInt t) cenc csig b) ->
  attr_get "compute_task_def" b = Some (VDict DCTD kvs) -> dict_get (skey "deadline") kvs = Some (VInt d) ->
  0 <= n < 2 ^ 53 -> -62135596800 <= t <= 253402300799 -> -62135596800 <= d <= 253402300799 ->
  exists mdt, maximum_download_time n 48 = Ok mdt /\
    svt_of (VMsg MReportComputedTask ty ts enc sig a) = Ok (4 * (4 * 60 * 1000000) + 3 * mdt + (d - t) * 500000) /\
    (t <= d -> 4 * (4 * 60 * 1000000) + 3 * (60 * 1000000) <= 4 * (4 * 60 * 1000000) + 3 * mdt + (d - t) * 500000).
Proof.
  intros A B C D Hn Ht Hd. destruct (svt_formula n t d Hn Ht Hd) as (mdt & M & F). exists mdt. split; [exact M|]. split.
  - unfold svt_of. rewrite !getattr_slot by (vm_compute; tauto). unfold attr_get_or_none. rewrite A, B. cbn [bind num_arg]. unfold DEFAULT_UPLOAD_RATE. rewrite M. cbn [bind num_arg].
    assert (U : utc_ok t = true) by (unfold utc_ok; lia). rewrite U. cbn [negb].
    rewrite !getattr_slot by (vm_compute; tauto). unfold attr_get_or_none. rewrite C. cbn [bind deadline_of]. rewrite D. cbn [bind num_arg]. exact F.
  - intros Hdt. destruct (mdt_least n 48 ltac:(lia) ltac:(lia)) as (k & K & P & L). rewrite M in K. apply Ok_inj in K.
    assert (0 <= k) by lia. lia.
Qed.
Lemma truediv_err a b e : b <> 0 -> py_truediv a b = Err e -> e = EOverflowError.
Proof. unfold py_truediv. intros N H. destruct (b =? 0) eqn:Z; [lia|]. revert H. repeat (match goal with |- context [match ?x with _ => _ end] => destruct x end); congruence. Qed.
Definition date_err (e : exn) : Prop := e = EValueError \/ e = EOverflowError.
Lemma mdt_err n e : maximum_download_time n DEFAULT_UPLOAD_RATE = Err e -> date_err e.
Proof.
  unfold maximum_download_time, date_err. cbv zeta. intros H. destruct (py_truediv n (DEFAULT_UPLOAD_RATE * 2 ^ 10)) as [q|x] eqn:Q.
  - cbn [bind] in H. destruct q; cbn [py_ceil bind] in H; try (left; congruence); try (right; congruence).
    unfold td_check in H. cbv zeta in H. repeat (match type of H with context [if ?b then _ else _] => destruct b; cbn [bind] in H end); try discriminate H; right; congruence.
  - apply truediv_err in Q; [|discriminate]. subst x. right. cbn [bind] in H. congruence.
Qed.
Lemma svt_err n t d e : subtask_verification_time n t d = Err e -> date_err e.
Proof.
  unfold subtask_verification_time. intros H. destruct (maximum_download_time n DEFAULT_UPLOAD_RATE) as [mdt|x] eqn:Q.
  - cbn [bind] in H. unfold td_check in H. cbv zeta in H. unfold date_err.
    repeat (match type of H with context [if ?b then _ else _] => destruct b; cbn [bind] in H end); try discriminate H; (right; congruence) || (left; congruence).
  - apply mdt_err in Q. cbn [bind] in H. assert (x = e) by congruence. subst x. exact Q.
Qed.
(** which kinds of slots a report and its TaskToCompute have *)
Lemma report_parts a : loaded MReportComputedTask a ->
  attr_get "task_to_compute" a = Some VNone \/
  exists ty ts enc sig b, attr_get "task_to_compute" a = Some (VMsg MTaskToCompute ty ts enc sig b) /\ loaded MTaskToCompute b.
Proof.
  intros [F V N]. destruct (attr_get "task_to_compute" a) as [w|] eqn:G; [|exfalso; apply attr_get_none in G; apply G; rewrite F; vm_compute; tauto].
  pose proof (attr_get_In _ _ _ G) as Hin.
  destruct (N _ _ MTaskToCompute false false Hin eq_refl) as [->|[[-> _]|[[_ (z1 & z2 & z3 & z4 & b & -> & _ & _ & _ & _ & Lb)]|[X _]]]]; auto; [|discriminate X].
  right. do 5 eexists. split; [reflexivity|exact Lb].
Qed.
Lemma ctd_parts b : loaded MTaskToCompute b ->
  attr_get "compute_task_def" b = Some VNone \/
  exists kvs d, attr_get "compute_task_def" b = Some (VDict DCTD kvs) /\ dict_get (skey "deadline") kvs = Some d.
Proof.
  intros [F V _]. destruct (attr_get "compute_task_def" b) as [w|] eqn:G; [|exfalso; apply attr_get_none in G; apply G; rewrite F; vm_compute; tauto].
  pose proof (proj2 (V _ _ (attr_get_In _ _ _ G))) as [[->|[W|[W _]]] _]; [left; reflexivity| |discriminate W]. right.
  destruct W as (kvs & -> & S). destruct (schema_get _ _ "deadline"%string S) as (k & v & G1 & _); [vm_compute; tauto|]. exists kvs, v. auto.
Qed.
Lemma num_err v e : num_arg v = Err e -> e = EFuel /\ (exists f, v = VFloat f) \/ e = ETypeError.
Proof. destruct v; cbn [num_arg]; intros H; try discriminate H; try (right; congruence). left. split; [congruence|eauto]. Qed.
(** what is raised for a received report: nothing that is a MessageError *)
Lemma svt_raises E now bs decf ct pub ty ts enc sig a e :
  deserialize E now bs decf ct pub = Ok (VMsg MReportComputedTask ty ts enc sig a) ->
  svt_of (VMsg MReportComputedTask ty ts enc sig a) = Err e ->
  e = ETypeError \/ (e = EAttributeError /\ attr_get "task_to_compute" a = Some VNone) \/ e = EValueError \/ e = EOverflowError \/
  (e = EFuel /\ exists f, attr_get "size" a = Some (VFloat f) \/
     exists cty ct cenc csig b, attr_get "task_to_compute" a = Some (VMsg MTaskToCompute cty ct cenc csig b) /\
       (ct = VFloat f \/ exists kvs, attr_get "compute_task_def" b = Some (VDict DCTD kvs) /\ dict_get (skey "deadline") kvs = Some (VFloat f))).
Proof.
  intros H. apply deserialize_loaded in H as (c & z & en & s & v & a0 & Q & L & _). assert (c = MReportComputedTask) by congruence. subst c. cbn [full] in Q.
  assert (a0 = a) by congruence. subst a0. clear Q.
  assert (DE : forall x, date_err x -> x = ETypeError \/ (x = EAttributeError /\ attr_get "task_to_compute" a = Some VNone) \/ x = EValueError \/ x = EOverflowError \/
    (x = EFuel /\ exists f, attr_get "size" a = Some (VFloat f) \/
     exists cty ct cenc csig b, attr_get "task_to_compute" a = Some (VMsg MTaskToCompute cty ct cenc csig b) /\
       (ct = VFloat f \/ exists kvs, attr_get "compute_task_def" b = Some (VDict DCTD kvs) /\ dict_get (skey "deadline") kvs = Some (VFloat f)))).
  { intros x [->| ->]; auto 6. }
  assert (SZ : exists w, attr_get "size" a = Some w).
  { destruct L as [F _ _]. destruct (attr_get "size" a) as [w|] eqn:G; [eauto|exfalso; apply attr_get_none in G; apply G; rewrite F; vm_compute; tauto]. }
  destruct SZ as [w SZ]. intros Q. unfold svt_of in Q. rewrite !getattr_slot in Q by (vm_compute; tauto). unfold attr_get_or_none in Q. rewrite SZ in Q. cbn [bind] in Q.
  destruct (num_arg w) as [n|x] eqn:NW; cbn [bind] in Q.
  2:{ assert (x = e) by congruence. subst x. apply num_err in NW as [[-> [f ->]]| ->]; [|auto]. do 4 right. split; [reflexivity|]. exists f. left. exact SZ. }
  destruct (maximum_download_time n DEFAULT_UPLOAD_RATE) as [mdt|x] eqn:MD; cbn [bind] in Q.
  2:{ assert (x = e) by congruence. subst x. apply DE. eapply mdt_err, MD. }
  destruct (report_parts a L) as [TN|(cty & cts & cenc & csig & b & TG & Lb)].
  { rewrite TN in Q. cbn [bind] in Q. right. left. split; [congruence|exact TN]. }
  rewrite TG in Q. cbn [bind] in Q. destruct (num_arg cts) as [tz|x] eqn:NT; cbn [bind] in Q.
  2:{ assert (x = e) by congruence. subst x. apply num_err in NT as [[-> [f ->]]| ->]; [|auto]. do 4 right. split; [reflexivity|]. exists f. right. do 5 eexists. split; [exact TG|left; reflexivity]. }
  destruct (utc_ok tz); cbn [negb] in Q; [|apply DE; left; congruence].
  rewrite !getattr_slot in Q by (vm_compute; tauto). unfold attr_get_or_none in Q. destruct (ctd_parts b Lb) as [DN|(kvs & d & DG & DD)].
  { rewrite DN in Q. cbn [bind deadline_of] in Q. left. congruence. }
  rewrite DG in Q. cbn [bind deadline_of] in Q. rewrite DD in Q. cbn [bind] in Q. destruct (num_arg d) as [dz|x] eqn:ND; cbn [bind] in Q.
  - apply DE. eapply svt_err, Q.
  - assert (x = e) by congruence. subst x. apply num_err in ND as [[-> [f ->]]| ->]; [|auto]. do 4 right. split; [reflexivity|]. exists f. right.
    do 5 eexists. split; [exact TG|]. right. exists kvs. auto.
Qed.
(** an int, or a bool counted as one *)
Definition counts_as (v : pyval) (n : Z) : Prop := v = VInt n \/ (v = VBool true /\ n = 1) \/ (v = VBool false /\ n = 0).
Lemma num_ok v n : num_arg v = Ok n -> counts_as v n.
Proof. unfold counts_as. destruct v; cbn [num_arg]; intros H; try discriminate H; apply Ok_inj in H; subst; auto. destruct b; auto. Qed.
Lemma td_check_is x y : td_check x = Ok y -> y = x.
Proof. unfold td_check. cbv zeta. repeat (match goal with |- context [if ?b then _ else _] => destruct b end); congruence. Qed.
Lemma svt_is n t d r : subtask_verification_time n t d = Ok r ->
  exists mdt, maximum_download_time n 48 = Ok mdt /\ utc_ok t = true /\ utc_ok d = true /\ r = 4 * (4 * 60 * 1000000) + 3 * mdt + (d - t) * 500000.
Proof.
  unfold subtask_verification_time. unfold DEFAULT_UPLOAD_RATE. intros H. apply bind_ok in H as (mdt & M & H). exists mdt. split; [exact M|].
  destruct (utc_ok t); [|discriminate H]. destruct (utc_ok d); [|discriminate H]. cbn [negb] in H. cbv zeta in H. do 2 (split; [reflexivity|]).
  apply bind_ok in H as (m3 & M3 & H). apply td_check_is in M3. apply bind_ok in H as (a & A & H). apply td_check_is in A. apply td_check_is in H. subst m3 a.
  rewrite H. f_equal. apply td_half_even.
Qed.
Lemma utc_is t : utc_ok t = true -> -62135596800 <= t <= 253402300799.
Proof. unfold utc_ok. lia. Qed.
Lemma svt_found E now bs decf ct pub ty ts enc sig a r :
  deserialize E now bs decf ct pub = Ok (VMsg MReportComputedTask ty ts enc sig a) ->
  svt_of (VMsg MReportComputedTask ty ts enc sig a) = Ok r ->
  exists w n mdt cty cts cenc csig b t kvs v d, attr_get "size" a = Some w /\ counts_as w n /\
    attr_get "task_to_compute" a = Some (VMsg MTaskToCompute cty cts cenc csig b) /\ counts_as cts t /\
    attr_get "compute_task_def" b = Some (VDict DCTD kvs) /\ dict_get (skey "deadline") kvs = Some v /\ counts_as v d /\
    maximum_download_time n 48 = Ok mdt /\ -62135596800 <= t <= 253402300799 /\ -62135596800 <= d <= 253402300799 /\
    r = 4 * (4 * 60 * 1000000) + 3 * mdt + (d - t) * 500000.
Proof.
  intros H. apply deserialize_loaded in H as (c & z & en & s & v & a0 & Q & L & _). assert (c = MReportComputedTask) by congruence. subst c. cbn [full] in Q.
  assert (a0 = a) by congruence. subst a0. clear Q.
  assert (SZ : exists w, attr_get "size" a = Some w).
  { destruct L as [F _ _]. destruct (attr_get "size" a) as [w|] eqn:G; [eauto|exfalso; apply attr_get_none in G; apply G; rewrite F; vm_compute; tauto]. }
  destruct SZ as [w SZ]. intros Q. unfold svt_of in Q. rewrite !getattr_slot in Q by (vm_compute; tauto). unfold attr_get_or_none in Q. rewrite SZ in Q. cbn [bind] in Q.
  apply bind_ok in Q as (n & NW & Q). apply bind_ok in Q as (mdt & _ & Q).
  destruct (report_parts a L) as [TN|(cty & cts & cenc & csig & b & TG & Lb)]; [rewrite TN in Q; discriminate Q|].
  rewrite TG in Q. cbn [bind] in Q. apply bind_ok in Q as (t & NT & Q). destruct (utc_ok t); [|discriminate Q]. cbn [negb] in Q.
  rewrite !getattr_slot in Q by (vm_compute; tauto). unfold attr_get_or_none in Q. destruct (ctd_parts b Lb) as [DN|(kvs & x & DG & DD)]; [rewrite DN in Q; discriminate Q|].
  rewrite DG in Q. cbn [bind deadline_of] in Q. rewrite DD in Q. cbn [bind] in Q. apply bind_ok in Q as (d & ND & Q).
  apply svt_is in Q as (m & M & U1 & U2 & R). apply num_ok in NW. apply num_ok in NT. apply num_ok in ND. apply utc_is in U1. apply utc_is in U2.
  exists w, n, m, cty, cts, cenc, csig, b, t, kvs, x, d. auto 20.
Qed.
