(** * Validity, chain accessors and file lookup (C29-C31, C50, C51) *)
From Verif Require Export OwnFacts.

(** ** Payment timestamps *)
Lemma sra_too_small z t : 0 <= t -> z <= - 2 ^ 53 -> sra_valid (VInt z) (VInt t) <> Ok tt.
Proof.
  intros Ht Hz. unfold sra_valid, py_lt. cbn [num_of bind].
  rewrite ltb_fin. change (scale_up 0) with 1. change (scale_up (- 0)) with 1. rewrite !Z.mul_1_r.
  replace (t <? z) with false by (symmetry; apply Z.ltb_ge; assert (0 < 2 ^ 53) by reflexivity; lia). unfold to_float.
  assert (Hz' : z = - (- z)) by lia. set (a := - z) in *. assert (Ha : 2 ^ 53 <= a) by (unfold a; lia).
  assert (Pa : 0 < a) by (apply Z.lt_le_trans with (2 ^ 53); [reflexivity|exact Ha]).
  rewrite Hz'. clearbody a. clear z Hz Hz'.
  destruct (truediv_neg a 1 Pa ltac:(lia)) as (m & e & E1 & [M1 M2] & S1 & S2). rewrite Z.mul_1_l in S1, S2. rewrite E1. cbn [bind].
  pose proof (scale_up_pos e) as P1. pose proof (scale_up_pos (- e)) as P2.
  assert (He : 0 < e).
  { destruct (Z.leb_spec e 0) as [Q|Q]; [exfalso|exact Q]. rewrite (scale_up_nonpos e Q) in S2. nia. }
  assert (Hs : scale_up (- e) = 1) by (apply scale_up_nonpos; lia). rewrite Hs in *. rewrite !Z.mul_1_r in *.
  destruct (Z.abs (- m) * scale_up e <? 2 ^ 1024); cbn [bind]; [|discriminate]. unfold fl_add_int. rewrite Hs, !Z.mul_1_r.
  assert (G2 : 2 <= scale_up e). { unfold scale_up. rewrite Z.max_r by lia. change 2 with (2 ^ 1) at 1. apply Z.pow_le_mono_r; lia. }
  assert (K : 2 ^ 52 <= m * scale_up e - 900). { assert (2 ^ 52 > 900) by reflexivity. nia. }
  replace (- m * scale_up e + 900) with (- (m * scale_up e - 900)) by ring. set (a' := m * scale_up e - 900) in *. clearbody a'.
  assert (Pa' : 0 < a') by (apply Z.lt_le_trans with (2 ^ 52); [reflexivity|exact K]).
  destruct (truediv_neg a' 1 Pa' ltac:(lia)) as (m' & e' & E2 & [M1' M2'] & _). rewrite E2. cbn [bind].
  rewrite ltb_fin. replace (- m' * scale_up e' <? t * scale_up (- e')) with true; [discriminate|]. symmetry. apply Z.ltb_lt.
  pose proof (scale_up_pos e'). pose proof (scale_up_pos (- e')). assert (0 < 2 ^ 52) by reflexivity. nia.
Qed.
Lemma sra_iff ty t enc sig a z : 0 <= t < 2 ^ 52 -> attr_get_or_none "payment_ts" a = VInt z ->
  is_valid (VMsg MSubtaskResultsAccepted ty (VInt t) enc sig a) = Ok tt <-> t - 900 <= z <= t.
Proof.
  intros Ht Hz. cbn [is_valid]. rewrite Hz. destruct (Z.ltb_spec (- 2 ^ 1023) z) as [B|B].
  - rewrite sra_valid_int by assumption. destruct (Z.leb_spec (t - 900) z); destruct (Z.leb_spec z t); cbn [andb]; split; try discriminate; try reflexivity; lia.
  - split; [intros H; exfalso; revert H; apply sra_too_small; [lia|]|].
    + apply Z.le_trans with (- 2 ^ 1023); [exact B|]. discriminate.
    + intros [H _]. exfalso. assert (- 2 ^ 1023 < - 900) by reflexivity. lia.
Qed.
Lemma sra_error ty t enc sig a z : 0 <= t < 2 ^ 52 -> attr_get_or_none "payment_ts" a = VInt z -> - 2 ^ 1023 < z ->
  ~ t - 900 <= z <= t -> is_valid (VMsg MSubtaskResultsAccepted ty (VInt t) enc sig a) = Err EValidationError.
Proof.
  intros Ht Hz B N. cbn [is_valid]. rewrite Hz, sra_valid_int by assumption.
  destruct (Z.leb_spec (t - 900) z); destruct (Z.leb_spec z t); cbn [andb]; try reflexivity. exfalso. apply N. lia.
Qed.
Lemma sra_not_number ty ts enc sig a : let p := attr_get_or_none "payment_ts" a in
  match p with VBool _ | VInt _ | VFloat _ => False | _ => True end ->
  is_valid (VMsg MSubtaskResultsAccepted ty (VInt ts) enc sig a) = Err ETypeError.
Proof. cbv zeta. cbn [is_valid]. destruct (attr_get_or_none "payment_ts" a); try contradiction; reflexivity. Qed.
Lemma sra_huge ty t enc sig a z : 0 <= t -> attr_get_or_none "payment_ts" a = VInt z -> z <= - 2 ^ 1024 ->
  is_valid (VMsg MSubtaskResultsAccepted ty (VInt t) enc sig a) = Err EOverflowError.
Proof. intros Ht Hz B. cbn [is_valid]. rewrite Hz. apply sra_overflow; assumption. Qed.

(** a float payment_ts: sign, exponent and fraction of the eight bytes *)
Definition bits_of (neg : bool) (ex frac : Z) : Z := (if neg then 2 ^ 63 else 0) + ex * 2 ^ 52 + frac.
Lemma bits_fields neg ex frac : 0 <= ex < 2048 -> 0 <= frac < 2 ^ 52 ->
  Z.testbit (bits_of neg ex frac) 63 = neg /\ (bits_of neg ex frac / 2 ^ 52) mod 2048 = ex /\ bits_of neg ex frac mod 2 ^ 52 = frac.
Proof.
  intros He Hf. unfold bits_of. set (n := if neg then 1 else 0). replace (if neg then 2 ^ 63 else 0) with (n * 2048 * 2 ^ 52) by (unfold n; destruct neg; reflexivity).
  replace (n * 2048 * 2 ^ 52 + ex * 2 ^ 52 + frac) with ((n * 2048 + ex) * 2 ^ 52 + frac) by ring.
  assert (P : 0 < 2 ^ 52) by reflexivity. split; [|split].
  - rewrite Z.testbit_eqb by lia. change (2 ^ 63) with (2 ^ 52 * 2048). rewrite <- Z.div_div by lia.
    rewrite Z.div_add_l by lia. rewrite (Z.div_small frac) by lia. rewrite Z.add_0_r. rewrite Z.div_add_l by lia. rewrite (Z.div_small ex) by lia. unfold n. destruct neg; reflexivity.
  - rewrite Z.div_add_l by lia. rewrite (Z.div_small frac) by lia. rewrite Z.add_0_r, Z.add_comm, Z.mod_add by lia. apply Z.mod_small. lia.
  - rewrite Z.add_comm, Z.mod_add by lia. apply Z.mod_small. lia.
Qed.
Lemma bits_finite neg ex frac : 0 < ex < 2047 -> 0 <= frac < 2 ^ 52 ->
  fl_of_bits (bits_of neg ex frac) = FFin (if neg then - (2 ^ 52 + frac) else 2 ^ 52 + frac) (ex - 1075).
Proof.
  intros He Hf. destruct (bits_fields neg ex frac ltac:(lia) Hf) as (B1 & B2 & B3). unfold fl_of_bits. cbv zeta. rewrite B1, B2, B3.
  replace (ex =? 2047) with false by lia. replace (ex =? 0) with false by lia. rewrite (Z.add_comm frac). reflexivity.
Qed.
Lemma bits_special neg frac : 0 <= frac < 2 ^ 52 -> fl_of_bits (bits_of neg 2047 frac) = if frac =? 0 then FInf neg else FNan.
Proof.
  intros Hf. destruct (bits_fields neg 2047 frac ltac:(lia) Hf) as (B1 & B2 & B3). unfold fl_of_bits. cbv zeta. rewrite B1, B2, B3. reflexivity.
Qed.
Lemma truediv_bound i n d : 0 < d -> 0 <= i < 2 ^ 53 -> exists m e, py_truediv n d = Ok (FFin m e) /\
  (i * d <= n -> i * scale_up (- e) <= m * scale_up e) /\ (n <= i * d -> m * scale_up e <= i * scale_up (- e)).
Proof.
  intros Hd Hi. unfold py_truediv. replace (d =? 0) with false by lia. destruct (Z.eqb_spec n 0) as [->|N].
  { exists 0, 0. split; [reflexivity|]. change (scale_up (- 0)) with 1. change (scale_up 0) with 1. split; nia. }
  unfold fdiv_pos. set (a := Z.abs n). assert (Ha : 0 < a) by lia. rewrite (Z.abs_eq d) by lia.
  pose proof (fdiv_exp_spec a d Ha Hd) as S. cbv zeta in S. pose proof (fdiv_exp_nonpos a d Ha Hd) as Sn.
  set (e := fdiv_exp a d) in *. replace (Z.sgn d) with 1 by lia. rewrite Z.mul_1_r.
  pose proof (scale_up_pos e) as P1. pose proof (scale_up_pos (- e)) as P2.
  set (m := rdiv_rne (a * scale_up (- e)) (d * scale_up e)).
  assert (M : 2 ^ 52 <= m) by (apply rdiv_rne_ge; nia).
  exists (Z.sgn n * m), e. split; [reflexivity|]. destruct (Z.ltb_spec n 0) as [L|L].
  { replace (Z.sgn n) with (- (1)) by lia. assert (G : 0 < 2 ^ 52) by reflexivity. split; intros H; [exfalso; nia|]. nia. }
  replace (Z.sgn n) with 1 by lia. rewrite Z.mul_1_l. assert (a = n) by lia. clearbody a. subst a. split; intros H.
  - destruct (Z.leb_spec e 0) as [Q|Q].
    + unfold m. rewrite (scale_up_nonpos e Q) in *. rewrite !Z.mul_1_r in *. apply rdiv_rne_ge; nia.
    + rewrite (scale_up_nonpos (- e)) in * by lia. assert (2 <= scale_up e). { unfold scale_up. rewrite Z.max_r by lia. change 2 with (2 ^ 1) at 1. apply Z.pow_le_mono_r; lia. }
      change (2 ^ 53) with (2 ^ 52 * 2) in Hi. nia.
  - assert (Q : e <= 0) by (apply Sn; nia). unfold m. rewrite (scale_up_nonpos e Q) in *. rewrite !Z.mul_1_r in *. apply rdiv_rne_le; nia.
Qed.
Lemma ltb_fin_r m1 e1 t : fl_ltb (FFin t 0) (FFin m1 e1) = (t * scale_up (- e1) <? m1 * scale_up e1).
Proof.
  unfold fl_ltb, scale_up. cbv zeta. destruct (Z.leb_spec 0 e1).
  - rewrite Z.min_l, Z.max_l, Z.max_r by lia. rewrite !Z.sub_0_r. reflexivity.
  - rewrite Z.min_r, Z.max_r, Z.max_l by lia. rewrite Z.sub_diag, Z.sub_0_l. reflexivity.
Qed.
Lemma sra_float ty t enc sig a b m e : 0 < t < 2 ^ 52 -> attr_get_or_none "payment_ts" a = VFloat b -> fl_of_bits b = FFin m e ->
  let v := m * scale_up e in let one := scale_up (- e) in
  let r := is_valid (VMsg MSubtaskResultsAccepted ty (VInt t) enc sig a) in
  ((t - 900) * one <= v <= t * one -> r = Ok tt) /\ (t * one < v \/ v <= (t - 901) * one -> r = Err EValidationError).
Proof.
  intros Ht Hz F. cbv zeta. cbn [is_valid]. rewrite Hz. unfold sra_valid, py_lt. cbn [num_of bind to_float]. rewrite F, ltb_fin_r. cbn [fl_add_int].
  pose proof (scale_up_pos (- e)) as P. set (one := scale_up (- e)) in *. set (v := m * scale_up e) in *. clearbody one v.
  assert (G : 2 ^ 52 < 2 ^ 53) by reflexivity. split.
  - intros [H1 H2]. replace (t * one <? v) with false by lia. destruct (truediv_bound t (v + 900 * one) one P ltac:(lia)) as (m' & e' & -> & H & _).
    cbn [bind]. rewrite ltb_fin. replace (m' * scale_up e' <? t * scale_up (- e')) with false; [reflexivity|]. symmetry. apply Z.ltb_ge, H. lia.
  - intros [H|H]; [replace (t * one <? v) with true by lia; reflexivity|]. replace (t * one <? v) with false by (symmetry; apply Z.ltb_ge; nia).
    destruct (truediv_bound (t - 1) (v + 900 * one) one P ltac:(lia)) as (m' & e' & -> & _ & Q). cbn [bind]. rewrite ltb_fin.
    specialize (Q ltac:(lia)). pose proof (scale_up_pos (- e')).
    replace (m' * scale_up e' <? t * scale_up (- e')) with true; [reflexivity|]. symmetry. apply Z.ltb_lt. nia.
Qed.
Lemma sra_infinite ty t enc sig a b s : attr_get_or_none "payment_ts" a = VFloat b -> fl_of_bits b = FInf s ->
  is_valid (VMsg MSubtaskResultsAccepted ty (VInt t) enc sig a) = Err EValidationError.
Proof. intros Hz F. cbn [is_valid]. rewrite Hz. unfold sra_valid, py_lt. cbn [num_of bind to_float]. rewrite F. destruct s; reflexivity. Qed.
Lemma sra_nan ty t enc sig a b : attr_get_or_none "payment_ts" a = VFloat b -> fl_of_bits b = FNan ->
  is_valid (VMsg MSubtaskResultsAccepted ty (VInt t) enc sig a) = Ok tt.
Proof. intros Hz F. cbn [is_valid]. rewrite Hz. unfold sra_valid, py_lt. cbn [num_of bind to_float]. rewrite F. reflexivity. Qed.

Lemma sra_float_bits ty t enc sig a neg ex frac : 0 < t < 2 ^ 52 -> 0 < ex < 2047 -> 0 <= frac < 2 ^ 52 ->
  attr_get_or_none "payment_ts" a = VFloat (bits_of neg ex frac) ->
  let v := (if neg then -1 else 1) * (2 ^ 52 + frac) * 2 ^ Z.max 0 (ex - 1075) in let one := 2 ^ Z.max 0 (1075 - ex) in
  let r := is_valid (VMsg MSubtaskResultsAccepted ty (VInt t) enc sig a) in
  ((t - 900) * one <= v <= t * one -> r = Ok tt) /\ (t * one < v \/ v <= (t - 901) * one -> r = Err EValidationError).
Proof.
  intros Ht He Hf Hz. pose proof (sra_float ty t enc sig a _ _ _ Ht Hz (bits_finite neg ex frac He Hf)) as H. cbv zeta in H |- *. unfold scale_up in H.
  replace (- (ex - 1075)) with (1075 - ex) in H by ring.
  replace (if neg then - (2 ^ 52 + frac) else 2 ^ 52 + frac) with ((if neg then -1 else 1) * (2 ^ 52 + frac)) in H by (destruct neg; ring). exact H.
Qed.
Lemma sra_infinite_bits ty t enc sig a neg : attr_get_or_none "payment_ts" a = VFloat (bits_of neg 2047 0) ->
  is_valid (VMsg MSubtaskResultsAccepted ty (VInt t) enc sig a) = Err EValidationError.
Proof. intros Hz. eapply sra_infinite; [exact Hz|]. apply (bits_special neg 0). split; [discriminate|reflexivity]. Qed.
Lemma sra_nan_bits ty t enc sig a neg frac : 0 < frac < 2 ^ 52 -> attr_get_or_none "payment_ts" a = VFloat (bits_of neg 2047 frac) ->
  is_valid (VMsg MSubtaskResultsAccepted ty (VInt t) enc sig a) = Ok tt.
Proof. intros Hf Hz. eapply sra_nan; [exact Hz|]. rewrite bits_special by lia. replace (frac =? 0) with false by lia. reflexivity. Qed.

(** ** Accessors of task messages *)
Lemma acc_task c name ty ts enc sig a : is_task_message c = true -> c <> MTaskToCompute -> In name chain_names ->
  exists v, acc name (VMsg c ty ts enc sig a) = Some v.
Proof.
  intros T N H. cbn [acc]. cbv zeta. destruct (existsb (String.eqb name) (slot_names c)); [eauto|].
  assert (Y : existsb (String.eqb name) chain_names = true) by (apply existsb_exists; exists name; split; [exact H|apply String.eqb_refl]).
  destruct c; try discriminate T; try congruence; rewrite T, Y; cbn [andb]; eauto.
Qed.
Lemma getattr_acc n v x : getattr n v = Ok x <-> acc n v = Some x.
Proof. unfold getattr. destruct (acc n v); split; congruence. Qed.

(** ** SubtaskResultsRejected *)
(** an attached ForceGetTaskResultFailed is about the same task and subtask *)
Definition same_task (m f : pyval) : Prop :=
  forall name, name = "task_id"%string \/ name = "subtask_id"%string ->
  exists t t', getattr name m = Ok t /\ getattr name f = Ok t' /\ py_eq t t' = true.
Definition srr_reason (v : pyval) : Prop := v = VNone \/ exists s, v = VEnum EnSRR s.
Definition srr_attachment (v : pyval) : Prop := v = VNone \/ exists ty ts enc sig a, v = VMsg MForceGetTaskResultFailed ty ts enc sig a.

Lemma enum_eq v s : srr_reason v -> (py_eq v (VEnum EnSRR s) = true <-> v = VEnum EnSRR s).
Proof.
  intros [->|[t ->]].
  - split; discriminate.
  - cbn [py_eq num_of str_of is_string_enum]. split.
    + intros H. apply andb_true_iff in H as [_ H]. apply String.eqb_eq in H. subst. reflexivity.
    + intros H. assert (t = s) by congruence. subst. apply andb_true_iff. split; [reflexivity|apply String.eqb_refl].
Qed.
Lemma srr_cases ty ts enc sig a : let m := VMsg MSubtaskResultsRejected ty ts enc sig a in
  let reason := attr_get_or_none "reason" a in let f := attr_get_or_none "force_get_task_result_failed" a in
  srr_reason reason -> srr_attachment f ->
  (is_valid m = Ok tt /\ reason <> VNone /\ (f <> VNone -> same_task m f) /\ (reason = ForcedResourcesFailure -> f <> VNone)) \/
  (is_valid m = Err EValidationError /\ ~ (reason <> VNone /\ (f <> VNone -> same_task m f) /\ (reason = ForcedResourcesFailure -> f <> VNone))).
Proof.
  intros m reason f Hr Hf. change (is_valid m) with (srr_valid m). unfold srr_valid.
  assert (R1 : getattr "reason" m = Ok reason) by (apply getattr_slot; slots_in).
  assert (R2 : getattr "force_get_task_result_failed" m = Ok f) by (apply getattr_slot; slots_in).
  rewrite R1, R2. cbn [bind]. destruct Hr as [E|[s E]].
  { rewrite E. cbn [truthy negb]. right. split; [reflexivity|]. intros [N _]. contradiction. }
  rewrite E. change (truthy (VEnum EnSRR s)) with true. cbn [negb].
  assert (T : exists t, getattr "task_id" m = Ok t).
  { destruct (acc_task MSubtaskResultsRejected "task_id" ty ts enc sig a) as [v Hv]; [reflexivity|discriminate|slots_in|]. exists v. apply getattr_acc. exact Hv. }
  assert (S : exists t, getattr "subtask_id" m = Ok t).
  { destruct (acc_task MSubtaskResultsRejected "subtask_id" ty ts enc sig a) as [v Hv]; [reflexivity|discriminate|slots_in|]. exists v. apply getattr_acc. exact Hv. }
  destruct T as [t T], S as [i S]. rewrite T, S. cbn [bind].
  assert (Q : py_eq (VEnum EnSRR s) ForcedResourcesFailure = true <-> VEnum EnSRR s = ForcedResourcesFailure) by (apply enum_eq; right; eauto).
  destruct Hf as [F|(ty' & ts' & enc' & sig' & a' & F)].
  - rewrite F. cbn [truthy bind negb]. rewrite andb_true_r. destruct (py_eq (VEnum EnSRR s) ForcedResourcesFailure).
    + right. split; [reflexivity|]. intros (_ & _ & H). apply H; [apply Q; reflexivity|reflexivity].
    + left. split; [reflexivity|]. split; [discriminate|]. split; [intros N; contradiction|]. intros H. apply Q in H. discriminate H.
  - assert (T' : exists t, getattr "task_id" f = Ok t).
    { rewrite F. destruct (acc_task MForceGetTaskResultFailed "task_id" ty' ts' enc' sig' a') as [v Hv]; [reflexivity|discriminate|slots_in|]. exists v. apply getattr_acc. exact Hv. }
    assert (S' : exists t, getattr "subtask_id" f = Ok t).
    { rewrite F. destruct (acc_task MForceGetTaskResultFailed "subtask_id" ty' ts' enc' sig' a') as [v Hv]; [reflexivity|discriminate|slots_in|]. exists v. apply getattr_acc. exact Hv. }
    destruct T' as [t' T'], S' as [i' S']. rewrite T', S'. cbn [bind].
    assert (TF : truthy f = true) by (rewrite F; reflexivity). rewrite TF. cbn [negb]. rewrite andb_false_r.
    destruct (py_eq t t') eqn:Qt; cbn [negb bind].
    + destruct (py_eq i i') eqn:Qi; cbn [negb bind].
      * left. split; [reflexivity|]. split; [discriminate|]. split.
        -- intros _ name [->| ->]; eauto.
        -- intros _ H. rewrite F in H. discriminate H.
      * right. split; [reflexivity|]. intros (_ & H & _). destruct (H ltac:(rewrite F; discriminate) "subtask_id"%string ltac:(auto)) as (x & y & H1 & H2 & H3). congruence.
    + right. split; [reflexivity|]. intros (_ & H & _). destruct (H ltac:(rewrite F; discriminate) "task_id"%string ltac:(auto)) as (x & y & H1 & H2 & H3). congruence.
Qed.
Lemma srr_iff ty ts enc sig a : let m := VMsg MSubtaskResultsRejected ty ts enc sig a in
  let reason := attr_get_or_none "reason" a in let f := attr_get_or_none "force_get_task_result_failed" a in
  srr_reason reason -> srr_attachment f ->
  (is_valid m = Ok tt <-> reason <> VNone /\ (f <> VNone -> same_task m f) /\ (reason = ForcedResourcesFailure -> f <> VNone)).
Proof.
  intros m reason f Hr Hf. destruct (srr_cases ty ts enc sig a Hr Hf) as [(V & H)|(V & H)]; fold m reason f in V, H; rewrite V; split; auto; [discriminate|]. intros Q. contradiction.
Qed.
Lemma srr_error ty ts enc sig a e : let m := VMsg MSubtaskResultsRejected ty ts enc sig a in
  srr_reason (attr_get_or_none "reason" a) -> srr_attachment (attr_get_or_none "force_get_task_result_failed" a) ->
  is_valid m = Err e -> e = EValidationError.
Proof.
  intros m Hr Hf. unfold m. destruct (srr_cases ty ts enc sig a Hr Hf) as [(-> & _)|(-> & _)]; congruence.
Qed.
(** the reasons a requestor may give, by Concent mode *)
Definition requestor_may (concent : pyval) (reason : pyval) : Prop :=
  reason = VerificationNegative \/ (truthy concent = true /\ reason = ForcedResourcesFailure) \/ (truthy concent = false /\ reason = ResourcesFailure).
Lemma requestor_reasons_iff ce reason : srr_reason reason -> (existsb (py_eq reason) (requestor_reasons (truthy ce)) = true <-> requestor_may ce reason).
Proof.
  intros H. unfold requestor_reasons, requestor_may.
  pose proof (enum_eq reason "Results verification negative" H) as A.
  pose proof (enum_eq reason "Concent reported failure to retrieve the resources to verify" H) as B.
  pose proof (enum_eq reason "Could not retrieve resources" H) as D.
  unfold VerificationNegative, ForcedResourcesFailure, ResourcesFailure in *.
  destruct (truthy ce); cbn [existsb]; rewrite orb_false_r, orb_true_iff; rewrite A.
  - rewrite B. split; [intros [?|?]; auto|intros [?|[[_ ?]|[? _]]]; auto; discriminate].
  - rewrite D. split; [intros [?|?]; auto|intros [?|[[? _]|[_ ?]]]; auto; discriminate].
Qed.
Lemma srr_requestor ty ts enc sig a r t ce : let m := VMsg MSubtaskResultsRejected ty ts enc sig a in
  let reason := attr_get_or_none "reason" a in
  srr_reason reason -> srr_attachment (attr_get_or_none "force_get_task_result_failed" a) ->
  attr_get_or_none "report_computed_task" a = r -> getattr "task_to_compute" r = Ok t -> getattr "concent_enabled" t = Ok ce ->
  (srr_valid_for_requestor m = Ok tt <-> is_valid m = Ok tt /\ requestor_may ce reason) /\
  (reason <> VNone -> forall e, srr_valid_for_requestor m = Err e -> e = EValidationError) /\
  (reason = VNone -> srr_valid_for_requestor m = Err EAttributeError).
Proof.
  intros m reason Hr Hf Er Et Ec. unfold srr_valid_for_requestor.
  assert (R1 : getattr "reason" m = Ok reason) by (apply getattr_slot; slots_in).
  assert (R2 : getattr "report_computed_task" m = Ok r) by (rewrite <- Er; apply getattr_slot; slots_in).
  rewrite R2. cbn [bind]. rewrite Et. cbn [bind]. rewrite Ec. cbn [bind]. rewrite R1. cbn [bind].
  pose proof (requestor_reasons_iff ce reason Hr) as Q.
  destruct (existsb (py_eq reason) (requestor_reasons (truthy ce))) eqn:X.
  - split; [|split].
    + change (is_valid m) with (srr_valid m). split; [intros H; split; [exact H|apply Q; reflexivity]|intros [H _]; exact H].
    + intros _ e He. change (srr_valid m) with (is_valid m) in He. exact (srr_error ty ts enc sig a e Hr Hf He).
    + intros N. exfalso. rewrite N in X. destruct (truthy ce); discriminate X.
  - split; [|split].
    + split; [destruct reason; discriminate|]. intros [_ H]. apply Q in H. discriminate.
    + intros N e He. destruct Hr as [Hr|[s Hr]]; [contradiction|]. rewrite Hr in He. congruence.
    + intros N. rewrite N. reflexivity.
Qed.

(** ** VerdictReportComputedTask *)
(** equality of received TaskToCompute messages: header type, timestamp, signature
    and serialized slots *)
Definition ttc_equal (m n : pyval) : Prop :=
  (m = VNone /\ n = VNone) \/
  exists ty ts enc sig a ty' ts' enc' sig' a' s s',
    m = VMsg MTaskToCompute ty ts enc sig a /\ n = VMsg MTaskToCompute ty' ts' enc' sig' a' /\
    py_eq ty ty' = true /\ py_eq ts ts' = true /\ py_eq sig sig' = true /\
    slots MTaskToCompute a = Ok s /\ slots MTaskToCompute a' = Ok s' /\ py_eq s s' = true.
Definition none_or_ttc (v : pyval) : Prop := v = VNone \/ exists ty ts enc sig a, v = VMsg MTaskToCompute ty ts enc sig a.
Lemma val_eq_ttc x y : none_or_ttc x -> none_or_ttc y -> (val_eq x y = Ok true <-> ttc_equal x y).
Proof.
  intros [->|(ty & ts & enc & sig & a & ->)] [->|(ty' & ts' & enc' & sig' & a' & ->)]; cbn [val_eq].
  - split; [intros _; left; auto|reflexivity].
  - split; [discriminate|]. intros [[_ H]|(? & ? & ? & ? & ? & ? & ? & ? & ? & ? & ? & ? & H & _)]; discriminate H.
  - split; [discriminate|]. intros [[H _]|(? & ? & ? & ? & ? & ? & ? & ? & ? & ? & ? & ? & _ & H & _)]; discriminate H.
  - unfold msg_eq. rewrite mcls_eqb_refl. cbn [andb]. split.
    + destruct (py_eq ty ty') eqn:A; [|discriminate]. destruct (py_eq ts ts') eqn:B; [|discriminate]. destruct (py_eq sig sig') eqn:D; [|discriminate].
      cbn [andb]. intros H. apply bind_ok in H as (s & Hs & H). apply bind_ok in H as (s' & Hs' & H). apply Ok_inj in H.
      right. exists ty, ts, enc, sig, a, ty', ts', enc', sig', a', s, s'. auto 12.
    + intros [[H _]|(? & ? & ? & ? & ? & ? & ? & ? & ? & ? & s & s' & H1 & H2 & A & B & D & Hs & Hs' & Q)]; [discriminate H|].
      injection H1 as <- <- <- <- <-. injection H2 as <- <- <- <- <-. rewrite A, B, D. cbn [andb]. rewrite Hs. cbn [bind]. rewrite Hs'. cbn [bind]. rewrite Q. reflexivity.
Qed.
Lemma verdict_iff ty ts enc sig a ack ack_rct ack_ttc force force_rct force_ttc : let m := VMsg MVerdictReportComputedTask ty ts enc sig a in
  attr_get_or_none "ack_report_computed_task" a = ack -> getattr "report_computed_task" ack = Ok ack_rct -> getattr "task_to_compute" ack_rct = Ok ack_ttc ->
  attr_get_or_none "force_report_computed_task" a = force -> getattr "report_computed_task" force = Ok force_rct -> getattr "task_to_compute" force_rct = Ok force_ttc ->
  none_or_ttc ack_ttc -> none_or_ttc force_ttc ->
  (is_valid m = Ok tt <-> ttc_equal force_ttc ack_ttc) /\
  (forall s s', (forall ty ts enc sig a, ack_ttc = VMsg MTaskToCompute ty ts enc sig a -> slots MTaskToCompute a = Ok s) ->
     (forall ty ts enc sig a, force_ttc = VMsg MTaskToCompute ty ts enc sig a -> slots MTaskToCompute a = Ok s') ->
     (exists r, msg_repr m = Ok r) ->
     is_valid m = Ok tt \/ is_valid m = Err EValidationError).
Proof.
  intros m A B D F G H N1 N2. change (is_valid m) with (verdict_valid m). unfold verdict_valid, m.
  rewrite !(getattr_slot MVerdictReportComputedTask) by slots_in. rewrite A. cbn [bind]. rewrite B. cbn [bind]. rewrite D. cbn [bind].
  rewrite F. cbn [bind]. rewrite G. cbn [bind]. rewrite H. cbn [bind]. rewrite <- (val_eq_ttc _ _ N2 N1). split.
  - destruct (val_eq force_ttc ack_ttc) as [[|]|e]; cbn [bind]; [|destruct (msg_repr _); cbn [bind]|]; split; try discriminate; try reflexivity; congruence.
  - intros s s' H1 H2 [r R]. unfold m in R. rewrite R. cbn [bind]. destruct N1 as [->|(ty1 & ts1 & enc1 & sig1 & a1 & ->)], N2 as [->|(ty2 & ts2 & enc2 & sig2 & a2 & ->)]; cbn [val_eq].
    + left. reflexivity.
    + right. reflexivity.
    + right. reflexivity.
    + unfold msg_eq. rewrite (H1 _ _ _ _ _ eq_refl), (H2 _ _ _ _ _ eq_refl). cbn [bind].
      destruct (mcls_eqb MTaskToCompute MTaskToCompute && py_eq ty2 ty1 && py_eq ts2 ts1 && py_eq sig2 sig1); cbn [bind]; [|right; reflexivity].
      destruct (py_eq s' s); auto.
Qed.

(** ** Files of a token *)
Definition category_of (kvs : list (pyval * pyval)) : pyval := match dict_get (skey "category") kvs with Some v => v | None => VNone end.
Definition of_category (cat f : pyval) : Prop := exists d kvs, f = VDict d kvs /\ py_eq (category_of kvs) cat = true.
Definition is_file (f : pyval) : Prop := exists d kvs, f = VDict d kvs.
Lemma find_file_spec cat l : Forall is_file l ->
  (exists pre f post, l = pre ++ f :: post /\ Forall (fun g => ~ of_category cat g) pre /\ of_category cat f /\ find_file cat l = Ok f) \/
  (Forall (fun g => ~ of_category cat g) l /\ find_file cat l = Ok VNone).
Proof.
  induction 1 as [|f l (d & kvs & ->) _ IH]; [right; split; [constructor|reflexivity]|]. cbn [find_file]. fold (category_of kvs).
  destruct (py_eq (category_of kvs) cat) eqn:Q.
  - left. exists [], (VDict d kvs), l. split; [reflexivity|]. split; [constructor|]. split; [exists d, kvs; auto|reflexivity].
  - assert (N : ~ of_category cat (VDict d kvs)) by (intros (d' & kvs' & E & Q'); injection E as <- <-; congruence).
    destruct IH as [(pre & f & post & -> & Hp & Hf & E)|[Hn E]].
    + left. exists (VDict d kvs :: pre), f, post. split; [reflexivity|]. split; [constructor; assumption|]. auto.
    + right. split; [constructor; assumption|exact E].
Qed.
Lemma file_info_first ty ts enc sig a l cat f : attr_get_or_none "files" a = VList l -> Forall is_file l -> f <> VNone ->
  (get_file_info (VMsg MFileTransferToken ty ts enc sig a) cat = Ok f <->
   exists pre post, l = pre ++ f :: post /\ of_category cat f /\ Forall (fun g => ~ of_category cat g) pre).
Proof.
  intros A Hl Nf. unfold get_file_info. rewrite getattr_slot by slots_in. rewrite A. cbn [bind py_iter].
  destruct (find_file_spec cat l Hl) as [(pre & g & post & -> & Hp & Hg & ->)|[Hn ->]]; split.
  - intros H. apply Ok_inj in H. subst g. eauto.
  - intros (pre' & post' & E & Hf & Hp'). f_equal.
    clear Hl A. revert pre' E Hp'. induction pre as [|x pre IH]; intros [|y pre'] E Hp'; cbn [app] in E.
    + congruence.
    + inversion E; subst. inversion Hp'; subst. contradiction.
    + inversion E; subst. inversion Hp; subst. contradiction.
    + inversion E; subst. inversion Hp; inversion Hp'; subst. eapply IH; eassumption.
  - intros H. apply Ok_inj in H. subst f. contradiction.
  - intros (pre & post & -> & Hf & _). exfalso. rewrite Forall_forall in Hn. apply (Hn f); [apply in_elt|exact Hf].
Qed.
Lemma file_info_none ty ts enc sig a l cat : attr_get_or_none "files" a = VList l -> Forall is_file l ->
  (get_file_info (VMsg MFileTransferToken ty ts enc sig a) cat = Ok VNone <-> Forall (fun g => ~ of_category cat g) l).
Proof.
  intros A Hl. unfold get_file_info. rewrite getattr_slot by slots_in. rewrite A. cbn [bind py_iter].
  destruct (find_file_spec cat l Hl) as [(pre & g & post & -> & Hp & Hg & ->)|[Hn ->]]; split; auto.
  - intros H. apply Ok_inj in H. subst g. destruct Hg as (d & kvs & H & _). discriminate H.
  - intros H. exfalso. rewrite Forall_forall in H. apply (H g); [apply in_elt|exact Hg].
Qed.
Lemma operation_exclusive ty ts enc sig a : let m := VMsg MFileTransferToken ty ts enc sig a in
  exists b b', is_upload m = Ok b /\ is_download m = Ok b' /\ (b && b' = false).
Proof.
  intros m. unfold is_upload, is_download, m. rewrite !getattr_slot by slots_in. cbn [bind]. set (o := attr_get_or_none "operation" a). clearbody o.
  eexists _, _. split; [reflexivity|]. split; [reflexivity|].
  destruct o; try reflexivity; cbn [py_eq num_of str_of is_string_enum].
  2: destruct (is_string_enum e); [|reflexivity].
  all: match goal with |- ?x && ?y = false => destruct x eqn:A; destruct y eqn:B; try reflexivity; exfalso end.
  all: apply ustr_eqb_eq in A; apply ustr_eqb_eq in B; rewrite A in B; discriminate B.
Qed.
Lemma operation_kind ty ts enc sig a s : attr_get_or_none "operation" a = VEnum EnFTTOperation s ->
  let m := VMsg MFileTransferToken ty ts enc sig a in
  (is_upload m = Ok true <-> s = "upload"%string) /\ (is_download m = Ok true <-> s = "download"%string).
Proof.
  intros H m. unfold is_upload, is_download, m. rewrite !getattr_slot by slots_in. rewrite H. cbn [bind py_eq num_of str_of is_string_enum].
  assert (G : forall t, ustr_eqb (u s) (u t) = true <-> s = t).
  { intros t. rewrite ustr_eqb_eq. split; [apply u_inj|intros ->; reflexivity]. }
  rewrite <- !G. split; split; intros Q; congruence.
Qed.

(** ** Chain accessors *)
Lemma first_truthy_spec l :
  (exists pre v post, l = pre ++ Some v :: post /\ truthy v = true /\ Forall (fun o => forall x, o = Some x -> truthy x = false) pre /\ first_truthy l = v) \/
  (Forall (fun o => forall x, o = Some x -> truthy x = false) l /\ first_truthy l = VNone).
Proof.
  induction l as [|[v|] l IH]; cbn [first_truthy].
  - right. split; [constructor|reflexivity].
  - destruct (truthy v) eqn:T.
    + left. exists [], v, l. auto.
    + assert (N : forall x, Some v = Some x -> truthy x = false) by (intros x [= <-]; exact T).
      destruct IH as [(pre & w & post & -> & Tw & F & E)|[F E]].
      * left. exists (Some v :: pre), w, post. split; [reflexivity|]. auto.
      * right. auto.
  - assert (N : forall x, None = Some x -> truthy x = false) by (intros x H; discriminate H).
    destruct IH as [(pre & w & post & -> & Tw & F & E)|[F E]].
    + left. exists (None :: pre), w, post. split; [reflexivity|]. auto.
    + right. auto.
Qed.
(** [first_value name a ps v]: among the slots [ps], in order, [v] is the first
    truthy value of the attribute [name]; None if there is none *)
Inductive first_value (name : string) (a : attrs_t) : list string -> pyval -> Prop :=
| fv_none : first_value name a [] VNone
| fv_here p ps w v : attr_get p a = Some w -> acc name w = Some v -> truthy v = true -> first_value name a (p :: ps) v
| fv_skip p ps v : (forall w x, attr_get p a = Some w -> acc name w = Some x -> truthy x = false) -> first_value name a ps v ->
    first_value name a (p :: ps) v.
Lemma assoc_acc name (a : attrs_t) k :
  assoc_or None k (map (fun kv => (fst kv, acc name (snd kv))) a) = match attr_get k a with Some w => acc name w | None => None end.
Proof.
  induction a as [|[k0 w] a IH]; cbn [map fst snd assoc_or attr_get]; [reflexivity|]. destruct (String.eqb k0 k); [reflexivity|exact IH].
Qed.
Lemma first_value_first name a ps :
  first_value name a ps (first_truthy (map (fun p => match attr_get p a with Some w => acc name w | None => None end) ps)).
Proof.
  induction ps as [|p ps IH]; cbn [map first_truthy]; [constructor|]. destruct (attr_get p a) as [w|] eqn:W.
  - destruct (acc name w) as [v|] eqn:V.
    + destruct (truthy v) eqn:T; [econstructor; eassumption|]. apply fv_skip; [|exact IH]. intros w' x Hw Hx. congruence.
    + apply fv_skip; [|exact IH]. intros w' x Hw Hx. congruence.
  - apply fv_skip; [|exact IH]. intros w' x Hw Hx. congruence.
Qed.
Lemma first_value_unique name a ps v v' : first_value name a ps v -> first_value name a ps v' -> v = v'.
Proof.
  intros H. revert v'. induction H as [|p ps w v Hw Hv T|p ps v N _ IH]; intros v' H'.
  - inversion H'. reflexivity.
  - inversion H' as [|p' ps' w' x Hw' Hx T'|p' ps' x N' H'']; subst; [congruence|]. rewrite (N' _ _ Hw Hv) in T. discriminate.
  - inversion H' as [|p' ps' w' x Hw' Hx T'|p' ps' x N' H'']; subst; [rewrite (N _ _ Hw' Hx) in T'; discriminate|]. apply IH. assumption.
Qed.
Lemma acc_chain c name ty ts enc sig a : is_task_message c = true -> c <> MTaskToCompute -> In name chain_names -> ~ In name (slot_names c) ->
  acc name (VMsg c ty ts enc sig a) = Some (first_truthy (map (fun p => match attr_get p a with Some w => acc name w | None => None end) (task_id_providers c))).
Proof.
  intros T N H NS.
  assert (X : existsb (String.eqb name) (slot_names c) = false).
  { destruct (existsb _ _) eqn:Q; [|reflexivity]. apply existsb_exists in Q as (y & Hy & Q). apply String.eqb_eq in Q. subst. contradiction. }
  assert (Y : existsb (String.eqb name) chain_names = true) by (apply existsb_exists; exists name; split; [exact H|apply String.eqb_refl]).
  cbn [acc]. cbv zeta. rewrite X. rewrite (map_ext _ _ (fun k => assoc_acc name a k)).
  destruct c; try discriminate T; try congruence; rewrite T, Y; reflexivity.
Qed.
Lemma accessor_first c name ty ts enc sig a v : is_task_message c = true -> c <> MTaskToCompute -> In name chain_names -> ~ In name (slot_names c) ->
  (getattr name (VMsg c ty ts enc sig a) = Ok v <-> first_value name a (task_id_providers c) v).
Proof.
  intros T N H NS. rewrite getattr_acc, acc_chain by assumption. split.
  - intros Q. apply Some_inj in Q. subst v. apply first_value_first.
  - intros Q. f_equal. eapply first_value_unique; [apply first_value_first|exact Q].
Qed.

(** the providers of a task message are single slots for task messages *)
Lemma provider_slot c p : is_task_message c = true -> In p (task_id_providers c) ->
  In p (slot_names c) /\ exists d an, slot_kind c p = KMsg d an false /\ is_task_message d = true.
Proof.
  intros T Hp.
  assert (F : forallb (fun c => forallb (fun p => existsb (String.eqb p) (slot_names c) &&
      match slot_kind c p with KMsg d _ false => is_task_message d | _ => false end) (task_id_providers c)) all_classes = true) by (vm_compute; reflexivity).
  pose proof (for_all_classes _ F c) as G. cbv beta in G. rewrite forallb_forall in G. specialize (G p Hp). apply andb_true_iff in G as [G1 G2]. split.
  - apply existsb_exists in G1 as (y & Hy & Q). apply String.eqb_eq in Q. subst. exact Hy.
  - destruct (slot_kind c p) as [| |d an il| | | | | | | | | |]; try discriminate G2. destruct il; [discriminate G2|]. eauto.
Qed.
(** of the chain's names only [task_to_compute] is a slot, and then the only provider *)
Lemma chain_slot c name : is_task_message c = true -> c <> MTaskToCompute -> In name chain_names -> In name (slot_names c) ->
  name = "task_to_compute"%string /\ task_id_providers c = [name] /\ exists an, slot_kind c name = KMsg MTaskToCompute an false.
Proof.
  intros T N Hn Hs.
  assert (F : forallb (fun c => negb (is_task_message c) || mcls_eqb c MTaskToCompute || forallb (fun n => negb (existsb (String.eqb n) (slot_names c)) ||
      (String.eqb n "task_to_compute" && match task_id_providers c with [p] => String.eqb p n | _ => false end &&
       match slot_kind c n with KMsg d _ false => mcls_eqb d MTaskToCompute | _ => false end)) chain_names) all_classes = true) by (vm_compute; reflexivity).
  pose proof (for_all_classes _ F c) as G. cbv beta in G. rewrite T in G. cbn [negb orb] in G.
  destruct (mcls_eqb c MTaskToCompute) eqn:Q; [apply mcls_eqb_eq in Q; contradiction|]. cbn [orb] in G.
  rewrite forallb_forall in G. specialize (G name Hn).
  rewrite (proj2 (existsb_exists _ _)) in G by (exists name; split; [exact Hs|apply String.eqb_refl]). cbn [negb orb] in G.
  apply andb_true_iff in G as [G G3]. apply andb_true_iff in G as [G1 G2]. apply String.eqb_eq in G1. split; [exact G1|].
  destruct (task_id_providers c) as [|p [|]]; try discriminate G2. apply String.eqb_eq in G2. subst p. split; [reflexivity|].
  destruct (slot_kind c name) as [| |d an il| | | | | | | | | |]; try discriminate G3. destruct il; [discriminate G3|]. apply mcls_eqb_eq in G3. subst d. eauto.
Qed.

Definition is_ttc (v : pyval) : Prop := exists ty ts enc sig a, v = VMsg MTaskToCompute ty ts enc sig a.
Lemma loaded_provider c a p w : is_task_message c = true -> loaded c a -> In p (task_id_providers c) -> attr_get p a = Some w ->
  w = VNone \/ exists d ty ts enc sig b, w = VMsg d ty ts enc sig b /\ is_task_message d = true /\ loaded d b /\ (rank d < rank c)%nat.
Proof.
  intros T L Hp Hw. destruct (provider_slot c p T Hp) as (_ & d & an & K & Td). destruct L as [_ _ L].
  apply attr_get_In in Hw. destruct (L p w d an false Hw K) as [->|[[-> _]|[[_ (ty & ts & enc & sig & b & -> & _ & _ & _ & _ & Lb)]|[Q _]]]]; auto; [|discriminate Q].
  right. exists d, ty, ts, enc, sig, b. split; [reflexivity|]. split; [exact Td|]. split; [exact Lb|]. eapply rank_decreases, K.
Qed.
Lemma loaded_ttc_slot c a : is_task_message c = true -> c <> MTaskToCompute -> loaded c a -> In "task_to_compute"%string (slot_names c) ->
  attr_get_or_none "task_to_compute" a = VNone \/
  exists ty ts enc sig b, attr_get_or_none "task_to_compute" a = VMsg MTaskToCompute ty ts enc sig b /\ attr_get "task_to_compute" a = Some (VMsg MTaskToCompute ty ts enc sig b) /\ loaded MTaskToCompute b.
Proof.
  intros T N L Hs. destruct (chain_slot c "task_to_compute" T N ltac:(slots_in) Hs) as (_ & _ & an & K). destruct L as [_ _ L].
  unfold attr_get_or_none. destruct (attr_get "task_to_compute" a) as [w|] eqn:W; [|left; reflexivity].
  pose proof (attr_get_In _ _ _ W) as Hw. destruct (L _ w _ _ _ Hw K) as [->|[[-> _]|[[_ (ty & ts & enc & sig & b & -> & _ & _ & _ & _ & Lb)]|[Q _]]]]; auto; [|discriminate Q].
  right. exists ty, ts, enc, sig, b. auto.
Qed.

(** what an accessor of a received message returns comes from a TaskToCompute in it *)
Lemma accessor_source : forall n c ty ts enc sig a name, (rank c < n)%nat -> is_task_message c = true -> loaded c a -> In name chain_names ->
  exists v, getattr name (VMsg c ty ts enc sig a) = Ok v /\
    (v = VNone \/ exists t, reach (VMsg c ty ts enc sig a) t /\ is_ttc t /\ getattr name t = Ok v).
Proof.
  induction n as [|n IH]; intros c ty ts enc sig a name R T L Hn; [lia|].
  destruct (mcls_eq_dec c MTaskToCompute) as [->|N].
  - assert (exists v, getattr name (VMsg MTaskToCompute ty ts enc sig a) = Ok v) as [v Hv].
    { assert (D : attr_get_or_none "compute_task_def" a = VNone \/ exists kvs, attr_get_or_none "compute_task_def" a = VDict DCTD kvs).
      { destruct L as [F L _]. unfold attr_get_or_none. destruct (attr_get "compute_task_def" a) as [w|] eqn:W; [|left; reflexivity].
        apply attr_get_In in W. destruct (L _ _ W) as [_ [[->|[(kvs & -> & _)|[Q _]]] _]]; [left; reflexivity|right; eauto|discriminate Q]. }
      unfold getattr. cbn [chain_names In] in Hn. destruct Hn as [<-|[<-|[<-|[<-|[<-|[]]]]]].
      - rewrite acc_ttc_id by (left; reflexivity). cbv zeta. destruct D as [->|[kvs ->]]; [eexists; reflexivity|]. unfold ctd_item. destruct (truthy _); [destruct (dict_get _ _)|]; eexists; reflexivity.
      - rewrite acc_ttc_id by (right; reflexivity). cbv zeta. destruct D as [->|[kvs ->]]; [eexists; reflexivity|]. unfold ctd_item. destruct (truthy _); [destruct (dict_get _ _)|]; eexists; reflexivity.
      - eexists. reflexivity.
      - eexists. reflexivity.
      - eexists. reflexivity. }
    exists v. split; [exact Hv|]. right. exists (VMsg MTaskToCompute ty ts enc sig a). split; [constructor|]. split; [repeat eexists|exact Hv].
  - destruct (in_dec string_dec name (slot_names c)) as [Hs|Hs].
    + destruct (chain_slot c name T N Hn Hs) as (-> & _ & an & K). rewrite getattr_slot by exact Hs. eexists. split; [reflexivity|].
      destruct (loaded_ttc_slot c a T N L Hs) as [->|(ty' & ts' & enc' & sig' & b & -> & W & Lb)]; [left; reflexivity|right].
      exists (VMsg MTaskToCompute ty' ts' enc' sig' b). split; [|split; [repeat eexists|reflexivity]].
      eapply reach_slot; [exact T|exact Hs|exact W|reflexivity|constructor].
    + unfold getattr. rewrite (acc_chain c name ty ts enc sig a T N Hn Hs). eexists. split; [reflexivity|].
      assert (G : forall ps, (forall p, In p ps -> In p (task_id_providers c)) -> forall v, first_value name a ps v ->
        v = VNone \/ exists t, reach (VMsg c ty ts enc sig a) t /\ is_ttc t /\ (acc name t = Some v)).
      { intros ps Hps v H. induction H as [|p ps w v Hw Hv Tv|p ps v Nv _ IHf]; [left; reflexivity| |apply IHf; intros q Hq; apply Hps; right; exact Hq].
        pose proof (Hps p (or_introl eq_refl)) as Hp.
        destruct (loaded_provider c a p w T L Hp Hw) as [->|(d & ty' & ts' & enc' & sig' & b & -> & Td & Lb & Rd)]; [discriminate Hv|].
        destruct (IH d ty' ts' enc' sig' b name ltac:(lia) Td Lb Hn) as (v' & Hv' & Q). apply getattr_acc in Hv'. assert (v' = v) by congruence. subst v'.
        destruct Q as [->|(t & Rt & Ht & Gt)]; [left; reflexivity|right]. exists t. split; [|split; [exact Ht|apply getattr_acc; exact Gt]].
        eapply reach_slot; [exact T|exact (proj1 (provider_slot c p T Hp))|exact Hw|exact Td|exact Rt]. }
      destruct (G _ (fun _ H => H) _ (first_value_first name a (task_id_providers c))) as [E|(t & Rt & Ht & Gt)]; [left; exact E|right].
      exists t. split; [exact Rt|]. split; [exact Ht|]. rewrite Gt. reflexivity.
Qed.
Lemma accessor_from_chain c ty ts enc sig a name : is_task_message c = true -> loaded c a -> In name chain_names ->
  exists v, getattr name (VMsg c ty ts enc sig a) = Ok v /\
    (v = VNone \/ exists t, reach (VMsg c ty ts enc sig a) t /\ is_ttc t /\ getattr name t = Ok v).
Proof. intros. eapply accessor_source; [apply Nat.lt_succ_diag_r|assumption..]. Qed.

(** if no TaskToCompute inside lacks a value for [name], the accessor agrees with
    the message's own [task_to_compute] *)
Definition filled (name : string) (m : pyval) : Prop :=
  forall t, reach m t -> is_ttc t -> exists v, getattr name t = Ok v /\ truthy v = true.
Lemma reach_trans x y z : reach x y -> reach y z -> reach x z.
Proof. induction 1; auto. intros. econstructor; eauto. Qed.
Lemma accessor_agrees_n : forall n c ty ts enc sig a name, (rank c < n)%nat -> is_task_message c = true -> loaded c a -> In name chain_names ->
  filled name (VMsg c ty ts enc sig a) ->
  (getattr "task_to_compute" (VMsg c ty ts enc sig a) = Ok VNone /\ getattr name (VMsg c ty ts enc sig a) = Ok VNone) \/
  exists t, getattr "task_to_compute" (VMsg c ty ts enc sig a) = Ok t /\ is_ttc t /\ reach (VMsg c ty ts enc sig a) t /\
    getattr name (VMsg c ty ts enc sig a) = getattr name t.
Proof.
  induction n as [|n IH]; intros c ty ts enc sig a name R T L Hn Hf; [lia|].
  destruct (mcls_eq_dec c MTaskToCompute) as [->|N].
  { right. eexists. split; [reflexivity|]. split; [repeat eexists|]. split; [constructor|reflexivity]. }
  set (m := VMsg c ty ts enc sig a) in *.
  (* each provider agrees *)
  assert (P : forall p, In p (task_id_providers c) ->
     let v k := match attr_get p a with Some w => acc k w | None => None end in
     (v "task_to_compute"%string = None /\ v name = None) \/
     (v "task_to_compute"%string = Some VNone /\ v name = Some VNone) \/
     exists t x, v "task_to_compute"%string = Some t /\ is_ttc t /\ reach m t /\ getattr name t = Ok x /\ truthy x = true /\ v name = Some x).
  { intros p Hp. cbv zeta. destruct (attr_get p a) as [w|] eqn:W; [|left; auto].
    destruct (loaded_provider c a p w T L Hp W) as [->|(d & ty' & ts' & enc' & sig' & b & -> & Td & Lb & Rd)]; [left; auto|right].
    assert (RS : forall t, reach (VMsg d ty' ts' enc' sig' b) t -> reach m t).
    { intros t Ht. eapply reach_slot; [exact T|exact (proj1 (provider_slot c p T Hp))|exact W|exact Td|exact Ht]. }
    assert (Hf' : filled name (VMsg d ty' ts' enc' sig' b)) by (intros t Ht It; apply Hf; [apply RS, Ht|exact It]).
    destruct (IH d ty' ts' enc' sig' b name ltac:(lia) Td Lb Hn Hf') as [[A B]|(t & A & It & Rt & B)].
    - left. split; apply getattr_acc; assumption.
    - right. destruct (Hf' t Rt It) as (x & Hx & Tx). exists t, x. split; [apply getattr_acc; exact A|]. split; [exact It|]. split; [apply RS, Rt|].
      split; [exact Hx|]. split; [exact Tx|]. apply getattr_acc. congruence. }
  destruct (in_dec string_dec name (slot_names c)) as [Hs|Hs].
  { destruct (chain_slot c name T N Hn Hs) as (-> & _ & an & K). unfold m. rewrite getattr_slot by exact Hs.
    destruct (loaded_ttc_slot c a T N L Hs) as [->|(ty' & ts' & enc' & sig' & b & -> & W & Lb)]; [left; auto|right].
    eexists. split; [reflexivity|]. split; [repeat eexists|]. split; [|reflexivity].
    eapply reach_slot; [exact T|exact Hs|exact W|reflexivity|constructor]. }
  assert (Ev : getattr name m = Ok (first_truthy (map (fun p => match attr_get p a with Some w => acc name w | None => None end) (task_id_providers c)))).
  { apply getattr_acc. apply acc_chain; assumption. }
  assert (G : forall ps, (forall p, In p ps -> In p (task_id_providers c)) ->
     let f k := first_truthy (map (fun p => match attr_get p a with Some w => acc k w | None => None end) ps) in
     (f "task_to_compute"%string = VNone /\ f name = VNone) \/
     exists t x, f "task_to_compute"%string = t /\ is_ttc t /\ reach m t /\ getattr name t = Ok x /\ f name = x).
  { induction ps as [|p ps IHp]; intros Hps; cbv zeta; [left; auto|]. cbn [map first_truthy].
    assert (IHp' := IHp (fun q Hq => Hps q (or_intror Hq))). cbv zeta in IHp'.
    specialize (P p (Hps p (or_introl eq_refl))). cbv zeta in P.
    destruct P as [[-> ->]|[[-> ->]|(t & x & -> & It & Rt & Gx & Tx & ->)]]; cbn [truthy]; try exact IHp'.
    right. rewrite Tx. assert (truthy t = true) as -> by (destruct It as (? & ? & ? & ? & ? & ->); reflexivity). exists t, x. auto. }
  specialize (G (task_id_providers c) (fun _ H => H)). cbv zeta in G.
  destruct (in_dec string_dec "task_to_compute"%string (slot_names c)) as [Hs'|Hs'].
  - destruct (chain_slot c "task_to_compute" T N ltac:(slots_in) Hs') as (_ & PP & an & K). 
    assert (R1 : getattr "task_to_compute" m = Ok (attr_get_or_none "task_to_compute" a)) by (apply getattr_slot; exact Hs'). rewrite R1.
    rewrite PP in Ev. cbn [map] in Ev.
    destruct (loaded_ttc_slot c a T N L Hs') as [E|(ty' & ts' & enc' & sig' & b & E & W & Lb)]; rewrite E.
    + left. split; [reflexivity|]. rewrite Ev. f_equal. unfold attr_get_or_none in E. destruct (attr_get "task_to_compute" a) as [w|]; [subst w|]; reflexivity.
    + right. set (t := VMsg MTaskToCompute ty' ts' enc' sig' b) in *. exists t. split; [reflexivity|].
      assert (It : is_ttc t) by (unfold t; repeat eexists).
      assert (Rt : reach m t) by (eapply reach_slot; [exact T|exact Hs'|exact W|reflexivity|constructor]).
      split; [exact It|]. split; [exact Rt|]. rewrite Ev, W. destruct (Hf t Rt It) as (x & Hx & Tx). rewrite Hx. apply getattr_acc in Hx.
      cbn [first_truthy]. rewrite Hx, Tx. reflexivity.
  - assert (Et : getattr "task_to_compute" m = Ok (first_truthy (map (fun p => match attr_get p a with Some w => acc "task_to_compute" w | None => None end) (task_id_providers c)))).
    { apply getattr_acc. apply acc_chain; [assumption..|slots_in|exact Hs']. }
    destruct G as [[A B]|(t & x & A & It & Rt & Gx & B)].
    + left. rewrite Et, Ev, A, B. auto.
    + right. exists t. split; [congruence|]. split; [exact It|]. split; [exact Rt|]. congruence.
Qed.
Lemma accessor_agrees c ty ts enc sig a name : is_task_message c = true -> loaded c a -> In name chain_names ->
  filled name (VMsg c ty ts enc sig a) ->
  (getattr "task_to_compute" (VMsg c ty ts enc sig a) = Ok VNone /\ getattr name (VMsg c ty ts enc sig a) = Ok VNone) \/
  exists t, getattr "task_to_compute" (VMsg c ty ts enc sig a) = Ok t /\ is_ttc t /\ reach (VMsg c ty ts enc sig a) t /\
    getattr name (VMsg c ty ts enc sig a) = getattr name t.
Proof. intros. eapply accessor_agrees_n; [apply Nat.lt_succ_diag_r|assumption..]. Qed.

(** ** The protocol's times *)
Lemma times :
  (CMT = 4 * 60 * 1000000 /\ FAT = 16 * 60 * 1000000 /\ AVCT = 28 * 60 * 1000000 /\ PDT = 12 * 60 * 60 * 1000000 /\
   MTD = 10 * 1000000) /\
  forall c, msg_delay c = (if mcls_eqb c MForceReportComputedTask then (2 * 5 + 2 * 60 + 15) * 1000000 else 0) /\
    0 <= msg_delay c < CMT.
Proof. split; [repeat split|]. intros c. destruct c; (split; [reflexivity|]); (split; [|reflexivity]); intro Q; discriminate Q. Qed.
