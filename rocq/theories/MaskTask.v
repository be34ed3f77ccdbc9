(** * The mask for a task: no desired workers, and monotonicity (C38) *)
From Verif Require Export MaskShare.

Lemma mask_none_desired sample F d p : - 2 ^ 40 <= d <= 0 -> 1 <= p <= 2 ^ 40 -> get_mask_for_task sample F d p = Err EValueError.
Proof.
  intros Hd Hp. unfold get_mask_for_task. replace (p <? 1) with false by lia. unfold py_truediv. replace (p =? 0) with false by lia.
  destruct (Z.eqb_spec d 0); [reflexivity|]. destruct (fdiv_pos (Z.abs d) (Z.abs p)) as [m e] eqn:Q. cbn [bind].
  unfold fdiv_pos in Q. injection Q as Qm _.
  assert (0 <= m).
  { rewrite <- Qm. set (x := fdiv_exp _ _). clearbody x. pose proof (scale_up_pos x). pose proof (scale_up_pos (- x)).
    apply rdiv_rne_ge; [apply Z.mul_pos_pos; lia|]. rewrite Z.mul_0_l. apply Z.mul_nonneg_nonneg; lia. }
  replace (0 <? Z.sgn d * Z.sgn p * m) with false; [reflexivity|]. rewrite (Z.sgn_neg d), (Z.sgn_pos p) by lia. lia.
Qed.
Lemma mask_task_monotone sample F d1 p1 d2 p2 m1 m2 : sample_ok sample -> floor_log2_ok F ->
  1 <= d1 <= d2 -> d2 <= 2 ^ 40 -> 1 <= p2 <= p1 -> p1 <= 2 ^ 40 ->
  get_mask_for_task sample F d1 p1 = Ok m1 -> get_mask_for_task sample F d2 p2 = Ok m2 -> num_bits m2 <= num_bits m1.
Proof.
  intros Hs HF D D' P P' G1 G2. destruct (mask_for_task sample F d1 p1 Hs HF ltac:(lia) ltac:(lia)) as (x1 & X1 & _ & K1).
  destruct (mask_for_task sample F d2 p2 Hs HF ltac:(lia) ltac:(lia)) as (x2 & X2 & _ & K2).
  assert (x1 = m1) by congruence. assert (x2 = m2) by congruence. subst x1 x2. pose proof (to_bits_length m1) as B.
  generalize dependent (num_bits m1). generalize dependent (num_bits m2). intros k2 K2 k1 K1 B. apply K2; [lia|].
  assert (p1 <= d1 * 2 ^ k1) by (apply K1; lia). assert (0 < 2 ^ k1) by (apply Z.pow_pos_nonneg; lia). nia.
Qed.
