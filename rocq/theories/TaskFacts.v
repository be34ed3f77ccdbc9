(** * Lemmas on the task message logic (C25-C27, C29-C31, C50, C51) *)
From Verif Require Export LoadFacts.

(** ** Timestamps of acceptances *)
Lemma truediv_exact x b : 0 < b -> Z.abs x < 2 ^ 53 -> exists m e, py_truediv (x * b) b = Ok (FFin m e) /\ e <= 0 /\ m = x * 2 ^ (- e).
Proof.
  intros Hb Hx. unfold py_truediv. replace (b =? 0) with false by lia. destruct (Z.eqb_spec (x * b) 0) as [H0|H0].
  - exists 0, 0. split; [reflexivity|]. split; [lia|]. assert (x = 0) by nia. subst. reflexivity.
  - assert (Nx : x <> 0) by (intros ->; lia).
    rewrite Z.abs_mul, (Z.abs_eq b) by lia. set (y := Z.abs x) in *. assert (Hy : 0 < y) by lia.
    assert (He : fdiv_exp (y * b) b <= 0) by (apply fdiv_exp_nonpos; nia).
    unfold fdiv_pos. set (e := fdiv_exp (y * b) b) in *. rewrite (scale_up_nonpos e He), Z.mul_1_r.
    assert (Hs : scale_up (- e) = 2 ^ (- e)) by (unfold scale_up; rewrite Z.max_r by lia; reflexivity). rewrite Hs.
    assert (R : rdiv_rne (y * b * 2 ^ (- e)) b = y * 2 ^ (- e)).
    { apply Z.le_antisymm; [apply rdiv_rne_le|apply rdiv_rne_ge]; lia. }
    rewrite R. eexists _, e. split; [reflexivity|]. split; [exact He|]. rewrite Z.sgn_mul, (Z.sgn_pos b) by lia. unfold y.
    rewrite !Z.mul_1_r, Z.mul_assoc. f_equal. lia.
Qed.
Lemma truediv_neg a b : 0 < a -> 0 < b -> exists m e, py_truediv (- a) b = Ok (FFin (- m) e) /\ 2 ^ 52 <= m <= 2 ^ 53 /\
  2 ^ 52 * (b * scale_up e) <= a * scale_up (- e) < 2 ^ 53 * (b * scale_up e).
Proof.
  intros Ha Hb. unfold py_truediv. replace (b =? 0) with false by lia. replace (- a =? 0) with false by lia.
  rewrite Z.abs_opp, !Z.abs_eq by lia. unfold fdiv_pos. pose proof (fdiv_exp_spec a b Ha Hb) as S. cbv zeta in S.
  set (e := fdiv_exp a b) in *. pose proof (scale_up_pos e). replace (Z.sgn (- a)) with (- (1)) by lia. replace (Z.sgn b) with 1 by lia.
  exists (rdiv_rne (a * scale_up (- e)) (b * scale_up e)), e. split; [f_equal; f_equal; lia|]. split; [|exact S].
  split; [apply rdiv_rne_ge|apply rdiv_rne_le]; nia.
Qed.

Lemma ltb_fin m1 e1 t : fl_ltb (FFin m1 e1) (FFin t 0) = (m1 * scale_up e1 <? t * scale_up (- e1)).
Proof.
  unfold fl_ltb, scale_up. cbv zeta. destruct (Z.leb_spec 0 e1).
  - rewrite Z.min_r, Z.max_r, Z.max_l by lia. rewrite !Z.sub_0_r. reflexivity.
  - rewrite Z.min_l, Z.max_l, Z.max_r by lia. rewrite Z.sub_diag, Z.sub_0_l. reflexivity.
Qed.
(** [payment_ts] and the timestamp are ints *)
Lemma sra_valid_int z t : 0 <= t < 2 ^ 52 -> - 2 ^ 1023 < z ->
  sra_valid (VInt z) (VInt t) = if (t - 900 <=? z) && (z <=? t) then Ok tt else Err EValidationError.
Proof.
  intros Ht Hz. unfold sra_valid, py_lt. cbn [num_of bind].
  assert (L : fl_ltb (FFin t 0) (FFin z 0) = (t <? z)).
  { rewrite ltb_fin. change (scale_up 0) with 1. change (scale_up (- 0)) with 1. rewrite !Z.mul_1_r. reflexivity. }
  rewrite L. destruct (Z.ltb_spec t z) as [H|H].
  { replace (z <=? t) with false by lia. rewrite andb_false_r. reflexivity. }
  replace (z <=? t) with true by lia. rewrite andb_true_r. unfold to_float.
  destruct (Z.ltb_spec (- 2 ^ 53) z) as [B|B].
  - destruct (truediv_exact z 1) as (m & e & E1 & He & Hm); [lia|apply Z.abs_lt; split; [lia|]|].
    { eapply Z.le_lt_trans; [exact H|]. eapply Z.lt_trans; [apply Ht|]. reflexivity. }
    rewrite Z.mul_1_r in E1. rewrite E1. cbn [bind]. rewrite (scale_up_nonpos e He).
    assert (Hs : scale_up (- e) = 2 ^ (- e)) by (unfold scale_up; rewrite Z.max_r by lia; reflexivity). rewrite Hs, Z.mul_1_r.
    assert (P : 0 < 2 ^ (- e)) by (apply Z.pow_pos_nonneg; lia).
    assert (O : (Z.abs m <? 2 ^ 1024 * 2 ^ (- e)) = true).
    { apply Z.ltb_lt. rewrite Hm, Z.abs_mul, (Z.abs_eq (2 ^ (- e))) by lia. apply Z.mul_lt_mono_pos_r; [exact P|].
      apply Z.lt_trans with (2 ^ 54); [|reflexivity]. apply Z.abs_lt. split; [|].
      - apply Z.lt_trans with (- 2 ^ 53); [reflexivity|exact B].
      - eapply Z.le_lt_trans; [exact H|]. eapply Z.lt_trans; [apply Ht|]. reflexivity. }
    rewrite O. cbn [bind]. unfold fl_add_int. rewrite Hs, (scale_up_nonpos e He), Z.mul_1_r.
    replace (m + 900 * 2 ^ (- e)) with ((z + 900) * 2 ^ (- e)) by (rewrite Hm; ring).
    destruct (truediv_exact (z + 900) (2 ^ (- e))) as (m' & e' & E2 & He' & Hm'); [exact P| |].
    { apply Z.abs_lt. split; [lia|]. change (2 ^ 53) with (2 ^ 52 + 2 ^ 52). assert (900 < 2 ^ 52) by reflexivity. lia. }
    rewrite E2. cbn [bind]. rewrite ltb_fin, (scale_up_nonpos e' He'), Z.mul_1_r.
    assert (Hs' : scale_up (- e') = 2 ^ (- e')) by (unfold scale_up; rewrite Z.max_r by lia; reflexivity). rewrite Hs', Hm'.
    assert (P' : 0 < 2 ^ (- e')) by (apply Z.pow_pos_nonneg; lia).
    destruct (Z.leb_spec (t - 900) z) as [Q|Q].
    + replace ((z + 900) * 2 ^ (- e') <? t * 2 ^ (- e')) with false; [reflexivity|]. symmetry. apply Z.ltb_ge. apply Z.mul_le_mono_nonneg_r; lia.
    + replace ((z + 900) * 2 ^ (- e') <? t * 2 ^ (- e')) with true; [reflexivity|]. symmetry. apply Z.ltb_lt. apply Z.mul_lt_mono_pos_r; lia.
  - replace (t - 900 <=? z) with false by (symmetry; apply Z.leb_gt; assert (2 ^ 53 > 900) by reflexivity; lia).
    assert (Hz' : z = - (- z)) by lia. set (a := - z) in *. assert (Ha : 2 ^ 53 <= a) by (unfold a; lia).
    assert (Ha' : a < 2 ^ 1023) by (unfold a; lia).
    assert (Pa : 0 < a) by (apply Z.lt_le_trans with (2 ^ 53); [reflexivity|exact Ha]).
    rewrite Hz'. clearbody a. clear z Hz Hz' L H B.
    destruct (truediv_neg a 1 Pa ltac:(lia)) as (m & e & E1 & [M1 M2] & S1 & S2). rewrite Z.mul_1_l in S1, S2. rewrite E1. cbn [bind].
    pose proof (scale_up_pos e) as P1. pose proof (scale_up_pos (- e)) as P2.
    assert (He : 0 < e).
    { destruct (Z.leb_spec e 0) as [Q|Q]; [exfalso|exact Q]. rewrite (scale_up_nonpos e Q) in S2. nia. }
    assert (Hs : scale_up (- e) = 1) by (apply scale_up_nonpos; lia). rewrite Hs in *. rewrite !Z.mul_1_r in *.
    assert (O : (Z.abs (- m) * scale_up e <? 2 ^ 1024) = true).
    { apply Z.ltb_lt. rewrite Z.abs_opp, Z.abs_eq by lia. change (2 ^ 1024) with (2 * 2 ^ 1023). change (2 ^ 53) with (2 * 2 ^ 52) in M2. nia. }
    rewrite O. cbn [bind]. unfold fl_add_int. rewrite Hs, !Z.mul_1_r.
    assert (G2 : 2 <= scale_up e). { unfold scale_up. rewrite Z.max_r by lia. change 2 with (2 ^ 1) at 1. apply Z.pow_le_mono_r; lia. }
    assert (K : 2 ^ 52 <= m * scale_up e - 900). { assert (2 ^ 52 > 900) by reflexivity. nia. }
    replace (- m * scale_up e + 900) with (- (m * scale_up e - 900)) by ring. set (a' := m * scale_up e - 900) in *. clearbody a'.
    assert (Pa' : 0 < a') by (apply Z.lt_le_trans with (2 ^ 52); [reflexivity|exact K]).
    destruct (truediv_neg a' 1 Pa' ltac:(lia)) as (m' & e' & E2 & [M1' M2'] & _). rewrite E2. cbn [bind].
    rewrite ltb_fin. replace (- m' * scale_up e' <? t * scale_up (- e')) with true; [reflexivity|]. symmetry. apply Z.ltb_lt.
    pose proof (scale_up_pos e'). pose proof (scale_up_pos (- e')). assert (0 < 2 ^ 52) by reflexivity. nia.
Qed.
Lemma sra_overflow z t : 0 <= t -> z <= - 2 ^ 1024 -> sra_valid (VInt z) (VInt t) = Err EOverflowError.
Proof.
  intros Ht Hz. unfold sra_valid, py_lt. cbn [num_of bind].
  rewrite ltb_fin. change (scale_up 0) with 1. change (scale_up (- 0)) with 1. rewrite !Z.mul_1_r.
  assert (0 < 2 ^ 1024) by reflexivity. replace (t <? z) with false by (symmetry; apply Z.ltb_ge; lia). unfold to_float.
  assert (Hz' : z = - (- z)) by lia. set (a := - z) in *. assert (Ha : 2 ^ 1024 <= a) by (unfold a; lia). rewrite Hz'. clearbody a. clear z Hz Hz'.
  destruct (truediv_neg a 1 ltac:(lia) ltac:(lia)) as (m & e & E1 & [M1 M2] & S1 & S2). rewrite Z.mul_1_l in S1, S2. rewrite E1. cbn [bind].
  assert (He : 972 <= e).
  { destruct (Z.leb_spec 972 e) as [Q|Q]; [exact Q|exfalso]. pose proof (scale_up_pos (- e)) as P2.
    assert (scale_up e <= 2 ^ 971) by (unfold scale_up; apply Z.pow_le_mono_r; lia).
    assert (a < 2 ^ 53 * 2 ^ 971) by nia. change (2 ^ 53 * 2 ^ 971) with (2 ^ 1024) in *. lia. }
  assert (Hs : scale_up (- e) = 1) by (apply scale_up_nonpos; lia). rewrite Hs, Z.mul_1_r.
  assert (G : 2 ^ 972 <= scale_up e) by (unfold scale_up; rewrite Z.max_r by lia; apply Z.pow_le_mono_r; lia).
  replace (Z.abs (- m) * scale_up e <? 2 ^ 1024) with false; [reflexivity|]. symmetry. apply Z.ltb_ge.
  rewrite Z.abs_opp, Z.abs_eq by lia. change (2 ^ 1024) with (2 ^ 52 * 2 ^ 972). assert (0 < 2 ^ 52) by reflexivity. assert (0 < 2 ^ 972) by reflexivity. nia.
Qed.
