(** * Exactly which payment times are accepted, and what the others raise *)
From Verif Require Export ValidFacts.

(** rounding to the nearest, ties to even, against an even number *)
Lemma rne_ge_even n d T : 0 < d -> Z.even T = true -> (T <= rdiv_rne n d <-> (2 * T - 1) * d <= 2 * n).
Proof.
  intros Hd He. unfold rdiv_rne. pose proof (Z.div_mod n d ltac:(lia)) as E. pose proof (Z.mod_pos_bound n d Hd) as B.
  set (q := n / d) in *. set (r := n mod d) in *. clearbody q r. subst n.
  destruct (Z.lt_trichotomy T (q + 1)) as [H|[H|H]].
  - assert ((2 * T - 1) * d <= 2 * (d * q + r)) by nia. destruct (2 * r <? d); [lia|]. destruct (d <? 2 * r); [lia|]. destruct (Z.even q); lia.
  - assert (Ho : Z.even q = false) by (rewrite H, Z.add_1_r, Z.even_succ in He; rewrite <- Z.negb_odd, He; reflexivity). rewrite Ho.
    subst T. destruct (Z.ltb_spec (2 * r) d) as [R|R]; [split; [lia|intros; nia]|]. destruct (d <? 2 * r); split; nia.
  - assert (~ (2 * T - 1) * d <= 2 * (d * q + r)) by nia. destruct (2 * r <? d); [lia|]. destruct (d <? 2 * r); [lia|]. destruct (Z.even q); lia.
Qed.
Lemma even_mul2 x : Z.even (x * 2) = true.
Proof. rewrite Z.even_mul. apply orb_true_r. Qed.

(** half the distance of [t] to the float below it is 2 ^ - grain t *)
Definition grain (t : Z) : Z := if t =? 2 ^ Z.log2 t then 54 - Z.log2 t else 53 - Z.log2 t.
Lemma round_ge t n d : 0 < t < 2 ^ 52 -> 0 < d ->
  exists m e, py_truediv n d = Ok (FFin m e) /\
    (t * scale_up (- e) <= m * scale_up e <-> (t * 2 ^ grain t - 1) * d <= n * 2 ^ grain t).
Proof.
  intros Ht Hd. assert (G53 : 2 ^ 52 < 2 ^ 53) by reflexivity.
  destruct (truediv_bound t n d Hd ltac:(lia)) as (m & e & E & B1 & _). exists m, e. split; [exact E|].
  pose proof (Z.log2_spec t ltac:(lia)) as [K1 K2]. pose proof (Z.log2_nonneg t) as K0. unfold grain. set (k := Z.log2 t) in *.
  assert (Kb : k < 52) by (apply (Z.pow_lt_mono_r_iff 2); lia).
  set (h := if t =? 2 ^ k then 54 - k else 53 - k).
  assert (Hh : 0 < h) by (unfold h; destruct (t =? 2 ^ k); lia). assert (P : 2 <= 2 ^ h) by (change 2 with (2 ^ 1) at 1; apply Z.pow_le_mono_r; lia).
  assert (P' : 0 < t * 2 ^ h - 1) by nia.
  destruct (Z.leb_spec (t * d) n) as [H|H]; [split; [intros _; nia|intros _; exact (B1 H)]|]. clear B1.
  unfold py_truediv in E. replace (d =? 0) with false in E by lia. destruct (Z.eqb_spec n 0) as [->|N].
  { assert (FFin 0 0 = FFin m e) by congruence. assert (m = 0 /\ e = 0) as [-> ->] by (split; congruence). change (scale_up 0) with 1. change (scale_up (- 0)) with 1. split; intros Q; [lia|exfalso; clear - Q P' Hd; nia]. }
  unfold fdiv_pos in E. rewrite (Z.abs_eq d) in E by lia. destruct (Z.ltb_spec n 0) as [L|L].
  { assert (M : m <= 0).
    { replace (Z.sgn n) with (- (1)) in E by lia. replace (Z.sgn d) with 1 in E by lia.
      pose proof (fdiv_exp_spec (Z.abs n) d ltac:(lia) Hd) as S. cbv zeta in S. set (e0 := fdiv_exp (Z.abs n) d) in *.
      pose proof (scale_up_pos e0) as P1. assert (2 ^ 52 <= rdiv_rne (Z.abs n * scale_up (- e0)) (d * scale_up e0)) by (apply rdiv_rne_ge; nia).
      assert (0 < 2 ^ 52) by reflexivity. assert (m = - (1) * 1 * rdiv_rne (Z.abs n * scale_up (- e0)) (d * scale_up e0)) by congruence. lia. }
    pose proof (scale_up_pos e). pose proof (scale_up_pos (- e)). split; intros Q; [exfalso; nia|exfalso; clear - Q P' Hd L P; nia]. }
  assert (Pn : 0 < n) by lia. rewrite (Z.abs_eq n) in E by lia. replace (Z.sgn n * Z.sgn d) with 1 in E by lia. rewrite Z.mul_1_l in E.
  pose proof (fdiv_exp_spec n d Pn Hd) as S. cbv zeta in S. set (e0 := fdiv_exp n d) in *.
  assert (Em : m = rdiv_rne (n * scale_up (- e0)) (d * scale_up e0)) by congruence. assert (Ee : e0 = e) by congruence. clearbody e0. subst e0. clear E.
  assert (He : e < 0).
  { destruct (Z.ltb_spec e 0) as [Q|Q]; [exact Q|exfalso]. rewrite (scale_up_nonpos (- e)) in S by lia. pose proof (scale_up_pos e). nia. }
  rewrite (scale_up_nonpos e) in * by lia. rewrite !Z.mul_1_r in *.
  assert (Hs : scale_up (- e) = 2 ^ (- e)) by (unfold scale_up; rewrite Z.max_r by lia; reflexivity). rewrite Hs in *. clear Hs.
  assert (Pe : 0 < 2 ^ (- e)) by (apply Z.pow_pos_nonneg; lia).
  assert (Mb : m <= 2 ^ 53) by (rewrite Em; apply rdiv_rne_le; lia).
  (* the quotient lies one binade below t, or further *)
  set (j := if t =? 2 ^ k then k - 53 else k - 52).
  assert (Hhj : h = 1 - j) by (unfold h, j; destruct (t =? 2 ^ k); lia).
  assert (Hj : j < 0) by (unfold j; destruct (t =? 2 ^ k); lia).
  assert (T2 : 2 ^ 52 < t * 2 ^ (- j) <= 2 ^ 53).
  { unfold j. destruct (Z.eqb_spec t (2 ^ k)) as [Q|Q].
    - rewrite Q, <- Z.pow_add_r by lia. replace (k + - (k - 53)) with 53 by ring. split; [reflexivity|lia].
    - assert (X : 2 ^ (k + (52 - k)) = 2 ^ k * 2 ^ (52 - k)) by (apply Z.pow_add_r; lia). assert (Y : 2 ^ (Z.succ k + (52 - k)) = 2 ^ Z.succ k * 2 ^ (52 - k)) by (apply Z.pow_add_r; lia).
      replace (k + (52 - k)) with 52 in X by ring. replace (Z.succ k + (52 - k)) with 53 in Y by lia. replace (- (k - 52)) with (52 - k) by ring.
      assert (0 < 2 ^ (52 - k)) by (apply Z.pow_pos_nonneg; lia). nia. }
  assert (Pj : 0 < 2 ^ (- j)) by (apply Z.pow_pos_nonneg; lia).
  assert (Hp : 2 ^ h = 2 ^ (- j) * 2) by (rewrite Hhj; replace (1 - j) with (- j + 1) by ring; rewrite Z.pow_add_r by lia; reflexivity).
  assert (Te : Z.even (t * 2 ^ (- j)) = true) by (replace (- j) with (- j - 1 + 1) by ring; rewrite Z.pow_add_r by lia; change (2 ^ 1) with 2; rewrite Z.mul_assoc; apply even_mul2).
  assert (Hle : e <= j).
  { destruct (Z.leb_spec e j) as [Q|Q]; [exact Q|exfalso]. assert (X : 2 ^ (- e + (e - j)) = 2 ^ (- e) * 2 ^ (e - j)) by (apply Z.pow_add_r; lia).
    replace (- e + (e - j)) with (- j) in X by ring. assert (2 ^ 1 <= 2 ^ (e - j)) by (apply Z.pow_le_mono_r; lia). change (2 ^ 1) with 2 in *.
    change (2 ^ 53) with (2 ^ 52 * 2) in *. set (M := 2 ^ 52) in *. clearbody M. rewrite X in T2. set (w := 2 ^ (e - j)) in *. set (g := 2 ^ (- e)) in *. clearbody w g. clear - S H T2 Hd Pe Ht H0.
    assert (t * g * 2 <= t * g * w) by nia. assert (t * g <= M) by nia. assert (n * g < t * d * g) by nia. nia. }
  rewrite Hp. destruct (Z.eq_dec e j) as [->|Ne].
  - rewrite Em, (rne_ge_even _ _ _ Hd Te). split; nia.
  - assert (X : 2 ^ (- j + (j - e)) = 2 ^ (- j) * 2 ^ (j - e)) by (apply Z.pow_add_r; lia). replace (- j + (j - e)) with (- e) in X by ring.
    assert (G2 : 2 ^ 1 <= 2 ^ (j - e)) by (apply Z.pow_le_mono_r; lia). change (2 ^ 1) with 2 in G2.
    change (2 ^ 53) with (2 ^ 52 * 2) in *. assert (M1 : 2 <= 2 ^ 52) by discriminate. set (M := 2 ^ 52) in *. clearbody M. rewrite X in *. set (w := 2 ^ (j - e)) in *. set (g := 2 ^ (- j)) in *. clearbody w g.
    split; intros Q; exfalso.
    + nia.
    + (* n * g < M * d *) assert (n * g * w < M * d * w) by nia. assert (n * g < M * d) by nia. nia.
Qed.
(** a float payment time: not a number passes; a finite one must not be later than [t] nor
    earlier than 900 s and half the distance to the float below [t] before it *)
Definition recent (t : Z) (x : fl) : Prop :=
  match x with
  | FNan => True
  | FInf _ => False
  | FFin m e => let v := m * scale_up e in let one := scale_up (- e) in let g := 2 ^ grain t in
                ((t - 900) * g - 1) * one <= v * g /\ v <= t * one
  end.
Lemma sra_float_exact t b : 0 < t < 2 ^ 52 ->
  (sra_valid (VFloat b) (VInt t) = Ok tt /\ recent t (fl_of_bits b)) \/ (sra_valid (VFloat b) (VInt t) = Err EValidationError /\ ~ recent t (fl_of_bits b)).
Proof.
  intros Ht. unfold sra_valid, py_lt. cbn [num_of bind to_float]. destruct (fl_of_bits b) as [|s|m e] eqn:F.
  - left. split; [reflexivity|exact I].
  - right. split; [destruct s; reflexivity|intros []].
  - rewrite ltb_fin_r. cbn [recent fl_add_int bind]. pose proof (scale_up_pos (- e)) as P. set (one := scale_up (- e)) in *. set (v := m * scale_up e) in *. clearbody one v.
    destruct (Z.ltb_spec (t * one) v) as [L|L]; [right; split; [reflexivity|intros [_ H]; lia]|].
    destruct (round_ge t (v + 900 * one) one Ht P) as (m' & e' & -> & H). cbn [bind]. rewrite ltb_fin.
    assert (G : (t * 2 ^ grain t - 1) * one <= (v + 900 * one) * 2 ^ grain t <-> ((t - 900) * 2 ^ grain t - 1) * one <= v * 2 ^ grain t) by (split; nia).
    rewrite G in H. clear G. destruct (Z.ltb_spec (m' * scale_up e') (t * scale_up (- e'))) as [Q|Q].
    + right. split; [reflexivity|]. intros [X _]. apply H in X. lia.
    + left. split; [reflexivity|]. split; [apply H; lia|exact L].
Qed.

(** the ints that no float is near *)
Definition unfloatable (z : Z) : Prop := z <= - (2 ^ 1024 - 2 ^ 970).
Lemma huge_float a : 2 ^ 53 <= a -> exists m e, py_truediv (- a) 1 = Ok (FFin (- m) e) /\ 0 < e /\ 2 ^ 52 <= m <= 2 ^ 53 /\
  (m * scale_up e < 2 ^ 1024 <-> a < 2 ^ 1024 - 2 ^ 970).
Proof.
  intros Ha. assert (Pa : 0 < a) by (apply Z.lt_le_trans with (2 ^ 53); [reflexivity|exact Ha]).
  unfold py_truediv. change (1 =? 0) with false. replace (- a =? 0) with false by lia. rewrite Z.abs_opp, !Z.abs_eq by lia. unfold fdiv_pos.
  pose proof (fdiv_exp_spec a 1 Pa ltac:(lia)) as S. cbv zeta in S. set (e := fdiv_exp a 1) in *. rewrite Z.mul_1_l in S |- *.
  assert (He : 0 < e).
  { destruct (Z.leb_spec e 0) as [Q|Q]; [exfalso|exact Q]. rewrite (scale_up_nonpos e Q) in S. pose proof (scale_up_pos (- e)). nia. }
  rewrite (scale_up_nonpos (- e)) in S |- * by lia. rewrite !Z.mul_1_r in S |- *. pose proof (scale_up_pos e) as P.
  set (m := rdiv_rne a (scale_up e)). exists m, e.
  assert (Mb : 2 ^ 52 <= m <= 2 ^ 53) by (split; [apply rdiv_rne_ge|apply rdiv_rne_le]; lia).
  split; [rewrite ?(Z.mul_1_r a); fold m; replace (Z.sgn (- a)) with (- (1)) by lia; rewrite ?Z.mul_1_r; do 2 f_equal; ring|]. split; [exact He|]. split; [exact Mb|].
  assert (Hs : scale_up e = 2 ^ e) by (unfold scale_up; rewrite Z.max_r by lia; reflexivity).
  assert (X : 2 ^ 1024 = 2 ^ 53 * 2 ^ 971) by reflexivity. assert (Y : 2 ^ 971 = 2 * 2 ^ 970) by reflexivity.
  assert (P0 : 0 < 2 ^ 970) by reflexivity. assert (W : 2 ^ 53 = 2 * 2 ^ 52) by reflexivity. assert (P52 : 2 <= 2 ^ 52) by discriminate.
  destruct (Z.lt_trichotomy e 971) as [L|[L|L]].
  - assert (B : 2 ^ e <= 2 ^ 970) by (apply Z.pow_le_mono_r; lia). rewrite <- Hs in B. rewrite X, Y, W in *.
    set (M := 2 ^ 52) in *. set (K := 2 ^ 970) in *. set (s := scale_up e) in *. clearbody M K s m. clear - S Mb B P P0 P52. split; intros _; nia.
  - assert (Es : scale_up e = 2 ^ 971) by (rewrite Hs, L; reflexivity).
    assert (Q : 2 ^ 53 <= m <-> (2 * 2 ^ 53 - 1) * 2 ^ 971 <= 2 * a) by (unfold m; rewrite Es; apply rne_ge_even; reflexivity).
    rewrite Es, X, Y in *. set (K := 2 ^ 970) in *. set (M := 2 ^ 53) in *. clearbody K M m. clear - Q P0. split; intros H.
    + assert (m < M) by nia. lia.
    + assert (~ M <= m) by (rewrite Q; lia). nia.
  - assert (B : 2 ^ 972 <= 2 ^ e) by (apply Z.pow_le_mono_r; lia). rewrite <- Hs in B. assert (V : 2 ^ 972 = 4 * 2 ^ 970) by reflexivity. rewrite X, Y, W, V in *.
    set (M := 2 ^ 52) in *. set (K := 2 ^ 970) in *. set (s := scale_up e) in *. clearbody M K s m. clear - S Mb B P P0 P52. split; intros H; exfalso; nia.
Qed.
Lemma sra_int_exact z t : 0 <= t < 2 ^ 52 ->
  (sra_valid (VInt z) (VInt t) = Ok tt /\ t - 900 <= z <= t) \/
  (sra_valid (VInt z) (VInt t) = Err EValidationError /\ ~ t - 900 <= z <= t /\ ~ unfloatable z) \/
  (sra_valid (VInt z) (VInt t) = Err EOverflowError /\ unfloatable z).
Proof.
  intros Ht. assert (G : - 2 ^ 1023 < - 2 ^ 53) by reflexivity. unfold unfloatable. destruct (Z.ltb_spec (- 2 ^ 1023) z) as [B|B].
  { assert (U : - (2 ^ 1024 - 2 ^ 970) < - 2 ^ 1023) by reflexivity. set (M := 2 ^ 1024 - 2 ^ 970) in *. clearbody M.
    rewrite sra_valid_int by assumption. destruct (Z.leb_spec (t - 900) z); destruct (Z.leb_spec z t); cbn [andb]; [left; auto|..]; right; left; (split; [reflexivity|lia]). }
  unfold sra_valid, py_lt. cbn [num_of bind]. rewrite ltb_fin. change (scale_up 0) with 1. change (scale_up (- 0)) with 1. rewrite !Z.mul_1_r.
  assert (Hz : 2 ^ 53 <= - z) by (set (M := 2 ^ 1023) in *; clearbody M; lia). replace (t <? z) with false by (symmetry; apply Z.ltb_ge; assert (0 < 2 ^ 53) by reflexivity; lia).
  unfold to_float. assert (Hz' : z = - (- z)) by lia. set (a := - z) in *. rewrite Hz'. clearbody a. clear z Hz' B.
  destruct (huge_float a Hz) as (m & e & -> & He & Mb & Hm). cbn [bind]. rewrite (scale_up_nonpos (- e)) by lia. rewrite !Z.mul_1_r.
  assert (0 < 2 ^ 52) by reflexivity. replace (Z.abs (- m)) with m by lia. set (s := scale_up e) in *.
  assert (Ps : 2 <= s) by (unfold s, scale_up; rewrite Z.max_r by lia; change 2 with (2 ^ 1) at 1; apply Z.pow_le_mono_r; lia).
  destruct (Z.ltb_spec (m * s) (2 ^ 1024)) as [L|L]; cbn [bind].
  - right. left. split; [|split; [|apply Hm in L; set (M := 2 ^ 1024 - 2 ^ 970) in *; clearbody M; lia]].
    + unfold fl_add_int. fold s. rewrite (scale_up_nonpos (- e)) by lia. rewrite !Z.mul_1_r.
      assert (K : 2 ^ 52 <= m * s - 900) by (assert (2 ^ 52 > 900) by reflexivity; nia). replace (- m * s + 900) with (- (m * s - 900)) by ring.
      set (a' := m * s - 900) in *. clearbody a'. assert (Pa' : 0 < a') by lia.
      destruct (truediv_neg a' 1 Pa' ltac:(lia)) as (m' & e' & -> & [M1 M2] & _). cbn [bind]. rewrite ltb_fin.
      pose proof (scale_up_pos e'). pose proof (scale_up_pos (- e')). replace (- m' * scale_up e' <? t * scale_up (- e')) with true; [reflexivity|]. symmetry. apply Z.ltb_lt. nia.
    + assert (900 < 2 ^ 53) by reflexivity. lia.
  - right. right. split; [reflexivity|]. destruct (Z.ltb_spec a (2 ^ 1024 - 2 ^ 970)) as [Q|Q]; [apply Hm in Q; lia|]. set (M := 2 ^ 1024 - 2 ^ 970) in *. clearbody M. lia.
Qed.
