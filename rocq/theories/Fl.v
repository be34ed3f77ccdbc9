(** * Correctly rounded float operations on integers (binary64, round half to
    even).  Simplification: the exponent range is unbounded (no overflow to
    infinity, no subnormals); the arguments occurring in /repo are far inside
    the range. *)
From Verif Require Export CborProofs.

(** nearest integer to n/d, ties to even (d > 0) *)
Definition rdiv_rne (n d : Z) : Z :=
  let q := n / d in
  let r := n mod d in
  if 2 * r <? d then q
  else if d <? 2 * r then q + 1
  else if Z.even q then q else q + 1.

Definition scale_up (e : Z) : Z := 2 ^ Z.max 0 e.

(** exponent [e] such that a/b = q * 2^e with 2^52 <= q < 2^53 (a, b > 0) *)
Definition fdiv_exp (a b : Z) : Z :=
  let e0 := Z.log2 a - Z.log2 b - 53 in
  if a * scale_up (- e0) <? 2 ^ 53 * (b * scale_up e0) then e0 else e0 + 1.

(** [a / b] of two Python ints, b <> 0: correctly rounded *)
Definition fdiv_pos (a b : Z) : Z * Z :=
  let e := fdiv_exp a b in
  (rdiv_rne (a * scale_up (- e)) (b * scale_up e), e).
Definition py_truediv (a b : Z) : result fl :=
  if b =? 0 then Err EZeroDivisionError
  else if a =? 0 then Ok (FFin 0 0)
  else let '(m, e) := fdiv_pos (Z.abs a) (Z.abs b) in
       Ok (FFin (Z.sgn a * Z.sgn b * m) e).

(** [math.ceil(x)], [math.floor(x)] on finite floats *)
Definition fl_floor_fin (m e : Z) : Z := if 0 <=? e then m * 2 ^ e else m / 2 ^ (- e).
Definition fl_ceil_fin (m e : Z) : Z := - fl_floor_fin (- m) e.
Definition py_ceil (x : fl) : result Z :=
  match x with
  | FFin m e => Ok (fl_ceil_fin m e)
  | FInf _ => Err EOverflowError
  | FNan => Err EValueError
  end.

(** ** Facts *)
Lemma rdiv_rne_spec n d : 0 < d -> 2 * Z.abs (rdiv_rne n d * d - n) <= d.
Proof.
  intros Hd. unfold rdiv_rne.
  pose proof (Z.div_mod n d ltac:(lia)) as E. pose proof (Z.mod_pos_bound n d Hd) as B.
  set (q := n / d) in *. set (r := n mod d) in *. clearbody q r.
  destruct (2 * r <? d) eqn:H1; [nia|]. destruct (d <? 2 * r) eqn:H2; [nia|].
  destruct (Z.even q); nia.
Qed.
Lemma rdiv_rne_ge n d i : 0 < d -> i * d <= n -> i <= rdiv_rne n d.
Proof. intros Hd H. pose proof (rdiv_rne_spec n d Hd). nia. Qed.
Lemma rdiv_rne_le n d i : 0 < d -> n <= i * d -> rdiv_rne n d <= i.
Proof. intros Hd H. pose proof (rdiv_rne_spec n d Hd). nia. Qed.

Lemma scale_up_pos e : 0 < scale_up e.
Proof. apply Z.pow_pos_nonneg; lia. Qed.

Lemma fdiv_exp_spec a b :
  0 < a -> 0 < b ->
  let e := fdiv_exp a b in
  2 ^ 52 * (b * scale_up e) <= a * scale_up (- e) < 2 ^ 53 * (b * scale_up e).
Proof.
  intros Ha Hb. cbv zeta. unfold fdiv_exp.
  pose proof (Z.log2_spec a Ha) as [A1 A2]. pose proof (Z.log2_spec b Hb) as [B1 B2].
  pose proof (Z.log2_nonneg a). pose proof (Z.log2_nonneg b).
  set (la := Z.log2 a) in *. set (lb := Z.log2 b) in *. clearbody la lb.
  assert (Lo : forall e, 2 ^ la * scale_up (- e) <= a * scale_up (- e)).
  { intros e. apply Z.mul_le_mono_nonneg_r; [pose proof (scale_up_pos (-e)); lia|lia]. }
  assert (K : forall e, e = la - lb - 53 ->
    2 ^ 52 * (b * scale_up e) <= a * scale_up (- e) < 2 ^ 54 * (b * scale_up e)).
  { intros e He. unfold scale_up.
    assert (E : 2 ^ la * 2 ^ Z.max 0 (- e) = 2 ^ (lb + 53) * 2 ^ Z.max 0 e).
    { rewrite <- !Z.pow_add_r by lia. f_equal. lia. }
    assert (P1 : 0 < 2 ^ Z.max 0 (- e)) by (apply Z.pow_pos_nonneg; lia).
    assert (P2 : 0 < 2 ^ Z.max 0 e) by (apply Z.pow_pos_nonneg; lia).
    rewrite Z.pow_succ_r in A2 by lia. rewrite Z.pow_succ_r in B2 by lia.
    rewrite Z.pow_add_r in E by lia.
    set (X := 2 ^ Z.max 0 (- e)) in *. set (Y := 2 ^ Z.max 0 e) in *. clearbody X Y.
    change (2 ^ 54) with (2 * 2 ^ 53). change (2 ^ 53) with (2 * 2 ^ 52) in *.
    split; nia. }
  destruct (a * scale_up (- (la - lb - 53)) <? 2 ^ 53 * (b * scale_up (la - lb - 53))) eqn:C.
  - pose proof (K _ eq_refl). lia.
  - specialize (K _ eq_refl). set (e := la - lb - 53) in *. clearbody e.
    assert (S : scale_up (- e) * scale_up (e + 1) = 2 * (scale_up e * scale_up (- (e + 1)))).
    { unfold scale_up.
      destruct (Z.leb_spec 0 e).
      - rewrite (Z.max_l 0 (- e)) by lia. rewrite (Z.max_l 0 (- (e + 1))) by lia.
        rewrite (Z.max_r 0 e) by lia. rewrite (Z.max_r 0 (e + 1)) by lia.
        rewrite Z.pow_add_r by lia. change (2 ^ 0) with 1. ring.
      - rewrite (Z.max_r 0 (- e)) by lia. rewrite (Z.max_l 0 (e + 1)) by lia.
        rewrite (Z.max_l 0 e) by lia. rewrite (Z.max_r 0 (- (e + 1))) by lia.
        replace (- e) with (- (e + 1) + 1) by lia. rewrite Z.pow_add_r by lia.
        change (2 ^ 0) with 1. change (2 ^ 1) with 2. ring. }
    pose proof (scale_up_pos e). pose proof (scale_up_pos (- e)).
    pose proof (scale_up_pos (e + 1)). pose proof (scale_up_pos (- (e + 1))).
    set (x := scale_up e) in *. set (y := scale_up (- e)) in *.
    set (x' := scale_up (e + 1)) in *. set (y' := scale_up (- (e + 1))) in *. clearbody x y x' y'.
    change (2 ^ 54) with (4 * 2 ^ 52) in K. change (2 ^ 53) with (2 * 2 ^ 52) in *.
    assert (C' : 2 * 2 ^ 52 * (b * x) <= a * y) by lia.
    set (M := 2 ^ 52) in *. assert (0 < M) by reflexivity. clearbody M. clear C Lo A1 A2 B1 B2.
    split.
    + apply Z.mul_le_mono_pos_l with (p := y); [assumption|].
      replace (y * (M * (b * x'))) with (M * b * (y * x')) by ring. rewrite S.
      replace (M * b * (2 * (x * y'))) with (2 * M * (b * x) * y') by ring.
      replace (y * (a * y')) with (a * y * y') by ring. nia.
    + apply Z.mul_lt_mono_pos_l with (p := y); [assumption|].
      replace (y * (2 * M * (b * x'))) with (2 * M * b * (y * x')) by ring. rewrite S.
      replace (2 * M * b * (2 * (x * y'))) with (4 * M * (b * x) * y') by ring.
      replace (y * (a * y')) with (a * y * y') by ring. nia.
Qed.

(** when a/b < 2^53 the exponent is not positive *)
Lemma fdiv_exp_nonpos a b : 0 < a -> 0 < b -> a < 2 ^ 53 * b -> fdiv_exp a b <= 0.
Proof.
  intros Ha Hb H. pose proof (fdiv_exp_spec a b Ha Hb) as [L _]. cbv zeta in L.
  destruct (Z.leb_spec (fdiv_exp a b) 0); [assumption|exfalso].
  unfold scale_up in L. rewrite (Z.max_r 0 (fdiv_exp a b)) in L by lia.
  rewrite (Z.max_l 0 (- _)) in L by lia. change (2 ^ 0) with 1 in L.
  assert (2 ^ 1 <= 2 ^ fdiv_exp a b) by (apply Z.pow_le_mono_r; lia).
  change (2 ^ 1) with 2 in *. change (2 ^ 53) with (2 * 2 ^ 52) in *. nia.
Qed.

Lemma scale_up_nonpos e : e <= 0 -> scale_up e = 1.
Proof. intros H. unfold scale_up. rewrite Z.max_l by lia. reflexivity. Qed.

(** ceil(fl(a/b)) is exact when 0 <= a < 2^53 *)
Lemma ceil_fdiv a b :
  0 < a < 2 ^ 53 -> 0 < b ->
  let '(m, e) := fdiv_pos a b in fl_ceil_fin m e = - ((- a) / b).
Proof.
  intros Ha Hb. unfold fdiv_pos.
  assert (He : fdiv_exp a b <= 0) by (apply fdiv_exp_nonpos; nia).
  pose proof (fdiv_exp_spec a b ltac:(lia) Hb) as [Hlo _]. cbv zeta in Hlo.
  set (e := fdiv_exp a b) in *. rewrite (scale_up_nonpos e He) in *.
  pose proof (scale_up_pos (- e)) as Hs.
  assert (Hsc : scale_up (- e) = 2 ^ (- e)) by (unfold scale_up; rewrite Z.max_r by lia; reflexivity).
  rewrite Hsc in *. set (S := 2 ^ (- e)) in *.
  set (m := rdiv_rne (a * S) (b * 1)).
  pose proof (rdiv_rne_spec (a * S) (b * 1) ltac:(lia)) as Hr. fold m in Hr.
  unfold fl_ceil_fin, fl_floor_fin.
  (* c = ceil (a/b) *)
  set (c := - ((- a) / b)).
  assert (Hc1 : a <= c * b) by (unfold c; pose proof (Z.div_mod (- a) b ltac:(lia)); pose proof (Z.mod_pos_bound (- a) b Hb); nia).
  assert (Hc2 : (c - 1) * b + 1 <= a) by (unfold c; pose proof (Z.div_mod (- a) b ltac:(lia)); pose proof (Z.mod_pos_bound (- a) b Hb); nia).
  assert (Hm1 : m <= c * S) by (apply rdiv_rne_le; nia).
  assert (Hm2 : (c - 1) * S < m).
  { (* m*b >= a*S - b/2 and a*S >= (c-1)*b*S + S, S > b/2 *)
    assert (2 * (m * b) >= 2 * (a * S) - b) by lia.
    assert (2 * S > b) by (change (2 ^ 53) with (2 * 2 ^ 52) in Ha; nia). nia. }
  destruct (0 <=? e) eqn:E0.
  - assert (e = 0) by lia. subst S. replace (- e) with 0 in * by lia. change (2 ^ 0) with 1 in *.
    replace e with 0 by lia. change (2 ^ 0) with 1. lia.
  - fold S. clearbody c m.
    assert (Q : (- m) / S = - c) by (symmetry; apply Z.div_unique with (r := c * S - m); [left; lia|ring]).
    rewrite Q. lia.
Qed.
