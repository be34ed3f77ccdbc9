(** * The floats half and single precision patterns denote *)
From Verif Require Export ValidFacts CborSpec.

(** the pattern of [eb] exponent bits and [mb] fraction bits with the given fields *)
Definition pattern (eb mb : Z) (neg : bool) (ex frac : Z) : Z := (if neg then 2 ^ (eb + mb) else 0) + ex * 2 ^ mb + frac.
(** the double [b] is the number  m * 2^e *)
Definition denotes (b m e : Z) : Prop := exists m' e', fl_of_bits b = FFin m' e' /\ -1100 <= e' /\ -1100 <= e /\ m' * 2 ^ (e' + 1100) = m * 2 ^ (e + 1100).

Section Widen.
  Variables (eb mb bias : Z).
  Hypotheses (Heb : 0 < eb <= 9) (Hmb : 0 < mb <= 52) (Hbias : 0 <= bias <= 500).
  Let P := Z.pow_pos_nonneg 2.
  Lemma pattern_fields neg ex frac : 0 <= ex < 2 ^ eb -> 0 <= frac < 2 ^ mb -> let w := pattern eb mb neg ex frac in
    w / 2 ^ (eb + mb) = (if neg then 1 else 0) /\ (w / 2 ^ mb) mod 2 ^ eb = ex /\ w mod 2 ^ mb = frac.
  Proof.
    intros He Hf. cbv zeta. unfold pattern. rewrite Z.pow_add_r by lia.
    assert (Pe : 0 < 2 ^ eb) by (apply P; lia). assert (Pm : 0 < 2 ^ mb) by (apply P; lia). set (E := 2 ^ eb) in *. set (M := 2 ^ mb) in *. clearbody E M.
    set (n := if neg then 1 else 0). replace (if neg then E * M else 0) with (n * E * M) by (unfold n; destruct neg; ring). clearbody n.
    replace (n * E * M + ex * M + frac) with ((n * E + ex) * M + frac) by ring. split; [|split].
    - rewrite (Z.mul_comm E M), <- Z.div_div by lia. rewrite Z.div_add_l by lia. rewrite (Z.div_small frac) by lia. rewrite Z.add_0_r, Z.div_add_l by lia. rewrite (Z.div_small ex) by lia. lia.
    - rewrite Z.div_add_l by lia. rewrite (Z.div_small frac) by lia. rewrite Z.add_0_r, Z.add_comm, Z.mod_add by lia. apply Z.mod_small. lia.
    - rewrite Z.add_comm, Z.mod_add by lia. apply Z.mod_small. lia.
  Qed.
  Lemma widen_fields neg ex frac : 0 <= ex < 2 ^ eb -> 0 <= frac < 2 ^ mb -> exists E F, widen eb mb bias (pattern eb mb neg ex frac) = bits_of neg E F /\ 0 <= E < 2048 /\ 0 <= F < 2 ^ 52 /\
    (ex = 2 ^ eb - 1 -> E = 2047 /\ (F = 0 <-> frac = 0)) /\
    (ex <> 2 ^ eb - 1 -> E <> 2047 /\ denotes (bits_of neg E F) ((if neg then -1 else 1) * (if ex =? 0 then frac else 2 ^ mb + frac)) (Z.max ex 1 - bias - mb)).
  Proof.
    intros He Hf. destruct (pattern_fields neg ex frac He Hf) as (W1 & W2 & W3). unfold widen. cbv zeta. rewrite W1, W2, W3. clear W1 W2 W3.
    assert (PM : 2 ^ 52 = 2 ^ (52 - mb) * 2 ^ mb) by (rewrite <- Z.pow_add_r by lia; f_equal; lia).
    assert (PP : 0 < 2 ^ (52 - mb)) by (apply P; lia). assert (E512 : 2 ^ eb <= 512) by (apply (Z.pow_le_mono_r 2 eb 9); lia).
    assert (FR : 0 <= frac * 2 ^ (52 - mb) < 2 ^ 52) by (rewrite PM; nia).
    assert (SG : forall x, (if neg then 1 else 0) * 2 ^ 63 + x = (if neg then 2 ^ 63 else 0) + x) by (intros x; destruct neg; lia). rewrite SG. clear SG.
    assert (FIN : forall E F m e, 0 < E < 2047 -> 0 <= F < 2 ^ 52 -> -1100 <= e -> (2 ^ 52 + F) * 2 ^ (E - 1075 + 1100) = m * 2 ^ (e + 1100) -> denotes (bits_of neg E F) ((if neg then -1 else 1) * m) e).
    { intros E F m e RE RF Re Q. exists (if neg then - (2 ^ 52 + F) else 2 ^ 52 + F), (E - 1075). rewrite bits_finite by assumption. split; [reflexivity|]. split; [lia|]. split; [exact Re|].
      destruct neg; [|lia]. lia. }
    destruct (Z.eqb_spec ex (2 ^ eb - 1)) as [X|X].
    { exists 2047, (frac * 2 ^ (52 - mb)). split; [unfold bits_of; ring|]. split; [lia|]. split; [exact FR|]. split; [|intros N; contradiction]. intros _. split; [reflexivity|]. split; [nia|intros ->; ring]. }
    destruct (Z.eqb_spec ex 0) as [Z0|Z0].
    - destruct (Z.eqb_spec frac 0) as [F0|F0].
      { exists 0, 0. split; [unfold bits_of; ring|]. split; [lia|]. split; [lia|]. split; [intros N; contradiction|]. intros _. split; [discriminate|]. subst.
        exists 0, (1 - 1075). split; [destruct neg; reflexivity|]. split; [lia|]. split; [lia|]. destruct neg; reflexivity. }
      pose proof (Z.log2_spec frac ltac:(lia)) as L. assert (L0 : 0 <= Z.log2 frac) by apply Z.log2_nonneg.
      assert (L1 : Z.log2 frac < mb) by (apply Z.log2_lt_pow2; lia). set (l := Z.log2 frac) in *. clearbody l. rewrite Z.pow_succ_r in L by exact L0.
      assert (PL : 2 ^ 52 = 2 ^ (52 - l) * 2 ^ l) by (rewrite <- Z.pow_add_r by lia; f_equal; lia). assert (P1 : 0 < 2 ^ (52 - l)) by (apply P; lia).
      exists (l + 1 - bias - mb + 1023), ((frac - 2 ^ l) * 2 ^ (52 - l)). split; [unfold bits_of; ring|]. split; [lia|]. split; [rewrite PL; nia|]. split; [intros N; contradiction|]. intros _. split; [lia|].
      apply FIN; [lia|rewrite PL; nia|lia|].
      replace (2 ^ 52 + (frac - 2 ^ l) * 2 ^ (52 - l)) with (frac * 2 ^ (52 - l)) by (rewrite PL; ring). rewrite <- Z.mul_assoc, <- Z.pow_add_r by lia. f_equal. f_equal. lia.
    - exists (ex - bias + 1023), (frac * 2 ^ (52 - mb)). split; [unfold bits_of; ring|]. split; [lia|]. split; [exact FR|]. split; [intros N; contradiction|]. intros _. split; [lia|].
      apply FIN; [lia|exact FR|lia|]. replace (2 ^ 52 + frac * 2 ^ (52 - mb)) with ((2 ^ mb + frac) * 2 ^ (52 - mb)) by (rewrite PM; ring). rewrite <- Z.mul_assoc, <- Z.pow_add_r by lia. f_equal. f_equal. lia.
  Qed.
  Theorem widen_exact neg ex frac : 0 <= ex < 2 ^ eb -> 0 <= frac < 2 ^ mb -> let b := widen eb mb bias (pattern eb mb neg ex frac) in
    0 <= b < 2 ^ 64 /\ Z.testbit b 63 = neg /\
    (ex = 2 ^ eb - 1 -> fl_of_bits b = if frac =? 0 then FInf neg else FNan) /\
    (ex <> 2 ^ eb - 1 -> denotes b ((if neg then -1 else 1) * (if ex =? 0 then frac else 2 ^ mb + frac)) (Z.max ex 1 - bias - mb)).
  Proof.
    intros He Hf. cbv zeta. destruct (widen_fields neg ex frac He Hf) as (E & F & -> & RE & RF & S & N). split; [unfold bits_of; destruct neg; lia|]. split; [apply (bits_fields neg E F RE RF)|]. split.
    - intros X. destruct (S X) as [-> Q]. rewrite bits_special by exact RF. destruct (Z.eqb_spec F 0), (Z.eqb_spec frac 0); try reflexivity; exfalso; tauto.
    - intros X. apply N. exact X.
  Qed.
End Widen.
Lemma pattern_all eb mb w : 0 < eb -> 0 < mb -> 0 <= w < 2 ^ (1 + eb + mb) -> exists neg ex frac, w = pattern eb mb neg ex frac /\ 0 <= ex < 2 ^ eb /\ 0 <= frac < 2 ^ mb.
Proof.
  intros He Hm W. assert (PE : 0 < 2 ^ eb) by (apply Z.pow_pos_nonneg; lia). assert (PM : 0 < 2 ^ mb) by (apply Z.pow_pos_nonneg; lia).
  replace (2 ^ (1 + eb + mb)) with (2 * (2 ^ eb * 2 ^ mb)) in W by (rewrite !Z.pow_add_r by lia; ring).
  exists (2 ^ (eb + mb) <=? w), ((w / 2 ^ mb) mod 2 ^ eb), (w mod 2 ^ mb). split; [|split; apply Z.mod_pos_bound; assumption].
  unfold pattern. rewrite Z.pow_add_r by lia. set (M := 2 ^ mb) in *. set (E := 2 ^ eb) in *. clearbody E M.
  pose proof (Z.div_mod w M ltac:(lia)) as D. pose proof (Z.mod_pos_bound w M PM) as R. set (q := w / M) in *. set (m := w mod M) in *. clearbody q m.
  pose proof (Z.div_mod q E ltac:(lia)) as D2. pose proof (Z.mod_pos_bound q E PE) as R2. set (s := q / E) in *. set (x := q mod E) in *. clearbody s x.
  assert (Q : 0 <= q < 2 * E) by nia. assert (S : s = 0 \/ s = 1) by nia.
  destruct S as [-> | ->]; destruct (Z.leb_spec (E * M) w); nia.
Qed.
Lemma half_exact neg ex frac : 0 <= ex < 2 ^ 5 -> 0 <= frac < 2 ^ 10 -> let b := widen 5 10 15 (pattern 5 10 neg ex frac) in
  0 <= b < 2 ^ 64 /\ Z.testbit b 63 = neg /\
  (ex = 31 -> fl_of_bits b = if frac =? 0 then FInf neg else FNan) /\
  (ex <> 31 -> denotes b ((if neg then -1 else 1) * (if ex =? 0 then frac else 2 ^ 10 + frac)) (Z.max ex 1 - 25)).
Proof.
  intros He Hf. replace (Z.max ex 1 - 25) with (Z.max ex 1 - 15 - 10) by lia. exact (widen_exact 5 10 15 ltac:(lia) ltac:(lia) ltac:(lia) neg ex frac He Hf).
Qed.
Lemma single_exact neg ex frac : 0 <= ex < 2 ^ 8 -> 0 <= frac < 2 ^ 23 -> let b := widen 8 23 127 (pattern 8 23 neg ex frac) in
  0 <= b < 2 ^ 64 /\ Z.testbit b 63 = neg /\
  (ex = 255 -> fl_of_bits b = if frac =? 0 then FInf neg else FNan) /\
  (ex <> 255 -> denotes b ((if neg then -1 else 1) * (if ex =? 0 then frac else 2 ^ 23 + frac)) (Z.max ex 1 - 150)).
Proof.
  intros He Hf. replace (Z.max ex 1 - 150) with (Z.max ex 1 - 127 - 23) by lia. exact (widen_exact 8 23 127 ltac:(lia) ltac:(lia) ltac:(lia) neg ex frac He Hf).
Qed.
