(** * Which texts the hex and uuid helpers accept, refused durations, masks from
    dicts (facts for C21, C36, C42, C43, C52) *)
From Verif Require Export IdsProofs Helpers Mask.

(** ** Hex text *)
(** [str.lower] on the letters A to F *)
Definition lower_hex (c : Z) : Z := if (65 <=? c) && (c <=? 70) then c + 32 else c.
Lemma hexval_lower c d : hexval c = Some d <-> 0 <= d < 16 /\ lower_hex c = hexdig d.
Proof.
  split.
  - intros H. split; [exact (hexval_range _ _ H)|]. revert H. unfold hexval, lower_hex, hexdig.
    destruct ((48 <=? c) && (c <=? 57)) eqn:E1.
    { intros [= <-]. replace ((65 <=? c) && (c <=? 70)) with false by lia. replace (c - 48 <? 10) with true by lia. lia. }
    destruct ((97 <=? c) && (c <=? 102)) eqn:E2.
    { intros [= <-]. replace ((65 <=? c) && (c <=? 70)) with false by lia. replace (c - 87 <? 10) with false by lia. lia. }
    destruct ((65 <=? c) && (c <=? 70)) eqn:E3; [|discriminate]. intros [= <-]. replace (c - 55 <? 10) with false by lia. lia.
  - intros [R H]. unfold lower_hex, hexdig in H. unfold hexval.
    destruct (d <? 10) eqn:E; destruct ((65 <=? c) && (c <=? 70)) eqn:E3.
    + lia.
    + replace ((48 <=? c) && (c <=? 57)) with true by lia. f_equal. lia.
    + replace ((48 <=? c) && (c <=? 57)) with false by lia. replace ((97 <=? c) && (c <=? 102)) with false by lia. f_equal. lia.
    + replace ((48 <=? c) && (c <=? 57)) with false by lia. replace ((97 <=? c) && (c <=? 102)) with true by lia. f_equal. lia.
Qed.
Lemma hexdig_inj x y : 0 <= x < 16 -> 0 <= y < 16 -> hexdig x = hexdig y -> x = y.
Proof. intros Hx Hy H. pose proof (hexval_dig x Hx) as A. rewrite H, (hexval_dig y Hy) in A. congruence. Qed.
Lemma unhex_exact b : forall s, unhex s = Some b <-> map lower_hex s = hexlify b.
Proof.
  induction b as [|x b IH]; intros s.
  - destruct s as [|a [|c r]]; cbn; [tauto|split; discriminate|].
    destruct (hexval a), (hexval c), (unhex r); split; discriminate.
  - change (hexlify (x :: b)) with (hexdig (b2z x / 16) :: hexdig (b2z x mod 16) :: hexlify b).
    pose proof (b2z_range x) as R. destruct s as [|a [|c r]]; cbn [unhex map]; [split; discriminate|split; discriminate|].
    split.
    + destruct (hexval a) as [h|] eqn:Ha; [|discriminate]. destruct (hexval c) as [l|] eqn:Hc; [|discriminate].
      destruct (unhex r) as [t|] eqn:Hr; [|discriminate]. intros E. assert (z2b (h * 16 + l) = x /\ t = b) as [Ex ->] by (split; congruence).
      apply IH in Hr. apply hexval_lower in Ha as [Rh ->]. apply hexval_lower in Hc as [Rl ->].
      assert (b2z x = h * 16 + l) as -> by (rewrite <- Ex, b2z_z2b; apply Z.mod_small; lia).
      replace ((h * 16 + l) / 16) with h by lia. replace ((h * 16 + l) mod 16) with l by lia. rewrite Hr. reflexivity.
    + intros E. assert (A : lower_hex a = hexdig (b2z x / 16)) by congruence. assert (C : lower_hex c = hexdig (b2z x mod 16)) by congruence.
      assert (D : map lower_hex r = hexlify b) by congruence. apply IH in D.
      rewrite (proj2 (hexval_lower a (b2z x / 16))) by (split; [lia|exact A]).
      rewrite (proj2 (hexval_lower c (b2z x mod 16))) by (split; [lia|exact C]).
      rewrite D. replace (b2z x / 16 * 16 + b2z x mod 16) with (b2z x) by lia. rewrite z2b_b2z. reflexivity.
Qed.
Lemma lower_ascii s b : map lower_hex s = hexlify b -> is_ascii s = true.
Proof.
  intros H. apply forallb_forall. intros c Hc. pose proof (hexlify_ascii b) as A. rewrite <- H in A. unfold is_ascii in A.
  rewrite forallb_forall in A. specialize (A (lower_hex c) (in_map _ _ _ Hc)). unfold lower_hex in A.
  destruct ((65 <=? c) && (c <=? 70)) eqn:E; lia.
Qed.
Lemma decode_hex_exact b :
  (forall s, decode_hex (VStr s) = Ok b <-> map lower_hex s = hexlify b) /\
  (forall d, decode_hex (VBytes d) = Ok b <-> map lower_hex (map b2z d) = hexlify b).
Proof.
  split.
  - intros s. cbn [decode_hex]. split.
    + destruct (is_ascii s); [|discriminate]. destruct (unhex s) as [t|] eqn:E; [|discriminate]. intros H. apply unhex_exact. congruence.
    + intros H. rewrite (lower_ascii s b H). apply unhex_exact in H. rewrite H. reflexivity.
  - intros d. cbn [decode_hex]. rewrite <- unhex_exact. destruct (unhex (map b2z d)); split; congruence.
Qed.
Lemma node_of_hex_seed b : hex_seed_to_node (VStr (hexlify b)) = Ok (be_dec (firstn 6 b)).
Proof. unfold hex_seed_to_node. rewrite decode_hexlify. reflexivity. Qed.

(** ** [int(s, 16)] *)
Definition hex_char (c : Z) : Prop := exists d, hexval c = Some d.
(** the groups between underscores are non-empty runs of hex digits *)
Definition hex_groups (t : ustr) : Prop := Forall (fun g => g <> [] /\ Forall hex_char g) (split_on 95 t).
(** the number the digits denote; underscores do not count *)
Definition hex_number (acc : Z) (t : ustr) : Z :=
  fold_left (fun a c => match hexval c with Some d => 16 * a + d | None => a end) t acc.
Definition run_ends (r : ustr) : Prop := match r with [] => True | c :: _ => hexval c = None /\ c <> 95 end.

Lemma split_on_cons c x r : x <> c -> exists h t, split_on c r = h :: t /\ split_on c (x :: r) = (x :: h) :: t.
Proof.
  intros N. assert (split_on c r <> []) as M. { destruct r as [|y r]; cbn; [discriminate|]. destruct (y =? c); [discriminate|]. destruct (split_on c r); discriminate. }
  destruct (split_on c r) as [|h t] eqn:E; [congruence|]. exists h, t. split; [reflexivity|]. cbn [split_on].
  replace (x =? c) with false by lia. rewrite E. reflexivity.
Qed.
Lemma split_on_same c r : split_on c (c :: r) = [] :: split_on c r.
Proof. cbn. rewrite Z.eqb_refl. reflexivity. Qed.
(** one digit more in front *)
Lemma groups_digit c d t : hexval c = Some d -> (hex_groups (c :: t) <-> hex_groups (48 :: t)).
Proof.
  intros H. assert (c <> 95) by (intros ->; discriminate H). unfold hex_groups.
  destruct (split_on_cons 95 c t) as (h & q & E1 & E2); [lia|]. destruct (split_on_cons 95 48 t) as (h' & q' & E3 & E4); [lia|].
  rewrite E2, E4. assert (h' = h /\ q' = q) as [-> ->] by (split; congruence). rewrite !Forall_cons_iff.
  assert (hex_char c) by (exists d; exact H). assert (hex_char 48) by (exists 0; reflexivity). intuition discriminate.
Qed.
Lemma groups_two c d t : hexval c = Some d -> (hex_groups (48 :: c :: t) <-> hex_groups (48 :: t)).
Proof.
  intros H. assert (c <> 95) by (intros ->; discriminate H). unfold hex_groups.
  destruct (split_on_cons 95 c t) as (h & q & E1 & E2); [lia|]. destruct (split_on_cons 95 48 t) as (h' & q' & E3 & E4); [lia|].
  destruct (split_on_cons 95 48 (c :: t)) as (h2 & q2 & E5 & E6); [lia|].
  rewrite E4, E6. assert (h' = h /\ q' = q) as [-> ->] by (split; congruence). assert (h2 = c :: h /\ q2 = q) as [-> ->] by (split; congruence).
  rewrite !Forall_cons_iff. assert (hex_char c) by (exists d; exact H). intuition discriminate.
Qed.
Lemma groups_under t : hex_groups (48 :: 95 :: t) <-> hex_groups t.
Proof.
  unfold hex_groups. destruct (split_on_cons 95 48 (95 :: t)) as (h & q & E1 & E2); [lia|]. rewrite split_on_same in E1.
  assert (h = [] /\ q = split_on 95 t) as [-> ->] by (split; congruence). rewrite E2, Forall_cons_iff.
  assert (hex_char 48) by (exists 0; reflexivity). intuition; try discriminate; repeat constructor; assumption.
Qed.
Lemma groups_no_under t : ~ hex_groups (95 :: t).
Proof. unfold hex_groups. rewrite split_on_same, Forall_cons_iff. intuition. Qed.
Lemma groups_no_other c t : hexval c = None -> c <> 95 -> ~ hex_groups (c :: t).
Proof.
  intros H N. unfold hex_groups. destruct (split_on_cons 95 c t) as (h & q & E1 & E2); [lia|]. rewrite E2, Forall_cons_iff.
  intros [[_ F] _]. inversion F as [|? ? [d E] _]. congruence.
Qed.
Lemma groups_no_other' c t : hexval c = None -> c <> 95 -> ~ hex_groups (48 :: c :: t).
Proof.
  intros H N. unfold hex_groups. destruct (split_on_cons 95 c t) as (h & q & E1 & E2); [lia|].
  destruct (split_on_cons 95 48 (c :: t)) as (h2 & q2 & E5 & E6); [lia|].
  assert (h2 = c :: h) as -> by congruence. rewrite E6, Forall_cons_iff.
  intros [[_ F] _]. inversion F as [|? ? _ F']. inversion F' as [|? ? [d E] _]. congruence.
Qed.

Lemma hex_run_spec s : forall acc st us v r,
  hex_run s acc st us = Some (v, r) <->
  exists t, s = t ++ r /\ run_ends r /\ (if st && negb us then hex_groups (48 :: t) else hex_groups t) /\ v = hex_number acc t.
Proof.
  induction s as [|c s IH]; intros acc st us v r.
  - cbn [hex_run]. split.
    + destruct (st && negb us); [|discriminate]. intros E. assert (acc = v /\ r = []) as [-> ->] by (split; congruence).
      exists []. repeat split. repeat constructor; [discriminate|exists 0; reflexivity].
    + intros (t & E & _ & G & ->). symmetry in E. apply app_eq_nil in E as [-> ->].
      destruct (st && negb us); [reflexivity|]. exfalso. unfold hex_groups in G. cbn in G. apply Forall_cons_iff in G as [[G _] _]. congruence.
  - cbn [hex_run]. destruct (hexval c) as [d|] eqn:Hc.
    + rewrite IH. cbn [andb negb]. split.
      * intros (t & -> & E & G & ->). exists (c :: t). split; [reflexivity|]. split; [exact E|]. split.
        { destruct (st && negb us); [apply (groups_two c d t Hc), G|apply (groups_digit c d t Hc), G]. }
        unfold hex_number. cbn [fold_left]. rewrite Hc. f_equal. lia.
      * intros (t & E & F & G & ->). destruct t as [|c' t].
        { cbn in E. subst r. cbn in F. destruct F. congruence. }
        assert (c' = c /\ s = t ++ r) as [-> ->] by (cbn in E; split; congruence). exists t. split; [reflexivity|]. split; [exact F|]. split.
        { destruct (st && negb us); [apply (groups_two c d t Hc), G|apply (groups_digit c d t Hc), G]. }
        unfold hex_number. cbn [fold_left]. rewrite Hc. f_equal. lia.
    + destruct (c =? 95) eqn:E95.
      * apply Z.eqb_eq in E95. subst c. destruct (st && negb us) eqn:S.
        { rewrite IH. rewrite andb_false_r. split.
          - intros (t & -> & E & G & ->). exists (95 :: t). split; [reflexivity|]. split; [exact E|]. split; [apply groups_under, G|]. reflexivity.
          - intros (t & E & F & G & ->). destruct t as [|c' t]; [cbn in E; subst r; cbn in F; destruct F; congruence|].
            assert (c' = 95 /\ s = t ++ r) as [-> ->] by (cbn in E; split; congruence). exists t.
            split; [reflexivity|]. split; [exact F|]. split; [apply groups_under, G|reflexivity]. }
        { split; [discriminate|]. intros (t & E & F & G & _). destruct t as [|c' t]; [cbn in E; subst r; cbn in F; destruct F; congruence|].
          assert (c' = 95) as -> by (cbn in E; congruence). exfalso. exact (groups_no_under _ G). }
      * assert (N : c <> 95) by lia. destruct (st && negb us).
        { split.
          - intros E. assert (acc = v /\ r = c :: s) as [-> ->] by (split; congruence). exists []. repeat split; [exact Hc|exact N|].
            repeat constructor; [discriminate|exists 0; reflexivity].
          - intros (t & E & F & G & ->). destruct t as [|c' t]; [cbn in E; subst r; reflexivity|].
            assert (c' = c) as -> by (cbn in E; congruence). exfalso. exact (groups_no_other' _ _ Hc N G). }
        { split; [discriminate|]. intros (t & E & F & G & _). destruct t as [|c' t].
          - unfold hex_groups in G. cbn in G. apply Forall_cons_iff in G as [[G _] _]. congruence.
          - assert (c' = c) as -> by (cbn in E; congruence). exfalso. exact (groups_no_other _ _ Hc N G). }
Qed.

Lemma lstrip_split f s : exists w, s = w ++ lstrip f s /\ forallb f w = true /\ match lstrip f s with [] => True | c :: _ => f c = false end.
Proof.
  induction s as [|c s IH]; [exists []; cbn; auto|]. cbn [lstrip]. destruct (f c) eqn:E.
  - destruct IH as (w & E1 & E2 & E3). exists (c :: w). cbn [app forallb]. rewrite E, E2, <- E1. auto.
  - exists []. cbn. auto.
Qed.
Lemma lstrip_app f w s : forallb f w = true -> match s with [] => True | c :: _ => f c = false end -> lstrip f (w ++ s) = s.
Proof.
  induction w as [|c w IH]; cbn [forallb app lstrip].
  - intros _ H. destruct s; [reflexivity|]. cbn. rewrite H. reflexivity.
  - intros H1 H2. apply andb_true_iff in H1 as [-> H1]. apply IH; assumption.
Qed.

Definition num_sign (sg : ustr) : Prop := sg = [] \/ sg = u "+" \/ sg = u "-".
Definition num_prefix (p : ustr) : Prop := p = [] \/ p = u "0x" \/ p = u "0X" \/ p = u "0x_" \/ p = u "0X_".
(** the text [int(s, 16)] accepts, and its value *)
Definition hex_numeral (s : ustr) (z : Z) : Prop :=
  exists w sg p t w', s = w ++ sg ++ p ++ t ++ w' /\ forallb is_space w = true /\ forallb is_space w' = true /\
    num_sign sg /\ num_prefix p /\ hex_groups t /\ z = (if ustr_eqb sg (u "-") then - hex_number 0 t else hex_number 0 t).

Lemma groups_head t : hex_groups t -> exists c d t', t = c :: t' /\ hexval c = Some d.
Proof.
  destruct t as [|c t]; intros G; [unfold hex_groups in G; cbn in G; apply Forall_cons_iff in G as [[G _] _]; congruence|].
  destruct (hexval c) as [d|] eqn:E; [eauto|]. exfalso. destruct (Z.eq_dec c 95) as [->|N]; [exact (groups_no_under _ G)|exact (groups_no_other _ _ E N G)].
Qed.
Lemma groups_chars t c : hex_groups t -> In c t -> hex_char c \/ c = 95.
Proof.
  intros G. assert (G' : Forall (fun g => Forall hex_char g) (split_on 95 t)) by (eapply Forall_impl; [|exact G]; cbn; tauto).
  clear G. induction t as [|y t IH]; intros H; [easy|]. destruct (Z.eq_dec y 95) as [->|N].
  - destruct H as [<-|H]; [auto|]. rewrite split_on_same in G'. apply Forall_cons_iff in G' as [_ G']. auto.
  - destruct (split_on_cons 95 y t N) as (h & q & E1 & E2). rewrite E2 in G'. apply Forall_cons_iff in G' as [G1 G2].
    apply Forall_cons_iff in G1 as [G0 G1]. destruct H as [<-|H]; [auto|]. apply IH; [|exact H]. rewrite E1. constructor; assumption.
Qed.
Lemma space_facts c : is_space c = true -> hexval c = None /\ c <> 95 /\ c <> 120 /\ c <> 88 /\ c <> 43 /\ c <> 45.
Proof.
  unfold is_space, hexval. intros H.
  replace ((48 <=? c) && (c <=? 57)) with false by lia. replace ((97 <=? c) && (c <=? 102)) with false by lia.
  replace ((65 <=? c) && (c <=? 70)) with false by lia. split; [reflexivity|lia].
Qed.
Lemma hex_facts c d : hexval c = Some d -> is_space c = false /\ c <> 120 /\ c <> 88 /\ c <> 43 /\ c <> 45 /\ c <> 95.
Proof.
  intros H. split; [destruct (is_space c) eqn:E; [apply space_facts in E as [E _]; congruence|reflexivity]|].
  repeat split; intros ->; discriminate H.
Qed.

Lemma skip_0x_spec s :
  exists p, num_prefix p /\ s = p ++ skip_0x s.
Proof.
  unfold num_prefix. destruct s as [|a [|b r]]; [exists []; auto|exists []; auto|]. unfold skip_0x.
  destruct ((a =? 48) && ((b =? 120) || (b =? 88))) eqn:E; [|exists []; auto].
  assert (a = 48) as -> by lia. assert (b = 120 \/ b = 88) as [->| ->] by lia.
  - destruct r as [|c r]; [exists (u "0x"); split; [auto|reflexivity]|]. destruct (c =? 95) eqn:E'.
    + assert (c = 95) as -> by lia. exists (u "0x_"). split; [tauto|reflexivity].
    + exists (u "0x"). split; [tauto|reflexivity].
  - destruct r as [|c r]; [exists (u "0X"); split; [auto|reflexivity]|]. destruct (c =? 95) eqn:E'.
    + assert (c = 95) as -> by lia. exists (u "0X_"). split; [tauto|reflexivity].
    + exists (u "0X"). split; [tauto|reflexivity].
Qed.
Lemma skip_0x_prefix p t w : num_prefix p -> hex_groups t -> forallb is_space w = true -> skip_0x (p ++ t ++ w) = t ++ w.
Proof.
  intros P G W. destruct (groups_head t G) as (c & d & t' & -> & Hc). destruct (hex_facts c d Hc) as (_ & N1 & N2 & _ & _ & N3).
  destruct P as [->|[->|[->|[->| ->]]]]; try reflexivity.
  - cbn [app]. unfold skip_0x. destruct (t' ++ w) as [|b r] eqn:E; [reflexivity|].
    assert (b <> 120 /\ b <> 88) as [B1 B2].
    { destruct t' as [|b' t'].
      - cbn in E. subst w. cbn [forallb] in W. apply andb_true_iff in W as [W _]. apply space_facts in W. tauto.
      - assert (b' = b) as -> by (cbn in E; congruence). destruct (groups_chars _ b G) as [[d' Hd]| ->]; [right; left; reflexivity| |lia].
        destruct (hex_facts b d' Hd). tauto. }
    replace ((c =? 48) && ((b =? 120) || (b =? 88))) with false by lia. reflexivity.
  - change (u "0x" ++ (c :: t') ++ w) with (48 :: 120 :: c :: t' ++ w). unfold skip_0x. cbn [Z.eqb andb orb Pos.eqb].
    replace (c =? 95) with false by lia. reflexivity.
  - change (u "0X" ++ (c :: t') ++ w) with (48 :: 88 :: c :: t' ++ w). unfold skip_0x. cbn [Z.eqb andb orb Pos.eqb].
    replace (c =? 95) with false by lia. reflexivity.
Qed.
Lemma int_sign_spec s : exists sg, num_sign sg /\ s = sg ++ snd (int_sign s) /\ fst (int_sign s) = ustr_eqb sg (u "-").
Proof.
  unfold num_sign. destruct s as [|a r]; [exists []; auto|]. unfold int_sign. destruct (a =? 43) eqn:E1.
  - assert (a = 43) as -> by lia. exists (u "+"). auto.
  - destruct (a =? 45) eqn:E2; [assert (a = 45) as -> by lia; exists (u "-"); auto|exists []; auto].
Qed.
Lemma py_int16_plain s z : py_int16 s = Some z <-> hex_numeral (map plain_char s) z.
Proof.
  unfold py_int16, hex_numeral. generalize (map plain_char s). clear s. intros s. split.
  - destruct (lstrip_split is_space s) as (w & Es & Hw & _). destruct (int_sign_spec (lstrip is_space s)) as (sg & Hsg & Esg & Eneg).
    destruct (int_sign (lstrip is_space s)) as [neg s1] eqn:E1. cbn [fst snd] in *.
    destruct (skip_0x_spec s1) as (p & Hp & Ep). destruct (hex_run (skip_0x s1) 0 false false) as [[v r]|] eqn:E2; [|discriminate].
    destruct (forallb is_space r) eqn:E3; [|discriminate]. intros E. apply hex_run_spec in E2 as (t & Et & _ & G & Ev). cbn [andb] in G.
    exists w, sg, p, t, r. split; [rewrite <- Et, <- Ep, <- Esg; exact Es|]. repeat (split; [assumption|]). rewrite <- Eneg, <- Ev. congruence.
  - intros (w & sg & p & t & w' & -> & Hw & Hw' & Hsg & Hp & G & ->).
    destruct (groups_head t G) as (c & d & t' & Et & Hc). destruct (hex_facts c d Hc) as (N0 & _ & _ & N1 & N2 & _).
    assert (H0 : match sg ++ p ++ t ++ w' with [] => True | c :: _ => is_space c = false end).
    { destruct Hsg as [->|[->| ->]]; [|reflexivity|reflexivity]. destruct Hp as [->|[->|[->|[->| ->]]]]; try reflexivity. rewrite Et. exact N0. }
    rewrite (lstrip_app is_space w _ Hw H0).
    assert (H1 : int_sign (sg ++ p ++ t ++ w') = (ustr_eqb sg (u "-"), p ++ t ++ w')).
    { destruct Hsg as [->|[->| ->]]; [|reflexivity|reflexivity]. destruct Hp as [->|[->|[->|[->| ->]]]]; try reflexivity.
      rewrite Et. cbn [app int_sign]. replace (c =? 43) with false by lia. replace (c =? 45) with false by lia. reflexivity. }
    rewrite H1, (skip_0x_prefix p t w' Hp G Hw').
    assert (H2 : hex_run (t ++ w') 0 false false = Some (hex_number 0 t, w')).
    { apply hex_run_spec. exists t. repeat split; [|exact G]. destruct w' as [|x w']; [exact I|]. cbn [forallb] in Hw'.
      apply andb_true_iff in Hw' as [Hx _]. apply space_facts in Hx. split; apply Hx. }
    rewrite H2, Hw'. reflexivity.
Qed.

Lemma numeral_ascii r z : hex_numeral r z -> Forall (fun c => c < 128) r.
Proof.
  intros (w & sg & p & t & w' & -> & Hw & Hw' & Hsg & Hp & G & _). rewrite forallb_forall in Hw, Hw'.
  assert (S : forall c, is_space c = true -> c < 128) by (intros c; unfold is_space; lia).
  repeat (apply Forall_app; split).
  - apply Forall_forall. intros c Hc. exact (S c (Hw c Hc)).
  - destruct Hsg as [->|[->| ->]]; repeat constructor.
  - destruct Hp as [->|[->|[->|[->| ->]]]]; repeat constructor.
  - apply Forall_forall. intros c Hc. destruct (groups_chars t c G Hc) as [[d H]| ->]; [|lia]. unfold hexval in H.
    destruct ((48 <=? c) && (c <=? 57)) eqn:E1; [lia|]. destruct ((97 <=? c) && (c <=? 102)) eqn:E2; [lia|].
    destruct ((65 <=? c) && (c <=? 70)) eqn:E3; [lia|discriminate].
  - apply Forall_forall. intros c Hc. exact (S c (Hw' c Hc)).
Qed.
Lemma py_int16_exact s z : py_int16 s = Some z <-> exists r, Forall2 typed s r /\ hex_numeral r z.
Proof.
  rewrite py_int16_plain. split.
  - intros H. eexists. split; [|exact H]. apply typed_all. split; [reflexivity|exact (numeral_ascii _ _ H)].
  - intros (r & T & H). apply typed_all in T as [-> _]. exact H.
Qed.

Lemma hex_number_bound t : forall acc k, 0 <= acc < 16 ^ k -> 0 <= k -> 0 <= hex_number acc t < 16 ^ (k + Z.of_nat (List.length t)).
Proof.
  induction t as [|c t IH]; intros acc k H Hk; cbn [List.length]; [unfold hex_number; cbn [fold_left]; rewrite Z.add_0_r; exact H|].
  unfold hex_number. cbn [fold_left]. change (fold_left _ t ?a) with (hex_number a t).
  replace (k + Z.of_nat (S (List.length t))) with ((k + 1) + Z.of_nat (List.length t)) by lia.
  apply IH; [|lia]. rewrite Z.pow_add_r by lia. change (16 ^ 1) with 16.
  destruct (hexval c) as [d|] eqn:E; [apply hexval_range in E; lia|lia].
Qed.

(** [s] without urn:, uuid:, outer braces and dashes (Python 3.6 uuid.py) *)
Definition uuid_digits (s : ustr) : ustr :=
  remove_all (u "-") (strip (fun c => (c =? 123) || (c =? 125)) (remove_all (u "uuid:") (remove_all (u "urn:") s))).
Lemma uuid_text_exact s z :
  py_uuid (VStr s) = Ok z <->
  List.length (uuid_digits s) = 32%nat /\
  exists w sg p t w', Forall2 typed (uuid_digits s) (w ++ sg ++ p ++ t ++ w') /\ forallb is_space w = true /\ forallb is_space w' = true /\
    (sg = [] \/ sg = u "+") /\ num_prefix p /\ hex_groups t /\ z = hex_number 0 t.
Proof.
  cbn [py_uuid]. unfold uuid_parse. fold (uuid_digits s).
  assert (D : ~ In 45 (uuid_digits s)).
  { unfold uuid_digits, remove_all. rewrite drop_dash. rewrite filter_In. intros [_ H]. discriminate H. }
  assert (N : forall w sg p t w', Forall2 typed (uuid_digits s) (w ++ sg ++ p ++ t ++ w') -> forallb is_space w = true -> forallb is_space w' = true ->
            (sg = [] \/ sg = u "+") -> num_prefix p -> hex_groups t -> py_int16 (uuid_digits s) = Some (hex_number 0 t)).
  { intros w sg p t w' Es Hw Hw' Hsg Hp G. apply py_int16_exact. eexists. split; [exact Es|]. exists w, sg, p, t, w'.
    split; [reflexivity|]. repeat (split; [assumption|]). split; [destruct Hsg as [->| ->]; unfold num_sign; auto|].
    repeat (split; [assumption|]). destruct Hsg as [->| ->]; reflexivity. }
  destruct (Nat.eqb_spec (List.length (uuid_digits s)) 32) as [L|L].
  - destruct (py_int16 (uuid_digits s)) as [v|] eqn:E.
    + split.
      * intros H. destruct ((0 <=? v) && (v <? 2 ^ 128)); [|discriminate]. assert (v = z) as -> by congruence. split; [exact L|].
        apply py_int16_exact in E as (r & T & w & sg & p & t & w' & Es & Hw & Hw' & Hsg & Hp & G & Ez). subst r. exists w, sg, p, t, w'.
        destruct Hsg as [->|[->| ->]]; [repeat split; auto|repeat split; auto|].
        exfalso. apply D. assert (I : In 45 (w ++ u "-" ++ p ++ t ++ w')) by (rewrite in_app_iff; right; left; reflexivity).
        apply typed_all in T as [T _]. rewrite T in I. apply in_map_iff in I as (c & Hc & I).
        assert (Ty : typed c 45) by (apply typed_iff; rewrite Hc; split; [reflexivity|lia]).
        destruct Ty as [[_ <-]|[[_ Q]|(d & (? & _ & B & _) & Q)]]; [exact I|discriminate Q|lia].
      * intros (_ & w & sg & p & t & w' & Es & Hw & Hw' & Hsg & Hp & G & ->).
        specialize (N w sg p t w' Es Hw Hw' Hsg Hp G). assert (v = hex_number 0 t) as -> by congruence.
        pose proof (hex_number_bound t 0 0 ltac:(cbn; lia) ltac:(lia)) as B.
        assert (Lt : (List.length t <= 32)%nat) by (apply typed_all in Es as [Es _]; apply (f_equal (@List.length Z)) in Es; rewrite map_length in Es; rewrite <- L, <- Es, !app_length; lia).
        assert (16 ^ (0 + Z.of_nat (List.length t)) <= 2 ^ 128) by (change (2 ^ 128) with (16 ^ 32); apply Z.pow_le_mono_r; lia).
        replace ((0 <=? hex_number 0 t) && (hex_number 0 t <? 2 ^ 128)) with true by lia. reflexivity.
    + split; [discriminate|]. intros (_ & w & sg & p & t & w' & Es & Hw & Hw' & Hsg & Hp & G & ->). exfalso.
      specialize (N w sg p t w' Es Hw Hw' Hsg Hp G). congruence.
  - split; [discriminate|]. intros [L' _]. congruence.
Qed.

(** ** Durations that are refused *)
Lemma mdt_zero_rate size : maximum_download_time size 0 = Err EZeroDivisionError.
Proof. reflexivity. Qed.
Lemma fdiv_large a b : 0 < a -> 0 < b -> 2 ^ 47 * b <= a -> let '(m, e) := fdiv_pos a b in 2 ^ 47 <= fl_ceil_fin m e.
Proof.
  intros Ha Hb H. unfold fdiv_pos. pose proof (fdiv_exp_spec a b Ha Hb) as [L _]. cbv zeta in L. set (e := fdiv_exp a b) in *.
  pose proof (scale_up_pos e). pose proof (scale_up_pos (- e)). unfold fl_ceil_fin, fl_floor_fin.
  destruct (Z.leb_spec 0 e) as [He|He].
  - assert (2 ^ 52 <= rdiv_rne (a * scale_up (- e)) (b * scale_up e)) by (apply rdiv_rne_ge; nia).
    assert (0 < 2 ^ e) by (apply Z.pow_pos_nonneg; lia). change (2 ^ 52) with (32 * 2 ^ 47) in *. set (M := 2 ^ 47) in *.
    assert (0 < M) by reflexivity. clearbody M. nia.
  - assert (S : scale_up (- e) = 2 ^ (- e)) by (unfold scale_up; f_equal; lia). assert (S' : scale_up e = 1) by (apply scale_up_nonpos; lia).
    rewrite S, S' in *.
    assert (2 ^ 47 * 2 ^ (- e) <= rdiv_rne (a * 2 ^ (- e)) (b * 1)).
    { apply rdiv_rne_ge; [lia|]. set (M := 2 ^ 47) in *. clearbody M. nia. }
    set (q := rdiv_rne _ _) in *. clearbody q. set (P := 2 ^ (- e)) in *. clearbody P. set (M := 2 ^ 47) in *. clearbody M.
    assert (- q / P <= - M); [|lia]. apply Z.le_trans with ((- M * P) / P); [apply Z.div_le_mono; lia|]. rewrite Z.div_mul by lia. lia.
Qed.
Lemma mdt_overflow size rate : 0 < rate -> 2 ^ 47 * (rate * 1024) <= size -> maximum_download_time size rate = Err EOverflowError.
Proof.
  intros Hr H. unfold maximum_download_time. change (2 ^ 10) with 1024. unfold py_truediv.
  assert (0 < 2 ^ 47) by reflexivity. assert (0 < size) by nia.
  replace (rate * 1024 =? 0) with false by lia. replace (size =? 0) with false by lia.
  pose proof (fdiv_large (Z.abs size) (Z.abs (rate * 1024))) as F. rewrite !Z.abs_eq in * by lia.
  destruct (fdiv_pos size (rate * 1024)) as [m e]. specialize (F ltac:(lia) ltac:(lia) H).
  replace (Z.sgn size) with 1 by lia. replace (Z.sgn (rate * 1024)) with 1 by lia. cbn [bind py_ceil]. rewrite !Z.mul_1_l.
  set (n := fl_ceil_fin m e) in *. clearbody n.
  assert (T : td_check (n * US) = Err EOverflowError).
  { unfold td_check. assert (1000000000 <= n * US / (86400 * US)).
    { apply Z.div_le_lower_bound; [reflexivity|]. unfold US. change (2 ^ 47) with 140737488355328 in *. lia. }
    replace ((-999999999 <=? n * US / (86400 * US)) && (n * US / (86400 * US) <=? 999999999)) with false; [reflexivity|].
    set (x := n * US / (86400 * US)) in *. clearbody x. symmetry. apply andb_false_iff. right. apply Z.leb_gt. lia. }
  rewrite T. reflexivity.
Qed.
(** any size: the seconds granted are the least that suffice up to 1/64 s *)
Lemma fdiv_close a b : 0 < a -> 0 < b -> a < 2 ^ 47 * b ->
  let '(m, e) := fdiv_pos a b in (fl_ceil_fin m e - 1) * b < a /\ 64 * a <= (64 * fl_ceil_fin m e + 1) * b.
Proof.
  intros Ha Hb H. unfold fdiv_pos.
  assert (He : fdiv_exp a b <= 0) by (apply fdiv_exp_nonpos; [lia|lia|change (2 ^ 53) with (64 * 2 ^ 47); set (M := 2 ^ 47) in *; clearbody M; nia]).
  pose proof (fdiv_exp_spec a b Ha Hb) as [L _]. cbv zeta in L. set (e := fdiv_exp a b) in *. rewrite (scale_up_nonpos e He) in *.
  assert (S0 : scale_up (- e) = 2 ^ (- e)) by (unfold scale_up; f_equal; lia). rewrite S0 in *. clear S0.
  pose proof (Z.pow_pos_nonneg 2 (- e) ltac:(lia) ltac:(lia)) as HS. set (S := 2 ^ (- e)) in *.
  set (m := rdiv_rne (a * S) (b * 1)). pose proof (rdiv_rne_spec (a * S) (b * 1) ltac:(lia)) as R. fold m in R.
  assert (N : exists n, fl_ceil_fin m e = n /\ (n - 1) * S < m <= n * S).
  { exists (fl_ceil_fin m e). split; [reflexivity|]. unfold fl_ceil_fin, fl_floor_fin. destruct (Z.leb_spec 0 e) as [Z|Z].
    - assert (e = 0) by lia. assert (S = 1) by (unfold S; replace (- e) with 0 by lia; reflexivity). replace e with 0 by lia. change (2 ^ 0) with 1. nia.
    - fold S. pose proof (Z.div_mod (- m) S ltac:(lia)). pose proof (Z.mod_pos_bound (- m) S HS). nia. }
  destruct N as (n & -> & N1 & N2). clearbody S.
  assert (B : 33 <= S). { change (2 ^ 52) with (32 * 2 ^ 47) in L. set (M := 2 ^ 47) in *. assert (0 < M) by reflexivity. clearbody M. nia. }
  split.
  - destruct (Z.lt_ge_cases ((n - 1) * b) a) as [Q|Q]; [exact Q|exfalso].
    assert (m <= (n - 1) * S); [|lia]. unfold m. apply rdiv_rne_le; [lia|]. nia.
  - clearbody m. clear L. assert (2 * (a * S) <= 2 * (m * b) + b) by lia. assert (2 * (a * S) <= 2 * (n * S * b) + b) by nia. nia.
Qed.
Lemma mdt_any_size size rate t : 0 <= size -> 0 < rate -> maximum_download_time size rate = Ok t ->
  exists n, t = (60 + n) * 1000000 /\ (n - 1) * (rate * 1024) < size /\ 64 * size <= (64 * n + 1) * (rate * 1024).
Proof.
  intros Hs Hr H. destruct (Z.eq_dec size 0) as [->|Nz].
  - destruct (mdt_least 0 rate ltac:(lia) Hr) as (n & E & N & M). rewrite E in H. exists n. split; [congruence|].
    assert (n = 0). { assert (n <= 0) by (apply M; lia). lia. } subst n. lia.
  - destruct (Z.lt_ge_cases size (2 ^ 47 * (rate * 1024))) as [Q|Q]; [|rewrite (mdt_overflow size rate Hr Q) in H; discriminate].
    unfold maximum_download_time in H. change (2 ^ 10) with 1024 in H. unfold py_truediv in H.
    replace (rate * 1024 =? 0) with false in H by lia. replace (size =? 0) with false in H by lia.
    rewrite !Z.abs_eq in H by lia. pose proof (fdiv_close size (rate * 1024) ltac:(lia) ltac:(lia) Q) as F.
    destruct (fdiv_pos size (rate * 1024)) as [m e]. replace (Z.sgn size) with 1 in H by lia. replace (Z.sgn (rate * 1024)) with 1 in H by lia.
    cbn [bind py_ceil] in H. rewrite !Z.mul_1_l in H. set (n := fl_ceil_fin m e) in *. clearbody n. exists n. split; [|exact F].
    apply bind_ok in H as (d & Hd & H). assert (Hd' : d = n * US) by (unfold td_check in Hd; destruct (_ && _); congruence). subst d.
    unfold td_check in H. destruct (_ && _); [|discriminate]. apply Ok_inj in H. subst t. unfold DOWNLOAD_LEADIN_TIME, US. ring.
Qed.
Lemma svt_refused size ts deadline : 0 <= size < 2 ^ 53 ->
  ((exists e, subtask_verification_time size ts deadline = Err e) <->
   ~ (-62135596800 <= ts <= 253402300799 /\ -62135596800 <= deadline <= 253402300799)).
Proof.
  intros Hs. split.
  - intros [e He] [H1 H2]. destruct (svt_formula size ts deadline Hs H1 H2) as (mdt & _ & E). congruence.
  - intros N. unfold subtask_verification_time. destruct (maximum_download_time size DEFAULT_UPLOAD_RATE) as [mdt|e]; [|eexists; reflexivity].
    cbn [bind]. destruct (utc_ok ts) eqn:E1; [|eexists; reflexivity]. destruct (utc_ok deadline) eqn:E2; [|eexists; reflexivity].
    exfalso. apply N. unfold utc_ok in *. lia.
Qed.

(** ** Masks from dicts *)
Lemma mask_from_dict_exact kvs m :
  mask_from_dict kvs = Ok m <-> (kvs = [("byte_repr"%string, m)] \/ (kvs = [] /\ m = zeros 32)).
Proof.
  unfold mask_from_dict. destruct kvs as [|[k v] [|q r]].
  - split; [intros E; right; split; [reflexivity|]; assert (empty_mask = m) by congruence; subst; reflexivity|].
    intros [E|[_ ->]]; [discriminate|reflexivity].
  - destruct (String.eqb_spec k "byte_repr") as [->|N]; split; try discriminate.
    + intros E. left. congruence.
    + intros [E|[E _]]; [congruence|discriminate].
    + intros [E|[E _]]; [congruence|discriminate].
  - split; [discriminate|]. intros [E|[E _]]; discriminate.
Qed.

(** ** The table of digits against lines of digits *)
Definition line_ok (text : string -> ustr) (p : string * string) (z : Z) : bool :=
  ustr_eqb (text (snd p)) (map (Z.add z) [0; 1; 2; 3; 4; 5; 6; 7; 8; 9]).
(** the characters of a text given in UTF-8 *)
Definition in_utf8 (s : string) : ustr := match utf8_dec (map z2b (u s)) with Some t => t | None => [] end.
Lemma nd_scripts (l : list (string * string)) :
  forallb (fun pz => line_ok in_utf8 (fst pz) (snd pz)) (combine l (48 :: digit_zeros)) && Nat.eqb (List.length l) (List.length (48 :: digit_zeros)) = true ->
  forall c d, nd c d <-> exists name line, In (name, line) l /\ 0 <= d /\ nth_error (in_utf8 line) (Z.to_nat d) = Some c.
Proof.
  intros H. apply andb_prop in H as [H L]. apply Nat.eqb_eq in L. unfold nd. revert H L. generalize (48 :: digit_zeros). revert l.
  induction l as [|[n t] l IH]; intros zs H L; destruct zs as [|z zs]; try discriminate L.
  - intros c d. split; [intros (z & [] & _)|intros (n & t & [] & _)].
  - cbn [combine forallb fst snd] in H. apply andb_prop in H as [E H]. injection L as L. specialize (IH zs H L). unfold line_ok in E. cbn [snd] in E.
    apply ustr_eqb_eq in E.
    assert (K : forall c d, (0 <= d <= 9 /\ c = z + d) <-> (0 <= d /\ nth_error (in_utf8 t) (Z.to_nat d) = Some c)).
    { intros c d. rewrite E. split.
      - intros [D ->]. split; [lia|]. assert (d = 0 \/ d = 1 \/ d = 2 \/ d = 3 \/ d = 4 \/ d = 5 \/ d = 6 \/ d = 7 \/ d = 8 \/ d = 9) as Q by lia.
        repeat (destruct Q as [->|Q]; [reflexivity|]). subst. reflexivity.
      - intros [D Q]. assert (B : (Z.to_nat d < 10)%nat) by (change 10%nat with (List.length (map (Z.add z) [0; 1; 2; 3; 4; 5; 6; 7; 8; 9])); apply (proj1 (nth_error_Some _ _)); rewrite Q; discriminate). split; [lia|].
        assert (d = 0 \/ d = 1 \/ d = 2 \/ d = 3 \/ d = 4 \/ d = 5 \/ d = 6 \/ d = 7 \/ d = 8 \/ d = 9) as W by lia.
        repeat (destruct W as [->|W]; [apply (f_equal (fun o => match o with Some x => x | None => 0 end)) in Q; exact (eq_sym Q)|]).
        subst. apply (f_equal (fun o => match o with Some x => x | None => 0 end)) in Q; exact (eq_sym Q). }
    intros c d. split.
    + intros (z' & [<-|I] & D).
      * exists n, t. split; [left; reflexivity|]. apply K. exact D.
      * destruct (proj1 (IH c d)) as (n' & t' & I' & Q); [exists z'; auto|]. exists n', t'. split; [right; exact I'|exact Q].
    + intros (n' & t' & [Q|I] & D).
      * injection Q as <- <-. exists z. split; [left; reflexivity|]. apply K. exact D.
      * destruct (proj2 (IH c d)) as (z' & I' & Q); [exists n', t'; auto|]. exists z'. split; [right; exact I'|exact Q].
Qed.
