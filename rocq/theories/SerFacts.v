(** * What the wire can carry: everything decoded can be encoded again (C48, C60) *)
From Verif Require Export CborProofs.
Local Lemma Some_inj {A} (x y : A) : Some x = Some y -> x = y. Proof. congruence. Qed.

(** ** UTF-8 is a bijection *)
Lemma utf8_enc_dec : forall bs s, utf8_dec bs = Some s -> utf8_enc s = Some bs.
Proof.
  assert (G : forall n bs s, (List.length bs <= n)%nat -> utf8_dec bs = Some s -> forallb scalar s = true /\ flat_map utf8_enc1 s = bs).
  { induction n as [|n IH]; intros bs s L H.
    - destruct bs; [|cbn in L; lia]. cbn in H. injection H as <-. split; reflexivity.
    - destruct bs as [|b0 r0]; [cbn in H; injection H as <-; split; reflexivity|]. cbn [utf8_dec] in H. cbv zeta in H. cbn [List.length] in L.
      pose proof (b2z_range b0) as R0.
      assert (K : forall r c p, (List.length r <= n)%nat -> option_map (cons c) (utf8_dec r) = Some s -> scalar c = true -> utf8_enc1 c = p ->
          forallb scalar s = true /\ flat_map utf8_enc1 s = p ++ r).
      { intros r c p Lr Hr Sc Ep. destruct (utf8_dec r) as [t|] eqn:Er; [|discriminate Hr]. cbn [option_map] in Hr. injection Hr as <-.
        destruct (IH r t Lr Er) as [H1 H2]. cbn [forallb flat_map]. rewrite Sc, H1, H2, Ep. split; reflexivity. }
      destruct (b2z b0 <? 128) eqn:T0.
      { destruct (K r0 (b2z b0) [b0]) as [K1 K2]; [lia|exact H|unfold scalar; lia| |auto]. unfold utf8_enc1. rewrite T0, z2b_b2z. reflexivity. }
      destruct (b2z b0 <? 194) eqn:T1; [discriminate|]. destruct (b2z b0 <? 224) eqn:T2.
      { destruct r0 as [|b1 r1]; [discriminate|]. pose proof (b2z_range b1) as R1. destruct (is_cont b1) eqn:C1; [|discriminate]. unfold is_cont in C1. cbn [List.length] in L.
        set (c := (b2z b0 - 192) * 64 + (b2z b1 - 128)) in *.
        destruct (K r1 c [b0; b1]) as [K1 K2]; [lia|exact H|unfold scalar, c; lia| |auto]. unfold utf8_enc1.
        replace (c <? 128) with false by (unfold c; lia). replace (c <? 2048) with true by (unfold c; lia).
        replace (192 + c / 64) with (b2z b0) by (unfold c; lia). replace (128 + c mod 64) with (b2z b1) by (unfold c; lia). rewrite !z2b_b2z. reflexivity. }
      destruct (b2z b0 <? 240) eqn:T3.
      { destruct r0 as [|b1 [|b2 r2]]; try discriminate. pose proof (b2z_range b1) as R1. pose proof (b2z_range b2) as R2. cbn [List.length] in L.
        set (c := (b2z b0 - 224) * 4096 + (b2z b1 - 128) * 64 + (b2z b2 - 128)) in *.
        destruct (is_cont b1 && is_cont b2 && (2048 <=? c) && scalar c) eqn:C; [|discriminate]. apply andb_true_iff in C as [C Sc].
        unfold is_cont in C. assert (c = (b2z b0 - 224) * 4096 + (b2z b1 - 128) * 64 + (b2z b2 - 128)) by reflexivity. clearbody c.
        destruct (K r2 c [b0; b1; b2]) as [K1 K2]; [lia|exact H|exact Sc| |auto]. unfold utf8_enc1.
        replace (c <? 128) with false by lia. replace (c <? 2048) with false by lia. replace (c <? 65536) with true by lia.
        replace (224 + c / 4096) with (b2z b0) by lia. replace (128 + (c / 64) mod 64) with (b2z b1) by lia. replace (128 + c mod 64) with (b2z b2) by lia.
        rewrite !z2b_b2z. reflexivity. }
      destruct (b2z b0 <? 245) eqn:T4; [|discriminate].
      destruct r0 as [|b1 [|b2 [|b3 r3]]]; try discriminate. pose proof (b2z_range b1) as R1. pose proof (b2z_range b2) as R2. pose proof (b2z_range b3) as R3. cbn [List.length] in L.
      set (c := (b2z b0 - 240) * 262144 + (b2z b1 - 128) * 4096 + (b2z b2 - 128) * 64 + (b2z b3 - 128)) in *.
      destruct (is_cont b1 && is_cont b2 && is_cont b3 && (65536 <=? c) && scalar c) eqn:C; [|discriminate]. apply andb_true_iff in C as [C Sc].
      unfold is_cont in C. assert (c = (b2z b0 - 240) * 262144 + (b2z b1 - 128) * 4096 + (b2z b2 - 128) * 64 + (b2z b3 - 128)) by reflexivity. clearbody c.
      destruct (K r3 c [b0; b1; b2; b3]) as [K1 K2]; [lia|exact H|exact Sc| |auto]. unfold utf8_enc1.
      replace (c <? 128) with false by lia. replace (c <? 2048) with false by lia. replace (c <? 65536) with false by lia.
      replace (240 + c / 262144) with (b2z b0) by lia. replace (128 + (c / 4096) mod 64) with (b2z b1) by lia.
      replace (128 + (c / 64) mod 64) with (b2z b2) by lia. replace (128 + c mod 64) with (b2z b3) by lia.
      rewrite !z2b_b2z. reflexivity. }
  intros bs s H. destruct (G _ bs s (le_n _) H) as [H1 H2]. unfold utf8_enc. rewrite H1, H2. reflexivity.
Qed.

(** ** Encodable values *)
(** [encb]: no lone surrogates, containers, masks or messages; [vsize]: at most
    what the value takes on the wire *)
Fixpoint encb (v : pyval) : bool :=
  match v with
  | VNone | VBool _ | VInt _ | VBytes _ => true
  | VFloat b => (0 <=? b) && (b <? 2 ^ 64)
  | VStr s => forallb scalar s
  | VList l | VTuple l => forallb encb l
  | VDict _ kvs => forallb (fun kv => encb (fst kv) && encb (snd kv)) kvs
  | VEnum e _ => is_string_enum e
  | VTag n x => (0 <=? n) && (n <? 2 ^ 64) && encb x
  | VObj _ _ | VMask _ | VMsg _ _ _ _ _ _ => false
  end.
Definition zsum (l : list Z) : Z := fold_right Z.add 0 l.
Definition magnitude (z : Z) : Z := if 0 <=? z then z else -1 - z.
Fixpoint vsize (v : pyval) : Z :=
  match v with
  | VInt z => Z.log2 (magnitude z) / 8 + 1
  | VStr s => 1 + Z.of_nat (List.length (flat_map utf8_enc1 s))
  | VEnum _ s => 1 + Z.of_nat (List.length (flat_map utf8_enc1 (u s)))
  | VBytes b => 1 + blen b
  | VList l | VTuple l => 1 + zsum (map vsize l)
  | VDict _ kvs => 1 + zsum (map (fun kv => vsize (fst kv) + vsize (snd kv)) kvs)
  | VTag _ x => 1 + vsize x
  | _ => 1
  end.
Lemma vsize_pos v : 1 <= vsize v.
Proof.
  induction v using pyval_ind'; cbn [vsize]; try lia.
  - assert (0 <= Z.log2 (magnitude z) / 8) by (apply Z.div_pos; [apply Z.log2_nonneg|lia]). lia.
  - unfold blen. lia.
  - assert (0 <= zsum (map vsize l)); [|lia]. induction H; cbn [map zsum fold_right]; [lia|]. unfold zsum in *. lia.
  - assert (0 <= zsum (map vsize l)); [|lia]. induction H; cbn [map zsum fold_right]; [lia|]. unfold zsum in *. lia.
  - assert (0 <= zsum (map (fun kv => vsize (fst kv) + vsize (snd kv)) kvs)); [|lia]. induction H as [|[k x] l [H1 H2] _ IH]; cbn [map zsum fold_right fst snd] in *; [lia|]. unfold zsum in *. lia.
Qed.
Lemma enc_head_some maj n : 0 <= n < 2 ^ 64 -> exists h, enc_head maj n = Some h.
Proof.
  intros H. unfold enc_head. replace (n <? 0) with false by lia. replace (n <? 2 ^ 64) with true by lia.
  repeat match goal with |- context [if ?b then _ else _] => destruct b end; eauto.
Qed.
Lemma text_some s : forallb scalar s = true -> 1 + Z.of_nat (List.length (flat_map utf8_enc1 s)) < 2 ^ 64 -> exists b, enc_text s = Some b.
Proof.
  intros H L. unfold enc_text, utf8_enc. rewrite H. destruct (enc_head_some 3 (blen (flat_map utf8_enc1 s))) as [h ->]; [unfold blen; lia|]. cbn [oapp]. eauto.
Qed.
Lemma zsum_in x l : (forall y, In y l -> 1 <= y) -> In x l -> x <= zsum l.
Proof.
  induction l as [|y l IH]; intros P H; [destruct H|]. cbn [zsum fold_right] in *. fold (zsum l).
  assert (0 <= zsum l). { clear IH H. assert (Q : forall y, In y l -> 1 <= y) by (intros; apply P; right; assumption). clear P. induction l as [|a l IH]; [cbn; lia|].
    cbn [zsum fold_right]. fold (zsum l). pose proof (Q a (or_introl eq_refl)). assert (0 <= zsum l) by (apply IH; intros; apply Q; right; assumption). lia. }
  destruct H as [->|H]; [lia|]. pose proof (P y (or_introl eq_refl)). specialize (IH ltac:(intros; apply P; right; assumption) H). lia.
Qed.
Lemma zsum_len l : (forall y, In y l -> 1 <= y) -> Z.of_nat (List.length l) <= zsum l.
Proof.
  induction l as [|y l IH]; intros P; [cbn; lia|]. cbn [zsum fold_right List.length]. fold (zsum l). pose proof (P y (or_introl eq_refl)).
  specialize (IH ltac:(intros; apply P; right; assumption)). lia.
Qed.
Theorem enc_total v : encb v = true -> vsize v < 2 ^ 64 -> exists b, enc v = Some b.
Proof.
  induction v using pyval_ind'; intros E S; cbn [encb] in E; try discriminate E; cbn [enc vsize] in *; eauto.
  - destruct b; eauto.
  - unfold enc_int, cbor_uint_max, cbor_negint_max. unfold magnitude in S. destruct (0 <=? z) eqn:Hz.
    + destruct (z <=? 2 ^ 64 - 1) eqn:Q; [apply enc_head_some; lia|]. destruct (enc_head_some 6 2) as [h ->]; [lia|]. unfold enc_bstr, big_bytes.
      assert (0 <= Z.log2 z / 8) by (apply Z.div_pos; [apply Z.log2_nonneg|lia]).
      destruct (enc_head_some 2 (blen (be_enc (Z.to_nat (Z.log2 z / 8 + 1)) z))) as [h2 ->]; [unfold blen; rewrite be_enc_length; lia|]. cbn [oapp]. eauto.
    + destruct (-1 - z <=? 2 ^ 63 - 1) eqn:Q; [apply enc_head_some; lia|]. destruct (enc_head_some 6 3) as [h ->]; [lia|]. unfold enc_bstr, big_bytes.
      assert (0 <= Z.log2 (-1 - z) / 8) by (apply Z.div_pos; [apply Z.log2_nonneg|lia]).
      destruct (enc_head_some 2 (blen (be_enc (Z.to_nat (Z.log2 (-1 - z) / 8 + 1)) (-1 - z)))) as [h2 ->]; [unfold blen; rewrite be_enc_length; lia|]. cbn [oapp]. eauto.
  - rewrite E. eauto.
  - apply text_some; assumption.
  - unfold enc_bstr. destruct (enc_head_some 2 (blen b)) as [h ->]; [unfold blen in *; lia|]. cbn [oapp]. eauto.
  - assert (P : forall y, In y (map vsize l) -> 1 <= y) by (intros y Hy; apply in_map_iff in Hy as (x & <- & _); apply vsize_pos).
    pose proof (zsum_len _ P) as LL. rewrite map_length in LL. destruct (enc_head_some 4 (Z.of_nat (List.length l))) as [h ->]; [lia|].
    assert (B : forall x, In x l -> exists b, enc x = Some b).
    { intros x Hx. rewrite Forall_forall in H. rewrite forallb_forall in E. apply H; auto. pose proof (zsum_in (vsize x) _ P (in_map _ _ _ Hx)). lia. }
    assert (F : exists b, fold_right (fun x acc => oapp (enc x) acc) (Some []) l = Some b).
    { clear - B. induction l as [|x l IH]; [cbn; eauto|]. cbn [fold_right]. destruct (B x (or_introl eq_refl)) as [b ->].
      destruct IH as [b' ->]; [intros; apply B; right; assumption|]. cbn [oapp]. eauto. }
    destruct F as [b ->]. cbn [oapp]. eauto.
  - assert (P : forall y, In y (map vsize l) -> 1 <= y) by (intros y Hy; apply in_map_iff in Hy as (x & <- & _); apply vsize_pos).
    pose proof (zsum_len _ P) as LL. rewrite map_length in LL. destruct (enc_head_some 4 (Z.of_nat (List.length l))) as [h ->]; [lia|].
    assert (B : forall x, In x l -> exists b, enc x = Some b).
    { intros x Hx. rewrite Forall_forall in H. rewrite forallb_forall in E. apply H; auto. pose proof (zsum_in (vsize x) _ P (in_map _ _ _ Hx)). lia. }
    assert (F : exists b, fold_right (fun x acc => oapp (enc x) acc) (Some []) l = Some b).
    { clear - B. induction l as [|x l IH]; [cbn; eauto|]. cbn [fold_right]. destruct (B x (or_introl eq_refl)) as [b ->].
      destruct IH as [b' ->]; [intros; apply B; right; assumption|]. cbn [oapp]. eauto. }
    destruct F as [b ->]. cbn [oapp]. eauto.
  - set (g := fun kv : pyval * pyval => vsize (fst kv) + vsize (snd kv)) in *.
    assert (P : forall y, In y (map g kvs) -> 1 <= y) by (intros y Hy; apply in_map_iff in Hy as ([a b] & <- & _); unfold g; cbn [fst snd]; pose proof (vsize_pos a); pose proof (vsize_pos b); lia).
    pose proof (zsum_len _ P) as LL. rewrite map_length in LL. destruct (enc_head_some 5 (Z.of_nat (List.length kvs))) as [h ->]; [lia|].
    assert (B : forall k x, In (k, x) kvs -> (exists b, enc k = Some b) /\ exists b, enc x = Some b).
    { intros k x Hx. rewrite Forall_forall in H. destruct (H _ Hx) as [H1 H2]. rewrite forallb_forall in E. specialize (E _ Hx). cbn [fst snd] in *. apply andb_true_iff in E as [E1 E2].
      pose proof (zsum_in _ _ P (in_map _ _ _ Hx)) as Z. unfold g at 1 in Z. cbn [fst snd] in Z. pose proof (vsize_pos k). pose proof (vsize_pos x). split; [apply H1|apply H2]; auto; lia. }
    assert (F : exists b, fold_right (fun kv acc => oapp (oapp (enc (fst kv)) (enc (snd kv))) acc) (Some []) kvs = Some b).
    { clear - B. induction kvs as [|[k x] l IH]; [cbn; eauto|]. cbn [fold_right fst snd]. destruct (B k x (or_introl eq_refl)) as [[b1 ->] [b2 ->]].
      destruct IH as [b' ->]; [intros; apply B; right; assumption|]. cbn [oapp]. eauto. }
    destruct F as [b ->]. cbn [oapp]. eauto.
  - rewrite E. apply text_some; [apply u_ascii_or|assumption].
  - apply andb_true_iff in E as [E1 E2]. destruct (enc_head_some 6 n) as [h ->]; [lia|]. destruct IHv as [b ->]; [assumption|lia|]. cbn [oapp]. eauto.
Qed.

(** ** What the decoder returns *)
(** [good d n v]: encodable, without repeated keys, in wire form, nested less than
    [d] deep and of size at most [n] *)
Record good (d : nat) (n : Z) (v : pyval) : Prop := {
  good_enc : encb v = true; good_wire : wirewf v = true; good_norm : norm v = v; good_depth : (vdepth v < d)%nat; good_size : vsize v <= n;
}.
Lemma take_len n bs a r : take n bs = Some (a, r) -> blen a + blen r = blen bs /\ blen a = n.
Proof.
  unfold take. destruct ((0 <=? n) && (n <=? blen bs)) eqn:E; [|discriminate]. intros H. assert (a = firstn (Z.to_nat n) bs /\ r = skipn (Z.to_nat n) bs) as [-> ->] by (split; congruence).
  rewrite <- blen_app, firstn_skipn. split; [reflexivity|]. unfold blen in *. rewrite firstn_length. lia.
Qed.
Lemma dec_range2 b : 0 <= be_dec b < 2 ^ (8 * blen b).
Proof. pose proof (be_dec_range b) as D. change 256 with (2 ^ 8) in D. rewrite <- Z.pow_mul_r in D by (unfold blen; lia). exact D. Qed.
(** a head takes at least one byte, and its argument fits the bytes it takes *)
Lemma head_len bs h r : dec_head bs = Some (h, r) -> blen r + 1 <= blen bs /\ 0 <= h_arg h < 2 ^ 64 /\ Z.log2 (h_arg h) / 8 + 1 + blen r <= blen bs /\
  (h_ai h = 25 -> h_indef h = false -> h_arg h < 2 ^ 16) /\ (h_ai h = 26 -> h_indef h = false -> h_arg h < 2 ^ 32).
Proof.
  unfold dec_head. destruct bs as [|b r0]; [discriminate|]. cbv zeta. pose proof (b2z_range b) as R.
  assert (L : forall n a r1, take n r0 = Some (a, r1) -> 1 <= n <= 8 ->
     blen r1 + 1 <= blen (b :: r0) /\ 0 <= be_dec a < 2 ^ (8 * n) /\ Z.log2 (be_dec a) / 8 + 1 + blen r1 <= blen (b :: r0)).
  { intros n a r1 T N. apply take_len in T as [T1 T2]. pose proof (dec_range2 a) as D. rewrite T2 in D.
    assert (blen (b :: r0) = 1 + blen r0) as -> by (unfold blen; cbn [List.length]; lia).
    assert (Q : Z.log2 (be_dec a) < 8 * n). { destruct (Z.eq_dec (be_dec a) 0) as [->|N0]; [change (Z.log2 0) with 0; lia|]. apply Z.log2_lt_pow2; lia. }
    assert (Z.log2 (be_dec a) / 8 < n) by (apply Z.div_lt_upper_bound; lia). lia. }
  assert (B : blen (b :: r0) = 1 + blen r0) by (unfold blen; cbn [List.length]; lia).
  destruct (b2z b mod 32 <? 24) eqn:E0.
  { intros H. assert (h = {| h_maj := b2z b / 32; h_ai := b2z b mod 32; h_arg := b2z b mod 32; h_indef := false |} /\ r = r0) as [-> ->] by (split; congruence). cbn [h_arg h_ai h_indef].
    assert (Z.log2 (b2z b mod 32) / 8 = 0). { apply Z.div_small. split; [apply Z.log2_nonneg|]. assert (b2z b mod 32 <= 2 ^ 5 - 1) by lia.
      apply Z.le_lt_trans with (Z.log2 (2 ^ 5 - 1)); [apply Z.log2_le_mono; lia|reflexivity]. }
    lia. }
  assert (F : forall n, 1 <= n <= 8 -> match take n r0 with
        | Some (a, r') => Some ({| h_maj := b2z b / 32; h_ai := b2z b mod 32; h_arg := be_dec a; h_indef := false |}, r')
        | None => None end = Some (h, r) -> blen r + 1 <= blen (b :: r0) /\ 0 <= h_arg h < 2 ^ (8 * n) /\ Z.log2 (h_arg h) / 8 + 1 + blen r <= blen (b :: r0) /\ h_ai h = b2z b mod 32).
  { intros n N H. destruct (take n r0) as [[a r1]|] eqn:T; [|discriminate]. 
    assert (h = {| h_maj := b2z b / 32; h_ai := b2z b mod 32; h_arg := be_dec a; h_indef := false |} /\ r = r1) as [-> ->] by (split; congruence). cbn [h_arg h_ai].
    destruct (L _ _ _ T N) as (L1 & L2 & L3). auto. }
  destruct (b2z b mod 32 =? 24) eqn:E1; [intros H; apply F in H as (H1 & H2 & H3 & H4); [|lia]; change (2 ^ (8 * 1)) with 256 in H2; lia|].
  destruct (b2z b mod 32 =? 25) eqn:E2; [intros H; apply F in H as (H1 & H2 & H3 & H4); [|lia]; change (2 ^ (8 * 2)) with (2 ^ 16) in H2; lia|].
  destruct (b2z b mod 32 =? 26) eqn:E3; [intros H; apply F in H as (H1 & H2 & H3 & H4); [|lia]; change (2 ^ (8 * 4)) with (2 ^ 32) in H2; lia|].
  destruct (b2z b mod 32 =? 27) eqn:E4; [intros H; apply F in H as (H1 & H2 & H3 & H4); [|lia]; change (2 ^ (8 * 8)) with (2 ^ 64) in H2; lia|].
  destruct (b2z b mod 32 =? 31) eqn:E5; [|discriminate]. intros H.
  assert (h = {| h_maj := b2z b / 32; h_ai := b2z b mod 32; h_arg := 0; h_indef := true |} /\ r = r0) as [-> ->] by (split; congruence). cbn [h_arg h_ai h_indef].
  change (Z.log2 0 / 8) with 0. lia.
Qed.
Lemma chunks_len maj n : forall bs acc b r, dec_chunks maj n bs acc = Some (b, r) -> blen b + blen r <= blen acc + blen bs.
Proof.
  induction n as [|n IH]; intros bs acc b r H; cbn [dec_chunks] in H; [discriminate|]. destruct (dec_head bs) as [[h r0]|] eqn:E; [|discriminate].
  apply head_len in E as (E & _). destruct ((h_maj h =? 7) && h_indef h); [assert (b = acc /\ r = r0) as [-> ->] by (split; congruence); lia|].
  destruct ((h_maj h =? maj) && negb (h_indef h)); [|discriminate]. destruct (take (h_arg h) r0) as [[a r1]|] eqn:T; [|discriminate].
  apply take_len in T as [T _]. apply IH in H. rewrite blen_app in H. lia.
Qed.
Lemma body_len h r b r' : dec_str_body h r = Some (b, r') -> blen b + blen r' <= blen r.
Proof.
  unfold dec_str_body. destruct (h_indef h).
  - intros H. apply chunks_len in H. change (blen []) with 0 in H. lia.
  - intros H. apply take_len in H as [H _]. lia.
Qed.
Lemma log_bytes b : Z.log2 (be_dec b) / 8 <= blen b.
Proof.
  pose proof (dec_range2 b) as D. apply Z.div_le_upper_bound; [lia|].
  destruct (Z.eq_dec (be_dec b) 0) as [->|N0]; [change (Z.log2 0) with 0; unfold blen; lia|]. apply Z.lt_le_incl, Z.log2_lt_pow2; [lia|].
  unfold blen in *. lia.
Qed.
Lemma widen_range eb mb bias w : 0 < eb -> 0 < mb <= 52 -> 0 <= w < 2 ^ (1 + eb + mb) -> bias < 1023 - mb -> 2 ^ eb - bias + 1023 <= 2047 ->
  0 <= widen eb mb bias w < 2 ^ 64.
Proof.
  intros He Hm Hw Hb Hx. unfold widen. set (sgn := w / 2 ^ (eb + mb)). set (ex := (w / 2 ^ mb) mod 2 ^ eb). set (m := w mod 2 ^ mb).
  assert (Hs : 0 <= sgn <= 1). { unfold sgn. split; [apply Z.div_pos; [lia|apply Z.pow_pos_nonneg; lia]|].
    enough (w / 2 ^ (eb + mb) < 2) by lia. apply Z.div_lt_upper_bound; [apply Z.pow_pos_nonneg; lia|].
    replace (2 ^ (eb + mb) * 2) with (2 ^ (1 + eb + mb)); [lia|]. replace (1 + eb + mb) with (Z.succ (eb + mb)) by lia. rewrite Z.pow_succ_r by lia. lia. }
  assert (Px : 0 < 2 ^ eb) by (apply Z.pow_pos_nonneg; lia). assert (Pm : 0 < 2 ^ mb) by (apply Z.pow_pos_nonneg; lia).
  assert (Hex : 0 <= ex < 2 ^ eb) by (apply Z.mod_pos_bound; exact Px). assert (Hmm : 0 <= m < 2 ^ mb) by (apply Z.mod_pos_bound; exact Pm).
  assert (Pd : 0 < 2 ^ (52 - mb)) by (apply Z.pow_pos_nonneg; lia).
  assert (P52 : 2 ^ 52 = 2 ^ mb * 2 ^ (52 - mb)) by (rewrite <- Z.pow_add_r by lia; f_equal; lia).
  assert (Hf : 0 <= m * 2 ^ (52 - mb) < 2 ^ 52) by (rewrite P52; split; [apply Z.mul_nonneg_nonneg; lia|apply Z.mul_lt_mono_pos_r; lia]).
  clearbody sgn ex m.
  match goal with |- context [sgn * 2 ^ 63 + ?b] => assert (B : 0 <= b < 2 ^ 63) end.
  { destruct (ex =? 2 ^ eb - 1); [change (2 ^ 63) with (2047 * 2 ^ 52 + 2 ^ 52); lia|]. destruct (ex =? 0).
    - destruct (m =? 0) eqn:M0; [lia|]. assert (0 < m) by lia. pose proof (Z.log2_spec m H) as [L1 L2]. set (l := Z.log2 m) in *.
      assert (Hl : 0 <= l < mb). { split; [apply Z.log2_nonneg|]. apply Z.log2_lt_pow2; lia. }
      rewrite Z.pow_succ_r in L2 by lia. assert (0 < 2 ^ (52 - l)) by (apply Z.pow_pos_nonneg; lia).
      assert (Q : 2 ^ 52 = 2 ^ l * 2 ^ (52 - l)) by (rewrite <- Z.pow_add_r by lia; f_equal; lia).
      assert (0 <= (m - 2 ^ l) * 2 ^ (52 - l) < 2 ^ 52) by (rewrite Q; split; [apply Z.mul_nonneg_nonneg; lia|apply Z.mul_lt_mono_pos_r; lia]).
      assert (0 <= l + 1 - bias - mb + 1023 <= 2046). { split; [lia|]. assert (1 <= 2 ^ eb) by lia. lia. }
      change (2 ^ 63) with (2047 * 2 ^ 52 + 2 ^ 52). nia.
    - assert (0 <= ex - bias + 1023 <= 2046) by lia. change (2 ^ 63) with (2047 * 2 ^ 52 + 2 ^ 52). nia. }
  change (2 ^ 64) with (2 * 2 ^ 63). nia.
Qed.
Lemma good_le d n n' v : good d n v -> n <= n' -> good d n' v.
Proof. intros [] L. constructor; try assumption. lia. Qed.
Definition lsize (l : list pyval) : Z := zsum (map vsize l).
Definition psize (kvs : list (pyval * pyval)) : Z := zsum (map (fun kv => vsize (fst kv) + vsize (snd kv)) kvs).
(** without sizes *)
Definition goodv (d : nat) (v : pyval) : Prop := encb v = true /\ wirewf v = true /\ norm v = v /\ (vdepth v < d)%nat.
Definition goodp (d : nat) (kvs : list (pyval * pyval)) : Prop :=
  (forall k v, In (k, v) kvs -> goodv d k /\ goodv d v /\ hashable k = true) /\ nodup_keys (map fst kvs) = true.
Lemma goodp_nil d : goodp d [].
Proof. split; [intros ? ? []|reflexivity]. Qed.
Lemma dict_set_keys k v kvs : forall k', In k' (map fst (dict_set k v kvs)) -> In k' (map fst kvs) \/ k' = k.
Proof.
  induction kvs as [|[a b] r IH]; intros k' H; cbn [dict_set] in H.
  - destruct H as [<-|[]]. right. reflexivity.
  - destruct (py_eq a k); cbn [map fst In] in *; [left; exact H|]. destruct H as [<-|H]; [left; left; reflexivity|]. destruct (IH _ H); tauto.
Qed.
Lemma dict_set_in k v kvs a b : In (a, b) (dict_set k v kvs) -> (In a (map fst kvs) \/ a = k) /\ (b = v \/ In (a, b) kvs).
Proof.
  intros H. split; [apply (dict_set_keys k v kvs); apply (in_map fst) in H; exact H|]. revert H.
  induction kvs as [|[x y] r IH]; cbn [dict_set]; [intros [H|[]]; left; congruence|]. destruct (py_eq x k).
  - intros [H|H]; [left; congruence|right; right; exact H].
  - intros [H|H]; [right; left; exact H|]. destruct (IH H); [left; assumption|right; right; assumption].
Qed.
Lemma nodup_set k v kvs : nodup_keys (map fst kvs) = true -> nodup_keys (map fst (dict_set k v kvs)) = true.
Proof.
  induction kvs as [|[a b] r IH]; intros H; [reflexivity|]. cbn [dict_set]. destruct (py_eq a k) eqn:E; [exact H|].
  cbn [map fst nodup_keys] in *. apply andb_true_iff in H as [H1 H2]. rewrite (IH H2), andb_true_r. rewrite forallb_forall in H1 |- *.
  intros x Hx. apply dict_set_keys in Hx as [Hx| ->]; [apply H1, Hx|]. rewrite E. reflexivity.
Qed.
Lemma goodp_set d k v kvs : goodp d kvs -> goodv d k -> goodv d v -> hashable k = true -> goodp d (dict_set k v kvs).
Proof.
  intros [H N] Gk Gv Hk. split; [|apply nodup_set, N]. intros a b Hin. apply dict_set_in in Hin as [Ha Hb].
  assert (goodv d a /\ hashable a = true) as [A1 A2].
  { destruct Ha as [Ha| ->]; [|auto]. apply in_map_iff in Ha as ([x y] & E & Ha). cbn in E. subst x. destruct (H _ _ Ha) as (? & ? & ?). auto. }
  split; [exact A1|]. split; [|exact A2]. destruct Hb as [->|Hb]; [exact Gv|]. apply (H _ _ Hb).
Qed.
Lemma psize_set k v kvs : psize (dict_set k v kvs) <= psize kvs + vsize k + vsize v.
Proof.
  assert (C : forall a b r, psize ((a, b) :: r) = vsize a + vsize b + psize r) by reflexivity.
  induction kvs as [|[a b] r IH]; cbn [dict_set]; [rewrite C; lia|]. destruct (py_eq a k); rewrite !C; [|lia].
  pose proof (vsize_pos k). pose proof (vsize_pos b). lia.
Qed.
Lemma goodp_dict d kvs : goodp d kvs -> goodv (S d) (VDict DPlain kvs).
Proof.
  intros [H N]. unfold goodv. cbn [encb wirewf norm vdepth].
  assert (K : map (fun kv => norm (fst kv)) kvs = map fst kvs).
  { apply map_ext_in. intros [a b] Hin. destruct (H _ _ Hin) as ((_ & _ & E & _) & _). exact E. }
  split; [|split; [|split]].
  - apply forallb_forall. intros [a b] Hin. destruct (H _ _ Hin) as ((E1 & _) & (E2 & _) & _). cbn [fst snd]. rewrite E1, E2. reflexivity.
  - rewrite K, N, andb_true_r. apply andb_true_iff. split; apply forallb_forall; intros [a b] Hin; destruct (H _ _ Hin) as ((_ & W1 & E & _) & (_ & W2 & _) & Hh); cbn [fst snd].
    + rewrite E. exact Hh.
    + rewrite W1, W2. reflexivity.
  - f_equal. rewrite <- (map_id kvs) at 2. apply map_ext_in. intros [a b] Hin. destruct (H _ _ Hin) as ((_ & _ & E1 & _) & (_ & _ & E2 & _) & _). cbn [fst snd]. congruence.
  - assert (Q : forall l, (forall a b, In (a, b) l -> (vdepth a < d /\ vdepth b < d)%nat) -> (max_list (map (fun kv => S (Nat.max (vdepth (fst kv)) (vdepth (snd kv)))) l) <= d)%nat).
    { induction l as [|[a b] l IH]; intros Hl; [cbn; lia|]. cbn [map max_list fold_right fst snd]. destruct (Hl a b (or_introl eq_refl)).
      specialize (IH ltac:(intros; apply Hl; right; assumption)). unfold max_list in *. lia. }
    apply le_n_S, Q. intros x y Hxy. destruct (H _ _ Hxy) as ((_ & _ & _ & D1) & (_ & _ & _ & D2) & _). auto.
Qed.
Lemma goodv_list d l : (forall x, In x l -> goodv d x) -> goodv (S d) (VList l).
Proof.
  intros H. unfold goodv. cbn [encb wirewf norm vdepth]. split; [|split; [|split]].
  - apply forallb_forall. intros x Hx. apply (H _ Hx).
  - apply forallb_forall. intros x Hx. apply (H _ Hx).
  - f_equal. rewrite <- (map_id l) at 2. apply map_ext_in. intros x Hx. apply (H _ Hx).
  - apply le_n_S. induction l as [|y l IH]; [cbn; lia|]. cbn [map max_list fold_right]. fold (max_list (map (fun x => S (vdepth x)) l)).
    assert (vdepth y < d)%nat by (apply (H y); left; reflexivity). assert (max_list (map (fun x => S (vdepth x)) l) <= d)%nat by (apply IH; intros; apply H; right; assumption).
    unfold max_list in *. lia.
Qed.
Section Decode.
  Variable f : bytes -> option (pyval * bytes).
  Variable d : nat.
  Hypothesis Hf : forall bs v r, f bs = Some (v, r) -> goodv d v /\ vsize v + blen r <= blen bs.
  Lemma items_good n : forall k bs l r, dec_items f n k bs = Some (l, r) -> (forall x, In x l -> goodv d x) /\ lsize l + blen r <= blen bs.
  Proof.
    induction n as [|n IH]; intros k bs l r H; cbn [dec_items] in H; destruct (k <=? 0); try discriminate;
      try (assert (l = [] /\ r = bs) as [-> ->] by (split; congruence); split; [intros ? []|unfold lsize; cbn; lia]).
    destruct (f bs) as [[y r1]|] eqn:E; [|discriminate]. destruct (dec_items f n (k - 1) r1) as [[ys r2]|] eqn:E2; [|discriminate].
    assert (l = y :: ys /\ r = r2) as [-> ->] by (split; congruence). apply Hf in E as [G S]. apply IH in E2 as [G2 S2].
    split; [intros x [<-|Hx]; auto|]. unfold lsize in *. cbn [map zsum fold_right]. unfold zsum in *. lia.
  Qed.
  Lemma items_indef_good n : forall bs l r, dec_items_indef f n bs = Some (l, r) -> (forall x, In x l -> goodv d x) /\ lsize l + blen r <= blen bs.
  Proof.
    assert (T : forall bs : bytes, blen (tl bs) <= blen bs) by (intros [|? ?]; unfold blen; cbn [tl List.length]; lia).
    induction n as [|n IH]; intros bs l r H; cbn [dec_items_indef] in H; destruct (is_break bs); try discriminate;
      try (assert (l = [] /\ r = tl bs) as [-> ->] by (split; congruence); split; [intros ? []|unfold lsize; cbn; apply T]).
    destruct (f bs) as [[y r1]|] eqn:E; [|discriminate]. destruct (dec_items_indef f n r1) as [[ys r2]|] eqn:E2; [|discriminate].
    assert (l = y :: ys /\ r = r2) as [-> ->] by (split; congruence). apply Hf in E as [G S]. apply IH in E2 as [G2 S2].
    split; [intros x [<-|Hx]; auto|]. unfold lsize in *. cbn [map zsum fold_right]. unfold zsum in *. lia.
  Qed.
  Lemma pairs_good n : forall k bs acc l r, goodp d acc -> dec_pairs f n k bs acc = Some (l, r) -> goodp d l /\ psize l + blen r <= psize acc + blen bs.
  Proof.
    induction n as [|n IH]; intros k bs acc l r Ha H; cbn [dec_pairs] in H; destruct (k <=? 0); try discriminate;
      try (assert (l = acc /\ r = bs) as [-> ->] by (split; congruence); split; [exact Ha|lia]).
    destruct (f bs) as [[y r1]|] eqn:E; [|discriminate]. destruct (f r1) as [[z r2]|] eqn:E2; [|discriminate]. destruct (hashable y) eqn:Hy; [|discriminate].
    apply Hf in E as [G1 S1]. apply Hf in E2 as [G2 S2]. apply IH in H as [H1 H2]; [|apply goodp_set; assumption]. split; [exact H1|].
    pose proof (psize_set y z acc). lia.
  Qed.
  Lemma pairs_indef_good n : forall bs acc l r, goodp d acc -> dec_pairs_indef f n bs acc = Some (l, r) -> goodp d l /\ psize l + blen r <= psize acc + blen bs.
  Proof.
    assert (T : forall bs : bytes, blen (tl bs) <= blen bs) by (intros [|? ?]; unfold blen; cbn [tl List.length]; lia).
    induction n as [|n IH]; intros bs acc l r Ha H; cbn [dec_pairs_indef] in H; destruct (is_break bs); try discriminate;
      try (assert (l = acc /\ r = tl bs) as [-> ->] by (split; congruence); split; [exact Ha|pose proof (T bs); lia]).
    destruct (f bs) as [[y r1]|] eqn:E; [|discriminate]. destruct (f r1) as [[z r2]|] eqn:E2; [|discriminate]. destruct (hashable y) eqn:Hy; [|discriminate].
    apply Hf in E as [G1 S1]. apply Hf in E2 as [G2 S2]. apply IH in H as [H1 H2]; [|apply goodp_set; assumption]. split; [exact H1|].
    pose proof (psize_set y z acc). lia.
  Qed.
End Decode.
Lemma goodv_atom d v : match v with VNone | VBool _ | VInt _ | VBytes _ => true | _ => false end = true -> goodv (S d) v.
Proof. unfold goodv. destruct v; try discriminate; intros _; (split; [reflexivity|split; [reflexivity|split; [reflexivity|cbn; lia]]]). Qed.
Lemma goodv_float d b : 0 <= b < 2 ^ 64 -> goodv (S d) (VFloat b).
Proof. intros H. unfold goodv. cbn [encb]. split; [lia|split; [reflexivity|split; [reflexivity|cbn; lia]]]. Qed.
Theorem dec_good d : forall bs v r, dec d bs = Some (v, r) -> goodv d v /\ vsize v + blen r <= blen bs.
Proof.
  induction d as [|d IH]; intros bs v r H; cbn [dec] in H; [discriminate|].
  destruct (dec_head bs) as [[h r0]|] eqn:E0; [|discriminate]. apply head_len in E0 as (L0 & A0 & Z0 & H25 & H26).
  destruct (h_maj h =? 0). { destruct (h_indef h); [discriminate|]. assert (v = VInt (h_arg h) /\ r = r0) as [-> ->] by (split; congruence).
    split; [apply goodv_atom; reflexivity|]. cbn [vsize]. unfold magnitude. replace (0 <=? h_arg h) with true by lia. lia. }
  destruct (h_maj h =? 1). { destruct (h_indef h); [discriminate|]. assert (v = VInt (-1 - h_arg h) /\ r = r0) as [-> ->] by (split; congruence).
    split; [apply goodv_atom; reflexivity|]. cbn [vsize]. unfold magnitude. replace (0 <=? -1 - h_arg h) with false by lia. replace (-1 - (-1 - h_arg h)) with (h_arg h) by lia. lia. }
  destruct (h_maj h =? 2). { destruct (dec_str_body h r0) as [[b r1]|] eqn:B; [|discriminate]. apply body_len in B. assert (v = VBytes b /\ r = r1) as [-> ->] by (split; congruence).
    split; [apply goodv_atom; reflexivity|]. cbn [vsize]. lia. }
  destruct (h_maj h =? 3).
  { destruct (dec_str_body h r0) as [[b r1]|] eqn:B; [|discriminate]. apply body_len in B. destruct (utf8_dec b) as [s|] eqn:Us; [|discriminate]. assert (v = VStr s /\ r = r1) as [-> ->] by (split; congruence).
    apply utf8_enc_dec in Us. unfold utf8_enc in Us. destruct (forallb scalar s) eqn:Fs; [|discriminate]. apply Some_inj in Us.
    split; [unfold goodv; cbn [encb]; split; [exact Fs|split; [reflexivity|split; [reflexivity|cbn; lia]]]|]. cbn [vsize]. rewrite Us. fold (blen b). lia. }
  destruct (h_maj h =? 4).
  { destruct (if h_indef h then _ else _) as [[l r1]|] eqn:E; [|discriminate]. assert (v = VList l /\ r = r1) as [-> ->] by (split; congruence).
    assert (Q : (forall x, In x l -> goodv d x) /\ lsize l + blen r1 <= blen r0).
    { destruct (h_indef h); [exact (items_indef_good _ d IH _ _ _ _ E)|exact (items_good _ d IH _ _ _ _ _ E)]. }
    destruct Q as [Q1 Q2]. split; [apply goodv_list, Q1|]. cbn [vsize]. fold (lsize l). lia. }
  destruct (h_maj h =? 5).
  { destruct (if h_indef h then _ else _) as [[l r1]|] eqn:E; [|discriminate]. assert (v = VDict DPlain l /\ r = r1) as [-> ->] by (split; congruence).
    assert (Q : goodp d l /\ psize l + blen r1 <= psize [] + blen r0).
    { destruct (h_indef h); [exact (pairs_indef_good _ d IH _ _ _ _ _ (goodp_nil d) E)|exact (pairs_good _ d IH _ _ _ _ _ _ (goodp_nil d) E)]. }
    destruct Q as [Q1 Q2]. split; [apply goodp_dict, Q1|]. cbn [vsize]. fold (psize l). change (psize []) with 0 in Q2. lia. }
  destruct (h_maj h =? 6).
  { destruct (h_indef h); [discriminate|]. destruct ((h_arg h =? 2) || (h_arg h =? 3)) eqn:T.
    - destruct (dec_head r0) as [[h2 r2]|] eqn:E2; [|discriminate]. apply head_len in E2 as (L2 & _). destruct (h_maj h2 =? 2); [|discriminate].
      destruct (dec_str_body h2 r2) as [[b r3]|] eqn:B; [|discriminate]. apply body_len in B. apply Some_inj in H.
      assert (v = VInt (if h_arg h =? 2 then be_dec b else -1 - be_dec b) /\ r = r3) as [-> ->] by (split; congruence).
      split; [apply goodv_atom; reflexivity|]. cbn [vsize]. pose proof (log_bytes b). pose proof (dec_range2 b) as D. unfold magnitude.
      destruct (h_arg h =? 2).
      + replace (0 <=? be_dec b) with true by lia. lia.
      + replace (0 <=? -1 - be_dec b) with false by lia. replace (-1 - (-1 - be_dec b)) with (be_dec b) by lia. lia.
    - destruct (dec d r0) as [[w r1]|] eqn:E; [|discriminate]. assert (v = VTag (h_arg h) w /\ r = r1) as [-> ->] by (split; congruence).
      apply IH in E as [(G1 & G2 & G3 & G4) S]. apply orb_false_iff in T as [T1 T2]. split; [|cbn [vsize]; lia]. unfold goodv. cbn [encb wirewf norm vdepth]. rewrite G1, G2, G3, T1, T2.
      split; [lia|]. split; [reflexivity|]. split; [reflexivity|lia]. }
  destruct (simple7 h) as [w|] eqn:S7; [|discriminate]. assert (v = w /\ r = r0) as [-> ->] by (split; congruence).
  assert (K : goodv (S d) w /\ vsize w = 1); [|destruct K; split; [assumption|lia]]. unfold simple7 in S7. destruct (h_indef h) eqn:Hi; [discriminate|].
  destruct (h_ai h =? 20); [apply Some_inj in S7; subst; split; [apply goodv_atom; reflexivity|reflexivity]|].
  destruct (h_ai h =? 21); [apply Some_inj in S7; subst; split; [apply goodv_atom; reflexivity|reflexivity]|].
  destruct (h_ai h =? 22); [apply Some_inj in S7; subst; split; [apply goodv_atom; reflexivity|reflexivity]|].
  destruct (h_ai h =? 23); [apply Some_inj in S7; subst; split; [apply goodv_atom; reflexivity|reflexivity]|].
  destruct (h_ai h =? 25) eqn:Q; [apply Some_inj in S7; subst; split; [|reflexivity]|].
  { assert (h_arg h < 2 ^ 16) by (apply H25; [lia|reflexivity]). apply goodv_float, widen_range; lia. }
  clear Q. destruct (h_ai h =? 26) eqn:Q; [apply Some_inj in S7; subst; split; [|reflexivity]|].
  { assert (h_arg h < 2 ^ 32) by (apply H26; [lia|reflexivity]). apply goodv_float, widen_range; lia. }
  destruct (h_ai h =? 27); [|discriminate]. apply Some_inj in S7; subst; split; [|reflexivity]. apply goodv_float. lia.
Qed.
(** whatever is loaded can be dumped, and loads again to the same value *)
Theorem loads_dumps d bs v : loads d bs = Ok v -> blen bs < 2 ^ 64 -> exists b, dumps v = Ok b /\ forall d' rest, (d <= d')%nat -> loads d' (b ++ rest) = Ok v.
Proof.
  unfold loads at 1. destruct (dec d bs) as [[w r]|] eqn:E; [|discriminate]. intros H L. apply Ok_inj in H. subst w.
  apply dec_good in E as [(G1 & G2 & G3 & G4) S]. destruct (enc_total v) as [b B]; [exact G1|unfold blen in *; lia|]. exists b. unfold dumps. rewrite B. split; [reflexivity|].
  intros d' rest D. rewrite (loads_enc v b d' rest B G2) by lia. rewrite G3. reflexivity.
Qed.
Lemma enc_encb v : forall b, enc v = Some b -> encb v = true.
Proof.
  induction v using pyval_ind'; intros bs E; cbn [enc encb] in *; try discriminate E; try reflexivity.
  - match goal with |- ?g = true => destruct g eqn:Q end; [reflexivity|discriminate E].
  - unfold enc_text, utf8_enc in E. destruct (forallb scalar s); [reflexivity|discriminate].
  - apply oapp_some in E as (h & y & _ & E & _). revert y E. induction H as [|x l Hx _ IH]; intros y E; [reflexivity|].
    cbn [fold_right] in E. apply oapp_some in E as (b1 & b2 & E1 & E2 & _). cbn [forallb]. rewrite (Hx _ E1). exact (IH _ E2).
  - apply oapp_some in E as (h & y & _ & E & _). revert y E. induction H as [|x l Hx _ IH]; intros y E; [reflexivity|].
    cbn [fold_right] in E. apply oapp_some in E as (b1 & b2 & E1 & E2 & _). cbn [forallb]. rewrite (Hx _ E1). exact (IH _ E2).
  - apply oapp_some in E as (h & y & _ & E & _). revert y E. induction H as [|[k x] l [Hk Hx] _ IH]; intros y E; [reflexivity|].
    cbn [fold_right] in E. apply oapp_some in E as (b1 & b2 & E1 & E2 & _). apply oapp_some in E1 as (b3 & b4 & E3 & E4 & _).
    cbn [forallb fst snd] in *. rewrite (Hk _ E3), (Hx _ E4). exact (IH _ E2).
  - destruct (is_string_enum e); [reflexivity|discriminate].
  - apply oapp_some in E as (h & y & Hh & E & _). rewrite (IHv _ E), andb_true_r. unfold enc_head in Hh.
    destruct (n <? 0) eqn:N; [discriminate|]. assert (n < 2 ^ 64); [|lia].
    repeat match type of Hh with context [if ?b then _ else _] => destruct b eqn:? end; try discriminate; lia.
Qed.
Theorem dumps_iff v : vsize v < 2 ^ 64 -> (encb v = true /\ exists b, dumps v = Ok b) \/ (encb v = false /\ dumps v = Err ESerializationError).
Proof.
  intros S. unfold dumps. destruct (encb v) eqn:E.
  - left. split; [reflexivity|]. destruct (enc_total v E S) as [b ->]. eauto.
  - right. split; [reflexivity|]. destruct (enc v) as [b|] eqn:B; [|reflexivity]. apply enc_encb in B. congruence.
Qed.
Theorem loads_dumps_norm v b d rest : dumps v = Ok b -> wirewf v = true -> (vdepth v < d)%nat -> loads d (b ++ rest) = Ok (norm v).
Proof. unfold dumps. destruct (enc v) as [b'|] eqn:E; [|discriminate]. intros H. apply Ok_inj in H. subst. apply loads_enc, E. Qed.
Theorem dumps_prefix_free v1 v2 b1 b2 r1 r2 : dumps v1 = Ok b1 -> dumps v2 = Ok b2 -> wirewf v1 = true -> wirewf v2 = true ->
  b1 ++ r1 = b2 ++ r2 -> norm v1 = norm v2 /\ b1 = b2 /\ r1 = r2.
Proof.
  unfold dumps. destruct (enc v1) as [x|] eqn:E1, (enc v2) as [y|] eqn:E2; try discriminate. intros H1 H2. apply Ok_inj in H1, H2. subst. eapply enc_prefix_free; eassumption.
Qed.

(** ** What can be dumped, spelled out *)
Definition code_point (c : Z) : Prop := 0 <= c < 55296 \/ 57343 < c <= 1114111.
Inductive dumpable : pyval -> Prop :=
| D_None : dumpable VNone
| D_Bool b : dumpable (VBool b)
| D_Int z : dumpable (VInt z)
| D_Float b : 0 <= b < 2 ^ 64 -> dumpable (VFloat b)
| D_Str s : (forall c, In c s -> code_point c) -> dumpable (VStr s)
| D_Bytes b : dumpable (VBytes b)
| D_List l : Forall dumpable l -> dumpable (VList l)
| D_Tuple l : Forall dumpable l -> dumpable (VTuple l)
| D_Dict c kvs : Forall (fun kv => dumpable (fst kv) /\ dumpable (snd kv)) kvs -> dumpable (VDict c kvs)
| D_Enum e s : is_string_enum e = true -> dumpable (VEnum e s)
| D_Tag n x : 0 <= n < 2 ^ 64 -> dumpable x -> dumpable (VTag n x).
Lemma scalar_iff c : scalar c = true <-> code_point c.
Proof. unfold scalar, code_point. rewrite !andb_true_iff, negb_true_iff, andb_false_iff. lia. Qed.
Lemma encb_iff v : encb v = true <-> dumpable v.
Proof.
  induction v using pyval_ind'; cbn [encb]; try (split; [intros _; constructor|reflexivity]); try (split; [discriminate|intros H0; inversion H0]).
  - split; [intros H; constructor; lia|intros H; inversion H; lia].
  - rewrite forallb_forall. split.
    + intros H. constructor. intros c Hc. apply scalar_iff, H, Hc.
    + intros H. inversion H; subst. intros c Hc. apply scalar_iff. auto.
  - rewrite forallb_forall, Forall_forall in *. split.
    + intros Q. constructor. apply Forall_forall. intros x Hx. apply H; auto.
    + intros Q. inversion Q as [| | | | | |l' Q'| | | |]; subst. rewrite Forall_forall in Q'. intros x Hx. apply H; auto.
  - rewrite forallb_forall, Forall_forall in *. split.
    + intros Q. constructor. apply Forall_forall. intros x Hx. apply H; auto.
    + intros Q. inversion Q as [| | | | | | |l' Q'| | |]; subst. rewrite Forall_forall in Q'. intros x Hx. apply H; auto.
  - rewrite forallb_forall, Forall_forall in *. split.
    + intros Q. constructor. apply Forall_forall. intros x Hx. specialize (Q x Hx). apply andb_true_iff in Q as [Q1 Q2]. destruct (H x Hx) as [H1 H2]. tauto.
    + intros Q. inversion Q as [| | | | | | | |c' l' Q'| |]; subst. rewrite Forall_forall in Q'. intros x Hx. apply andb_true_iff. destruct (H x Hx) as [H1 H2]. specialize (Q' x Hx). tauto.
  - split; [intros H; constructor; exact H|intros H; inversion H; assumption].
  - rewrite !andb_true_iff, IHv. split; [intros [[H1 H2] H3]; constructor; [lia|exact H3]|]. intros Q. inversion Q; subst. split; [lia|assumption].
Qed.
Lemma dumps_exact v : vsize v < 2 ^ 64 -> (dumpable v /\ exists b, dumps v = Ok b) \/ (~ dumpable v /\ dumps v = Err ESerializationError).
Proof.
  intros L. destruct (dumps_iff v L) as [[H1 H2]|[H1 H2]]; [left|right]; (split; [|exact H2]).
  - apply encb_iff, H1.
  - intros D. apply encb_iff in D. congruence.
Qed.
