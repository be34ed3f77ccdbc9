(** * Which bytes load, and to what: RFC 7049 as a relation *)
From Verif Require Import SerFacts.
Local Lemma Some_inj {A} (x y : A) : Some x = Some y -> x = y. Proof. congruence. Qed.

(** the head of an item: major type, argument, and the argument itself or the number
    of bytes that hold it *)
Inductive head_at (maj : Z) : Z -> Z -> bytes -> Prop :=
| Head0 n : 0 <= n < 24 -> head_at maj n n [z2b (maj * 32 + n)]
| Head1 n : 0 <= n < 2 ^ 8 -> head_at maj 24 n (z2b (maj * 32 + 24) :: be_enc 1 n)
| Head2 n : 0 <= n < 2 ^ 16 -> head_at maj 25 n (z2b (maj * 32 + 25) :: be_enc 2 n)
| Head4 n : 0 <= n < 2 ^ 32 -> head_at maj 26 n (z2b (maj * 32 + 26) :: be_enc 4 n)
| Head8 n : 0 <= n < 2 ^ 64 -> head_at maj 27 n (z2b (maj * 32 + 27) :: be_enc 8 n).
Definition head_of (maj n : Z) (h : bytes) : Prop := exists ai, head_at maj ai n h.
Inductive one_string (maj : Z) : bytes -> bytes -> Prop :=
| One b h : head_of maj (blen b) h -> one_string maj b (h ++ b).
(** a string in one piece, or in chunks up to a break *)
Inductive string_of (maj : Z) : bytes -> bytes -> Prop :=
| Whole b e : one_string maj b e -> string_of maj b e
| Chunks bs es : Forall2 (one_string maj) bs es -> string_of maj (List.concat bs) (z2b (maj * 32 + 31) :: List.concat es ++ [xff]).
Inductive simple_of : byte -> pyval -> Prop :=
| Is_false : simple_of xf4 (VBool false)
| Is_true : simple_of xf5 (VBool true)
| Is_null : simple_of xf6 VNone
| Is_undefined : simple_of xf7 VNone.
(** the dict a list of pairs makes: a key given again keeps its place and changes its
    value *)
Definition dict_of (kvs : list (pyval * pyval)) : list (pyval * pyval) := fold_left (fun acc kv => dict_set (fst kv) (snd kv) acc) kvs [].
(** [e] is an encoding of [v] nested at most [d] deep *)
Inductive spelt : nat -> bytes -> pyval -> Prop :=
| S_uint d n h : head_of 0 n h -> spelt (S d) h (VInt n)
| S_neg d n h : head_of 1 n h -> spelt (S d) h (VInt (-1 - n))
| S_bytes d b e : string_of 2 b e -> spelt (S d) e (VBytes b)
| S_text d s b e : utf8_enc s = Some b -> string_of 3 b e -> spelt (S d) e (VStr s)
| S_list d h l es : head_of 4 (Z.of_nat (List.length l)) h -> Forall2 (spelt d) es l -> spelt (S d) (h ++ List.concat es) (VList l)
| S_list' d l es : Forall2 (spelt d) es l -> spelt (S d) (x9f :: List.concat es ++ [xff]) (VList l)
| S_dict d h kvs es : head_of 5 (Z.of_nat (List.length kvs)) h -> Forall2 (pair_spelt d) es kvs -> spelt (S d) (h ++ List.concat es) (VDict DPlain (dict_of kvs))
| S_dict' d kvs es : Forall2 (pair_spelt d) es kvs -> spelt (S d) (xbf :: List.concat es ++ [xff]) (VDict DPlain (dict_of kvs))
| S_big d h b e : head_of 6 2 h -> string_of 2 b e -> spelt (S d) (h ++ e) (VInt (be_dec b))
| S_big_neg d h b e : head_of 6 3 h -> string_of 2 b e -> spelt (S d) (h ++ e) (VInt (-1 - be_dec b))
| S_tag d n h e v : head_of 6 n h -> n <> 2 -> n <> 3 -> spelt d e v -> spelt (S d) (h ++ e) (VTag n v)
| S_simple d b v : simple_of b v -> spelt (S d) [b] v
| S_half d w : 0 <= w < 2 ^ 16 -> spelt (S d) (xf9 :: be_enc 2 w) (VFloat (widen 5 10 15 w))
| S_single d w : 0 <= w < 2 ^ 32 -> spelt (S d) (xfa :: be_enc 4 w) (VFloat (widen 8 23 127 w))
| S_double d w : 0 <= w < 2 ^ 64 -> spelt (S d) (xfb :: be_enc 8 w) (VFloat w)
with pair_spelt : nat -> bytes -> pyval * pyval -> Prop :=
| Pair d ke ve k v : spelt d ke k -> spelt d ve v -> hashable k = true -> pair_spelt d (ke ++ ve) (k, v).

(** ** Heads *)
Lemma take_len n bs : List.length bs = n -> forall r, take (Z.of_nat n) (bs ++ r) = Some (bs, r).
Proof. intros <- r. apply take_app. Qed.
Lemma head_dec maj ai n h r : 0 <= maj < 8 -> head_at maj ai n h -> dec_head (h ++ r) = Some ({| h_maj := maj; h_ai := ai; h_arg := n; h_indef := false |}, r).
Proof.
  intros M H. assert (B : forall a, 0 <= a < 32 -> b2z (z2b (maj * 32 + a)) / 32 = maj /\ b2z (z2b (maj * 32 + a)) mod 32 = a).
  { intros a A. rewrite b2z_z2b_small by lia. split; [rewrite Z.div_add_l by lia; rewrite Z.div_small by lia; lia|].
    rewrite Z.add_comm, Z.mod_add by lia. apply Z.mod_small. exact A. }
  destruct H as [n R|n R|n R|n R|n R]; cbn [app dec_head].
  - destruct (B n ltac:(lia)) as [-> ->]. replace (n <? 24) with true by lia. reflexivity.
  - destruct (B 24 ltac:(lia)) as [-> ->]. change (24 <? 24) with false. change (24 =? 24) with true. cbv iota.
    pose proof (take_be 1 n r) as T. change (Z.of_nat 1) with 1 in T. rewrite T. rewrite be_dec_enc_small by (change (256 ^ Z.of_nat 1) with (2 ^ 8); lia). reflexivity.
  - destruct (B 25 ltac:(lia)) as [-> ->]. change (25 <? 24) with false. change (25 =? 24) with false. change (25 =? 25) with true. cbv iota.
    pose proof (take_be 2 n r) as T. change (Z.of_nat 2) with 2 in T. rewrite T. rewrite be_dec_enc_small by (change (256 ^ Z.of_nat 2) with (2 ^ 16); lia). reflexivity.
  - destruct (B 26 ltac:(lia)) as [-> ->]. change (26 <? 24) with false. change (26 =? 24) with false. change (26 =? 25) with false. change (26 =? 26) with true. cbv iota.
    pose proof (take_be 4 n r) as T. change (Z.of_nat 4) with 4 in T. rewrite T. rewrite be_dec_enc_small by (change (256 ^ Z.of_nat 4) with (2 ^ 32); lia). reflexivity.
  - destruct (B 27 ltac:(lia)) as [-> ->]. change (27 <? 24) with false. change (27 =? 24) with false. change (27 =? 25) with false. change (27 =? 26) with false. change (27 =? 27) with true. cbv iota.
    pose proof (take_be 8 n r) as T. change (Z.of_nat 8) with 8 in T. rewrite T. rewrite be_dec_enc_small by (change (256 ^ Z.of_nat 8) with (2 ^ 64); lia). reflexivity.
Qed.
Lemma indef_dec maj r : 0 <= maj < 8 -> dec_head (z2b (maj * 32 + 31) :: r) = Some ({| h_maj := maj; h_ai := 31; h_arg := 0; h_indef := true |}, r).
Proof.
  intros M. cbn [dec_head]. rewrite b2z_z2b_small by lia.
  replace ((maj * 32 + 31) / 32) with maj by (rewrite Z.div_add_l by lia; rewrite Z.div_small by lia; lia).
  replace ((maj * 32 + 31) mod 32) with 31 by (rewrite Z.add_comm, Z.mod_add by lia; reflexivity). reflexivity.
Qed.
Lemma take_inv n bs a r : take n bs = Some (a, r) -> bs = a ++ r /\ List.length a = Z.to_nat n.
Proof.
  unfold take. destruct ((0 <=? n) && (n <=? blen bs)) eqn:Q; [|discriminate]. intros H.
  assert (a = firstn (Z.to_nat n) bs /\ r = skipn (Z.to_nat n) bs) as [-> ->] by (split; congruence).
  split; [symmetry; apply firstn_skipn|]. apply firstn_length_le. unfold blen in Q. lia.
Qed.
Lemma head_inv bs h r : dec_head bs = Some (h, r) -> 0 <= h_maj h < 8 /\
  ((h_indef h = false /\ exists e, bs = e ++ r /\ head_at (h_maj h) (h_ai h) (h_arg h) e) \/ (h_indef h = true /\ h_ai h = 31 /\ bs = z2b (h_maj h * 32 + 31) :: r)).
Proof.
  destruct bs as [|b bs]; cbn [dec_head]; [discriminate|]. pose proof (b2z_range b) as R. intros H.
  set (maj := b2z b / 32) in *. set (ai := b2z b mod 32) in *.
  assert (A : 0 <= ai < 32) by (apply Z.mod_pos_bound; lia). assert (B : b = z2b (maj * 32 + ai)).
  { rewrite <- (z2b_b2z b) at 1. f_equal. unfold maj, ai. rewrite Z.mul_comm. apply Z.div_mod. lia. }
  assert (M : 0 <= maj < 8) by (unfold maj; split; [apply Z.div_pos; lia|apply Z.div_lt_upper_bound; lia]). clearbody maj ai.
  destruct (ai <? 24) eqn:Q0.
  { assert (h = {| h_maj := maj; h_ai := ai; h_arg := ai; h_indef := false |} /\ r = bs) as [-> ->] by (split; congruence). cbn [h_maj h_ai h_arg h_indef].
    split; [exact M|]. left. split; [reflexivity|]. exists [b]. split; [reflexivity|]. rewrite B. constructor. lia. }
  assert (F : forall n k, Z.to_nat n = k -> (match take n bs with Some (a, r') => Some ({| h_maj := maj; h_ai := ai; h_arg := be_dec a; h_indef := false |}, r') | None => None end) = Some (h, r) ->
    exists a, bs = a ++ r /\ List.length a = k /\ h = {| h_maj := maj; h_ai := ai; h_arg := be_dec a; h_indef := false |}).
  { intros n k <- X. destruct (take n bs) as [[a r']|] eqn:T; [|discriminate]. apply take_inv in T as [-> L].
    assert (h = {| h_maj := maj; h_ai := ai; h_arg := be_dec a; h_indef := false |} /\ r = r') as [-> ->] by (split; congruence). eauto. }
  assert (D : forall a : bytes, 0 <= be_dec a < 256 ^ Z.of_nat (List.length a)) by (intros a; pose proof (be_dec_range a) as Y; exact Y).
  destruct (ai =? 24) eqn:Q1.
  { apply (F 1 1%nat eq_refl) in H as (a & -> & L & ->). cbn [h_maj h_ai h_arg h_indef]. split; [exact M|]. left. split; [reflexivity|]. exists (b :: a). split; [reflexivity|].
    specialize (D a). rewrite L in D. rewrite B. replace ai with 24 by lia. rewrite <- (be_enc_dec 1 a L) at 2. constructor. exact D. }
  destruct (ai =? 25) eqn:Q2.
  { apply (F 2 2%nat eq_refl) in H as (a & -> & L & ->). cbn [h_maj h_ai h_arg h_indef]. split; [exact M|]. left. split; [reflexivity|]. exists (b :: a). split; [reflexivity|].
    specialize (D a). rewrite L in D. rewrite B. replace ai with 25 by lia. rewrite <- (be_enc_dec 2 a L) at 2. constructor. exact D. }
  destruct (ai =? 26) eqn:Q3.
  { apply (F 4 4%nat eq_refl) in H as (a & -> & L & ->). cbn [h_maj h_ai h_arg h_indef]. split; [exact M|]. left. split; [reflexivity|]. exists (b :: a). split; [reflexivity|].
    specialize (D a). rewrite L in D. rewrite B. replace ai with 26 by lia. rewrite <- (be_enc_dec 4 a L) at 2. constructor. exact D. }
  destruct (ai =? 27) eqn:Q4.
  { apply (F 8 8%nat eq_refl) in H as (a & -> & L & ->). cbn [h_maj h_ai h_arg h_indef]. split; [exact M|]. left. split; [reflexivity|]. exists (b :: a). split; [reflexivity|].
    specialize (D a). rewrite L in D. rewrite B. replace ai with 27 by lia. rewrite <- (be_enc_dec 8 a L) at 2. constructor. exact D. }
  destruct (ai =? 31) eqn:Q5; [|discriminate].
  assert (h = {| h_maj := maj; h_ai := ai; h_arg := 0; h_indef := true |} /\ r = bs) as [-> ->] by (split; congruence). cbn [h_maj h_ai h_arg h_indef].
  split; [exact M|]. right. split; [reflexivity|]. split; [lia|]. rewrite B. replace ai with 31 by lia. reflexivity.
Qed.

(** ** UTF-8: decoding accepts encodings only *)
Lemma utf8_enc_dec n : forall bs s, (List.length bs <= n)%nat -> utf8_dec bs = Some s -> utf8_enc s = Some bs.
Proof.
  assert (C : forall b, is_cont b = true -> 0 <= b2z b - 128 < 64) by (intros b H; unfold is_cont in H; lia).
  assert (G : forall c bs s e, scalar c = true -> utf8_enc1 c = e -> utf8_enc s = Some bs -> utf8_enc (c :: s) = Some (e ++ bs)).
  { intros c bs s e S <- H. unfold utf8_enc in *. cbn [forallb flat_map]. rewrite S. destruct (forallb scalar s); [|discriminate]. apply Some_inj in H. subst. reflexivity. }
  induction n as [|n IH]; intros bs s L H.
  { destruct bs; [|cbn [List.length] in L; lia]. cbn in H. apply Some_inj in H. subst. reflexivity. }
  destruct bs as [|b0 bs]; cbn [utf8_dec] in H; [apply Some_inj in H; subst; reflexivity|]. cbn [List.length] in L. pose proof (b2z_range b0) as R0.
  destruct (b2z b0 <? 128) eqn:Q1.
  { destruct (utf8_dec bs) as [s'|] eqn:D; [|discriminate]. apply Some_inj in H. subst s. apply (G _ bs s' [b0]); [unfold scalar; lia| |apply IH; [lia|exact D]].
    unfold utf8_enc1. rewrite Q1, z2b_b2z. reflexivity. }
  destruct (b2z b0 <? 194) eqn:Q2; [discriminate|]. destruct (b2z b0 <? 224) eqn:Q3.
  { destruct bs as [|b1 bs]; [discriminate|]. destruct (is_cont b1) eqn:C1; [|discriminate]. apply C in C1.
    destruct (utf8_dec bs) as [s'|] eqn:D; [|discriminate]. apply Some_inj in H. cbn [List.length] in L.
    set (c := (b2z b0 - 192) * 64 + (b2z b1 - 128)) in *. subst s. apply (G c bs s' [b0; b1]); [unfold scalar, c; lia| |apply IH; [lia|exact D]].
    assert (E1 : c / 64 = b2z b0 - 192) by (unfold c; rewrite Z.div_add_l by lia; rewrite Z.div_small by lia; lia).
    assert (E2 : c mod 64 = b2z b1 - 128) by (unfold c; rewrite Z.add_comm, Z.mod_add by lia; apply Z.mod_small; lia).
    unfold utf8_enc1. replace (c <? 128) with false by (unfold c; lia). replace (c <? 2048) with true by (unfold c; lia). rewrite E1, E2.
    replace (192 + (b2z b0 - 192)) with (b2z b0) by lia. replace (128 + (b2z b1 - 128)) with (b2z b1) by lia. rewrite !z2b_b2z. reflexivity. }
  destruct (b2z b0 <? 240) eqn:Q4.
  { destruct bs as [|b1 [|b2 bs]]; try discriminate. cbv zeta in H. set (c := (b2z b0 - 224) * 4096 + (b2z b1 - 128) * 64 + (b2z b2 - 128)) in *.
    destruct (is_cont b1 && is_cont b2 && (2048 <=? c) && scalar c) eqn:K; [|discriminate]. apply andb_prop in K as [K S]. apply andb_prop in K as [K B]. apply andb_prop in K as [C1 C2].
    apply C in C1, C2. destruct (utf8_dec bs) as [s'|] eqn:D; [|discriminate]. apply Some_inj in H. subst s. cbn [List.length] in L. apply (G c bs s' [b0; b1; b2]); [exact S| |apply IH; [lia|exact D]].
    assert (E1 : c / 4096 = b2z b0 - 224) by (unfold c; rewrite <- Z.add_assoc, Z.div_add_l by lia; rewrite Z.div_small by lia; lia).
    assert (E2 : (c / 64) mod 64 = b2z b1 - 128).
    { replace c with (((b2z b0 - 224) * 64 + (b2z b1 - 128)) * 64 + (b2z b2 - 128)) by (unfold c; lia). rewrite Z.div_add_l by lia. rewrite (Z.div_small (b2z b2 - 128)) by lia.
      rewrite Z.add_0_r, Z.add_comm, Z.mod_add by lia. apply Z.mod_small; lia. }
    assert (E3 : c mod 64 = b2z b2 - 128).
    { replace c with ((b2z b2 - 128) + ((b2z b0 - 224) * 64 + (b2z b1 - 128)) * 64) by (unfold c; lia). rewrite Z.mod_add by lia. apply Z.mod_small; lia. }
    unfold utf8_enc1. replace (c <? 128) with false by lia. replace (c <? 2048) with false by lia. replace (c <? 65536) with true by (unfold c; lia). rewrite E1, E2, E3.
    replace (224 + (b2z b0 - 224)) with (b2z b0) by lia. replace (128 + (b2z b1 - 128)) with (b2z b1) by lia. replace (128 + (b2z b2 - 128)) with (b2z b2) by lia. rewrite !z2b_b2z. reflexivity. }
  destruct (b2z b0 <? 245) eqn:Q5; [|discriminate].
  destruct bs as [|b1 [|b2 [|b3 bs]]]; try discriminate. cbv zeta in H.
  set (c := (b2z b0 - 240) * 262144 + (b2z b1 - 128) * 4096 + (b2z b2 - 128) * 64 + (b2z b3 - 128)) in *.
  destruct (is_cont b1 && is_cont b2 && is_cont b3 && (65536 <=? c) && scalar c) eqn:K; [|discriminate]. apply andb_prop in K as [K S]. apply andb_prop in K as [K B]. apply andb_prop in K as [K C3]. apply andb_prop in K as [C1 C2].
  apply C in C1, C2, C3. destruct (utf8_dec bs) as [s'|] eqn:D; [|discriminate]. apply Some_inj in H. subst s. cbn [List.length] in L. apply (G c bs s' [b0; b1; b2; b3]); [exact S| |apply IH; [lia|exact D]].
  assert (E1 : c / 262144 = b2z b0 - 240).
  { replace c with ((b2z b0 - 240) * 262144 + ((b2z b1 - 128) * 4096 + (b2z b2 - 128) * 64 + (b2z b3 - 128))) by (unfold c; lia). rewrite Z.div_add_l by lia. rewrite Z.div_small by lia. lia. }
  assert (E2 : (c / 4096) mod 64 = b2z b1 - 128).
  { replace c with (((b2z b0 - 240) * 64 + (b2z b1 - 128)) * 4096 + ((b2z b2 - 128) * 64 + (b2z b3 - 128))) by (unfold c; lia). rewrite Z.div_add_l by lia. rewrite (Z.div_small ((b2z b2 - 128) * 64 + _)) by lia.
    rewrite Z.add_0_r, Z.add_comm, Z.mod_add by lia. apply Z.mod_small; lia. }
  assert (E3 : (c / 64) mod 64 = b2z b2 - 128).
  { replace c with ((((b2z b0 - 240) * 64 + (b2z b1 - 128)) * 64 + (b2z b2 - 128)) * 64 + (b2z b3 - 128)) by (unfold c; lia). rewrite Z.div_add_l by lia. rewrite (Z.div_small (b2z b3 - 128)) by lia.
    rewrite Z.add_0_r, Z.add_comm, Z.mod_add by lia. apply Z.mod_small; lia. }
  assert (E4 : c mod 64 = b2z b3 - 128).
  { replace c with ((b2z b3 - 128) + (((b2z b0 - 240) * 64 + (b2z b1 - 128)) * 64 + (b2z b2 - 128)) * 64) by (unfold c; lia). rewrite Z.mod_add by lia. apply Z.mod_small; lia. }
  unfold utf8_enc1. replace (c <? 128) with false by lia. replace (c <? 2048) with false by lia. replace (c <? 65536) with false by lia. rewrite E1, E2, E3, E4.
  replace (240 + (b2z b0 - 240)) with (b2z b0) by lia. replace (128 + (b2z b1 - 128)) with (b2z b1) by lia. replace (128 + (b2z b2 - 128)) with (b2z b2) by lia.
  replace (128 + (b2z b3 - 128)) with (b2z b3) by lia. rewrite !z2b_b2z. reflexivity.
Qed.
Lemma utf8_iff bs s : utf8_dec bs = Some s <-> utf8_enc s = Some bs.
Proof. split; [exact (utf8_enc_dec _ bs s (le_n _))|apply utf8_dec_enc]. Qed.

(** ** Strings *)
Lemma head_first maj ai n h : 0 <= maj < 8 -> head_at maj ai n h -> exists a t, h = z2b (maj * 32 + a) :: t /\ 0 <= a <= 27.
Proof. intros M H. destruct H; eexists; eexists; (split; [reflexivity|lia]). Qed.
Lemma not_break z : 0 <= z < 255 -> z2b z <> xff.
Proof. intros R H. apply (f_equal b2z) in H. rewrite b2z_z2b_small in H by lia. change (b2z xff) with 255 in H. lia. Qed.
Lemma one_first maj b e : 0 <= maj < 8 -> one_string maj b e -> exists a t, e = z2b (maj * 32 + a) :: t /\ 0 <= a <= 27.
Proof. intros M [b0 h (ai & H)]. destruct (head_first _ _ _ _ M H) as (a & t & -> & A). exists a, (t ++ b0). auto. Qed.
Lemma chunks_ok maj bl es : 0 <= maj < 7 -> Forall2 (one_string maj) bl es -> forall acc fuel r, (List.length es < fuel)%nat ->
  dec_chunks maj fuel (List.concat es ++ xff :: r) acc = Some (acc ++ List.concat bl, r).
Proof.
  intros M H. induction H as [|b e bl es H _ IH]; intros acc fuel r L; (destruct fuel as [|fuel]; [cbn [List.length] in L; lia|]).
  - cbn [List.concat app dec_chunks]. change xff with (z2b (7 * 32 + 31)). rewrite indef_dec by lia. cbn [h_maj h_indef andb]. rewrite app_nil_r. reflexivity.
  - cbn [List.concat dec_chunks]. destruct H as [b h (ai & H)]. rewrite <- !app_assoc. rewrite (head_dec maj ai _ _ _ ltac:(lia) H). cbn [h_maj h_indef h_arg negb].
    rewrite Z.eqb_refl, !andb_true_r, andb_false_r. rewrite take_app. rewrite IH by (cbn [List.length] in L; lia). rewrite <- app_assoc. reflexivity.
Qed.
Lemma concat_length (es : list bytes) : (forall e, In e es -> e <> []) -> (List.length es <= List.length (List.concat es))%nat.
Proof.
  induction es as [|e es IH]; intros N; cbn [List.concat List.length]; [lia|]. rewrite app_length.
  assert (e <> []) by (apply N; left; reflexivity). destruct e; [congruence|]. cbn [List.length]. specialize (IH (fun x Hx => N x (or_intror Hx))). lia.
Qed.
Lemma forall2_in {A B} (R : A -> B -> Prop) l m y : Forall2 R l m -> In y m -> exists x, In x l /\ R x y.
Proof. intros H. induction H as [|a b l m H _ IH]; [intros []|]. intros [<-|Hy]; [exists a; split; [left; reflexivity|exact H]|]. destruct (IH Hy) as (x & Hx & R1). exists x. split; [right; exact Hx|exact R1]. Qed.
Lemma str_ok maj b e r : 0 <= maj < 7 -> string_of maj b e -> exists h r0, dec_head (e ++ r) = Some (h, r0) /\ h_maj h = maj /\ dec_str_body h r0 = Some (b, r).
Proof.
  intros M [b0 e0 [b1 h (ai & H)]|bl es F].
  - rewrite <- app_assoc, (head_dec maj ai _ _ _ ltac:(lia) H). eexists. eexists. split; [reflexivity|]. split; [reflexivity|]. unfold dec_str_body. cbn [h_indef h_arg]. apply take_app.
  - cbn [app]. rewrite indef_dec by lia. eexists. eexists. split; [reflexivity|]. split; [reflexivity|]. unfold dec_str_body. cbn [h_indef h_maj]. rewrite <- app_assoc. cbn [app].
    rewrite (chunks_ok maj bl es M F); [reflexivity|]. rewrite app_length. cbn [List.length].
    assert (N : forall e, In e es -> e <> []). { intros e' He. destruct (forall2_in _ _ _ _ F He) as (b' & _ & O). destruct (one_first maj b' e' ltac:(lia) O) as (a & t & -> & _). discriminate. }
    pose proof (concat_length es N). lia.
Qed.
Lemma chunks_inv maj : 0 <= maj < 7 -> forall fuel bs acc b r, dec_chunks maj fuel bs acc = Some (b, r) ->
  exists bl es, Forall2 (one_string maj) bl es /\ b = acc ++ List.concat bl /\ bs = List.concat es ++ xff :: r.
Proof.
  intros M. induction fuel as [|fuel IH]; intros bs acc b r H; cbn [dec_chunks] in H; [discriminate|].
  destruct (dec_head bs) as [[h r0]|] eqn:D; [|discriminate]. apply head_inv in D as [Mh D].
  destruct ((h_maj h =? 7) && h_indef h) eqn:Q.
  - apply andb_prop in Q as [Q1 Q2]. destruct D as [[D _]|(_ & _ & ->)]; [congruence|]. assert (b = acc /\ r = r0) as [-> ->] by (split; congruence).
    exists [], []. split; [constructor|]. cbn [List.concat]. rewrite app_nil_r. split; [reflexivity|]. replace (h_maj h) with 7 by lia. reflexivity.
  - destruct ((h_maj h =? maj) && negb (h_indef h)) eqn:Q'; [|discriminate]. apply andb_prop in Q' as [Q1 Q2]. apply negb_true_iff in Q2.
    destruct D as [[_ (e & -> & He)]|(D & _)]; [|congruence]. destruct (take (h_arg h) r0) as [[a r1]|] eqn:T; [|discriminate].
    assert (A : h_arg h = blen a). { apply take_inv in T as [_ T]. unfold blen. rewrite T. assert (0 <= h_arg h) by (destruct He; lia). lia. }
    apply take_inv in T as [-> _]. apply IH in H as (bl & es & F & -> & ->). exists (a :: bl), ((e ++ a) :: es). replace maj with (h_maj h) by lia.
    split; [constructor; [|replace (h_maj h) with maj by lia; exact F]|].
    + constructor. exists (h_ai h). rewrite <- A. exact He.
    + cbn [List.concat]. rewrite <- !app_assoc. auto.
Qed.
Lemma str_inv bs h r0 b r : dec_head bs = Some (h, r0) -> h_maj h < 7 -> dec_str_body h r0 = Some (b, r) -> exists e, bs = e ++ r /\ string_of (h_maj h) b e.
Proof.
  intros D M H. apply head_inv in D as [Mh D]. unfold dec_str_body in H. destruct D as [[I (e & -> & He)]|(I & _ & ->)]; rewrite I in H.
  - assert (A : h_arg h = blen b). { apply take_inv in H as [_ T]. unfold blen. rewrite T. assert (0 <= h_arg h) by (destruct He; lia). lia. }
    apply take_inv in H as [-> _]. exists (e ++ b). rewrite <- app_assoc. split; [reflexivity|]. constructor. constructor. exists (h_ai h). rewrite <- A. exact He.
  - apply (chunks_inv (h_maj h) ltac:(lia)) in H as (bl & es & F & -> & ->). exists (z2b (h_maj h * 32 + 31) :: List.concat es ++ [xff]).
    cbn [app]. rewrite <- app_assoc. split; [reflexivity|]. apply Chunks. exact F.
Qed.

(** ** Lists and dicts *)
Definition starts (e : bytes) : Prop := exists b t, e = b :: t /\ b <> xff.
Lemma starts_app e r : starts e -> is_break (e ++ r) = false.
Proof.
  intros (b & t & -> & N). cbn [app is_break]. destruct (Z.eqb_spec (b2z b) 255) as [Q|]; [|reflexivity]. destruct N.
  rewrite <- (z2b_b2z b), Q. reflexivity.
Qed.
Lemma starts_ne e : starts e -> e <> [].
Proof. intros (b & t & -> & _). discriminate. Qed.
Section Items.
  Variables (f : bytes -> option (pyval * bytes)) (R : bytes -> pyval -> Prop).
  Hypothesis Hf : forall e v r, R e v -> f (e ++ r) = Some (v, r).
  Hypothesis HS : forall e v, R e v -> starts e.
  Inductive PR : bytes -> pyval * pyval -> Prop := PR_ ke ve k v : R ke k -> R ve v -> hashable k = true -> PR (ke ++ ve) (k, v).
  Lemma items_ok es l : Forall2 R es l -> forall fuel r, (List.length l <= fuel)%nat -> dec_items f fuel (Z.of_nat (List.length l)) (List.concat es ++ r) = Some (l, r).
  Proof.
    intros F. induction F as [|e v es l H _ IH]; intros fuel r L.
    - destruct fuel; reflexivity.
    - cbn [List.length] in *. destruct fuel as [|fuel]; [lia|]. cbn [dec_items List.concat]. replace (Z.of_nat (S (List.length l)) <=? 0) with false by lia.
      rewrite <- app_assoc, (Hf _ _ _ H). replace (Z.of_nat (S (List.length l)) - 1) with (Z.of_nat (List.length l)) by lia. rewrite IH by lia. reflexivity.
  Qed.
  Lemma items_indef_ok es l : Forall2 R es l -> forall fuel r, (List.length l <= fuel)%nat -> dec_items_indef f fuel (List.concat es ++ xff :: r) = Some (l, r).
  Proof.
    intros F. induction F as [|e v es l H _ IH]; intros fuel r L.
    - destruct fuel; reflexivity.
    - cbn [List.length] in *. destruct fuel as [|fuel]; [lia|]. cbn [dec_items_indef List.concat]. rewrite <- app_assoc, (starts_app _ _ (HS _ _ H)).
      rewrite (Hf _ _ _ H). rewrite IH by lia. reflexivity.
  Qed.
  Lemma pairs_ok es l : Forall2 PR es l -> forall fuel r acc, (List.length l <= fuel)%nat ->
    dec_pairs f fuel (Z.of_nat (List.length l)) (List.concat es ++ r) acc = Some (fold_left (fun acc kv => dict_set (fst kv) (snd kv) acc) l acc, r).
  Proof.
    intros F. induction F as [|e [k v] es l H _ IH]; intros fuel r acc L.
    - destruct fuel; reflexivity.
    - cbn [List.length] in *. destruct fuel as [|fuel]; [lia|]. cbn [dec_pairs List.concat fold_left]. replace (Z.of_nat (S (List.length l)) <=? 0) with false by lia.
      inversion H as [ke ve k' v' R1 R2 HH]; subst. rewrite <- !app_assoc, (Hf _ _ _ R1), (Hf _ _ _ R2), HH.
      replace (Z.of_nat (S (List.length l)) - 1) with (Z.of_nat (List.length l)) by lia. rewrite IH by lia. reflexivity.
  Qed.
  Lemma pairs_indef_ok es l : Forall2 PR es l -> forall fuel r acc, (List.length l <= fuel)%nat ->
    dec_pairs_indef f fuel (List.concat es ++ xff :: r) acc = Some (fold_left (fun acc kv => dict_set (fst kv) (snd kv) acc) l acc, r).
  Proof.
    intros F. induction F as [|e [k v] es l H _ IH]; intros fuel r acc L.
    - destruct fuel; reflexivity.
    - cbn [List.length] in *. destruct fuel as [|fuel]; [lia|]. cbn [dec_pairs_indef List.concat fold_left].
      inversion H as [ke ve k' v' R1 R2 HH]; subst. rewrite <- !app_assoc, (starts_app _ _ (HS _ _ R1)), (Hf _ _ _ R1), (Hf _ _ _ R2), HH. rewrite IH by lia. reflexivity.
  Qed.
End Items.
Section ItemsInv.
  Variables (f : bytes -> option (pyval * bytes)) (R : bytes -> pyval -> Prop).
  Hypothesis Hf : forall bs v r, f bs = Some (v, r) -> exists e, bs = e ++ r /\ R e v.
  Lemma items_inv fuel : forall n bs l r, 0 <= n -> dec_items f fuel n bs = Some (l, r) -> exists es, bs = List.concat es ++ r /\ Forall2 R es l /\ n = Z.of_nat (List.length l).
  Proof.
    induction fuel as [|fuel IH]; intros n bs l r N H; cbn [dec_items] in H; destruct (n <=? 0) eqn:Q; try discriminate;
      try (assert (l = [] /\ r = bs) as [-> ->] by (split; congruence); exists []; split; [reflexivity|split; [constructor|cbn [List.length]; lia]]).
    destruct (f bs) as [[v r1]|] eqn:E; [|discriminate]. destruct (dec_items f fuel (n - 1) r1) as [[vs r2]|] eqn:E2; [|discriminate].
    assert (l = v :: vs /\ r = r2) as [-> ->] by (split; congruence). apply Hf in E as (e & -> & He). apply IH in E2 as (es & -> & F & L); [|lia].
    exists (e :: es). cbn [List.concat List.length]. rewrite <- app_assoc. split; [reflexivity|]. split; [constructor; assumption|lia].
  Qed.
  Lemma break_inv (bs : bytes) : is_break bs = true -> bs = xff :: tl bs.
  Proof. destruct bs as [|b bs]; cbn [is_break tl]; [discriminate|]. intros H. apply Z.eqb_eq in H. f_equal. rewrite <- (z2b_b2z b), H. reflexivity. Qed.
  Lemma items_indef_inv fuel : forall bs l r, dec_items_indef f fuel bs = Some (l, r) -> exists es, bs = List.concat es ++ xff :: r /\ Forall2 R es l.
  Proof.
    induction fuel as [|fuel IH]; intros bs l r H; cbn [dec_items_indef] in H; destruct (is_break bs) eqn:Q; try discriminate;
      try (assert (l = [] /\ r = tl bs) as [-> ->] by (split; congruence); exists []; split; [exact (break_inv _ Q)|constructor]).
    destruct (f bs) as [[v r1]|] eqn:E; [|discriminate]. destruct (dec_items_indef f fuel r1) as [[vs r2]|] eqn:E2; [|discriminate].
    assert (l = v :: vs /\ r = r2) as [-> ->] by (split; congruence). apply Hf in E as (e & -> & He). apply IH in E2 as (es & -> & F).
    exists (e :: es). cbn [List.concat]. rewrite <- app_assoc. split; [reflexivity|]. constructor; assumption.
  Qed.
  Lemma pairs_inv fuel : forall n bs acc m r, 0 <= n -> dec_pairs f fuel n bs acc = Some (m, r) ->
    exists es l, bs = List.concat es ++ r /\ Forall2 (PR R) es l /\ n = Z.of_nat (List.length l) /\ m = fold_left (fun acc kv => dict_set (fst kv) (snd kv) acc) l acc.
  Proof.
    induction fuel as [|fuel IH]; intros n bs acc m r N H; cbn [dec_pairs] in H; destruct (n <=? 0) eqn:Q; try discriminate;
      try (assert (m = acc /\ r = bs) as [-> ->] by (split; congruence); exists [], []; split; [reflexivity|split; [constructor|split; [cbn [List.length]; lia|reflexivity]]]).
    destruct (f bs) as [[k r1]|] eqn:E; [|discriminate]. destruct (f r1) as [[v r2]|] eqn:E2; [|discriminate]. destruct (hashable k) eqn:HH; [|discriminate].
    apply Hf in E as (ke & -> & Hk). apply Hf in E2 as (ve & -> & Hv). apply IH in H as (es & l & -> & F & L & ->); [|lia].
    exists ((ke ++ ve) :: es), ((k, v) :: l). cbn [List.concat List.length fold_left fst snd]. rewrite <- !app_assoc. split; [reflexivity|]. split; [constructor; [constructor|]; assumption|]. split; [lia|reflexivity].
  Qed.
  Lemma pairs_indef_inv fuel : forall bs acc m r, dec_pairs_indef f fuel bs acc = Some (m, r) ->
    exists es l, bs = List.concat es ++ xff :: r /\ Forall2 (PR R) es l /\ m = fold_left (fun acc kv => dict_set (fst kv) (snd kv) acc) l acc.
  Proof.
    induction fuel as [|fuel IH]; intros bs acc m r H; cbn [dec_pairs_indef] in H; destruct (is_break bs) eqn:Q; try discriminate;
      try (assert (m = acc /\ r = tl bs) as [-> ->] by (split; congruence); exists [], []; split; [exact (break_inv _ Q)|split; [constructor|reflexivity]]).
    destruct (f bs) as [[k r1]|] eqn:E; [|discriminate]. destruct (f r1) as [[v r2]|] eqn:E2; [|discriminate]. destruct (hashable k) eqn:HH; [|discriminate].
    apply Hf in E as (ke & -> & Hk). apply Hf in E2 as (ve & -> & Hv). apply IH in H as (es & l & -> & F & ->).
    exists ((ke ++ ve) :: es), ((k, v) :: l). cbn [List.concat fold_left fst snd]. rewrite <- !app_assoc. split; [reflexivity|]. split; [constructor; [constructor|]; assumption|reflexivity].
  Qed.
End ItemsInv.

(** ** Items *)
Lemma pair_iff d e kv : pair_spelt d e kv <-> PR (spelt d) e kv.
Proof. split; intros H; inversion H; subst; constructor; assumption. Qed.
Lemma forall2_imp {A B} (R S : A -> B -> Prop) l m : (forall x y, R x y -> S x y) -> Forall2 R l m -> Forall2 S l m.
Proof. intros I H. induction H; constructor; auto. Qed.
Lemma head_starts maj n h r : 0 <= maj < 7 -> head_of maj n h -> starts (h ++ r).
Proof.
  intros M (ai & H). destruct (head_first maj ai n h ltac:(lia) H) as (a & t & -> & A). exists (z2b (maj * 32 + a)), (t ++ r). split; [reflexivity|]. apply not_break. lia.
Qed.
Lemma head_starts' maj n h : 0 <= maj < 7 -> head_of maj n h -> starts h.
Proof. intros M H. rewrite <- (app_nil_r h). exact (head_starts maj n h [] M H). Qed.
Lemma string_starts maj b e : 0 <= maj < 7 -> string_of maj b e -> starts e.
Proof.
  intros M [b0 e0 [b1 h H]|bl es F]; [exact (head_starts maj _ h b1 M H)|]. exists (z2b (maj * 32 + 31)), (List.concat es ++ [xff]). split; [reflexivity|]. apply not_break. lia.
Qed.
Lemma spelt_starts d e v : spelt d e v -> starts e.
Proof.
  intros H. inversion H; subst;
    try (eapply head_starts; [|eassumption]; lia); try (eapply head_starts'; [|eassumption]; lia); try (eapply string_starts; [|eassumption]; lia);
    try (eexists; eexists; split; [reflexivity|discriminate]).
  destruct H0; (eexists; eexists; split; [reflexivity|discriminate]).
Qed.
Lemma pair_starts d e kv : pair_spelt d e kv -> e <> [].
Proof. intros [d' ke ve k v H1 H2 _] N. apply app_eq_nil in N as [N _]. exact (starts_ne _ (spelt_starts _ _ _ H1) N). Qed.
Lemma forall2_len {A B} (R : A -> B -> Prop) l m : Forall2 R l m -> List.length l = List.length m.
Proof. intros H. induction H; cbn [List.length]; congruence. Qed.
Lemma forall2_in' {A B} (R : A -> B -> Prop) l m x : Forall2 R l m -> In x l -> exists y, In y m /\ R x y.
Proof. intros H. induction H as [|a b l m H _ IH]; [intros []|]. intros [<-|Hx]; [exists b; split; [left; reflexivity|exact H]|]. destruct (IH Hx) as (y & Hy & R1). exists y. split; [right; exact Hy|exact R1]. Qed.
Lemma str_dec maj b e r : 0 <= maj < 7 -> string_of maj b e -> forall d, maj = 2 -> dec (S d) (e ++ r) = Some (VBytes b, r).
Proof.
  intros M H d ->. destruct (str_ok 2 b e r M H) as (h & r0 & D & Hm & B). cbn [dec]. rewrite D, Hm. cbn [Z.eqb Pos.eqb]. rewrite B. reflexivity.
Qed.
Theorem spelt_dec d : forall e v, spelt d e v -> forall r, dec d (e ++ r) = Some (v, r).
Proof.
  induction d as [|d IH]; intros e v H r; [inversion H|].
  assert (HI : forall e v r, spelt d e v -> dec d (e ++ r) = Some (v, r)) by (intros; apply IH; assumption).
  assert (HS : forall e v, spelt d e v -> starts e) by (intros; eapply spelt_starts; eassumption).
  assert (HL : forall l es r, Forall2 (spelt d) es l -> (List.length l <= List.length (List.concat es ++ r))%nat).
  { intros l es r' F. rewrite <- (forall2_len _ _ _ F), app_length. pose proof (concat_length es) as L.
    assert (forall e, In e es -> e <> []) by (intros x Hx; destruct (forall2_in' _ _ _ _ F Hx) as (y & _ & Hy); exact (starts_ne _ (HS _ _ Hy))). specialize (L H0). lia. }
  assert (HP : forall l es r, Forall2 (pair_spelt d) es l -> (List.length l <= List.length (List.concat es ++ r))%nat).
  { intros l es r' F. rewrite <- (forall2_len _ _ _ F), app_length. pose proof (concat_length es) as L.
    assert (forall e, In e es -> e <> []) by (intros x Hx; destruct (forall2_in' _ _ _ _ F Hx) as (y & _ & Hy); exact (pair_starts _ _ _ Hy)). specialize (L H0). lia. }
  inversion H as [d' n h (ai & Hh)|d' n h (ai & Hh)|d' b e' S|d' s b e' U S|d' h l es (ai & Hh) F|d' l es F|d' h kvs es (ai & Hh) F|d' kvs es F|d' h b e' (ai & Hh) S|d' h b e' (ai & Hh) S|
    d' n h e' w (ai & Hh) N2 N3 W|d' b w S|d' w R|d' w R|d' w R]; subst.
  - cbn [dec]. rewrite (head_dec 0 ai _ _ _ ltac:(lia) Hh). reflexivity.
  - cbn [dec]. rewrite (head_dec 1 ai _ _ _ ltac:(lia) Hh). reflexivity.
  - apply (str_dec 2); [lia|exact S|reflexivity].
  - destruct (str_ok 3 b e r ltac:(lia) S) as (h & r0 & D & Hm & B). cbn [dec]. rewrite D, Hm. cbn [Z.eqb Pos.eqb]. rewrite B, (utf8_dec_enc _ _ U). reflexivity.
  - cbn [dec]. rewrite <- app_assoc, (head_dec 4 ai _ _ _ ltac:(lia) Hh). cbn [h_maj h_indef h_arg Z.eqb Pos.eqb].
    rewrite (items_ok (dec d) (spelt d) HI HS es l F) by (apply HL, F). reflexivity.
  - cbn [dec app]. change x9f with (z2b (4 * 32 + 31)). rewrite indef_dec by lia. cbn [h_maj h_indef h_arg Z.eqb Pos.eqb]. rewrite <- app_assoc. cbn [app].
    rewrite (items_indef_ok (dec d) (spelt d) HI HS es l F) by (apply HL, F). reflexivity.
  - cbn [dec]. rewrite <- app_assoc, (head_dec 5 ai _ _ _ ltac:(lia) Hh). cbn [h_maj h_indef h_arg Z.eqb Pos.eqb].
    rewrite (pairs_ok (dec d) (spelt d) HI HS es kvs (forall2_imp _ _ _ _ (fun x y => proj1 (pair_iff d x y)) F)) by (apply HP, F). reflexivity.
  - cbn [dec app]. change xbf with (z2b (5 * 32 + 31)). rewrite indef_dec by lia. cbn [h_maj h_indef h_arg Z.eqb Pos.eqb]. rewrite <- app_assoc. cbn [app].
    rewrite (pairs_indef_ok (dec d) (spelt d) HI HS es kvs (forall2_imp _ _ _ _ (fun x y => proj1 (pair_iff d x y)) F)) by (apply HP, F). reflexivity.
  - cbn [dec]. rewrite <- app_assoc, (head_dec 6 ai _ _ _ ltac:(lia) Hh). cbn [h_maj h_indef h_arg Z.eqb Pos.eqb orb].
    destruct (str_ok 2 b e' r ltac:(lia) S) as (h2 & r0 & D & Hm & B). rewrite D, Hm. cbn [Z.eqb Pos.eqb]. rewrite B. reflexivity.
  - cbn [dec]. rewrite <- app_assoc, (head_dec 6 ai _ _ _ ltac:(lia) Hh). cbn [h_maj h_indef h_arg Z.eqb Pos.eqb orb].
    destruct (str_ok 2 b e' r ltac:(lia) S) as (h2 & r0 & D & Hm & B). rewrite D, Hm. cbn [Z.eqb Pos.eqb]. rewrite B. reflexivity.
  - cbn [dec]. rewrite <- app_assoc, (head_dec 6 ai _ _ _ ltac:(lia) Hh). cbn [h_maj h_indef h_arg]. change (6 =? 0) with false. change (6 =? 1) with false. change (6 =? 2) with false.
    change (6 =? 3) with false. change (6 =? 4) with false. change (6 =? 5) with false. change (6 =? 6) with true. cbv iota.
    replace ((n =? 2) || (n =? 3)) with false by lia. rewrite (HI _ _ _ W). reflexivity.
  - destruct S; reflexivity.
  - cbn [app]. change xf9 with (z2b (7 * 32 + 25)). assert (Hh : head_at 7 25 w (z2b (7 * 32 + 25) :: be_enc 2 w)) by (constructor; exact R).
    change (dec (S d) ((z2b (7 * 32 + 25) :: be_enc 2 w) ++ r) = Some (VFloat (widen 5 10 15 w), r)). cbn [dec]. rewrite (head_dec 7 25 w _ r ltac:(lia) Hh). reflexivity.
  - cbn [app]. assert (Hh : head_at 7 26 w (z2b (7 * 32 + 26) :: be_enc 4 w)) by (constructor; exact R).
    change (dec (S d) ((z2b (7 * 32 + 26) :: be_enc 4 w) ++ r) = Some (VFloat (widen 8 23 127 w), r)). cbn [dec]. rewrite (head_dec 7 26 w _ r ltac:(lia) Hh). reflexivity.
  - cbn [app]. assert (Hh : head_at 7 27 w (z2b (7 * 32 + 27) :: be_enc 8 w)) by (constructor; exact R).
    change (dec (S d) ((z2b (7 * 32 + 27) :: be_enc 8 w) ++ r) = Some (VFloat w, r)). cbn [dec]. rewrite (head_dec 7 27 w _ r ltac:(lia) Hh). reflexivity.
Qed.
Theorem dec_spelt d : forall bs v r, dec d bs = Some (v, r) -> exists e, bs = e ++ r /\ spelt d e v.
Proof.
  induction d as [|d IH]; intros bs v r H; [discriminate|]. cbn [dec] in H. destruct (dec_head bs) as [[h r0]|] eqn:D; [|discriminate].
  pose proof (head_inv _ _ _ D) as [Mh HI].
  destruct (Z.eqb_spec (h_maj h) 0) as [M|M0].
  { destruct HI as [[I (e & -> & He)]|(I & _)]; rewrite I in H; [|discriminate]. assert (v = VInt (h_arg h) /\ r = r0) as [-> ->] by (split; congruence).
    exists e. split; [reflexivity|]. apply S_uint. exists (h_ai h). rewrite M in He. exact He. }
  destruct (Z.eqb_spec (h_maj h) 1) as [M|M1].
  { destruct HI as [[I (e & -> & He)]|(I & _)]; rewrite I in H; [|discriminate]. assert (v = VInt (-1 - h_arg h) /\ r = r0) as [-> ->] by (split; congruence).
    exists e. split; [reflexivity|]. apply S_neg. exists (h_ai h). rewrite M in He. exact He. }
  destruct (Z.eqb_spec (h_maj h) 2) as [M|M2].
  { destruct (dec_str_body h r0) as [[b r1]|] eqn:B; [|discriminate]. assert (v = VBytes b /\ r = r1) as [-> ->] by (split; congruence).
    apply (str_inv _ _ _ _ _ D ltac:(lia)) in B as (e & -> & S). rewrite M in S. exists e. split; [reflexivity|]. constructor. exact S. }
  destruct (Z.eqb_spec (h_maj h) 3) as [M|M3].
  { destruct (dec_str_body h r0) as [[b r1]|] eqn:B; [|discriminate]. destruct (utf8_dec b) as [s|] eqn:U; [|discriminate]. assert (v = VStr s /\ r = r1) as [-> ->] by (split; congruence).
    apply (str_inv _ _ _ _ _ D ltac:(lia)) in B as (e & -> & S). rewrite M in S. exists e. split; [reflexivity|]. apply (S_text d s b); [apply utf8_iff; exact U|exact S]. }
  destruct (Z.eqb_spec (h_maj h) 4) as [M|M4].
  { destruct HI as [[I (e & -> & He)]|(I & _ & ->)]; rewrite I in H.
    - destruct (dec_items (dec d) (List.length r0) (h_arg h) r0) as [[l r1]|] eqn:L; [|discriminate]. assert (v = VList l /\ r = r1) as [-> ->] by (split; congruence).
      apply (items_inv (dec d) (spelt d) IH) in L as (es & -> & F & N); [|destruct He; lia]. exists (e ++ List.concat es). rewrite <- app_assoc. split; [reflexivity|].
      apply S_list; [exists (h_ai h); rewrite M, N in He; exact He|exact F].
    - destruct (dec_items_indef (dec d) (List.length r0) r0) as [[l r1]|] eqn:L; [|discriminate]. assert (v = VList l /\ r = r1) as [-> ->] by (split; congruence).
      apply (items_indef_inv (dec d) (spelt d) IH) in L as (es & -> & F). rewrite M. exists (x9f :: List.concat es ++ [xff]). cbn [app]. rewrite <- app_assoc. split; [reflexivity|].
      apply S_list'. exact F. }
  destruct (Z.eqb_spec (h_maj h) 5) as [M|M5].
  { destruct HI as [[I (e & -> & He)]|(I & _ & ->)]; rewrite I in H.
    - destruct (dec_pairs (dec d) (List.length r0) (h_arg h) r0 []) as [[l r1]|] eqn:L; [|discriminate]. assert (v = VDict DPlain l /\ r = r1) as [-> ->] by (split; congruence).
      apply (pairs_inv (dec d) (spelt d) IH) in L as (es & kvs & -> & F & N & ->); [|destruct He; lia]. exists (e ++ List.concat es). rewrite <- app_assoc. split; [reflexivity|].
      apply S_dict; [exists (h_ai h); rewrite M, N in He; exact He|exact (forall2_imp _ _ _ _ (fun x y => proj2 (pair_iff d x y)) F)].
    - destruct (dec_pairs_indef (dec d) (List.length r0) r0 []) as [[l r1]|] eqn:L; [|discriminate]. assert (v = VDict DPlain l /\ r = r1) as [-> ->] by (split; congruence).
      apply (pairs_indef_inv (dec d) (spelt d) IH) in L as (es & kvs & -> & F & ->). rewrite M. exists (xbf :: List.concat es ++ [xff]). cbn [app]. rewrite <- app_assoc. split; [reflexivity|].
      apply S_dict'. exact (forall2_imp _ _ _ _ (fun x y => proj2 (pair_iff d x y)) F). }
  destruct (Z.eqb_spec (h_maj h) 6) as [M|M6].
  { destruct HI as [[I (e & -> & He)]|(I & _)]; rewrite I in H; [|discriminate]. destruct ((h_arg h =? 2) || (h_arg h =? 3)) eqn:T.
    - destruct (dec_head r0) as [[h2 r2]|] eqn:D2; [|discriminate]. destruct (Z.eqb_spec (h_maj h2) 2) as [N|]; [|discriminate].
      destruct (dec_str_body h2 r2) as [[b r3]|] eqn:B; [|discriminate]. apply (str_inv _ _ _ _ _ D2 ltac:(lia)) in B as (e2 & -> & S). rewrite N in S.
      destruct (Z.eqb_spec (h_arg h) 2) as [A|A].
      + assert (v = VInt (be_dec b) /\ r = r3) as [-> ->] by (split; congruence). exists (e ++ e2). rewrite <- app_assoc. split; [reflexivity|].
        apply S_big; [exists (h_ai h); rewrite M, A in He; exact He|exact S].
      + assert (v = VInt (-1 - be_dec b) /\ r = r3) as [-> ->] by (split; congruence). exists (e ++ e2). rewrite <- app_assoc. split; [reflexivity|].
        assert (A3 : h_arg h = 3) by lia. apply S_big_neg; [exists (h_ai h); rewrite M, A3 in He; exact He|exact S].
    - destruct (dec d r0) as [[w r1]|] eqn:W; [|discriminate]. assert (v = VTag (h_arg h) w /\ r = r1) as [-> ->] by (split; congruence).
      apply IH in W as (e2 & -> & S). exists (e ++ e2). rewrite <- app_assoc. split; [reflexivity|]. apply S_tag; [exists (h_ai h); rewrite M in He; exact He|lia|lia|exact S]. }
  assert (M : h_maj h = 7) by lia. rewrite M in HI. clear D IH. unfold simple7 in H. destruct HI as [[I (e & -> & He)]|(I & _)]; rewrite I in H; [|discriminate].
  destruct (Z.eqb_spec (h_ai h) 20) as [A|A20].
  { rewrite A in He. inversion He; subst. assert (v = VBool false /\ r = r0) as [-> ->] by (split; congruence). eexists. split; [reflexivity|]. replace (h_arg h) with 20 by lia. apply S_simple; constructor. }
  destruct (Z.eqb_spec (h_ai h) 21) as [A|A21].
  { rewrite A in He. inversion He; subst. assert (v = VBool true /\ r = r0) as [-> ->] by (split; congruence). eexists. split; [reflexivity|]. replace (h_arg h) with 21 by lia. apply S_simple; constructor. }
  destruct (Z.eqb_spec (h_ai h) 22) as [A|A22].
  { rewrite A in He. inversion He; subst. assert (v = VNone /\ r = r0) as [-> ->] by (split; congruence). eexists. split; [reflexivity|]. replace (h_arg h) with 22 by lia. apply S_simple, Is_null. }
  destruct (Z.eqb_spec (h_ai h) 23) as [A|A23].
  { rewrite A in He. inversion He; subst. assert (v = VNone /\ r = r0) as [-> ->] by (split; congruence). eexists. split; [reflexivity|]. replace (h_arg h) with 23 by lia. apply S_simple, Is_undefined. }
  destruct (Z.eqb_spec (h_ai h) 25) as [A|A25].
  { rewrite A in He. inversion He as [? R| | | |]; subst; try lia. assert (v = VFloat (widen 5 10 15 (h_arg h)) /\ r = r0) as [-> ->] by (split; congruence). eexists. split; [reflexivity|]. apply S_half. assumption. }
  destruct (Z.eqb_spec (h_ai h) 26) as [A|A26].
  { rewrite A in He. inversion He as [? R| | | |]; subst; try lia. assert (v = VFloat (widen 8 23 127 (h_arg h)) /\ r = r0) as [-> ->] by (split; congruence). eexists. split; [reflexivity|]. apply S_single. assumption. }
  destruct (Z.eqb_spec (h_ai h) 27) as [A|A27]; [|discriminate].
  rewrite A in He. inversion He as [? R| | | |]; subst; try lia. assert (v = VFloat (h_arg h) /\ r = r0) as [-> ->] by (split; congruence). eexists. split; [reflexivity|]. apply S_double. assumption.
Qed.
Theorem loads_exact d bs v : loads d bs = Ok v <-> exists e r, bs = e ++ r /\ spelt d e v.
Proof.
  unfold loads. split.
  - destruct (dec d bs) as [[w r]|] eqn:D; [|discriminate]. intros H. apply Ok_inj in H. subst w. apply dec_spelt in D as (e & -> & S). eauto.
  - intros (e & r & -> & S). rewrite (spelt_dec d e v S r). reflexivity.
Qed.
Theorem spelt_unique d d' e e' r r' v v' : spelt d e v -> spelt d' e' v' -> e ++ r = e' ++ r' -> e = e' /\ r = r' /\ v = v'.
Proof.
  intros S S' Q.
  assert (UP : forall d1 d2, (d1 <= d2)%nat -> forall e v, spelt d1 e v -> spelt d2 e v).
  { intros d1. induction d1 as [|d1 IH]; intros d2 L x y H; [inversion H|]. destruct d2 as [|d2]; [lia|]. specialize (IH d2 ltac:(lia)).
    assert (FP : forall es kvs, Forall2 (pair_spelt d1) es kvs -> Forall2 (pair_spelt d2) es kvs).
    { intros es kvs F. apply (forall2_imp _ _ _ _ (fun a b (P : pair_spelt d1 a b) => match P in pair_spelt d a b return (forall e v, spelt d e v -> spelt d2 e v) -> pair_spelt d2 a b with Pair _ _ _ _ _ H1 H2 H3 => fun I => Pair _ _ _ _ _ (I _ _ H1) (I _ _ H2) H3 end IH) F). }
    inversion H; subst; try (econstructor; eauto; fail).
    - constructor; [assumption|]. apply (forall2_imp (spelt d1)); assumption.
    - apply S_list'. apply (forall2_imp (spelt d1)); assumption. }
  pose proof (spelt_dec _ _ _ (UP d (Nat.max d d') ltac:(lia) _ _ S) r) as D1. pose proof (spelt_dec _ _ _ (UP d' (Nat.max d d') ltac:(lia) _ _ S') r') as D2.
  rewrite Q in D1. rewrite D1 in D2. assert (v = v' /\ r = r') as [-> ->] by (split; congruence). apply app_inv_tail in Q. auto.
Qed.
Theorem loads_refused d bs : (forall e r v, bs = e ++ r -> ~ spelt d e v) <-> loads d bs = Err ESerializationError.
Proof.
  split.
  - intros H. destruct (loads d bs) as [v|x] eqn:L.
    + apply loads_exact in L as (e & r & Q & S). destruct (H e r v Q S).
    + unfold loads in L. destruct (dec d bs) as [[v r]|]; [discriminate|]. symmetry. exact L.
  - intros L e r v Q S. assert (K : loads d bs = Ok v) by (apply loads_exact; exists e, r; auto). congruence.
Qed.
