(** * CBOR round trip and prefix-freeness. *)
From Verif Require Export Cbor.

Arguments Z.mul : simpl never.
Arguments Z.add : simpl never.
Arguments Z.sub : simpl never.
Arguments Z.pow : simpl never.
Arguments Z.div : simpl never.
Arguments Z.modulo : simpl never.
Arguments Z.of_nat : simpl never.
Arguments be_enc : simpl never.

Lemma oapp_some a b r : oapp a b = Some r -> exists x y, a = Some x /\ b = Some y /\ r = x ++ y.
Proof. destruct a, b; cbn; intros H; inversion H; eauto. Qed.

Lemma blen_app a b : blen (a ++ b) = blen a + blen b.
Proof. unfold blen. rewrite app_length. lia. Qed.

Lemma take_app a r : take (blen a) (a ++ r) = Some (a, r).
Proof.
  unfold take. rewrite blen_app.
  assert (0 <= blen a) by (unfold blen; lia). assert (0 <= blen r) by (unfold blen; lia).
  replace ((0 <=? blen a) && (blen a <=? blen a + blen r)) with true by lia.
  unfold blen. rewrite Nat2Z.id, firstn_app_exact, skipn_app_exact by reflexivity. reflexivity.
Qed.

Lemma take_be n z r :
  take (Z.of_nat n) (be_enc n z ++ r) = Some (be_enc n z, r).
Proof.
  replace (Z.of_nat n) with (blen (be_enc n z)) by (unfold blen; rewrite be_enc_length; reflexivity).
  apply take_app.
Qed.

Lemma dec_head_enc maj n h rest :
  0 <= maj < 7 -> enc_head maj n = Some h ->
  exists ai, dec_head (h ++ rest) =
    Some ({| h_maj := maj; h_ai := ai; h_arg := n; h_indef := false |}, rest).
Proof.
  intros Hm. unfold enc_head.
  destruct (n <? 0) eqn:H0; [discriminate|].
  destruct (n <? 24) eqn:H1; [|destruct (n <? 2 ^ 8) eqn:H2; [|destruct (n <? 2 ^ 16) eqn:H3;
    [|destruct (n <? 2 ^ 32) eqn:H4; [|destruct (n <? 2 ^ 64) eqn:H5; [|discriminate]]]]];
    intros [= <-]; cbn [app]; unfold dec_head; cbv beta zeta.
  - rewrite b2z_z2b_small by lia. exists n.
    replace ((maj * 32 + n) / 32) with maj by lia.
    replace ((maj * 32 + n) mod 32) with n by lia.
    rewrite H1. reflexivity.
  - rewrite b2z_z2b_small by lia. exists 24.
    replace ((maj * 32 + 24) / 32) with maj by lia.
    replace ((maj * 32 + 24) mod 32) with 24 by lia.
    replace (24 <? 24) with false by reflexivity. replace (24 =? 24) with true by reflexivity.
    change (take 1) with (take (Z.of_nat 1)). rewrite take_be.
    rewrite be_dec_enc_small; [reflexivity|]. change (256 ^ Z.of_nat 1) with (2 ^ 8). lia.
  - rewrite b2z_z2b_small by lia. exists 25.
    replace ((maj * 32 + 25) / 32) with maj by lia.
    replace ((maj * 32 + 25) mod 32) with 25 by lia.
    change (25 <? 24) with false. change (25 =? 24) with false. change (25 =? 25) with true.
    cbn iota. change (take 2) with (take (Z.of_nat 2)). rewrite take_be.
    rewrite be_dec_enc_small; [reflexivity|]. change (256 ^ Z.of_nat 2) with (2 ^ 16). lia.
  - rewrite b2z_z2b_small by lia. exists 26.
    replace ((maj * 32 + 26) / 32) with maj by lia.
    replace ((maj * 32 + 26) mod 32) with 26 by lia.
    change (26 <? 24) with false. change (26 =? 24) with false. change (26 =? 25) with false.
    change (26 =? 26) with true.
    cbn iota. change (take 4) with (take (Z.of_nat 4)). rewrite take_be.
    rewrite be_dec_enc_small; [reflexivity|]. change (256 ^ Z.of_nat 4) with (2 ^ 32). lia.
  - rewrite b2z_z2b_small by lia. exists 27.
    replace ((maj * 32 + 27) / 32) with maj by lia.
    replace ((maj * 32 + 27) mod 32) with 27 by lia.
    change (27 <? 24) with false. change (27 =? 24) with false. change (27 =? 25) with false.
    change (27 =? 26) with false. change (27 =? 27) with true.
    cbn iota. change (take 8) with (take (Z.of_nat 8)). rewrite take_be.
    rewrite be_dec_enc_small; [reflexivity|]. change (256 ^ Z.of_nat 8) with (2 ^ 64). lia.
Qed.

Lemma enc_head_nonempty maj n h : enc_head maj n = Some h -> (1 <= List.length h)%nat.
Proof.
  unfold enc_head.
  repeat match goal with |- context [if ?c then _ else _] => destruct c end;
    intros H; inversion H; cbn [List.length]; lia.
Qed.

Lemma enc_nonempty v bs : enc v = Some bs -> (1 <= List.length bs)%nat.
Proof.
  assert (Ht : forall s b, enc_text s = Some b -> (1 <= List.length b)%nat).
  { unfold enc_text. intros s b. destruct (utf8_enc s); [|discriminate].
    intros H. apply oapp_some in H as (x & y & Hx & Hy & ->).
    apply enc_head_nonempty in Hx. rewrite app_length. lia. }
  destruct v; cbn [enc]; intros H;
    try (apply oapp_some in H as (x & y & Hx & Hy & ->);
         apply enc_head_nonempty in Hx; rewrite app_length; lia);
    try discriminate; eauto.
  - inversion H; cbn; lia.
  - destruct b; inversion H; cbn; lia.
  - unfold enc_int in H. destruct (0 <=? z).
    + destruct (z <=? cbor_uint_max); [eapply enc_head_nonempty; eauto|].
      apply oapp_some in H as (x & y & Hx & Hy & ->).
      apply enc_head_nonempty in Hx; rewrite app_length; lia.
    + destruct (-1 - z <=? cbor_negint_max); [eapply enc_head_nonempty; eauto|].
      apply oapp_some in H as (x & y & Hx & Hy & ->).
      apply enc_head_nonempty in Hx; rewrite app_length; lia.
  - destruct ((0 <=? bits) && (bits <? 2 ^ 64)); inversion H; cbn; lia.
  - destruct (is_string_enum e); [eauto|discriminate].
Qed.

Lemma big_bytes_dec z : 0 < z -> be_dec (big_bytes z) = z.
Proof.
  intros H. unfold big_bytes. apply be_dec_enc_small. split; [lia|].
  pose proof (Z.log2_spec z H) as [_ Hl]. pose proof (Z.log2_nonneg z).
  rewrite Z2Nat.id by (assert (0 <= Z.log2 z / 8) by (apply Z.div_pos; lia); lia).
  replace (256 ^ (Z.log2 z / 8 + 1)) with (2 ^ (8 * (Z.log2 z / 8 + 1))).
  2:{ rewrite Z.pow_mul_r by lia. reflexivity. }
  eapply Z.lt_le_trans; [exact Hl|]. apply Z.pow_le_mono_r; lia.
Qed.

(** Folding [dict_set] over distinct keys only appends. *)
Lemma dict_set_fresh k v acc :
  forallb (fun kv => negb (py_eq (fst kv) k)) acc = true -> dict_set k v acc = acc ++ [(k, v)].
Proof.
  induction acc as [|[k' v'] acc IH]; cbn [forallb dict_set app fst]; [reflexivity|].
  rewrite andb_true_iff, negb_true_iff. intros [H1 H2]. rewrite H1, (IH H2). reflexivity.
Qed.

Definition sumlen_ok {A} (l : list A) (bs : bytes) : Prop := (List.length l <= List.length bs)%nat.

Lemma dec_items_enc (f : bytes -> option (pyval * bytes)) (g : pyval -> pyval) l bs rest fuel :
  fold_right (fun x acc => oapp (enc x) acc) (Some []) l = Some bs ->
  (forall x b r, In x l -> enc x = Some b -> f (b ++ r) = Some (g x, r)) ->
  (List.length l <= fuel)%nat ->
  dec_items f fuel (Z.of_nat (List.length l)) (bs ++ rest) = Some (map g l, rest).
Proof.
  revert bs fuel. induction l as [|x l IH]; intros bs fuel Hb Hf Hfu.
  - cbn [fold_right] in Hb. inversion Hb; subst. destruct fuel; reflexivity.
  - cbn [fold_right] in Hb. apply oapp_some in Hb as (b1 & b2 & H1 & H2 & ->).
    cbn [List.length] in *. destruct fuel as [|fuel]; [lia|].
    cbn [dec_items]. replace (Z.of_nat (S (List.length l)) <=? 0) with false by lia.
    rewrite <- app_assoc, (Hf x b1) by (cbn; auto).
    replace (Z.of_nat (S (List.length l)) - 1) with (Z.of_nat (List.length l)) by lia.
    rewrite IH; [reflexivity|assumption|cbn in Hf; auto|lia].
Qed.

Lemma dec_pairs_enc (f : bytes -> option (pyval * bytes)) (g : pyval -> pyval)
      (l : list (pyval * pyval)) bs rest fuel acc :
  fold_right (fun kv acc => oapp (oapp (enc (fst kv)) (enc (snd kv))) acc) (Some []) l = Some bs ->
  (forall kv b r, In kv l -> enc (fst kv) = Some b -> f (b ++ r) = Some (g (fst kv), r)) ->
  (forall kv b r, In kv l -> enc (snd kv) = Some b -> f (b ++ r) = Some (g (snd kv), r)) ->
  forallb (fun kv => hashable (g (fst kv))) l = true ->
  forallb (fun kv => forallb (fun a => negb (py_eq (fst a) (g (fst kv)))) acc) l = true ->
  nodup_keys (map (fun kv => g (fst kv)) l) = true ->
  (List.length l <= fuel)%nat ->
  dec_pairs f fuel (Z.of_nat (List.length l)) (bs ++ rest) acc
  = Some (acc ++ map (fun kv => (g (fst kv), g (snd kv))) l, rest).
Proof.
  revert bs fuel acc. induction l as [|[k v] l IH]; intros bs fuel acc Hb Hk Hv Hh Ha Hn Hfu.
  - cbn [fold_right] in Hb. inversion Hb; subst. destruct fuel; cbn; rewrite app_nil_r; reflexivity.
  - cbn [fold_right fst snd] in Hb. apply oapp_some in Hb as (b1 & b2 & H1 & H2 & ->).
    apply oapp_some in H1 as (bk & bv & H1k & H1v & ->).
    cbn [List.length map fst snd forallb nodup_keys] in *.
    destruct fuel as [|fuel]; [lia|].
    apply andb_true_iff in Hh as [Hh1 Hh2]. apply andb_true_iff in Ha as [Ha1 Ha2].
    apply andb_true_iff in Hn as [Hn1 Hn2].
    cbn [dec_pairs]. replace (Z.of_nat (S (List.length l)) <=? 0) with false by lia.
    rewrite <- !app_assoc.
    rewrite (Hk (k, v) bk) by (cbn; auto). cbn [fst snd].
    rewrite (Hv (k, v) bv) by (cbn; auto). cbn [fst snd].
    rewrite Hh1, dict_set_fresh by exact Ha1.
    replace (Z.of_nat (S (List.length l)) - 1) with (Z.of_nat (List.length l)) by lia.
    rewrite IH; [rewrite <- app_assoc; reflexivity|assumption|auto|auto|assumption| |assumption|lia].
    + intros kv b r Hin. apply Hk. right; exact Hin.
    + intros kv b r Hin. apply Hv. right; exact Hin.
    + rewrite forallb_forall in Ha2 |- *. intros kv Hin.
      rewrite forallb_app, (Ha2 kv Hin). cbn [forallb fst]. rewrite andb_true_r.
      rewrite forallb_forall in Hn1. apply Hn1.
      change (g (fst kv)) with ((fun kv => g (fst kv)) kv). apply in_map. exact Hin.
Qed.

Lemma fold_enc_len l bs :
  fold_right (fun x acc => oapp (enc x) acc) (Some []) l = Some bs ->
  (List.length l <= List.length bs)%nat.
Proof.
  revert bs; induction l as [|x l IH]; intros bs H; cbn [fold_right] in H.
  - cbn; lia.
  - apply oapp_some in H as (a & b & Ha & Hb & ->). apply IH in Hb. apply enc_nonempty in Ha.
    rewrite app_length. cbn [List.length]. lia.
Qed.
Lemma fold_enc_pairs_len (l : list (pyval * pyval)) bs :
  fold_right (fun kv acc => oapp (oapp (enc (fst kv)) (enc (snd kv))) acc) (Some []) l = Some bs ->
  (List.length l <= List.length bs)%nat.
Proof.
  revert bs; induction l as [|x l IH]; intros bs H; cbn [fold_right] in H.
  - cbn; lia.
  - apply oapp_some in H as (a & b & Ha & Hb & ->). apply IH in Hb.
    apply oapp_some in Ha as (c & e & Hc & He & ->). apply enc_nonempty in Hc.
    rewrite !app_length. cbn [List.length]. lia.
Qed.

Lemma dec_str_body_enc maj ai b rest :
  dec_str_body {| h_maj := maj; h_ai := ai; h_arg := blen b; h_indef := false |} (b ++ rest)
  = Some (b, rest).
Proof. unfold dec_str_body. cbn [h_indef h_arg]. apply take_app. Qed.

Lemma dec_text s bs d rest :
  enc_text s = Some bs -> dec (S d) (bs ++ rest) = Some (VStr s, rest).
Proof.
  unfold enc_text. destruct (utf8_enc s) as [b|] eqn:E; [|discriminate].
  intros H. apply oapp_some in H as (h & y & Hh & Hy & ->). inversion Hy; subst y.
  rewrite <- app_assoc. cbn [dec].
  destruct (dec_head_enc 3 (blen b) h (b ++ rest)) as [ai ->]; [lia|assumption|].
  cbn [h_maj]. change (3 =? 0) with false. change (3 =? 1) with false.
  change (3 =? 2) with false. change (3 =? 3) with true. cbn iota.
  rewrite dec_str_body_enc, (utf8_dec_enc _ _ E). reflexivity.
Qed.

Lemma dec_bstr b bs d rest :
  enc_bstr b = Some bs -> dec (S d) (bs ++ rest) = Some (VBytes b, rest).
Proof.
  unfold enc_bstr. intros H. apply oapp_some in H as (h & y & Hh & Hy & ->). inversion Hy; subst y.
  rewrite <- app_assoc. cbn [dec].
  destruct (dec_head_enc 2 (blen b) h (b ++ rest)) as [ai ->]; [lia|assumption|].
  cbn [h_maj]. change (2 =? 0) with false. change (2 =? 1) with false.
  change (2 =? 2) with true. cbn iota.
  rewrite dec_str_body_enc. reflexivity.
Qed.

Lemma dec_int z bs d rest :
  enc_int z = Some bs -> dec (S d) (bs ++ rest) = Some (VInt z, rest).
Proof.
  unfold enc_int. destruct (0 <=? z) eqn:Hs.
  - destruct (z <=? cbor_uint_max) eqn:Hm; intros H.
    + cbn [dec]. destruct (dec_head_enc 0 z bs rest) as [ai ->]; [lia|assumption|]. reflexivity.
    + apply oapp_some in H as (t & y & Ht & Hy & ->).
      unfold enc_bstr in Hy. apply oapp_some in Hy as (h & y' & Hh & Hy & ->). inversion Hy; subst y'.
      rewrite <- !app_assoc. cbn [dec].
      destruct (dec_head_enc 6 2 t (h ++ big_bytes z ++ rest)) as [ai ->]; [lia|assumption|].
      cbn [h_maj h_indef h_arg].
      change (6 =? 0) with false. change (6 =? 1) with false. change (6 =? 2) with false.
      change (6 =? 3) with false. change (6 =? 4) with false. change (6 =? 5) with false.
      change (6 =? 6) with true. change (2 =? 2) with true. cbn [orb]. cbn iota.
      destruct (dec_head_enc 2 (blen (big_bytes z)) h (big_bytes z ++ rest)) as [ai2 ->];
        [lia|assumption|].
      cbn [h_maj]. change (2 =? 2) with true. cbn iota.
      rewrite dec_str_body_enc, big_bytes_dec by (unfold cbor_uint_max in Hm; lia). reflexivity.
  - destruct (-1 - z <=? cbor_negint_max) eqn:Hm; intros H.
    + cbn [dec]. destruct (dec_head_enc 1 (-1 - z) bs rest) as [ai ->]; [lia|assumption|].
      cbn [h_maj h_indef h_arg]. change (1 =? 0) with false. change (1 =? 1) with true. cbn iota.
      replace (-1 - (-1 - z)) with z by lia. reflexivity.
    + apply oapp_some in H as (t & y & Ht & Hy & ->).
      unfold enc_bstr in Hy. apply oapp_some in Hy as (h & y' & Hh & Hy & ->). inversion Hy; subst y'.
      rewrite <- !app_assoc. cbn [dec].
      destruct (dec_head_enc 6 3 t (h ++ big_bytes (-1 - z) ++ rest)) as [ai ->]; [lia|assumption|].
      cbn [h_maj h_indef h_arg].
      change (6 =? 0) with false. change (6 =? 1) with false. change (6 =? 2) with false.
      change (6 =? 3) with false. change (6 =? 4) with false. change (6 =? 5) with false.
      change (6 =? 6) with true. change (3 =? 2) with false. change (3 =? 3) with true.
      cbn [orb]. cbn iota.
      destruct (dec_head_enc 2 (blen (big_bytes (-1 - z))) h (big_bytes (-1 - z) ++ rest))
        as [ai2 ->]; [lia|assumption|].
      cbn [h_maj]. change (2 =? 2) with true. cbn iota.
      rewrite dec_str_body_enc, big_bytes_dec by (unfold cbor_negint_max in Hm; lia).
      replace (-1 - (-1 - z)) with z by lia. reflexivity.
Qed.

Theorem dec_enc v : forall bs d rest,
  enc v = Some bs -> wirewf v = true -> (vdepth v <= d)%nat ->
  dec (S d) (bs ++ rest) = Some (norm v, rest).
Proof.
  induction v as [ |b|z|fb|s|b|l IH|l IH|c kvs IH|e s|c a IH|b|c ty ts en sg a _ _ _ _ IH|n v IH]
    using pyval_ind'; intros bs d rest He Hw Hd; cbn [enc] in He;
    try discriminate He; cbn [norm].
  - inversion He. reflexivity.
  - destruct b; inversion He; reflexivity.
  - apply dec_int; assumption.
  - destruct ((0 <=? fb) && (fb <? 2 ^ 64)) eqn:Hr; [|discriminate].
    inversion He; subst bs. cbn [app dec]. unfold dec_head; cbv beta zeta.
    change (b2z (z2b 251)) with 251.
    change (251 / 32) with 7. change (251 mod 32) with 27.
    change (27 <? 24) with false. change (27 =? 24) with false. change (27 =? 25) with false.
    change (27 =? 26) with false. change (27 =? 27) with true. cbn iota.
    change (take 8) with (take (Z.of_nat 8)). rewrite take_be.
    rewrite be_dec_enc_small by (change (256 ^ Z.of_nat 8) with (2 ^ 64); lia).
    reflexivity.
  - apply dec_text; assumption.
  - apply dec_bstr; assumption.
  - apply oapp_some in He as (h & y & Hh & Hy & ->). rewrite <- app_assoc. cbn [dec].
    destruct (dec_head_enc 4 _ h (y ++ rest) ltac:(lia) Hh) as [ai ->].
    cbn [h_maj h_indef h_arg].
    change (4 =? 0) with false. change (4 =? 1) with false. change (4 =? 2) with false.
    change (4 =? 3) with false. change (4 =? 4) with true. cbn iota.
    cbn [vdepth] in Hd.
    rewrite (dec_items_enc (dec d) norm l y rest); [reflexivity|exact Hy| |].
    + intros x b r Hin Hx. pose proof (in_map (fun x => S (vdepth x)) _ _ Hin) as Hm. apply max_list_le in Hm.
      destruct d as [|d]; [lia|]. rewrite Forall_forall in IH. apply IH; auto; [|lia].
      cbn [wirewf] in Hw. rewrite forallb_forall in Hw. auto.
    + apply fold_enc_len in Hy. rewrite app_length. lia.
  - apply oapp_some in He as (h & y & Hh & Hy & ->). rewrite <- app_assoc. cbn [dec].
    destruct (dec_head_enc 4 _ h (y ++ rest) ltac:(lia) Hh) as [ai ->].
    cbn [h_maj h_indef h_arg].
    change (4 =? 0) with false. change (4 =? 1) with false. change (4 =? 2) with false.
    change (4 =? 3) with false. change (4 =? 4) with true. cbn iota.
    cbn [vdepth] in Hd.
    rewrite (dec_items_enc (dec d) norm l y rest); [reflexivity|exact Hy| |].
    + intros x b r Hin Hx. pose proof (in_map (fun x => S (vdepth x)) _ _ Hin) as Hm. apply max_list_le in Hm.
      destruct d as [|d]; [lia|]. rewrite Forall_forall in IH. apply IH; auto; [|lia].
      cbn [wirewf] in Hw. rewrite forallb_forall in Hw. auto.
    + apply fold_enc_len in Hy. rewrite app_length. lia.
  - apply oapp_some in He as (h & y & Hh & Hy & ->). rewrite <- app_assoc. cbn [dec].
    destruct (dec_head_enc 5 _ h (y ++ rest) ltac:(lia) Hh) as [ai ->].
    cbn [h_maj h_indef h_arg].
    change (5 =? 0) with false. change (5 =? 1) with false. change (5 =? 2) with false.
    change (5 =? 3) with false. change (5 =? 4) with false. change (5 =? 5) with true. cbn iota.
    cbn [vdepth] in Hd.
    cbn [wirewf] in Hw. apply andb_true_iff in Hw as [Hw Hw3]. apply andb_true_iff in Hw as [Hw1 Hw2].
    rewrite forallb_forall in Hw3. rewrite Forall_forall in IH.
    rewrite (dec_pairs_enc (dec d) norm kvs y rest); [reflexivity|exact Hy| | |exact Hw1| |exact Hw2|].
    + intros kv b r Hin Hx. destruct (IH kv Hin) as [IH1 _].
      pose proof (Hw3 kv Hin) as Hk. apply andb_true_iff in Hk as [Hk1 Hk2].
      pose proof (in_map (fun kv => S (Nat.max (vdepth (fst kv)) (vdepth (snd kv)))) _ _ Hin) as Hm.
      apply max_list_le in Hm. destruct d as [|d]; [lia|]. apply IH1; auto. lia.
    + intros kv b r Hin Hx. destruct (IH kv Hin) as [_ IH2].
      pose proof (Hw3 kv Hin) as Hk. apply andb_true_iff in Hk as [Hk1 Hk2].
      pose proof (in_map (fun kv => S (Nat.max (vdepth (fst kv)) (vdepth (snd kv)))) _ _ Hin) as Hm.
      apply max_list_le in Hm. destruct d as [|d]; [lia|]. apply IH2; auto. lia.
    + apply forallb_forall. intros; reflexivity.
    + apply fold_enc_pairs_len in Hy. rewrite app_length. lia.
  - destruct (is_string_enum e); [|discriminate]. apply dec_text; assumption.
  - apply oapp_some in He as (h & y & Hh & Hy & ->). rewrite <- app_assoc. cbn [dec].
    destruct (dec_head_enc 6 n h (y ++ rest) ltac:(lia) Hh) as [ai ->].
    cbn [h_maj h_indef h_arg].
    change (6 =? 0) with false. change (6 =? 1) with false. change (6 =? 2) with false.
    change (6 =? 3) with false. change (6 =? 4) with false. change (6 =? 5) with false.
    change (6 =? 6) with true. cbn iota.
    cbn [wirewf] in Hw. apply andb_true_iff in Hw as [Hw Hw3]. apply andb_true_iff in Hw as [Hw1 Hw2].
    apply negb_true_iff in Hw1, Hw2. rewrite Hw1, Hw2. cbn [orb].
    cbn [vdepth] in Hd. destruct d as [|d]; [lia|].
    rewrite IH; [reflexivity|assumption|assumption|lia].
Qed.

Lemma loads_enc v bs d rest :
  enc v = Some bs -> wirewf v = true -> (vdepth v < d)%nat -> loads d (bs ++ rest) = Ok (norm v).
Proof.
  intros He Hw Hd. destruct d as [|d]; [lia|]. unfold loads.
  rewrite (dec_enc v bs d rest) by (auto; lia). reflexivity.
Qed.

(** Encodings are prefix-free up to the wire view. *)
Lemma enc_prefix_free v1 v2 b1 b2 r1 r2 :
  enc v1 = Some b1 -> enc v2 = Some b2 -> wirewf v1 = true -> wirewf v2 = true ->
  b1 ++ r1 = b2 ++ r2 -> norm v1 = norm v2 /\ b1 = b2 /\ r1 = r2.
Proof.
  intros H1 H2 W1 W2 E.
  pose proof (dec_enc v1 b1 (Nat.max (vdepth v1) (vdepth v2)) r1 H1 W1 ltac:(lia)) as D1.
  pose proof (dec_enc v2 b2 (Nat.max (vdepth v1) (vdepth v2)) r2 H2 W2 ltac:(lia)) as D2.
  rewrite E, D2 in D1. inversion D1; subst. split; [auto|].
  split; [|reflexivity]. apply app_inv_tail in E. exact E.
Qed.

Lemma norm_idem v : norm (norm v) = norm v.
Proof.
  induction v as [ |b|z|fb|s|b|l IH|l IH|c kvs IH|e s|c a IH|b|c ty ts en sg a _ _ _ _ IH|n v IH]
    using pyval_ind'; cbn [norm]; try reflexivity.
  - f_equal. rewrite map_map. apply map_ext_Forall. exact IH.
  - f_equal. rewrite map_map. apply map_ext_Forall. exact IH.
  - f_equal. rewrite map_map. apply map_ext_Forall. eapply Forall_impl; [|exact IH].
    intros [k x] [H1 H2]; cbn [fst snd] in *. rewrite H1, H2. reflexivity.
  - destruct (is_string_enum e) eqn:E; cbn [norm]; [reflexivity|rewrite E; reflexivity].
  - rewrite IH. reflexivity.
Qed.
