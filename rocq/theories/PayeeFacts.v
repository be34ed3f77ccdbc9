(** * Notes to a payee that is any text (C40) *)
From Verif Require Export NoteTamper TextFacts.

Lemma digits_more f : forall n m, n <= m -> (List.length (dec_digits f n) <= List.length (dec_digits f m))%nat.
Proof.
  induction f as [|f IH]; intros n m H; [reflexivity|]. cbn [dec_digits]. rewrite !app_length. cbn [List.length].
  destruct (n <? 10) eqn:N; [cbn; lia|]. replace (m <? 10) with false by lia. specialize (IH (n / 10) (m / 10) ltac:(apply Z.div_le_mono; lia)). lia.
Qed.
(** the length is part of the text, so it need not be known *)
Lemma wrap_inj a b : eth_wrap a = eth_wrap b -> a = b.
Proof.
  intros H. apply eth_wrap_inj; [|exact H]. apply (f_equal (@List.length byte)) in H. unfold eth_wrap in H. rewrite !app_length in H.
  destruct (Nat.lt_trichotomy (List.length a) (List.length b)) as [L|[L|L]]; [|exact L|]; exfalso.
  - pose proof (digits_more 20 (blen a) (blen b) ltac:(unfold blen; lia)). lia.
  - pose proof (digits_more 20 (blen b) (blen a) ltac:(unfold blen; lia)). lia.
Qed.
Definition pad (t : ustr) : ustr := if Nat.odd (List.length t) then [48] else [].
Lemma hexlify_lower b : map lower_hex (hexlify b) = hexlify b.
Proof. apply unhex_exact, unhex_hexlify. Qed.
Lemma even_len (s : ustr) b : unhex s = Some b -> Nat.odd (List.length s) = false.
Proof. intros H. rewrite (unhex_length _ _ H), <- Nat.negb_even, Nat.even_mul. reflexivity. Qed.
(** what is signed, as digits *)
Lemma signed_digits n sb cb fb : is_address (n_contract n) cb -> is_address (n_from n) fb -> signed_bytes n = Ok sb ->
  exists s z i x, str_of (n_to n) = Some s /\ amount_of (n_amount n) z /\ 0 <= z < 2 ^ 256 /\ py_uuid (n_subtask n) = Ok i /\ sb = eth_wrap x /\
    hexlify x = pad (skipn 2 s) ++ hexlify cb ++ hexlify fb ++ map lower_hex (skipn 2 s) ++ hexlify (be_enc 32 z) ++ hexlify (uuid_to_bytes32 i).
Proof.
  intros (cs & Ec & Lc & Hc) (fs & Ef & Lf & Hf). unfold signed_bytes, hexmsg, strip2. rewrite Ec, Ef. cbn [str_of bind].
  destruct (str_of (n_to n)) as [s|] eqn:T; cbn [bind]; [|discriminate].
  destruct (to_bytes32 (n_amount n)) as [ab|e] eqn:Ea; cbn [bind]; [|discriminate].
  assert (A : exists z, amount_of (n_amount n) z /\ 0 <= z < 2 ^ 256 /\ ab = be_enc 32 z).
  { unfold to_bytes32 in Ea. destruct (n_amount n); try discriminate.
    - destruct ((0 <=? (if b then 1 else 0)) && ((if b then 1 else 0) <? 2 ^ 256)) eqn:E; [|discriminate].
      injection Ea as <-. exists (if b then 1 else 0). split; [right; eauto|]. split; [destruct b; lia|reflexivity].
    - destruct ((0 <=? z) && (z <? 2 ^ 256)) eqn:E; [|discriminate]. injection Ea as <-.
      exists z. split; [left; reflexivity|]. split; [lia|reflexivity]. }
  destruct A as (z & Az & Rz & ->). clear Ea.
  unfold subtask_id_bytes. destruct (py_uuid (n_subtask n)) as [i|e] eqn:Ei; cbn [bind]; [|discriminate].
  set (t := skipn 2 s). set (tail := hexlify (be_enc 32 z) ++ hexlify (uuid_to_bytes32 i)).
  assert (Lt : Nat.odd (List.length tail) = false).
  { unfold tail. rewrite app_length, Nat.odd_add, !hexlify_length, <- !Nat.negb_even, !Nat.even_mul. reflexivity. }
  set (body := skipn 2 cs ++ skipn 2 fs ++ t ++ tail).
  assert (O : Nat.odd (List.length (u "0x" ++ body)) = Nat.odd (List.length t)).
  { unfold body. rewrite !app_length, !Nat.odd_add, (even_len _ _ Hc), (even_len _ _ Hf), Lt. cbn [u List.length Nat.odd]. destruct (Nat.odd (List.length t)); reflexivity. }
  intros H. apply bind_ok in H as (x & X & H). apply Ok_inj in H. exists s, z, i, x. split; [reflexivity|]. split; [exact Az|]. split; [exact Rz|]. split; [reflexivity|].
  split; [symmetry; exact H|]. clear H.
  assert (U : unhex (pad t ++ body) = Some x).
  { unfold hexstr_to_bytes in X. cbv zeta in X. rewrite O in X. unfold pad. destruct (Nat.odd (List.length t)).
    - change (remove_0x (u "0x0" ++ remove_0x (u "0x" ++ body))) with ([48] ++ body) in X. cbn [decode_hex] in X.
      destruct (is_ascii _); [|discriminate X]. destruct (unhex ([48] ++ body)); [congruence|discriminate X].
    - change (remove_0x (u "0x" ++ body)) with body in X. cbn [decode_hex] in X.
      destruct (is_ascii _); [|discriminate X]. change ([] ++ body) with body. destruct (unhex body); [congruence|discriminate X]. }
  apply unhex_exact in U. apply unhex_exact in Hc. apply unhex_exact in Hf. rewrite <- U. unfold body, tail. rewrite !map_app, Hc, Hf, !hexlify_lower.
  f_equal. unfold t, pad. destruct (Nat.odd (List.length (skipn 2 s))); reflexivity.
Qed.
Lemma shifted (l r1 r2 : list Z) : 48 :: l ++ r1 = l ++ r2 -> l = repeat 48 (List.length l).
Proof.
  induction l as [|x l IH]; [reflexivity|]. cbn [app List.length repeat]. intros H. injection H as Hx H. subst x. f_equal. apply IH. exact H.
Qed.
Lemma hexlify_inj a b : hexlify a = hexlify b -> a = b.
Proof. intros H. pose proof (unhex_hexlify a) as A. rewrite H, unhex_hexlify in A. congruence. Qed.
Lemma zero_digits fb : List.length fb = 20%nat -> hexlify fb = repeat 48 40 -> fb = repeat x00 20.
Proof. intros _ H. apply hexlify_inj. rewrite H. reflexivity. Qed.
Lemma tails t1 t2 (z1 z2 i1 i2 : Z) : t1 ++ hexlify (be_enc 32 z1) ++ hexlify (uuid_to_bytes32 i1) = t2 ++ hexlify (be_enc 32 z2) ++ hexlify (uuid_to_bytes32 i2) ->
  0 <= z1 < 2 ^ 256 -> 0 <= z2 < 2 ^ 256 -> 0 <= i1 < 2 ^ 128 -> 0 <= i2 < 2 ^ 128 -> t1 = t2 /\ z1 = z2 /\ i1 = i2.
Proof.
  intros H Z1 Z2 I1 I2. assert (L : forall z i, List.length (hexlify (be_enc 32 z) ++ hexlify (uuid_to_bytes32 i)) = 128%nat).
  { intros z i. rewrite app_length, !hexlify_length. unfold uuid_to_bytes32, uuid_bytes. rewrite app_length, !be_enc_length. reflexivity. }
  apply app_inj_len in H; [|apply (f_equal (@List.length Z)) in H; rewrite (app_length t1), (app_length t2), !L in H; lia]. destruct H as [-> H].
  apply app_inj_len in H; [|rewrite !hexlify_length, !be_enc_length; reflexivity]. destruct H as [Hz Hi]. apply hexlify_inj in Hz. apply hexlify_inj in Hi.
  unfold uuid_to_bytes32 in Hi. apply app_inj_len in Hi; [|unfold uuid_bytes; rewrite !be_enc_length; reflexivity]. destruct Hi as [Hi _]. unfold uuid_bytes in Hi.
  split; [reflexivity|]. split.
  - rewrite <- (be_dec_enc_small 32 z1), <- (be_dec_enc_small 32 z2), Hz; [reflexivity| |]; change (256 ^ Z.of_nat 32) with (2 ^ 256); assumption.
  - rewrite <- (be_dec_enc_small 16 i1), <- (be_dec_enc_small 16 i2), Hi; [reflexivity| |]; change (256 ^ Z.of_nat 16) with (2 ^ 128); assumption.
Qed.
(** the payee as digits: what follows the first two characters, in lower case *)
Definition payee (n : note) : option ustr := match str_of (n_to n) with Some s => Some (map lower_hex (skipn 2 s)) | None => None end.
Lemma any_payee n1 n2 cb fb b : is_address (n_contract n1) cb -> is_address (n_from n1) fb -> is_address (n_contract n2) cb -> is_address (n_from n2) fb ->
  ~ (cb = repeat x00 20 /\ fb = repeat x00 20) -> signed_bytes n1 = Ok b -> signed_bytes n2 = Ok b ->
  (exists t, payee n1 = Some t /\ payee n2 = Some t) /\
  (exists z, amount_of (n_amount n1) z /\ amount_of (n_amount n2) z) /\ (exists i, py_uuid (n_subtask n1) = Ok i /\ py_uuid (n_subtask n2) = Ok i).
Proof.
  intros A1 F1 A2 F2 NZ S1 S2. pose proof (address_len _ _ F1) as LF. pose proof (address_len _ _ A1) as LC.
  destruct (signed_digits _ _ _ _ A1 F1 S1) as (s1 & z1 & i1 & x1 & T1 & M1 & R1 & I1 & E1 & X1).
  destruct (signed_digits _ _ _ _ A2 F2 S2) as (s2 & z2 & i2 & x2 & T2 & M2 & R2 & I2 & E2 & X2).
  rewrite E1 in E2. apply wrap_inj in E2. subst x2. rewrite X1 in X2. pose proof (py_uuid_range _ _ I1) as J1. pose proof (py_uuid_range _ _ I2) as J2.
  assert (D : forall r1 r2, [48] ++ hexlify cb ++ hexlify fb ++ r1 = [] ++ hexlify cb ++ hexlify fb ++ r2 -> False).
  { intros r1 r2 H. cbn [app] in H. rewrite !app_assoc in H. change (48 :: (hexlify cb ++ hexlify fb) ++ r1 = (hexlify cb ++ hexlify fb) ++ r2) in H.
    apply shifted in H. rewrite app_length, repeat_app in H. apply app_inj_len in H; [|rewrite repeat_length; reflexivity]. destruct H as [H0 H].
    rewrite hexlify_length, LF in H. rewrite hexlify_length, LC in H0. apply NZ. split; apply zero_digits; assumption. }
  assert (G : map lower_hex (skipn 2 s1) = map lower_hex (skipn 2 s2) /\ z1 = z2 /\ i1 = i2).
  { unfold pad in X2. destruct (Nat.odd (List.length (skipn 2 s1))), (Nat.odd (List.length (skipn 2 s2))).
    - do 3 apply app_inv_head in X2. apply tails in X2; assumption.
    - exfalso. eapply D, X2.
    - exfalso. symmetry in X2. eapply D, X2.
    - do 3 apply app_inv_head in X2. apply tails in X2; assumption. }
  destruct G as (G & -> & ->). split; [|split; eauto]. exists (map lower_hex (skipn 2 s2)). unfold payee. rewrite T1, T2, G. auto.
Qed.
(** and so a signature of one payer over one contract is good for one payee, amount and
    subtask only *)
Lemma one_payee C n1 n2 cb fb sig v r s : py_iter sig = Some [VInt v; VBytes r; VBytes s] ->
  is_address (n_contract n1) cb -> is_address (n_from n1) fb -> is_address (n_contract n2) cb -> is_address (n_from n2) fb ->
  ~ (cb = repeat x00 20 /\ fb = repeat x00 20) -> str_of (n_from n1) = str_of (n_from n2) -> sig_valid C n1 sig = Ok true -> sig_valid C n2 sig = Ok true ->
  ((exists t, payee n1 = Some t /\ payee n2 = Some t) /\
   (exists z, amount_of (n_amount n1) z /\ amount_of (n_amount n2) z) /\ (exists i, py_uuid (n_subtask n1) = Ok i /\ py_uuid (n_subtask n2) = Ok i)) \/
  exists b1 b2, signed_bytes n1 = Ok b1 /\ signed_bytes n2 = Ok b2 /\ b1 <> b2 /\
   (keccak C b1 = keccak C b2 \/
    exists a, keccak C b1 <> keccak C b2 /\
      eth_recover C (keccak C b1) (v, r, s) = Some a /\ eth_recover C (keccak C b2) (v, r, s) = Some a).
Proof.
  intros I A1 A2 B1 B2 NZ F V1 V2.
  apply (valid_exactly _ _ _ _ _ _ I) in V1 as (b1 & a & S1 & R1 & F1). apply (valid_exactly _ _ _ _ _ _ I) in V2 as (b2 & a' & S2 & R2 & F2).
  assert (a' = a) by congruence. subst a'.
  destruct (list_eq_dec Byte.byte_eq_dec b1 b2) as [Q|Q].
  - subst b2. left. exact (any_payee _ _ _ _ _ A1 A2 B1 B2 NZ S1 S2).
  - right. exists b1, b2. split; [exact S1|]. split; [exact S2|]. split; [exact Q|].
    destruct (list_eq_dec Byte.byte_eq_dec (keccak C b1) (keccak C b2)) as [K|K]; [left; exact K|]. right. exists a. auto.
Qed.
