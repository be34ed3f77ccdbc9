(** * datastructures/promissory.py: promissory notes and their signatures *)
From Verif Require Export Crypto IdsProofs.

(** promissory.py 39-51: field values are unchecked Python values *)
Record note := {
  n_from : pyval; n_to : pyval; n_amount : pyval; n_subtask : pyval; n_contract : pyval;
}.

(** [x[2:]] concatenated to a str: anything but a str is a TypeError *)
Definition strip2 (v : pyval) : result ustr :=
  match str_of v with Some s => Ok (skipn 2 s) | None => Err ETypeError end.
(** [x.to_bytes(32, byteorder='big')] *)
Definition to_bytes32 (v : pyval) : result bytes :=
  let go z := if (0 <=? z) && (z <? 2 ^ 256) then Ok (be_enc 32 z) else Err EOverflowError in
  match v with
  | VInt z => go z
  | VBool b => go (if b then 1 else 0)
  | _ => Err EAttributeError
  end.

(** promissory.py 61-63 *)
Definition subtask_id_bytes (n : note) : result bytes :=
  do z <- py_uuid (n_subtask n); Ok (uuid_to_bytes32 z).
(** promissory.py 65-72 *)
Definition hexmsg (n : note) : result ustr :=
  do c <- strip2 (n_contract n);
  do f <- strip2 (n_from n);
  do t <- strip2 (n_to n);
  do a <- to_bytes32 (n_amount n);
  do i <- subtask_id_bytes n;
  Ok (u "0x" ++ c ++ f ++ t ++ hexlify a ++ hexlify i).

(** eth_utils.remove_0x_prefix *)
Definition remove_0x (s : ustr) : ustr :=
  match s with
  | a :: b :: r => if (a =? 48) && ((b =? 120) || (b =? 88)) then r else s
  | _ => s
  end.
(** eth_utils.to_bytes(hexstr=...) *)
Definition hexstr_to_bytes (s : ustr) : result bytes :=
  let s := if Nat.odd (List.length s) then u "0x0" ++ remove_0x s else s in
  decode_hex (VStr (remove_0x s)).
(** [str(n)] of a length, as bytes *)
Fixpoint dec_digits (fuel : nat) (n : Z) : bytes :=
  match fuel with
  | O => []
  | S f => (if n <? 10 then [] else dec_digits f (n / 10)) ++ [z2b (48 + n mod 10)]
  end.
(** eth_account.messages.defunct_hash_message: the bytes hashed with keccak *)
Definition eth_preamble : bytes := z2b 25 :: map z2b (u "Ethereum Signed Message:" ++ [10]).
Definition eth_wrap (m : bytes) : bytes := eth_preamble ++ dec_digits 20 (blen m) ++ m.
Definition signed_bytes (n : note) : result bytes :=
  do h <- hexmsg n; do m <- hexstr_to_bytes h; Ok (eth_wrap m).
(** promissory.py 74-76 *)
Definition note_hash (C : crypto) (n : note) : result bytes :=
  do b <- signed_bytes n; Ok (keccak C b).

(** promissory.py 78-86; the result is the named tuple (v, r, s) *)
Definition note_sign (C : crypto) (n : note) (privkey : bytes) : result pyval :=
  do h <- note_hash C n;
  match eth_sign C privkey h with
  | Some (v, r, s) =>
      do rb <- to_bytes32 (VInt r);
      do sb <- to_bytes32 (VInt s);
      Ok (VTuple [VInt v; VBytes rb; VBytes sb])
  | None => Err EValueError
  end.

(** promissory.py 88-108.  Simplification: [recoverHash] is modelled on an int and
    two byte strings (it would also accept ints and hex strings for r and s); any
    failure inside it is one exception. *)
Definition sig_valid (C : crypto) (n : note) (sig : pyval) : result bool :=
  if negb (truthy sig) then Ok false else
  match py_iter sig with
  | Some [v; r; s] =>
      do h <- note_hash C n;
      match v, r, s with
      | VInt v, VBytes r, VBytes s =>
          match eth_recover C h (v, r, s) with
          | Some a => Ok (py_eq (n_from n) (VStr a))
          | None => Err EValueError
          end
      | _, _, _ => Err ETypeError
      end
  | _ => Err ETypeError
  end.

(** ** Facts *)
Lemma to_bytes32_int z : 0 <= z < 2 ^ 256 -> to_bytes32 (VInt z) = Ok (be_enc 32 z).
Proof. intros H. unfold to_bytes32. replace ((0 <=? z) && (z <? 2 ^ 256)) with true by lia. reflexivity. Qed.

Section Facts.
Context (C : crypto) (HC : crypto_ok C).
Lemma note_hash_len n h : note_hash C n = Ok h -> List.length h = 32%nat.
Proof.
  unfold note_hash. destruct (signed_bytes n); cbn [bind]; [|discriminate]. intros [= <-]. apply (keccak_len _ HC).
Qed.

Lemma sign_verify n k a h :
  eth_address C k = Some a -> note_hash C n = Ok h ->
  exists v r s, note_sign C n k = Ok (VTuple [VInt v; VBytes r; VBytes s]) /\
    forall sig n', py_iter sig = Some [VInt v; VBytes r; VBytes s] -> note_hash C n' = Ok h ->
      sig_valid C n' sig = Ok (py_eq (n_from n') (VStr a)).
Proof.
  intros Ha Hh. pose proof (note_hash_len _ _ Hh) as L.
  destruct (eth_sign_ok _ HC k a h Ha L) as (v & r & s & E & Hr & Hs & Rec).
  exists v, (be_enc 32 r), (be_enc 32 s). split.
  - unfold note_sign. rewrite Hh. cbn [bind]. rewrite E.
    rewrite !to_bytes32_int by assumption. reflexivity.
  - intros sig n' Hi Hh'. unfold sig_valid.
    assert (T : truthy sig = true).
    { destruct sig; cbn in Hi; try discriminate; cbn [truthy]; try reflexivity.
      - destruct s0; [discriminate|reflexivity].
      - destruct b; [discriminate|reflexivity].
      - destruct l; [discriminate|reflexivity].
      - destruct l; [discriminate|reflexivity].
      - destruct kvs; [discriminate|reflexivity]. }
    rewrite T. cbn [negb]. rewrite Hi, Hh'. cbn [bind]. rewrite Rec. reflexivity.
Qed.

Lemma unsigned_false n sig : truthy sig = false -> sig_valid C n sig = Ok false.
Proof. intros H. unfold sig_valid. rewrite H. reflexivity. Qed.
Lemma malformed_type_error n sig :
  truthy sig = true -> (forall a b c, py_iter sig <> Some [a; b; c]) -> sig_valid C n sig = Err ETypeError.
Proof.
  intros H N. unfold sig_valid. rewrite H. cbn [negb].
  destruct (py_iter sig) as [[|a [|b [|c [|d l]]]]|]; try reflexivity. exfalso. eapply N. reflexivity.
Qed.
End Facts.

(** *** binding *)
Lemma unhex_length a x : unhex a = Some x -> List.length a = (2 * List.length x)%nat.
Proof.
  assert (G : forall n a, (List.length a <= n)%nat -> forall x, unhex a = Some x -> List.length a = (2 * List.length x)%nat).
  { induction n as [|n IH]; intros a0 L y H.
    - destruct a0; [|cbn in L; lia]. injection H as <-. reflexivity.
    - destruct a0 as [|p [|q a0]]; [injection H as <-; reflexivity|discriminate|].
      cbn [unhex] in H. destruct (hexval p); [|discriminate]. destruct (hexval q); [|discriminate].
      destruct (unhex a0) as [t|] eqn:Et; [|discriminate]. injection H as <-.
      cbn [List.length]. rewrite (IH a0 ltac:(cbn in L; lia) t Et). lia. }
  apply (G (List.length a)). auto.
Qed.

Lemma unhex_app_ok a : forall y b w, unhex a = Some y -> unhex b = Some w -> unhex (a ++ b) = Some (y ++ w).
Proof.
  assert (J' : forall n a, (List.length a <= n)%nat -> forall y b w, unhex a = Some y -> unhex b = Some w -> unhex (a ++ b) = Some (y ++ w)).
  { induction n as [|n' IH]; intros a0 L y b w H1 H2.
    - destruct a0; [|cbn in L; lia]. injection H1 as <-. exact H2.
    - destruct a0 as [|p [|q a0]]; [injection H1 as <-; exact H2|discriminate|].
      cbn [unhex app] in H1 |- *. destruct (hexval p); [|discriminate]. destruct (hexval q); [|discriminate].
      destruct (unhex a0) as [t|] eqn:E'; [|discriminate]. injection H1 as <-.
      rewrite (IH a0 ltac:(cbn in L; lia) _ _ _ E' H2). reflexivity. }
  apply (J' (List.length a)). auto.
Qed.

(** a 20-byte address: two characters (normally 0x) and 40 hexadecimal digits *)
Definition is_address (v : pyval) (b : bytes) : Prop :=
  exists s, v = VStr s /\ List.length s = 42%nat /\ unhex (skipn 2 s) = Some b.
Definition amount_of (v : pyval) (z : Z) : Prop := v = VInt z \/ exists b, v = VBool b /\ z = if b then 1 else 0.

Lemma signed_bytes_form n sb cb fb tb :
  is_address (n_contract n) cb -> is_address (n_from n) fb -> is_address (n_to n) tb ->
  signed_bytes n = Ok sb ->
  exists z i, amount_of (n_amount n) z /\ 0 <= z < 2 ^ 256 /\ py_uuid (n_subtask n) = Ok i /\
    sb = eth_wrap (cb ++ fb ++ tb ++ be_enc 32 z ++ uuid_to_bytes32 i).
Proof.
  intros (cs & Ec & Lc & Hc) (fs & Ef & Lf & Hf) (ts & Et & Lt & Ht).
  unfold signed_bytes, hexmsg, strip2. rewrite Ec, Ef, Et. cbn [str_of bind].
  destruct (to_bytes32 (n_amount n)) as [ab|e] eqn:Ea; cbn [bind]; [|discriminate].
  assert (A : exists z, amount_of (n_amount n) z /\ 0 <= z < 2 ^ 256 /\ ab = be_enc 32 z).
  { unfold to_bytes32 in Ea. destruct (n_amount n); try discriminate.
    - destruct ((0 <=? (if b then 1 else 0)) && ((if b then 1 else 0) <? 2 ^ 256)) eqn:E; [|discriminate].
      injection Ea as <-. exists (if b then 1 else 0). split; [right; eauto|]. split; [destruct b; lia|reflexivity].
    - destruct ((0 <=? z) && (z <? 2 ^ 256)) eqn:E; [|discriminate]. injection Ea as <-.
      exists z. split; [left; reflexivity|]. split; [lia|reflexivity]. }
  destruct A as (z & Az & Rz & ->). clear Ea.
  unfold subtask_id_bytes. destruct (py_uuid (n_subtask n)) as [i|e] eqn:Ei; cbn [bind]; [|discriminate].
  set (body := skipn 2 cs ++ skipn 2 fs ++ skipn 2 ts ++ hexlify (be_enc 32 z) ++ hexlify (uuid_to_bytes32 i)).
  assert (Lb : Nat.odd (List.length (u "0x" ++ body)) = false).
  { unfold body. rewrite !app_length, !skipn_length, !hexlify_length, Lc, Lf, Lt.
    cbn [u List.length]. rewrite <- Nat.negb_even.
    replace (2 + (42 - 2 + (42 - 2 + (42 - 2 + (2 * List.length (be_enc 32 z) + 2 * List.length (uuid_to_bytes32 i))))))%nat
      with (2 * (61 + List.length (be_enc 32 z) + List.length (uuid_to_bytes32 i)))%nat by lia.
    rewrite Nat.even_mul. reflexivity. }
  assert (Hx : unhex body = Some (cb ++ fb ++ tb ++ be_enc 32 z ++ uuid_to_bytes32 i)).
  { unfold body. repeat (apply unhex_app_ok; [first [assumption|apply unhex_hexlify]|]). apply unhex_hexlify. }
  unfold hexstr_to_bytes. fold body. rewrite Lb. change (remove_0x (u "0x" ++ body)) with body.
  unfold decode_hex. destruct (is_ascii body); [|discriminate]. rewrite Hx. cbn [bind]. intros H. apply Ok_inj in H.
  exists z, i. auto.
Qed.

Lemma address_len v b : is_address v b -> List.length b = 20%nat.
Proof.
  intros (s & _ & L & H). apply unhex_length in H. rewrite skipn_length in H. lia.
Qed.

Lemma py_uuid_range v i : py_uuid v = Ok i -> 0 <= i < 2 ^ 128.
Proof.
  unfold py_uuid. intros H.
  repeat match type of H with context [match ?x with _ => _ end] => destruct x eqn:?; try discriminate end;
  injection H as <-; unfold uuid_parse in *;
  repeat match goal with E : context [match ?x with _ => _ end] |- _ => destruct x eqn:?; try discriminate end;
  repeat match goal with E : Some _ = Some _ |- _ => injection E as <- end; try lia.
Qed.

Lemma eth_wrap_inj a b : List.length a = List.length b -> eth_wrap a = eth_wrap b -> a = b.
Proof.
  intros L H. unfold eth_wrap in H. apply app_inv_head in H.
  assert (E : blen a = blen b) by (unfold blen; lia). rewrite E in H. apply app_inv_head in H. exact H.
Qed.

Lemma note_binds n1 n2 c1 f1 t1 c2 f2 t2 b :
  is_address (n_contract n1) c1 -> is_address (n_from n1) f1 -> is_address (n_to n1) t1 ->
  is_address (n_contract n2) c2 -> is_address (n_from n2) f2 -> is_address (n_to n2) t2 ->
  signed_bytes n1 = Ok b -> signed_bytes n2 = Ok b ->
  c1 = c2 /\ f1 = f2 /\ t1 = t2 /\
  (exists z, amount_of (n_amount n1) z /\ amount_of (n_amount n2) z) /\
  (exists i, py_uuid (n_subtask n1) = Ok i /\ py_uuid (n_subtask n2) = Ok i).
Proof.
  intros A1 A2 A3 B1 B2 B3 S1 S2.
  destruct (signed_bytes_form _ _ _ _ _ A1 A2 A3 S1) as (z1 & i1 & M1 & R1 & I1 & E1).
  destruct (signed_bytes_form _ _ _ _ _ B1 B2 B3 S2) as (z2 & i2 & M2 & R2 & I2 & E2).
  apply address_len in A1, A2, A3, B1, B2, B3.
  rewrite E1 in E2.
  apply eth_wrap_inj in E2.
  2:{ unfold uuid_to_bytes32, uuid_bytes. rewrite !app_length, !be_enc_length. lia. }
  apply app_inj_len in E2; [|lia]. destruct E2 as [-> E2].
  apply app_inj_len in E2; [|lia]. destruct E2 as [-> E2].
  apply app_inj_len in E2; [|lia]. destruct E2 as [-> E2].
  apply app_inj_len in E2; [|rewrite !be_enc_length; lia]. destruct E2 as [Ez E2].
  unfold uuid_to_bytes32 in E2. apply app_inj_len in E2; [|unfold uuid_bytes; rewrite !be_enc_length; lia].
  destruct E2 as [Ei _].
  assert (z1 = z2).
  { rewrite <- (be_dec_enc_small 32 z1), <- (be_dec_enc_small 32 z2), Ez; [reflexivity| |];
      change (256 ^ Z.of_nat 32) with (2 ^ 256); assumption. }
  assert (i1 = i2).
  { pose proof (py_uuid_range _ _ I1). pose proof (py_uuid_range _ _ I2). unfold uuid_bytes in Ei.
    rewrite <- (be_dec_enc_small 16 i1), <- (be_dec_enc_small 16 i2), Ei; [reflexivity| |];
      change (256 ^ Z.of_nat 16) with (2 ^ 128); assumption. }
  subst. eauto 10.
Qed.

Lemma hexval_ascii c d : hexval c = Some d -> 0 <= c < 128.
Proof.
  unfold hexval. repeat match goal with |- context [if ?b then _ else _] => destruct b eqn:? end; try discriminate; lia.
Qed.
Lemma unhex_ascii s : forall x, unhex s = Some x -> is_ascii s = true.
Proof.
  assert (G : forall n s, (List.length s <= n)%nat -> forall x, unhex s = Some x -> is_ascii s = true).
  { induction n as [|n IH]; intros s0 L x H.
    - destruct s0; [reflexivity|cbn in L; lia].
    - destruct s0 as [|p [|q s0]]; [reflexivity|discriminate|].
      cbn [unhex] in H. destruct (hexval p) eqn:Ep; [|discriminate]. destruct (hexval q) eqn:Eq; [|discriminate].
      destruct (unhex s0) as [t|] eqn:E'; [|discriminate].
      apply hexval_ascii in Ep, Eq. unfold is_ascii in *. cbn [forallb].
      rewrite (IH s0 ltac:(cbn in L; lia) _ E'). lia. }
  apply (G (List.length s)). auto.
Qed.

(** a note over three addresses with an amount in range and a UUID has its bytes *)
Lemma signed_bytes_total n cb fb tb z i :
  is_address (n_contract n) cb -> is_address (n_from n) fb -> is_address (n_to n) tb ->
  amount_of (n_amount n) z -> 0 <= z < 2 ^ 256 -> py_uuid (n_subtask n) = Ok i ->
  signed_bytes n = Ok (eth_wrap (cb ++ fb ++ tb ++ be_enc 32 z ++ uuid_to_bytes32 i)).
Proof.
  intros A1 A2 A3 Az R I.
  destruct (signed_bytes n) as [sb|e] eqn:E.
  - destruct (signed_bytes_form n sb cb fb tb A1 A2 A3 E) as (z' & i' & Az' & R' & I' & ->).
    assert (z' = z).
    { destruct Az as [Ea|(b & Ea & ->)], Az' as [Ez|(b' & Eb & ->)]; rewrite ?Ea in *; try congruence. injection Eb as ->. reflexivity. }
    congruence.
  - exfalso. destruct A1 as (cs & Ec & Lc & Hc), A2 as (fs & Ef & Lf & Hf), A3 as (ts & Et & Lt & Ht).
    revert E. unfold signed_bytes, hexmsg, strip2, subtask_id_bytes. rewrite Ec, Ef, Et, I. cbn [str_of bind].
    assert (T : to_bytes32 (n_amount n) = Ok (be_enc 32 z)).
    { destruct Az as [Ea|(b & Ea & ->)]; rewrite Ea; [apply to_bytes32_int; exact R|]. unfold to_bytes32. destruct b; reflexivity. }
    rewrite T. cbn [bind].
    set (body := skipn 2 cs ++ skipn 2 fs ++ skipn 2 ts ++ hexlify (be_enc 32 z) ++ hexlify (uuid_to_bytes32 i)).
    assert (Hx : unhex body = Some (cb ++ fb ++ tb ++ be_enc 32 z ++ uuid_to_bytes32 i)).
    { unfold body. repeat (apply unhex_app_ok; [first [assumption|apply unhex_hexlify]|]). apply unhex_hexlify. }
    pose proof (unhex_ascii _ _ Hx) as Ha. pose proof (unhex_length _ _ Hx) as Hl.
    assert (Hodd : Nat.odd (List.length (u "0x" ++ body)) = false).
    { rewrite app_length, Hl. change (List.length (u "0x")) with 2%nat.
      rewrite <- Nat.negb_even, Nat.even_add, Nat.even_mul. reflexivity. }
    unfold hexstr_to_bytes. rewrite Hodd.
    change (remove_0x (u "0x" ++ body)) with body. unfold decode_hex. rewrite Ha, Hx. discriminate.
Qed.
Lemma py_eq_vstr v a : py_eq v (VStr a) = true <-> str_of v = Some a.
Proof.
  destruct v; cbn [py_eq num_of str_of]; try (split; discriminate).
  - rewrite ustr_eqb_eq. split; [intros ->; reflexivity|congruence].
  - destruct (is_string_enum e); [|split; discriminate]. rewrite ustr_eqb_eq. split; [intros ->; reflexivity|congruence].
Qed.
Lemma sign_verify_iff C (HC : crypto_ok C) n k a h :
  eth_address C k = Some a -> note_hash C n = Ok h ->
  exists v r s, note_sign C n k = Ok (VTuple [VInt v; VBytes r; VBytes s]) /\
    forall sig, sig = VTuple [VInt v; VBytes r; VBytes s] \/ sig = VList [VInt v; VBytes r; VBytes s] ->
      (str_of (n_from n) = Some a -> sig_valid C n sig = Ok true) /\
      (str_of (n_from n) <> Some a -> sig_valid C n sig = Ok false).
Proof.
  intros Ha Hh. destruct (sign_verify C HC n k a h Ha Hh) as (v & r & s & E & H).
  exists v, r, s. split; [exact E|]. intros sig Hs.
  rewrite (H sig n); [|destruct Hs as [->| ->]; reflexivity|exact Hh].
  rewrite <- py_eq_vstr. destruct (py_eq (n_from n) (VStr a)); split; congruence.
Qed.
(** the signed bytes written out: the addresses, the amount and the id, after the
    prefix eth_account puts before 124 bytes *)
Lemma signed_bytes_literal n cb fb tb z i :
  is_address (n_contract n) cb -> is_address (n_from n) fb -> is_address (n_to n) tb ->
  amount_of (n_amount n) z -> 0 <= z < 2 ^ 256 -> py_uuid (n_subtask n) = Ok i ->
  signed_bytes n = Ok ((x19 :: map z2b (u "Ethereum Signed Message:") ++ x0a :: map z2b (u "124")) ++
    cb ++ fb ++ tb ++ be_enc 32 z ++ be_enc 16 i ++ repeat x00 16).
Proof.
  intros A1 A2 A3 Az R I. rewrite (signed_bytes_total n cb fb tb z i A1 A2 A3 Az R I). f_equal. unfold eth_wrap.
  apply address_len in A1, A2, A3. unfold uuid_to_bytes32, uuid_bytes.
  replace (blen _) with 124; [|unfold blen, zeros; rewrite !app_length, !be_enc_length, repeat_length; lia].
  reflexivity.
Qed.
