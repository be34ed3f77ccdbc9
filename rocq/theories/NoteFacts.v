(** * Promissory notes of TaskToCompute and SubtaskResultsVerify (C58) *)
From Verif Require Export ValidFacts.

(** ** Addresses *)
Lemma unhex_checksum hs : forall ds, forallb is_lhex ds = true -> (List.length ds <= List.length hs)%nat -> unhex (checksum_digits ds hs) = unhex ds.
Proof.
  assert (D : forall d h, is_lhex d = true -> hexval (checksum_digit d h) = hexval d).
  { intros d h H. unfold is_lhex in H. unfold checksum_digit, hexval.
    destruct ((97 <=? d) && negb ((48 <=? h) && (h <=? 55))) eqn:Q; [|reflexivity].
    repeat match goal with |- context [if ?b then _ else _] => destruct b eqn:? end; try lia; f_equal; lia. }
  assert (G : forall n ds hs, (List.length ds <= n)%nat -> forallb is_lhex ds = true -> (List.length ds <= List.length hs)%nat ->
     unhex (checksum_digits ds hs) = unhex ds /\ List.length (checksum_digits ds hs) = List.length ds).
  { induction n as [|n IH]; intros ds hs' L F LL.
    - destruct ds; [|cbn in L; lia]. destruct hs'; split; reflexivity.
    - destruct ds as [|d ds]; [destruct hs'; split; reflexivity|]. destruct hs' as [|h hs']; [cbn in LL; lia|].
      cbn [forallb] in F. apply andb_true_iff in F as [F1 F]. cbn [checksum_digits].
      destruct ds as [|d2 ds]; [destruct hs'; split; reflexivity|]. destruct hs' as [|h2 hs']; [cbn in LL; lia|].
      cbn [forallb] in F. apply andb_true_iff in F as [F2 F]. cbn [checksum_digits unhex List.length].
      destruct (IH ds hs') as [E1 E2]; [cbn in L; lia|exact F|cbn in LL; lia|]. rewrite !D, E1, E2 by assumption. auto. }
  intros ds F L. apply (G (List.length ds)); auto.
Qed.
Lemma checksum_length ds : forall hs, (List.length ds <= List.length hs)%nat -> List.length (checksum_digits ds hs) = List.length ds.
Proof.
  induction ds as [|d ds IH]; intros [|h hs] L; cbn [List.length checksum_digits] in *; try lia. rewrite IH; lia.
Qed.
(** the address of a key is an address of 20 bytes *)
Lemma address_ok C p : crypto_ok C -> is_address (VStr (address_of (keccak C) p)) (skipn 12 (keccak C p)).
Proof.
  intros HC. unfold address_of, checksum_address. cbv zeta. set (b := skipn 12 (keccak C p)).
  assert (Lb : List.length b = 20%nat) by (unfold b; rewrite skipn_length, (keccak_len _ HC); reflexivity).
  assert (LL : (List.length (hexlify b) <= List.length (hexlify (keccak C (map z2b (hexlify b)))))%nat).
  { rewrite !hexlify_length, Lb, (keccak_len _ HC). lia. }
  eexists. split; [reflexivity|]. split.
  - rewrite app_length, checksum_length, hexlify_length, Lb by exact LL. reflexivity.
  - change (skipn 2 (u "0x" ++ checksum_digits (hexlify b) (hexlify (keccak C (map z2b (hexlify b)))))) with
      (checksum_digits (hexlify b) (hexlify (keccak C (map z2b (hexlify b))))).
    rewrite unhex_checksum; [apply unhex_hexlify|apply hexlify_lhex|exact LL].
Qed.
Lemma hexstr_hexlify p : hexstr_to_bytes (hexlify p) = Ok p.
Proof.
  assert (R : remove_0x (hexlify p) = hexlify p).
  { destruct p as [|x p]; [reflexivity|]. pose proof (hexlify_lhex (x :: p)) as H. unfold hexlify in *. cbn [flat_map app] in *.
    match goal with |- remove_0x (?a :: ?b :: ?r) = _ => set (a0 := a) in *; set (b0 := b) in *; set (r0 := r) in * end.
    cbn [forallb] in H. apply andb_true_iff in H as [_ H]. apply andb_true_iff in H as [H _]. unfold is_lhex in H. unfold remove_0x.
    replace ((b0 =? 120) || (b0 =? 88)) with false by lia. rewrite andb_false_r. reflexivity. }
  unfold hexstr_to_bytes. cbv zeta. assert (O : Nat.odd (List.length (hexlify p)) = false).
  { rewrite hexlify_length, <- Nat.negb_even, Nat.even_mul. reflexivity. }
  rewrite O, R. apply decode_hexlify.
Qed.

(** ** The notes of a TaskToCompute *)
(** the values the notes are made of: the requestor's key [p], the bytes of the
    provider's and the contract's addresses, the price and the subtask's number *)
Record payable (m contract : pyval) (p tb cb : bytes) (z i : Z) : Prop := {
  pay_key : getattr "requestor_ethereum_public_key" m = Ok (VStr (hexlify p));
  pay_to : exists t, getattr "provider_ethereum_address" m = Ok t /\ is_address t tb;
  pay_price : getattr "price" m = Ok (VInt z) /\ 0 <= z < 2 ^ 256;
  pay_subtask : exists s, getattr "subtask_id" m = Ok s /\ py_uuid s = Ok i;
  pay_contract : is_address contract cb;
}.
Definition note_text (fb tb cb : bytes) (z i : Z) : bytes := eth_wrap (cb ++ fb ++ tb ++ be_enc 32 z ++ uuid_to_bytes32 i).
Lemma payable_notes C m contract p tb cb z i : crypto_ok C -> payable m contract p tb cb z i -> is_ttc m ->
  exists n1 n2, ttc_note C m contract = Ok n1 /\ concent_note C m contract = Ok n2 /\
    note_hash C n1 = Ok (keccak C (note_text (skipn 12 (keccak C p)) tb cb z i)) /\
    note_hash C n2 = Ok (keccak C (note_text (skipn 12 (keccak C p)) cb cb z i)) /\
    n_from n1 = VStr (address_of (keccak C) p) /\ n_from n2 = VStr (address_of (keccak C) p).
Proof.
  intros HC [K (t & T & Ta) (Z & Zr) (s & S & Si) Ca] (ty & ts & enc & sig & a & ->).
  set (m := VMsg MTaskToCompute ty ts enc sig a) in *.
  assert (R : requestor_address C m = Ok (VStr (address_of (keccak C) p))).
  { unfold requestor_address. rewrite K. cbn [bind]. unfold pubkey_to_address. cbn [str_of]. rewrite hexstr_hexlify. reflexivity. }
  pose proof (address_ok C p HC) as Fa.
  unfold ttc_note. change (concent_note C m contract) with (do f <- requestor_address C m; do p <- getattr "price" m; do s <- getattr "subtask_id" m;
      Ok {| n_from := f; n_to := contract; n_amount := p; n_subtask := s; n_contract := contract |}).
  rewrite R. cbn [bind]. rewrite T. cbn [bind]. rewrite Z. cbn [bind]. rewrite S. cbn [bind].
  eexists _, _. split; [reflexivity|]. split; [reflexivity|]. unfold note_hash.
  rewrite (signed_bytes_total _ cb (skipn 12 (keccak C p)) tb z i); cbn [n_from n_to n_amount n_subtask n_contract]; try eassumption; [|left; reflexivity].
  rewrite (signed_bytes_total _ cb (skipn 12 (keccak C p)) cb z i); cbn [n_from n_to n_amount n_subtask n_contract]; try eassumption; [|left; reflexivity].
  cbn [bind]. auto.
Qed.

Definition note_slot (k : string) : Prop := k = "promissory_note_sig"%string \/ k = "concent_promissory_note_sig"%string.
(** storing a signature changes no other attribute *)
Lemma acc_set_note k v name ty ts enc sig a : note_slot k -> name <> k -> name <> "task_to_compute"%string ->
  acc name (VMsg MTaskToCompute ty ts enc sig (attr_set k v a)) = acc name (VMsg MTaskToCompute ty ts enc sig a).
Proof.
  intros Hk N N'. cbn [acc]. cbv zeta.
  assert (O : forall j, j <> k -> attr_get_or_none j (attr_set k v a) = attr_get_or_none j a) by (intros j Hj; unfold attr_get_or_none; rewrite Py.attr_get_set_other by exact Hj; reflexivity).
  rewrite (O name N), !assoc_acc. rewrite (O "compute_task_def"%string) by (destruct Hk as [->| ->]; discriminate).
  rewrite (Py.attr_get_set_other "want_to_compute_task" k) by (destruct Hk as [->| ->]; discriminate).
  destruct (String.eqb_spec name "task_to_compute"); [contradiction|]. reflexivity.
Qed.
Lemma note_set k v C ty ts enc sig a contract : note_slot k ->
  ttc_note C (VMsg MTaskToCompute ty ts enc sig (attr_set k v a)) contract = ttc_note C (VMsg MTaskToCompute ty ts enc sig a) contract /\
  concent_note C (VMsg MTaskToCompute ty ts enc sig (attr_set k v a)) contract = concent_note C (VMsg MTaskToCompute ty ts enc sig a) contract.
Proof.
  intros Hk. assert (G : forall name, name <> k -> name <> "task_to_compute"%string ->
      getattr name (VMsg MTaskToCompute ty ts enc sig (attr_set k v a)) = getattr name (VMsg MTaskToCompute ty ts enc sig a)).
  { intros name N N'. unfold getattr. rewrite acc_set_note by assumption. reflexivity. }
  assert (R : requestor_address C (VMsg MTaskToCompute ty ts enc sig (attr_set k v a)) = requestor_address C (VMsg MTaskToCompute ty ts enc sig a)).
  { unfold requestor_address. rewrite G; [reflexivity| |discriminate]. destruct Hk as [->| ->]; discriminate. }
  assert (forall name, In name ["provider_ethereum_address"; "price"; "subtask_id"]%string -> name <> k /\ name <> "task_to_compute"%string).
  { intros name Hn. cbn [In] in Hn. destruct Hn as [<-|[<-|[<-|[]]]]; (split; [destruct Hk as [->| ->]; discriminate|discriminate]). }
  unfold ttc_note, concent_note. rewrite R. rewrite !G by (apply H; cbn; tauto). auto.
Qed.
Lemma get_set_note k v ty ts enc sig a : note_slot k -> getattr k (VMsg MTaskToCompute ty ts enc sig (attr_set k v a)) = Ok v.
Proof.
  intros Hk. rewrite getattr_slot by (destruct Hk as [->| ->]; slots_in). unfold attr_get_or_none. rewrite Py.attr_get_set_same. reflexivity.
Qed.
Lemma get_set_note' k k' v ty ts enc sig a : note_slot k -> note_slot k' -> k <> k' ->
  getattr k (VMsg MTaskToCompute ty ts enc sig (attr_set k' v a)) = getattr k (VMsg MTaskToCompute ty ts enc sig a).
Proof.
  intros Hk Hk' N. rewrite !getattr_slot by (destruct Hk as [->| ->]; slots_in). unfold attr_get_or_none. rewrite Py.attr_get_set_other by exact N. reflexivity.
Qed.

(** a message whose notes are those terms, holding these signatures in either form *)
Lemma verify_all C m contract p tb cb z i priv adr : crypto_ok C -> eth_address C priv = Some adr ->
  payable m contract p tb cb z i -> is_ttc m ->
  exists v1 r1 q1 v2 r2 q2,
    (exists n1 n2, ttc_note C m contract = Ok n1 /\ concent_note C m contract = Ok n2 /\
      note_sign C n1 priv = Ok (VTuple [VInt v1; VBytes r1; VBytes q1]) /\ note_sign C n2 priv = Ok (VTuple [VInt v2; VBytes r2; VBytes q2])) /\
    forall m' s1 s2, is_ttc m' -> payable m' contract p tb cb z i ->
      getattr "promissory_note_sig" m' = Ok s1 -> getattr "concent_promissory_note_sig" m' = Ok s2 ->
      py_iter s1 = Some [VInt v1; VBytes r1; VBytes q1] -> py_iter s2 = Some [VInt v2; VBytes r2; VBytes q2] ->
      verify_all_notes C m' contract = Ok (ustr_eqb (address_of (keccak C) p) adr).
Proof.
  intros HC A P I. destruct (payable_notes C m contract p tb cb z i HC P I) as (n1 & n2 & N1 & N2 & H1 & H2 & F1 & F2).
  destruct (sign_verify C HC n1 priv adr _ A H1) as (v1 & r1 & q1 & S1 & V1).
  destruct (sign_verify C HC n2 priv adr _ A H2) as (v2 & r2 & q2 & S2 & V2).
  exists v1, r1, q1, v2, r2, q2. split; [eauto 8|]. intros m' s1 s2 I' P' G1 G2 Q1 Q2.
  destruct (payable_notes C m' contract p tb cb z i HC P' I') as (n1' & n2' & N1' & N2' & H1' & H2' & F1' & F2').
  unfold verify_all_notes, verify_concent_note, verify_note. rewrite N1', N2', G1, G2. cbn [bind].
  rewrite (V2 s2 n2' Q2 H2'), (V1 s1 n1' Q1 H1'). cbn [bind]. rewrite F1', F2', py_eq_str.
  destruct (ustr_eqb (address_of (keccak C) p) adr); reflexivity.
Qed.
Lemma payable_set k v ty ts enc sig a contract p tb cb z i : note_slot k ->
  payable (VMsg MTaskToCompute ty ts enc sig a) contract p tb cb z i ->
  payable (VMsg MTaskToCompute ty ts enc sig (attr_set k v a)) contract p tb cb z i.
Proof.
  intros Hk [K T Z S Ca]. assert (G : forall name, In name ["requestor_ethereum_public_key"; "provider_ethereum_address"; "price"; "subtask_id"]%string ->
      getattr name (VMsg MTaskToCompute ty ts enc sig (attr_set k v a)) = getattr name (VMsg MTaskToCompute ty ts enc sig a)).
  { intros name Hn. unfold getattr. rewrite acc_set_note; [reflexivity|exact Hk| |]; cbn [In] in Hn; destruct Hn as [<-|[<-|[<-|[<-|[]]]]]; try discriminate;
      destruct Hk as [->| ->]; discriminate. }
  constructor; rewrite ?G by (cbn; tauto); assumption.
Qed.
Lemma sign_all_verify C ty ts enc sig a contract p tb cb z i priv adr : crypto_ok C ->
  let m := VMsg MTaskToCompute ty ts enc sig a in
  payable m contract p tb cb z i -> eth_address C priv = Some adr ->
  exists b, sign_all_notes C m contract priv = Ok (VMsg MTaskToCompute ty ts enc sig b) /\
    verify_all_notes C (VMsg MTaskToCompute ty ts enc sig b) contract = Ok (ustr_eqb (address_of (keccak C) p) adr) /\
    (forall b' ty' ts' enc' sig', mok MTaskToCompute b -> arrives MTaskToCompute b b' ->
       verify_all_notes C (VMsg MTaskToCompute ty' ts' enc' sig' b') contract = Ok (ustr_eqb (address_of (keccak C) p) adr)).
Proof.
  intros HC m P A. assert (I : is_ttc m) by (unfold m; repeat eexists).
  destruct (verify_all C m contract p tb cb z i priv adr HC A P I) as (v1 & r1 & q1 & v2 & r2 & q2 & (n1 & n2 & N1 & N2 & S1 & S2) & V).
  set (s1 := VTuple [VInt v1; VBytes r1; VBytes q1]) in *. set (s2 := VTuple [VInt v2; VBytes r2; VBytes q2]) in *.
  assert (K1 : note_slot "promissory_note_sig") by (left; reflexivity). assert (K2 : note_slot "concent_promissory_note_sig") by (right; reflexivity).
  set (a1 := attr_set "concent_promissory_note_sig" s2 a). set (b := attr_set "promissory_note_sig" s1 a1). exists b.
  assert (M1 : ttc_note C (VMsg MTaskToCompute ty ts enc sig a1) contract = Ok n1) by (unfold a1; rewrite (proj1 (note_set _ s2 C ty ts enc sig a contract K2)); exact N1).
  assert (Pb : forall ty ts enc sig, payable (VMsg MTaskToCompute ty ts enc sig b) contract p tb cb z i).
  { intros. unfold b. apply payable_set; [exact K1|]. unfold a1. apply payable_set; [exact K2|]. destruct P as [X1 X2 X3 X4 X5]. constructor; assumption. }
  assert (G1 : forall ty ts enc sig, getattr "promissory_note_sig" (VMsg MTaskToCompute ty ts enc sig b) = Ok s1) by (intros; apply get_set_note; exact K1).
  assert (G2 : forall ty ts enc sig, getattr "concent_promissory_note_sig" (VMsg MTaskToCompute ty ts enc sig b) = Ok s2).
  { intros. unfold b. rewrite get_set_note' by (assumption || discriminate). apply get_set_note. exact K2. }
  split; [|split].
  - unfold sign_all_notes, sign_concent_note. rewrite N2. cbn [bind]. rewrite S2. cbn [bind set_attr m]. fold a1. unfold sign_note. rewrite M1. cbn [bind]. rewrite S1. reflexivity.
  - apply (V _ s1 s2); [repeat eexists|apply Pb|apply G1|apply G2|reflexivity|reflexivity].
  - intros b' ty' ts' enc' sig' M AR.
    assert (W : forall k w, In k (slot_names MTaskToCompute) -> slot_kind MTaskToCompute k = KPlain -> getattr k (VMsg MTaskToCompute ty ts enc sig b) = Ok w ->
        getattr k (VMsg MTaskToCompute ty' ts' enc' sig' b') = Ok (norm (deenum w))).
    { intros k w Hk Kk Gw. rewrite getattr_slot in Gw |- * by exact Hk. apply Ok_inj in Gw. destruct (arr_slot _ _ _ k M AR Hk) as (_ & X & _).
      rewrite Kk in X. cbn [same_or_wire] in X. rewrite X, Gw. reflexivity. }
    apply (V _ (norm (deenum s1)) (norm (deenum s2))); [repeat eexists| | | |reflexivity|reflexivity].
    2: apply W; [slots_in|reflexivity|apply G1]. 2: apply W; [slots_in|reflexivity|apply G2].
    destruct (Pb ty ts enc sig) as [X1 X2 [X3 X3'] X4 X5]. constructor; [| | | |exact X5].
    + exact (W "requestor_ethereum_public_key"%string _ ltac:(slots_in) eq_refl X1).
    + destruct X2 as (t & X2 & Ta). destruct (arr_nested _ _ _ "want_to_compute_task"%string MWantToComputeTask M AR eq_refl) as (ty0 & ts0 & e0 & g0 & w & w' & E1 & E2 & Mw & Aw).
      assert (Q : forall ty ts enc sig x ty0 ts0 e0 g0 y, attr_get_or_none "want_to_compute_task" x = VMsg MWantToComputeTask ty0 ts0 e0 g0 y ->
          getattr "provider_ethereum_address" (VMsg MTaskToCompute ty ts enc sig x) = Ok (attr_get_or_none "provider_ethereum_address" y)).
      { intros ? ? ? ? x ? ? ? ? y Hx. unfold attr_get_or_none in Hx. destruct (attr_get "want_to_compute_task" x) as [o|] eqn:Ho; [|discriminate Hx]. subst o.
        apply getattr_acc. cbn [acc]. cbv zeta. rewrite assoc_acc, Ho. reflexivity. }
      rewrite (Q _ _ _ _ _ _ _ _ _ _ E1) in X2. apply Ok_inj in X2. exists t. split; [|exact Ta]. rewrite (Q _ _ _ _ _ _ _ _ _ _ E2). f_equal.
      destruct (arr_slot _ _ _ "provider_ethereum_address"%string Mw Aw ltac:(slots_in)) as (_ & X & _). cbn [same_or_wire] in X.
      change (slot_kind MWantToComputeTask "provider_ethereum_address") with KPlain in X. cbn [same_or_wire] in X. rewrite X, X2. destruct Ta as (st & -> & _). reflexivity.
    + split; [|exact X3']. rewrite getattr_slot in X3 |- * by slots_in. destruct (arr_slot _ _ _ "price"%string M AR ltac:(slots_in)) as (_ & X & _).
      change (slot_kind MTaskToCompute "price") with KInt in X. cbn [same_or_wire] in X. rewrite X. exact X3.
    + destruct X4 as (s & X4 & Ui). destruct (ttc_ids "subtask_id" _ _ M AR ltac:(right; reflexivity)) as (x & t & Hx & H). exists (VStr t).
      destruct (H ty ts enc sig ty' ts' enc' sig') as [H1 H2]. split; [apply getattr_acc; exact H2|]. apply getattr_acc in X4. assert (s = x) by congruence. subst s.
      destruct x; try discriminate Hx; cbn in Hx |- *; [apply Some_inj in Hx; subst; exact Ui|]. cbn in Ui. destruct (is_string_enum e); [|discriminate Hx]. apply Some_inj in Hx. subst. exact Ui.
Qed.

(** the requestor's own key *)
Lemma sign_all_own C ty ts enc sig a contract p tb cb z i priv adr sec : crypto_ok C ->
  payable (VMsg MTaskToCompute ty ts enc sig a) contract p tb cb z i -> eth_address C priv = Some adr ->
  secret_of C priv = Some sec -> pub_of C sec = Some p ->
  exists m', sign_all_notes C (VMsg MTaskToCompute ty ts enc sig a) contract priv = Ok m' /\ verify_all_notes C m' contract = Ok true.
Proof.
  intros HC P A S Q. destruct (sign_all_verify C ty ts enc sig a contract p tb cb z i priv adr HC P A) as (b & B & V & _).
  eexists. split; [exact B|]. rewrite V. f_equal. destruct (eth_account _ HC _ _ A) as (s' & p' & S' & Q' & ->).
  assert (s' = sec) by congruence. subst s'. assert (p' = p) by congruence. subst p'. apply ustr_eqb_refl.
Qed.
Lemma sign_all_other C ty ts enc sig a contract p tb cb z i priv adr : crypto_ok C ->
  payable (VMsg MTaskToCompute ty ts enc sig a) contract p tb cb z i -> eth_address C priv = Some adr -> adr <> address_of (keccak C) p ->
  exists m', sign_all_notes C (VMsg MTaskToCompute ty ts enc sig a) contract priv = Ok m' /\ verify_all_notes C m' contract = Ok false.
Proof.
  intros HC P A N. destruct (sign_all_verify C ty ts enc sig a contract p tb cb z i priv adr HC P A) as (b & B & V & _).
  eexists. split; [exact B|]. rewrite V. f_equal. destruct (ustr_eqb _ _) eqn:Q; [|reflexivity]. apply ustr_eqb_eq in Q. congruence.
Qed.

(** what the answer says about the two signatures in the message: both notes
    are signed by the account of the requestor's key *)
Definition pays (C : crypto) (m : pyval) (k : string) (p tb cb : bytes) (z i : Z) : Prop :=
  exists s v r q, getattr k m = Ok s /\ py_iter s = Some [VInt v; VBytes r; VBytes q] /\
    eth_recover C (keccak C (note_text (skipn 12 (keccak C p)) tb cb z i)) (v, r, q) = Some (address_of (keccak C) p).
Lemma iter3_truthy s a b c : py_iter s = Some [a; b; c] -> truthy s = true.
Proof.
  destruct s as [| | | |l|l|l|l|dd l| | | | |]; try discriminate; try reflexivity; cbn [py_iter truthy]; intros H; apply Some_inj in H.
  all: destruct l; [discriminate|reflexivity].
Qed.
Lemma sig_valid_true C n s h adr : note_hash C n = Ok h -> n_from n = VStr adr ->
  (sig_valid C n s = Ok true <-> exists v r q, py_iter s = Some [VInt v; VBytes r; VBytes q] /\ eth_recover C h (v, r, q) = Some adr).
Proof.
  intros H F. unfold sig_valid. split.
  - destruct (truthy s) eqn:T; [|discriminate]. cbn [negb]. destruct (py_iter s) as [[|x [|y [|w [|? ?]]]]|]; try discriminate.
    rewrite H. cbn [bind]. destruct x, y, w; try discriminate. destruct (eth_recover _ _ _) as [a|] eqn:E; [|discriminate].
    rewrite F, py_eq_str. intros Q. assert (Q' : ustr_eqb adr a = true) by congruence. apply ustr_eqb_eq in Q'. subst a. eauto 8.
  - intros (v & r & q & I & E). rewrite (iter3_truthy _ _ _ _ I), I, H. cbn [negb bind]. rewrite E, F, py_eq_str, ustr_eqb_refl. reflexivity.
Qed.
Lemma verify_all_exact C m contract p tb cb z i : crypto_ok C -> payable m contract p tb cb z i -> is_ttc m ->
  (verify_all_notes C m contract = Ok true <->
   pays C m "concent_promissory_note_sig" p cb cb z i /\ pays C m "promissory_note_sig" p tb cb z i).
Proof.
  intros HC P I. destruct (payable_notes C m contract p tb cb z i HC P I) as (n1 & n2 & N1 & N2 & H1 & H2 & F1 & F2).
  unfold verify_all_notes, verify_concent_note, verify_note, pays. rewrite N1, N2. cbn [bind]. split.
  - destruct (getattr "concent_promissory_note_sig" m) as [s2|] eqn:G2; [|discriminate]. cbn [bind].
    destruct (sig_valid C n2 s2) as [[]|] eqn:V2; try discriminate. cbn [bind].
    destruct (getattr "promissory_note_sig" m) as [s1|] eqn:G1; [|discriminate]. cbn [bind]. intros V1.
    apply (sig_valid_true C _ _ _ _ H2 F2) in V2. apply (sig_valid_true C _ _ _ _ H1 F1) in V1.
    destruct V2 as (v & r & q & ? & ?), V1 as (v' & r' & q' & ? & ?). split; [exists s2, v, r, q|exists s1, v', r', q']; auto.
  - intros [(s2 & v & r & q & G2 & I2 & E2) (s1 & v' & r' & q' & G1 & I1 & E1)]. rewrite G1, G2. cbn [bind].
    assert (V2 : sig_valid C n2 s2 = Ok true) by (apply (sig_valid_true C _ _ _ _ H2 F2); eauto).
    rewrite V2. cbn [bind]. apply (sig_valid_true C _ _ _ _ H1 F1). eauto.
Qed.

(** ** The provider's note in SubtaskResultsVerify *)
Record owing (m contract : pyval) (f : ustr) (fb cb : bytes) (z i : Z) : Prop := {
  owe_ttc : exists r t, getattr "subtask_results_rejected" m = Ok r /\ getattr "task_to_compute" r = Ok t /\
    getattr "provider_ethereum_address" t = Ok (VStr f) /\ is_address (VStr f) fb /\
    getattr "price" t = Ok (VInt z) /\ 0 <= z < 2 ^ 256 /\ (exists s, getattr "subtask_id" t = Ok s /\ py_uuid s = Ok i);
  owe_contract : is_address contract cb;
}.
Lemma provider_note C ty ts enc sig a contract f fb cb z i priv adr : crypto_ok C ->
  let m := VMsg MSubtaskResultsVerify ty ts enc sig a in
  owing m contract f fb cb z i -> eth_address C priv = Some adr ->
  exists m', sign_concent_note C m contract priv = Ok m' /\ verify_concent_note C m' contract = Ok (ustr_eqb f adr).
Proof.
  intros HC m [(r & t & R & T & F & Fa & Z & Zr & s & S & Si) Ca] A.
  set (n := {| n_from := VStr f; n_to := contract; n_amount := VInt z; n_subtask := s; n_contract := contract |}).
  assert (N : forall m', getattr "subtask_results_rejected" m' = Ok r -> (exists ty ts enc sig a, m' = VMsg MSubtaskResultsVerify ty ts enc sig a) ->
     concent_note C m' contract = Ok n).
  { intros m' R' (ty' & ts' & enc' & sig' & a' & ->). cbn [concent_note]. rewrite R'. cbn [bind]. rewrite T. cbn [bind]. rewrite F. cbn [bind]. rewrite Z. cbn [bind]. rewrite S. reflexivity. }
  assert (H : note_hash C n = Ok (keccak C (note_text fb cb cb z i))).
  { unfold note_hash. rewrite (signed_bytes_total n cb fb cb z i); try assumption; [reflexivity|left; reflexivity]. }
  destruct (sign_verify C HC n priv adr _ A H) as (v & q & q' & Sg & V). 
  set (b := attr_set "concent_promissory_note_sig" (VTuple [VInt v; VBytes q; VBytes q']) a).
  exists (VMsg MSubtaskResultsVerify ty ts enc sig b). split.
  - unfold sign_concent_note. rewrite (N m R) by (unfold m; repeat eexists). cbn [bind]. rewrite Sg. reflexivity.
  - unfold verify_concent_note. rewrite N; [|rewrite <- R; unfold m; rewrite !getattr_slot by slots_in; unfold b, attr_get_or_none; rewrite Py.attr_get_set_other by discriminate; reflexivity|repeat eexists].
    cbn [bind]. rewrite getattr_slot by slots_in. unfold attr_get_or_none, b. rewrite Py.attr_get_set_same. cbn [bind].
    rewrite (V (VTuple [VInt v; VBytes q; VBytes q']) n eq_refl H). cbn [n n_from]. rewrite py_eq_str. reflexivity.
Qed.
