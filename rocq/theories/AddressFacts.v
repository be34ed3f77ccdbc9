(** * Which ethereum address a received TaskToCompute has (C99), and what checking its
    promissory notes raises (C58) *)
From Verif Require Export VerifTime EthsigFacts NoteFacts.

Lemma hexstr_unhex s k : unhex s = Some k -> hexstr_to_bytes s = Ok k.
Proof.
  intros H. assert (R : remove_0x s = s).
  { destruct s as [|x [|y s]]; try reflexivity. cbn [unhex] in H. unfold remove_0x.
    destruct ((y =? 120) || (y =? 88)) eqn:Y; [|rewrite andb_false_r; reflexivity]. exfalso.
    assert (N : hexval y = None) by (apply orb_true_iff in Y as [Y|Y]; apply Z.eqb_eq in Y; subst y; reflexivity).
    rewrite N in H. destruct (hexval x); discriminate H. }
  unfold hexstr_to_bytes. cbv zeta. assert (O : Nat.odd (List.length s) = false).
  { rewrite (unhex_length _ _ H), <- Nat.negb_even, Nat.even_mul. reflexivity. }
  rewrite O, R. cbn [decode_hex]. rewrite (Promissory.unhex_ascii _ _ H), H. reflexivity.
Qed.
Lemma decoded v k : decode_hex v = Ok k ->
  (exists s, str_of v = Some s /\ unhex s = Some k) \/ (exists b, v = VBytes b /\ unhex (map b2z b) = Some k).
Proof.
  destruct v; cbn [decode_hex str_of]; cbv zeta; intros H; try discriminate H.
  - destruct (is_ascii s); [|discriminate H]. destruct (unhex s) as [x|] eqn:U; [|discriminate H]. left. exists s. split; [reflexivity|]. congruence.
  - destruct (unhex (map b2z b)) as [x|] eqn:U; [|discriminate H]. right. exists b. split; [reflexivity|]. congruence.
  - destruct (is_string_enum _); [|discriminate H]. match type of H with context [unhex ?t] => destruct (unhex t) as [x|] eqn:U; [|discriminate H]; left; exists t end.
    split; [reflexivity|]. congruence.
Qed.
Lemma pubkey_text C v s k : str_of v = Some s -> unhex s = Some k -> pubkey_to_address C v = Ok (address_of (keccak C) k).
Proof. intros Es U. apply hexstr_unhex in U. unfold pubkey_to_address. destruct v; try discriminate Es; rewrite Es, U; reflexivity. Qed.
(** the address is that of the key which made [ethsig], if the key is given as text; given
    as bytes, the address is made from the digits themselves *)
Lemma address_of_received E now bs decf ct pub ty ts enc sig a :
  deserialize E now bs decf ct pub = Ok (VMsg MTaskToCompute ty ts enc sig a) ->
  exists k h sg, decode_hex (ethkey_of a) = Ok k /\ List.length k = 64%nat /\ short_hash E (offer_of a) = Ok h /\ ethsig_of a = VBytes sg /\
    recover (cr E) sg (sha3_256 (cr E) h) = Some (x04 :: k) /\
    ((exists s, str_of (ethkey_of a) = Some s /\ requestor_address (cr E) (VMsg MTaskToCompute ty ts enc sig a) = Ok (VStr (address_of (keccak (cr E)) k))) \/
     (exists b, ethkey_of a = VBytes b /\ List.length b = 128%nat /\ requestor_address (cr E) (VMsg MTaskToCompute ty ts enc sig a) = Ok (VStr (address_of (keccak (cr E)) b)))).
Proof.
  intros H. apply loaded_ttc in H as [(k & h & sg & w & W & _ & D & L & S & G & R) _]. exists k, h, sg.
  split; [exact D|]. split; [exact L|]. split; [unfold offer_of; rewrite W; exact S|]. split; [exact G|]. split; [exact R|].
  assert (A : requestor_address (cr E) (VMsg MTaskToCompute ty ts enc sig a) = do x <- pubkey_to_address (cr E) (ethkey_of a); Ok (VStr x)).
  { unfold requestor_address. rewrite getattr_slot by slots_in. reflexivity. }
  fold (ethkey_of a) in D. rewrite A. clear A.
  destruct (decoded _ _ D) as [(s & Es & U)|(b & Eb & U)].
  - left. exists s. split; [exact Es|]. rewrite (pubkey_text _ _ _ _ Es U). reflexivity.
  - right. exists b. split; [exact Eb|]. split; [|rewrite Eb; reflexivity]. apply unhex_length in U. rewrite map_length in U. rewrite U, L. reflexivity.
Qed.

(** ** What checking the notes of a received TaskToCompute raises *)
(** three items as [sign] makes them: an int and two byte strings *)
Definition vrs_shape (s : pyval) : Prop := exists v r q, py_iter s = Some [VInt v; VBytes r; VBytes q].
Lemma hexstr_err s e : hexstr_to_bytes s = Err e -> e = EBinasciiError \/ e = EValueError.
Proof.
  unfold hexstr_to_bytes. cbv zeta. set (t := remove_0x _). clearbody t. cbn [decode_hex]. destruct (is_ascii t); [|right; congruence].
  destruct (unhex t); [discriminate|left; congruence].
Qed.
Lemma sig_valid_raises C n sig e c f i : str_of (n_contract n) = Some c -> str_of (n_from n) = Some f -> py_uuid (n_subtask n) = Ok i ->
  sig_valid C n sig = Err e -> truthy sig = true /\
  ((e = ETypeError /\ (~ vrs_shape sig \/ str_of (n_to n) = None)) \/ to_bytes32 (n_amount n) = Err e \/ e = EBinasciiError \/ e = EValueError).
Proof.
  intros Hc Hf Hi. unfold sig_valid. destruct (truthy sig); [|discriminate]. cbn [negb]. intros H. split; [reflexivity|].
  assert (NS : forall l, py_iter sig = l -> (forall v r q, l <> Some [VInt v; VBytes r; VBytes q]) -> ~ vrs_shape sig).
  { intros l L X (v & r & q & Q). apply (X v r q). congruence. }
  destruct (py_iter sig) as [[|x [|y [|w [|? ?]]]]|] eqn:I;
    try (left; split; [congruence|left; eapply NS; [reflexivity|discriminate]]).
  destruct (note_hash C n) as [h|e'] eqn:N; cbn [bind] in H.
  - destruct x, y, w; try (left; split; [congruence|left; eapply NS; [reflexivity|discriminate]]).
    destruct (eth_recover C h (z, b, b0)); [discriminate H|]. right. right. right. congruence.
  - assert (e' = e) by congruence. subst e'. clear H. unfold note_hash, signed_bytes, hexmsg, strip2, subtask_id_bytes in N. rewrite Hc, Hf, Hi in N. cbn [bind] in N.
    destruct (str_of (n_to n)) as [t|] eqn:T; cbn [bind] in N; [|left; split; [congruence|right; reflexivity]].
    destruct (to_bytes32 (n_amount n)) as [ab|e'] eqn:A; cbn [bind] in N; [|right; left; congruence].
    destruct (hexstr_to_bytes _) as [b|e'] eqn:X in N; cbn [bind] in N; [discriminate N|]. assert (e' = e) by congruence. subst e'.
    right. right. eapply hexstr_err, X.
Qed.
Lemma price_loaded a : loaded MTaskToCompute a -> attr_get_or_none "price" a = VNone \/ exists z, attr_get_or_none "price" a = VInt z.
Proof.
  intros [F V _]. unfold attr_get_or_none. destruct (attr_get "price" a) as [w|] eqn:G; [|left; reflexivity].
  pose proof (proj2 (V _ _ (attr_get_In _ _ _ G))) as [[->|[W|[W _]]] _]; [left; reflexivity|right; exact W|discriminate W].
Qed.
Lemma int_bytes_err z e : to_bytes32 (VInt z) = Err e -> e = EOverflowError /\ ~ 0 <= z < 2 ^ 256.
Proof. unfold to_bytes32. destruct ((0 <=? z) && (z <? 2 ^ 256)) eqn:R; [discriminate|]. intros H. split; [congruence|lia]. Qed.
(** the parts of the two notes *)
Lemma received_notes E now bs decf ct pub ty ts enc sig a contract :
  deserialize E now bs decf ct pub = Ok (VMsg MTaskToCompute ty ts enc sig a) ->
  exists adr pa i s, getattr "provider_ethereum_address" (VMsg MTaskToCompute ty ts enc sig a) = Ok pa /\ py_uuid s = Ok i /\
    (attr_get_or_none "price" a = VNone \/ exists z, attr_get_or_none "price" a = VInt z) /\
    ttc_note (cr E) (VMsg MTaskToCompute ty ts enc sig a) contract =
      Ok {| n_from := VStr adr; n_to := pa; n_amount := attr_get_or_none "price" a; n_subtask := s; n_contract := contract |} /\
    concent_note (cr E) (VMsg MTaskToCompute ty ts enc sig a) contract =
      Ok {| n_from := VStr adr; n_to := contract; n_amount := attr_get_or_none "price" a; n_subtask := s; n_contract := contract |}.
Proof.
  intros H. destruct (address_of_received _ _ _ _ _ _ _ _ _ _ _ H) as (k0 & h0 & sg0 & _ & _ & _ & _ & _ & A).
  assert (R : exists adr, requestor_address (cr E) (VMsg MTaskToCompute ty ts enc sig a) = Ok (VStr adr)) by (destruct A as [(? & _ & A)|(? & _ & _ & A)]; eauto).
  destruct R as [adr R]. clear A. pose proof H as H0. apply deserialize_loaded in H0 as (c & z & en & sg & v & a0 & Q & L & _).
  assert (c = MTaskToCompute) by congruence. subst c. cbn [full] in Q. assert (a0 = a) by congruence. subst a0. clear Q.
  pose proof (price_loaded a L) as PL. apply loaded_ttc in H as [(k & h & s1 & w & W & (wty & wts & wenc & wsig & wa & Ew) & _) (seed & _ & Ids)].
  destruct (Ids "subtask_id"%string ltac:(right; reflexivity)) as (d & kvs & x & t & i & D & X & T & U & _).
  exists adr, (attr_get_or_none "provider_ethereum_address" wa), i, x.
  assert (P : getattr "provider_ethereum_address" (VMsg MTaskToCompute ty ts enc sig a) = Ok (attr_get_or_none "provider_ethereum_address" wa)).
  { unfold getattr. cbn [acc]. cbv zeta. rewrite assoc_acc. unfold attr_get_or_none in W. rewrite Ew in W.
    destruct (attr_get "want_to_compute_task" a) as [w'|] eqn:G; [|discriminate W]. subst w'. reflexivity. }
  assert (S : getattr "subtask_id" (VMsg MTaskToCompute ty ts enc sig a) = Ok x).
  { unfold getattr. cbn [acc]. cbv zeta. rewrite D. cbn [truthy]. destruct kvs as [|kv kvs]; [discriminate X|]. cbn -[dict_get]. rewrite X. reflexivity. }
  assert (Z : getattr "price" (VMsg MTaskToCompute ty ts enc sig a) = Ok (attr_get_or_none "price" a)) by (apply getattr_slot; slots_in).
  split; [exact P|]. split; [unfold py_uuid; destruct x; try discriminate T; cbn [str_of] in T; [|destruct (is_string_enum _); [|discriminate T]]; apply Some_inj in T; subst t; rewrite U; reflexivity|].
  split; [exact PL|]. unfold ttc_note. 
  change (concent_note (cr E) (VMsg MTaskToCompute ty ts enc sig a) contract) with
    (do f <- requestor_address (cr E) (VMsg MTaskToCompute ty ts enc sig a); do p <- getattr "price" (VMsg MTaskToCompute ty ts enc sig a); do s <- getattr "subtask_id" (VMsg MTaskToCompute ty ts enc sig a);
      Ok {| n_from := f; n_to := contract; n_amount := p; n_subtask := s; n_contract := contract |}).
  rewrite R, P, Z, S. split; reflexivity.
Qed.
(** it raises nothing for a message without signatures; otherwise only for the reasons
    named, and never a MessageError *)
Lemma notes_raise E now bs decf ct pub ty ts enc sig a contract cb e :
  deserialize E now bs decf ct pub = Ok (VMsg MTaskToCompute ty ts enc sig a) -> is_address contract cb ->
  verify_all_notes (cr E) (VMsg MTaskToCompute ty ts enc sig a) contract = Err e ->
  truthy (attr_get_or_none "concent_promissory_note_sig" a) = true /\
  ((e = ETypeError /\ (~ vrs_shape (attr_get_or_none "concent_promissory_note_sig" a) \/ ~ vrs_shape (attr_get_or_none "promissory_note_sig" a) \/
      exists pa, getattr "provider_ethereum_address" (VMsg MTaskToCompute ty ts enc sig a) = Ok pa /\ str_of pa = None)) \/
   (e = EAttributeError /\ attr_get_or_none "price" a = VNone) \/
   (e = EOverflowError /\ exists z, attr_get_or_none "price" a = VInt z /\ ~ 0 <= z < 2 ^ 256) \/
   e = EBinasciiError \/ e = EValueError).
Proof.
  intros H (cs & -> & _ & _) V. destruct (received_notes _ _ _ _ _ _ _ _ _ _ _ (VStr cs) H) as (adr & pa & i & s & P & U & PL & N1 & N2).
  set (m := VMsg MTaskToCompute ty ts enc sig a) in *.
  assert (G1 : getattr "promissory_note_sig" m = Ok (attr_get_or_none "promissory_note_sig" a)) by (apply getattr_slot; slots_in).
  assert (G2 : getattr "concent_promissory_note_sig" m = Ok (attr_get_or_none "concent_promissory_note_sig" a)) by (apply getattr_slot; slots_in).
  unfold verify_all_notes, verify_concent_note, verify_note in V. rewrite N1, N2 in V. cbn [bind] in V. rewrite G1, G2 in V. cbn [bind] in V.
  match type of V with context [sig_valid _ ?x (attr_get_or_none "concent_promissory_note_sig" a)] => set (n2 := x) in V end.
  assert (PR : forall x, to_bytes32 (attr_get_or_none "price" a) = Err x -> (x = EAttributeError /\ attr_get_or_none "price" a = VNone) \/
     (x = EOverflowError /\ exists z, attr_get_or_none "price" a = VInt z /\ ~ 0 <= z < 2 ^ 256)).
  { intros x X. destruct PL as [Q|[z Q]]; rewrite Q in X.
    - left. split; [cbn in X; congruence|exact Q].
    - right. apply int_bytes_err in X as [-> X]. split; [reflexivity|]. exists z. auto. }
  destruct (sig_valid (cr E) n2 (attr_get_or_none "concent_promissory_note_sig" a)) as [b|x] eqn:V2; cbn [bind] in V.
  - destruct b; [|discriminate V]. split.
    { destruct (truthy (attr_get_or_none "concent_promissory_note_sig" a)) eqn:T; [reflexivity|]. rewrite unsigned_false in V2 by exact T. discriminate V2. }
    apply (sig_valid_raises _ _ _ _ cs adr i) in V as [_ [[-> [X|X]]|[X|[X|X]]]]; try reflexivity; try exact U; auto 8.
    + left. split; [reflexivity|]. right. right. exists pa. auto.
    + apply PR in X as [X|X]; auto.
  - assert (x = e) by congruence. subst x.
    apply (sig_valid_raises _ _ _ _ cs adr i) in V2 as [T [[-> [X|X]]|[X|[X|X]]]]; try reflexivity; try exact U; split; auto 8; try exact T.
    + discriminate X.
    + apply PR in X as [X|X]; auto.
Qed.
