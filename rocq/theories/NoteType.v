(** * When exactly checking the notes of a received TaskToCompute raises TypeError (C58) *)
From Verif Require Export NoteAnswer.

Lemma shape_dec s : vrs_shape s \/ ~ vrs_shape s.
Proof.
  unfold vrs_shape. destruct (py_iter s) as [[|x [|y [|z [|w l]]]]|]; try (right; intros (? & ? & ? & Q); discriminate Q).
  destruct x; try (right; intros (? & ? & ? & Q); discriminate Q). destruct y; try (right; intros (? & ? & ? & Q); discriminate Q).
  destruct z; try (right; intros (? & ? & ? & Q); discriminate Q). left. eauto.
Qed.
Lemma sig_type_error C n s b : crypto_ok C -> signed_bytes n = Ok b -> (sig_valid C n s = Err ETypeError <-> truthy s = true /\ ~ vrs_shape s).
Proof.
  intros HC S. split.
  - intros H. destruct (truthy s) eqn:T; [|rewrite (unsigned_false C n s T) in H; discriminate]. split; [reflexivity|]. intros V.
    destruct (sig_answers C n s b HC S (or_intror V)) as [[x X]|[X _]]; congruence.
  - intros [T V]. unfold sig_valid. rewrite T. cbn [negb]. unfold note_hash. rewrite S. cbn [bind]. unfold vrs_shape in V.
    destruct (py_iter s) as [[|x [|y [|z [|w l]]]]|]; try reflexivity.
    destruct x; try reflexivity. destruct y; try reflexivity. destruct z; try reflexivity. exfalso. apply V. eauto.
Qed.
Lemma notes_type_error E now bs decf ct pub ty ts enc sig a contract cb pa pb z : crypto_ok (cr E) ->
  deserialize E now bs decf ct pub = Ok (VMsg MTaskToCompute ty ts enc sig a) -> is_address contract cb ->
  getattr "provider_ethereum_address" (VMsg MTaskToCompute ty ts enc sig a) = Ok pa -> is_address pa pb ->
  attr_get_or_none "price" a = VInt z -> 0 <= z < 2 ^ 256 ->
  (verify_all_notes (cr E) (VMsg MTaskToCompute ty ts enc sig a) contract = Err ETypeError <->
   (truthy (attr_get_or_none "concent_promissory_note_sig" a) = true /\ ~ vrs_shape (attr_get_or_none "concent_promissory_note_sig" a)) \/
   (verify_concent_note (cr E) (VMsg MTaskToCompute ty ts enc sig a) contract = Ok true /\
    truthy (attr_get_or_none "promissory_note_sig" a) = true /\ ~ vrs_shape (attr_get_or_none "promissory_note_sig" a))).
Proof.
  intros HC H Ac P Ap Z Rz. destruct (received_notes _ _ _ _ _ _ _ _ _ _ _ contract H) as (adr & pa' & i & s & P' & U & _ & N1 & N2).
  assert (pa' = pa) by congruence. subst pa'.
  assert (F : exists fb, is_address (VStr adr) fb).
  { destruct (address_of_received _ _ _ _ _ _ _ _ _ _ _ H) as (k & h & sg & _ & _ & _ & _ & _ & R).
    assert (exists p, requestor_address (cr E) (VMsg MTaskToCompute ty ts enc sig a) = Ok (VStr (address_of (keccak (cr E)) p))) as [p Rp] by (destruct R as [(? & _ & R)|(? & _ & _ & R)]; eauto).
    unfold ttc_note in N1. rewrite Rp in N1. cbn [bind] in N1. rewrite P in N1. cbn [bind] in N1.
    apply bind_ok in N1 as (? & _ & N1). apply bind_ok in N1 as (? & _ & N1). apply Ok_inj in N1. injection N1 as E1 _ _. rewrite <- E1.
    eexists. apply address_ok, HC. }
  destruct F as [fb F].
  assert (G1 : getattr "promissory_note_sig" (VMsg MTaskToCompute ty ts enc sig a) = Ok (attr_get_or_none "promissory_note_sig" a)) by (apply getattr_slot; slots_in).
  assert (G2 : getattr "concent_promissory_note_sig" (VMsg MTaskToCompute ty ts enc sig a) = Ok (attr_get_or_none "concent_promissory_note_sig" a)) by (apply getattr_slot; slots_in).
  unfold verify_all_notes, verify_concent_note, verify_note. rewrite N1, N2. cbn [bind]. rewrite G1, G2. cbn [bind]. rewrite Z.
  match goal with |- context [sig_valid _ ?n (attr_get_or_none "concent_promissory_note_sig" a)] =>
    pose proof (sig_type_error (cr E) n (attr_get_or_none "concent_promissory_note_sig" a) _ HC (signed_bytes_total n cb fb cb z i Ac F Ac (or_introl eq_refl) Rz U)) as T2;
    destruct (sig_valid (cr E) n (attr_get_or_none "concent_promissory_note_sig" a)) as [x|e] end.
  - cbn [bind]. assert (T2' : ~ (truthy (attr_get_or_none "concent_promissory_note_sig" a) = true /\ ~ vrs_shape (attr_get_or_none "concent_promissory_note_sig" a))) by (intros Q; apply T2 in Q; discriminate).
    destruct x; [|split; [discriminate|intros [Q|[Q _]]; [contradiction|discriminate]]].
    match goal with |- context [sig_valid _ ?n (attr_get_or_none "promissory_note_sig" a)] =>
      rewrite (sig_type_error (cr E) n (attr_get_or_none "promissory_note_sig" a) _ HC (signed_bytes_total n cb fb pb z i Ac F Ap (or_introl eq_refl) Rz U)) end.
    split; [intros Q; right; split; [reflexivity|exact Q]|intros [Q|[_ Q]]; [contradiction|exact Q]].
  - cbn [bind]. split; [intros Q; left; apply T2; exact Q|intros [Q|[Q _]]; [apply T2, Q|discriminate]].
Qed.
Lemma notes_overflow E now bs decf ct pub ty ts enc sig a contract cb z :
  deserialize E now bs decf ct pub = Ok (VMsg MTaskToCompute ty ts enc sig a) -> is_address contract cb -> attr_get_or_none "price" a = VInt z ->
  (verify_all_notes (cr E) (VMsg MTaskToCompute ty ts enc sig a) contract = Err EOverflowError <->
   ~ 0 <= z < 2 ^ 256 /\ exists v r s, py_iter (attr_get_or_none "concent_promissory_note_sig" a) = Some [v; r; s]).
Proof.
  intros H Ac Z. destruct (received_notes _ _ _ _ _ _ _ _ _ _ _ contract H) as (adr & pa & i & s & _ & U & _ & _ & N2).
  assert (G2 : getattr "concent_promissory_note_sig" (VMsg MTaskToCompute ty ts enc sig a) = Ok (attr_get_or_none "concent_promissory_note_sig" a)) by (apply getattr_slot; slots_in).
  split.
  - intros V. destruct (notes_raise _ _ _ _ _ _ _ _ _ _ _ _ _ _ H Ac V) as [T [[Q _]|[[Q _]|[[_ (z' & Z' & R)]|[Q|Q]]]]]; try discriminate Q.
    assert (z' = z) by congruence. subst z'. split; [exact R|].
    unfold verify_all_notes, verify_concent_note in V. rewrite N2 in V. cbn [bind] in V. rewrite G2 in V. cbn [bind] in V. unfold sig_valid at 1 in V. rewrite T in V. cbn [negb] in V.
    destruct (py_iter (attr_get_or_none "concent_promissory_note_sig" a)) as [[|x [|y [|w [|q l]]]]|]; try discriminate V. eauto.
  - intros [R (v & r & q & I)]. unfold verify_all_notes, verify_concent_note. rewrite N2. cbn [bind]. rewrite G2. cbn [bind]. unfold sig_valid at 1.
    rewrite (iter3_truthy _ _ _ _ I), I. cbn [negb]. unfold note_hash, signed_bytes, hexmsg. cbn [n_contract n_from n_to n_amount n_subtask].
    destruct Ac as (t & -> & _). unfold strip2. cbn [str_of bind]. rewrite Z. unfold to_bytes32. replace ((0 <=? z) && (z <? 2 ^ 256)) with false by lia. reflexivity.
Qed.
