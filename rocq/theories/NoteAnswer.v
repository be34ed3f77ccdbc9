(** * When checking the notes of a received TaskToCompute gives an answer (C58) *)
From Verif Require Export NoteRaise.

(** no signature, or an int and two byte strings *)
Definition sig_shaped (s : pyval) : Prop := truthy s = false \/ vrs_shape s.
(** an int and two byte strings from which no address can be recovered for some digest *)
Definition unrecoverable (C : crypto) (s : pyval) : Prop :=
  exists v r q h, py_iter s = Some [VInt v; VBytes r; VBytes q] /\ List.length h = 32%nat /\ eth_recover C h (v, r, q) = None.
Lemma sig_answers C n s b : crypto_ok C -> signed_bytes n = Ok b -> sig_shaped s ->
  (exists x, sig_valid C n s = Ok x) \/ (sig_valid C n s = Err EValueError /\ unrecoverable C s).
Proof.
  intros HC S [F|(v & r & q & I)]; [left; exists false; apply unsigned_false, F|]. unfold sig_valid. rewrite (iter3_truthy _ _ _ _ I), I. cbn [negb].
  unfold note_hash. rewrite S. cbn [bind]. destruct (eth_recover C (keccak C b) (v, r, q)) eqn:R; [left; eauto|].
  right. split; [reflexivity|]. exists v, r, q, (keccak C b). split; [exact I|]. split; [apply keccak_len, HC|exact R].
Qed.
Lemma notes_answer E now bs decf ct pub ty ts enc sig a contract cb pa pb z : crypto_ok (cr E) ->
  deserialize E now bs decf ct pub = Ok (VMsg MTaskToCompute ty ts enc sig a) -> is_address contract cb ->
  getattr "provider_ethereum_address" (VMsg MTaskToCompute ty ts enc sig a) = Ok pa -> is_address pa pb ->
  attr_get_or_none "price" a = VInt z -> 0 <= z < 2 ^ 256 ->
  sig_shaped (attr_get_or_none "concent_promissory_note_sig" a) -> sig_shaped (attr_get_or_none "promissory_note_sig" a) ->
  (exists x, verify_all_notes (cr E) (VMsg MTaskToCompute ty ts enc sig a) contract = Ok x) \/
  (verify_all_notes (cr E) (VMsg MTaskToCompute ty ts enc sig a) contract = Err EValueError /\
   (unrecoverable (cr E) (attr_get_or_none "concent_promissory_note_sig" a) \/ unrecoverable (cr E) (attr_get_or_none "promissory_note_sig" a))).
Proof.
  intros HC H Ac P Ap Z Rz C2 C1. destruct (received_notes _ _ _ _ _ _ _ _ _ _ _ contract H) as (adr & pa' & i & s & P' & U & _ & N1 & N2).
  assert (pa' = pa) by congruence. subst pa'.
  assert (F : exists fb, is_address (VStr adr) fb).
  { destruct (address_of_received _ _ _ _ _ _ _ _ _ _ _ H) as (k & h & sg & _ & _ & _ & _ & _ & R).
    assert (exists p, requestor_address (cr E) (VMsg MTaskToCompute ty ts enc sig a) = Ok (VStr (address_of (keccak (cr E)) p))) as [p Rp] by (destruct R as [(? & _ & R)|(? & _ & _ & R)]; eauto).
    unfold ttc_note in N1. rewrite Rp in N1. cbn [bind] in N1. rewrite P in N1. cbn [bind] in N1.
    apply bind_ok in N1 as (? & _ & N1). apply bind_ok in N1 as (? & _ & N1). apply Ok_inj in N1. injection N1 as E1 _ _. rewrite <- E1.
    eexists. apply address_ok, HC. }
  destruct F as [fb F].
  assert (G1 : getattr "promissory_note_sig" (VMsg MTaskToCompute ty ts enc sig a) = Ok (attr_get_or_none "promissory_note_sig" a)) by (apply getattr_slot; slots_in).
  assert (G2 : getattr "concent_promissory_note_sig" (VMsg MTaskToCompute ty ts enc sig a) = Ok (attr_get_or_none "concent_promissory_note_sig" a)) by (apply getattr_slot; slots_in).
  unfold verify_all_notes, verify_concent_note, verify_note. rewrite N1, N2. cbn [bind]. rewrite G1, G2. cbn [bind]. rewrite Z.
  match goal with |- context [sig_valid _ ?n (attr_get_or_none "concent_promissory_note_sig" a)] =>
    destruct (sig_answers (cr E) n _ _ HC (signed_bytes_total n cb fb cb z i Ac F Ac (or_introl eq_refl) Rz U) C2) as [[x X]|[X B]]; rewrite X end;
    [|right; split; [reflexivity|left; exact B]].
  cbn [bind]. destruct x; [|left; eauto].
  match goal with |- context [sig_valid _ ?n (attr_get_or_none "promissory_note_sig" a)] =>
    destruct (sig_answers (cr E) n _ _ HC (signed_bytes_total n cb fb pb z i Ac F Ap (or_introl eq_refl) Rz U) C1) as [[y Y]|[Y B]]; rewrite Y end;
    [left; eauto|right; split; [reflexivity|right; exact B]].
Qed.
Lemma provider_answers C m r t contract cb pa pb z s i : crypto_ok C -> is_address contract cb ->
  (exists ty ts enc sig a, m = VMsg MSubtaskResultsVerify ty ts enc sig a) ->
  getattr "subtask_results_rejected" m = Ok r -> getattr "task_to_compute" r = Ok t ->
  getattr "provider_ethereum_address" t = Ok pa -> is_address pa pb -> getattr "price" t = Ok (VInt z) -> 0 <= z < 2 ^ 256 ->
  getattr "subtask_id" t = Ok s -> py_uuid s = Ok i ->
  exists sg, getattr "concent_promissory_note_sig" m = Ok sg /\ (sig_shaped sg ->
    (exists x, verify_concent_note C m contract = Ok x) \/ (verify_concent_note C m contract = Err EValueError /\ unrecoverable C sg)).
Proof.
  intros HC Ac (ty & ts & enc & sig & a & ->) R T P Ap Z Rz S U.
  assert (G : getattr "concent_promissory_note_sig" (VMsg MSubtaskResultsVerify ty ts enc sig a) = Ok (attr_get_or_none "concent_promissory_note_sig" a)) by (apply getattr_slot; slots_in).
  eexists. split; [exact G|]. intros Sh. unfold verify_concent_note, concent_note. rewrite R. cbn [bind]. rewrite T. cbn [bind]. rewrite P. cbn [bind]. rewrite Z. cbn [bind]. rewrite S. cbn [bind]. rewrite G. cbn [bind].
  match goal with |- context [sig_valid _ ?n _] =>
    exact (sig_answers C n _ _ HC (signed_bytes_total n cb pb cb z i Ac Ap Ac (or_introl eq_refl) Rz U) Sh) end.
Qed.
