(** * Property theorems: when checking the notes of a received TaskToCompute gives an
    answer (C58) *)
From Verif Require Import NoteAnswer SampleTrips.

(** ** C58 *)
(** the other direction of C58_raises: with two addresses, a price in range and two
    signatures that are absent or of the right shape there is an answer, unless no address
    can be recovered from one of the signatures, which raises ValueError *)
Theorem C58_answers :
  forall E now bs decf ct pub ty ts enc sig a contract cb pa pb z, crypto_ok (cr E) ->
  deserialize E now bs decf ct pub = Ok (VMsg MTaskToCompute ty ts enc sig a) -> is_address contract cb ->
  getattr "provider_ethereum_address" (VMsg MTaskToCompute ty ts enc sig a) = Ok pa -> is_address pa pb ->
  attr_get_or_none "price" a = VInt z -> 0 <= z < 2 ^ 256 ->
  sig_shaped (attr_get_or_none "concent_promissory_note_sig" a) -> sig_shaped (attr_get_or_none "promissory_note_sig" a) ->
  (exists x, verify_all_notes (cr E) (VMsg MTaskToCompute ty ts enc sig a) contract = Ok x) \/
  (verify_all_notes (cr E) (VMsg MTaskToCompute ty ts enc sig a) contract = Err EValueError /\
   (unrecoverable (cr E) (attr_get_or_none "concent_promissory_note_sig" a) \/ unrecoverable (cr E) (attr_get_or_none "promissory_note_sig" a))).
Proof. exact notes_answer. Qed.
Print Assumptions C58_answers.

Definition na_contract : pyval := VStr (u "0x" ++ repeat 99 40)%list.
(** the notes signed, and the message received *)
Definition na_wire : bytes := Eval vm_compute in dump0 (signed req_key (get VNone (sign_all_notes toy ex_ttc na_contract eth_key))).
Definition na_msg : pyval := Eval vm_compute in get VNone (load0 (Some (pub req_key)) na_wire).
Example C58_answers_ex :
  load0 (Some (pub req_key)) na_wire = Ok na_msg /\
  (exists cb, is_address na_contract cb) /\
  (exists pa pb, getattr "provider_ethereum_address" na_msg = Ok pa /\ is_address pa pb) /\
  (exists z, attr_get_or_none "price" (attrs_of na_msg) = VInt z /\ 0 <= z < 2 ^ 256) /\
  vrs_shape (attr_get_or_none "concent_promissory_note_sig" (attrs_of na_msg)) /\ vrs_shape (attr_get_or_none "promissory_note_sig" (attrs_of na_msg)) /\
  verify_all_notes toy na_msg na_contract = Ok true /\
  verify_all_notes toy na_msg (VStr (u "0x" ++ repeat 100 40)%list) = Err EValueError.
Proof.
  split; [vm_compute; reflexivity|]. split; [do 2 eexists; split; [reflexivity|split; vm_compute; reflexivity]|].
  split; [do 2 eexists; split; [vm_compute; reflexivity|eexists; split; [reflexivity|split; vm_compute; reflexivity]]|].
  split; [eexists; split; [vm_compute; reflexivity|split; vm_compute; congruence]|].
  do 2 (split; [do 3 eexists; vm_compute; reflexivity|]). split; vm_compute; reflexivity.
Qed.
(** the same for the note of the provider in a SubtaskResultsVerify, made or received *)
Theorem C58_provider_answers :
  forall C m r t contract cb pa pb z s i, crypto_ok C -> is_address contract cb ->
  (exists ty ts enc sig a, m = VMsg MSubtaskResultsVerify ty ts enc sig a) ->
  getattr "subtask_results_rejected" m = Ok r -> getattr "task_to_compute" r = Ok t ->
  getattr "provider_ethereum_address" t = Ok pa -> is_address pa pb -> getattr "price" t = Ok (VInt z) -> 0 <= z < 2 ^ 256 ->
  getattr "subtask_id" t = Ok s -> py_uuid s = Ok i ->
  exists sg, getattr "concent_promissory_note_sig" m = Ok sg /\ (sig_shaped sg ->
    (exists x, verify_concent_note C m contract = Ok x) \/ (verify_concent_note C m contract = Err EValueError /\ unrecoverable C sg)).
Proof. exact provider_answers. Qed.
Print Assumptions C58_provider_answers.
Definition na_srr : pyval := Eval vm_compute in ex_srr.
Definition na_srv : pyval := Eval vm_compute in get VNone (sign_concent_note toy (make (now0 + 60) MSubtaskResultsVerify [("subtask_results_rejected", ex_srr)]%string) na_contract (repeat xaa 32)).
Example C58_provider_answers_ex :
  exists ty ts enc sig a t pa pb z s i v, na_srv = VMsg MSubtaskResultsVerify ty ts enc sig a /\
  getattr "subtask_results_rejected" na_srv = Ok na_srr /\ getattr "task_to_compute" na_srr = Ok t /\
  getattr "provider_ethereum_address" t = Ok pa /\ is_address pa pb /\ getattr "price" t = Ok (VInt z) /\ 0 <= z < 2 ^ 256 /\
  getattr "subtask_id" t = Ok s /\ py_uuid s = Ok i /\ getattr "concent_promissory_note_sig" na_srv = Ok v /\ vrs_shape v /\
  verify_concent_note toy na_srv na_contract = Ok true /\ verify_concent_note toy na_srv (VStr (u "0x" ++ repeat 100 40)%list) = Err EValueError.
Proof.
  do 12 eexists. split; [reflexivity|]. do 3 (split; [vm_compute; reflexivity|]).
  split; [eexists; split; [reflexivity|split; vm_compute; reflexivity]|]. split; [vm_compute; reflexivity|].
  split; [split; vm_compute; congruence|]. do 3 (split; [vm_compute; reflexivity|]). split; [do 3 eexists; vm_compute; reflexivity|]. split; vm_compute; reflexivity.
Qed.
