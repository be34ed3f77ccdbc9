(** * Property theorems: when exactly checking the notes of a received TaskToCompute raises
    TypeError or OverflowError (C58) *)
From Verif Require Import NoteType SampleTrips.

(** ** C58 *)
(** with two addresses and a price in range: TypeError exactly if a signature that is
    looked at is present and not an int and two byte strings *)
Theorem C58_type_error :
  forall E now bs decf ct pub ty ts enc sig a contract cb pa pb z, crypto_ok (cr E) ->
  deserialize E now bs decf ct pub = Ok (VMsg MTaskToCompute ty ts enc sig a) -> is_address contract cb ->
  getattr "provider_ethereum_address" (VMsg MTaskToCompute ty ts enc sig a) = Ok pa -> is_address pa pb ->
  attr_get_or_none "price" a = VInt z -> 0 <= z < 2 ^ 256 ->
  (verify_all_notes (cr E) (VMsg MTaskToCompute ty ts enc sig a) contract = Err ETypeError <->
   (truthy (attr_get_or_none "concent_promissory_note_sig" a) = true /\ ~ vrs_shape (attr_get_or_none "concent_promissory_note_sig" a)) \/
   (verify_concent_note (cr E) (VMsg MTaskToCompute ty ts enc sig a) contract = Ok true /\
    truthy (attr_get_or_none "promissory_note_sig" a) = true /\ ~ vrs_shape (attr_get_or_none "promissory_note_sig" a))).
Proof. exact notes_type_error. Qed.
Print Assumptions C58_type_error.
(** OverflowError exactly if the price is out of range and the signature for the Concent
    has three items, whatever they are *)
Theorem C58_overflow :
  forall E now bs decf ct pub ty ts enc sig a contract cb z,
  deserialize E now bs decf ct pub = Ok (VMsg MTaskToCompute ty ts enc sig a) -> is_address contract cb -> attr_get_or_none "price" a = VInt z ->
  (verify_all_notes (cr E) (VMsg MTaskToCompute ty ts enc sig a) contract = Err EOverflowError <->
   ~ 0 <= z < 2 ^ 256 /\ exists v r s, py_iter (attr_get_or_none "concent_promissory_note_sig" a) = Some [v; r; s]).
Proof. exact notes_overflow. Qed.
Print Assumptions C58_overflow.

Definition nt_contract : pyval := VStr (u "0x" ++ repeat 99 40)%list.
Definition nt_base : pyval := Eval vm_compute in get VNone (sign_all_notes toy ex_ttc nt_contract eth_key).
(** the message received after a change of some slots, signed again *)
Definition nt_with (kvs : list (string * pyval)) : result pyval := load0 (Some (pub req_key)) (dump0 (signed req_key
  (VMsg MTaskToCompute (VInt 2002) (VInt now0) (VBool false) VNone (fold_left (fun a kv => attr_set (fst kv) (snd kv) a) kvs (attrs_of nt_base))))).
Definition nt_check (kvs : list (string * pyval)) : result bool := do m <- nt_with kvs; verify_all_notes toy m nt_contract.
Definition nt_two : pyval := VList [VInt 27; VBytes []].
Definition nt_three : pyval := VList [VNone; VNone; VNone].
Example C58_type_error_ex :
  is_ok (nt_with [("concent_promissory_note_sig", nt_two)]%string) = true /\ is_ok (nt_with [("promissory_note_sig", nt_two)]%string) = true /\
  map nt_check [[]; [("concent_promissory_note_sig", nt_two)]; [("promissory_note_sig", nt_two)]; [("concent_promissory_note_sig", VNone); ("promissory_note_sig", nt_two)];
    [("price", VInt (-1))]; [("price", VInt (-1)); ("concent_promissory_note_sig", nt_three)]; [("price", VInt (-1)); ("concent_promissory_note_sig", nt_two)]]%string =
  [Ok true; Err ETypeError; Err ETypeError; Ok false; Err EOverflowError; Err EOverflowError; Err ETypeError].
Proof. split; [vm_compute; reflexivity|]. split; vm_compute; reflexivity. Qed.
