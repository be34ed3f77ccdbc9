(** * Property theorems: what checking promissory notes can raise (C39, C58) *)
From Verif Require Import NoteRaise SampleTrips.

(** ** C39 *)
(** for any values as the parts of a note and any value as its signature.  (Whatever
    recovering an address raises is [EValueError] in the model.) *)
Theorem C39_raises :
  forall C n sig e, sig_valid C n sig = Err e -> truthy sig = true /\
  (e = ETypeError \/ e = EAttributeError \/ e = EValueError \/ e = EBinasciiError \/ e = EOverflowError).
Proof. exact sig_raises. Qed.
Print Assumptions C39_raises.
(** ** C58 *)
(** for any message, also one made or received in another: verify_concent_promissory_note
    and verify_all_promissory_notes raise none of the library's exceptions *)
Theorem C58_concent_raises :
  forall C m contract e, verify_concent_note C m contract = Err e ->
  e = ETypeError \/ e = EAttributeError \/ e = EValueError \/ e = EBinasciiError \/ e = EOverflowError.
Proof. exact concent_note_raises. Qed.
Print Assumptions C58_concent_raises.
Theorem C58_all_raise :
  forall C m contract e, verify_all_notes C m contract = Err e ->
  e = ETypeError \/ e = EAttributeError \/ e = EValueError \/ e = EBinasciiError \/ e = EOverflowError.
Proof. exact all_notes_raise. Qed.
Print Assumptions C58_all_raise.

(** each of them is raised *)
Definition nr_note (t a i : pyval) : note := {| n_contract := VStr (u "0x" ++ repeat 99 40); n_from := VStr (u "0x" ++ repeat 97 40); n_to := t; n_amount := a; n_subtask := i |}.
Definition nr_sig : pyval := VList [VInt 27; VBytes (repeat x11 32); VBytes (repeat x22 32)].
Definition nr_to : pyval := VStr (u "0x" ++ repeat 98 40).
Definition nr_id : pyval := VStr (u "0000a500-0000-11e8-8000-000000000007").
Example C39_raises_ex :
  map (fun n => sig_valid toy n nr_sig) [nr_note VNone (VInt 1) nr_id; nr_note nr_to VNone nr_id; nr_note nr_to (VInt 1) (VStr (u "x")); nr_note (VStr (u "0xzz")) (VInt 1) nr_id; nr_note nr_to (VInt (-1)) nr_id] =
  [Err ETypeError; Err EAttributeError; Err EValueError; Err EBinasciiError; Err EOverflowError].
Proof. vm_compute. reflexivity. Qed.
(** a SubtaskResultsVerify without a TaskToCompute *)
Example C58_concent_raises_ex :
  verify_concent_note toy (make now0 MSubtaskResultsVerify []) (n_contract (nr_note VNone VNone VNone)) = Err EAttributeError /\
  verify_all_notes toy (make now0 MPing []) VNone = Err EAttributeError.
Proof. split; vm_compute; reflexivity. Qed.
