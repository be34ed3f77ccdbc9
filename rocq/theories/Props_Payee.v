(** * Property theorems: promissory notes to a payee that is any text (C40).

    [payee n] is what follows the first two characters of address_to, in lower case. *)
From Verif Require Import PayeeFacts.

(** ** C40 the payee's address comes from the offer and is not checked; whatever texts two
    notes of one payer over one contract have there, of whatever lengths, the same signed
    bytes mean the same payee, amount and subtask *)
Theorem C40_any_payee :
  forall n1 n2 cb fb b, is_address (n_contract n1) cb -> is_address (n_from n1) fb -> is_address (n_contract n2) cb -> is_address (n_from n2) fb ->
  ~ (cb = repeat x00 20 /\ fb = repeat x00 20) -> signed_bytes n1 = Ok b -> signed_bytes n2 = Ok b ->
  (exists t, payee n1 = Some t /\ payee n2 = Some t) /\
  (exists z, amount_of (n_amount n1) z /\ amount_of (n_amount n2) z) /\ (exists i, py_uuid (n_subtask n1) = Ok i /\ py_uuid (n_subtask n2) = Ok i).
Proof. exact any_payee. Qed.
Print Assumptions C40_any_payee.
(** and a signature valid for both is under the same terms, with the exceptions of
    C40_one_signature *)
Theorem C40_one_payee :
  forall C n1 n2 cb fb sig v r s, py_iter sig = Some [VInt v; VBytes r; VBytes s] ->
  is_address (n_contract n1) cb -> is_address (n_from n1) fb -> is_address (n_contract n2) cb -> is_address (n_from n2) fb ->
  ~ (cb = repeat x00 20 /\ fb = repeat x00 20) -> str_of (n_from n1) = str_of (n_from n2) -> sig_valid C n1 sig = Ok true -> sig_valid C n2 sig = Ok true ->
  ((exists t, payee n1 = Some t /\ payee n2 = Some t) /\
   (exists z, amount_of (n_amount n1) z /\ amount_of (n_amount n2) z) /\ (exists i, py_uuid (n_subtask n1) = Ok i /\ py_uuid (n_subtask n2) = Ok i)) \/
  exists b1 b2, signed_bytes n1 = Ok b1 /\ signed_bytes n2 = Ok b2 /\ b1 <> b2 /\
   (keccak C b1 = keccak C b2 \/
    exists a, keccak C b1 <> keccak C b2 /\
      eth_recover C (keccak C b1) (v, r, s) = Some a /\ eth_recover C (keccak C b2) (v, r, s) = Some a).
Proof. exact one_payee. Qed.
Print Assumptions C40_one_payee.

Definition py_note (c f t : ustr) : note := {| n_contract := VStr (u "0x" ++ c); n_from := VStr (u "0x" ++ f); n_to := VStr (u "0x" ++ t); n_amount := VInt 1000;
  n_subtask := VStr (u "0000a500-0000-11e8-8000-000000000007") |}.
(** the condition is needed: a text of an odd number of digits is completed by a zero at
    the front, which zeros in both other addresses hide *)
Theorem C40_zero_addresses_refuted :
  exists n1 n2 b z, is_address (n_contract n1) z /\ is_address (n_from n1) z /\ n_contract n2 = n_contract n1 /\ n_from n2 = n_from n1 /\
    signed_bytes n1 = Ok b /\ signed_bytes n2 = Ok b /\ payee n1 <> payee n2.
Proof.
  exists (py_note (repeat 48 40) (repeat 48 40) (u "5")), (py_note (repeat 48 40) (repeat 48 40) (u "05")). do 2 eexists.
  split; [eexists; split; [reflexivity|split; vm_compute; reflexivity]|]. split; [eexists; split; [reflexivity|split; vm_compute; reflexivity]|].
  split; [reflexivity|]. split; [reflexivity|]. split; [vm_compute; reflexivity|]. split; [vm_compute; reflexivity|]. discriminate.
Qed.
Print Assumptions C40_zero_addresses_refuted.
(** notes to texts of 3, 40 and no digits have signed bytes; those to one text in letters of
    either case have the same, and one signature *)
Definition ab (n : nat) : ustr := List.concat (repeat (u "ab") n).
Definition py_sig : pyval := Eval vm_compute in match note_sign toy (py_note (repeat 49 40) (ab 20) (u "aBc")) (repeat xab 32) with Ok s => s | Err _ => VNone end.
Example C40_payee_ex :
  map (fun t => is_ok (signed_bytes (py_note (repeat 49 40) (ab 20) t))) [u "abc"; repeat 65 40; []; u "xyz"] = [true; true; true; false] /\
  map (fun t => sig_valid toy (py_note (repeat 49 40) (ab 20) t) py_sig) [u "abc"; u "aBC"] = [Ok true; Ok true] /\
  is_address (n_contract (py_note (repeat 49 40) (ab 20) [])) (repeat x11 20) /\ is_address (n_from (py_note (repeat 49 40) (ab 20) [])) (repeat xab 20) /\
  ~ (repeat x11 20 = repeat x00 20 /\ repeat xab 20 = repeat x00 20) /\ (exists v r s, py_iter py_sig = Some [VInt v; VBytes r; VBytes s]).
Proof.
  split; [vm_compute; reflexivity|]. split; [vm_compute; reflexivity|]. split; [eexists; split; [reflexivity|split; vm_compute; reflexivity]|].
  split; [eexists; split; [reflexivity|split; vm_compute; reflexivity]|]. split; [intros [H _]; discriminate H|]. do 3 eexists. reflexivity.
Qed.
