(** * Which notes a signature is good for *)
From Verif Require Import NoteTamper.

(** ** C39 a signature of an int and two byte strings is valid exactly if the payer's
    address is recovered from it and the keccak of the signed bytes *)
Theorem C39_valid_exactly :
  forall C n sig v r s, py_iter sig = Some [VInt v; VBytes r; VBytes s] ->
  (sig_valid C n sig = Ok true <-> exists b a, signed_bytes n = Ok b /\ eth_recover C (keccak C b) (v, r, s) = Some a /\ str_of (n_from n) = Some a).
Proof. exact valid_exactly. Qed.
Print Assumptions C39_valid_exactly.

(** ** C40 a payer's signature is valid for one set of terms: for two notes of one payer it
    is good for both only if they name the same contract, payee, amount and subtask, unless
    keccak has one value for the two texts [b1], [b2] or the signature recovers the payer
    from both of its two values *)
Theorem C40_one_signature :
  forall C n1 n2 c1 f1 t1 c2 f2 t2 sig v r s, py_iter sig = Some [VInt v; VBytes r; VBytes s] ->
  is_address (n_contract n1) c1 -> is_address (n_from n1) f1 -> is_address (n_to n1) t1 ->
  is_address (n_contract n2) c2 -> is_address (n_from n2) f2 -> is_address (n_to n2) t2 ->
  str_of (n_from n1) = str_of (n_from n2) -> sig_valid C n1 sig = Ok true -> sig_valid C n2 sig = Ok true ->
  same_terms n1 n2 \/
  exists b1 b2, signed_bytes n1 = Ok b1 /\ signed_bytes n2 = Ok b2 /\ b1 <> b2 /\
   (keccak C b1 = keccak C b2 \/
    exists a, keccak C b1 <> keccak C b2 /\
      eth_recover C (keccak C b1) (v, r, s) = Some a /\ eth_recover C (keccak C b2) (v, r, s) = Some a).
Proof. exact one_note. Qed.
Print Assumptions C40_one_signature.

(** the payee in lower and upper case, the subtask with and without hyphens: the same
    terms, and one signature *)
Definition payer : pyval := VStr (u "0xabababababababababababababababababababab").
Definition note1 : note := {| n_contract := VStr (u "0x" ++ repeat 49 40); n_from := payer; n_to := VStr (u "0x" ++ repeat 97 40); n_amount := VInt 1000;
  n_subtask := VStr (u "0000a500-0000-11e8-8000-000000000007") |}.
Definition note2 : note := {| n_contract := VStr (u "0x" ++ repeat 49 40); n_from := payer; n_to := VStr (u "0x" ++ repeat 65 40); n_amount := VInt 1000;
  n_subtask := VStr (u "0000a500000011e88000000000000007") |}.
Definition note3 : note := {| n_contract := VStr (u "0x" ++ repeat 49 40); n_from := payer; n_to := VStr (u "0x" ++ repeat 65 40); n_amount := VInt 1001;
  n_subtask := VStr (u "0000a500000011e88000000000000007") |}.
Definition note1_sig : pyval := Eval vm_compute in match note_sign toy note1 (repeat xab 32) with Ok s => s | Err _ => VNone end.
Example C40_ex_signature :
  (exists v r s, py_iter note1_sig = Some [VInt v; VBytes r; VBytes s]) /\
  is_address (n_contract note1) (repeat x11 20) /\ is_address (n_from note1) (repeat xab 20) /\ is_address (n_to note1) (repeat xaa 20) /\
  is_address (n_contract note2) (repeat x11 20) /\ is_address (n_from note2) (repeat xab 20) /\ is_address (n_to note2) (repeat xaa 20) /\
  sig_valid toy note1 note1_sig = Ok true /\ sig_valid toy note2 note1_sig = Ok true /\ note1 <> note2 /\ same_terms note1 note2 /\ ~ same_terms note1 note3.
Proof.
  assert (A : forall s b, unhex s = Some b -> List.length s = 40%nat -> is_address (VStr (u "0x" ++ s)) b) by (intros s b H L; eexists; split; [reflexivity|]; split; [cbn [List.length app]; rewrite app_length, L; reflexivity|exact H]).
  assert (A1 : is_address (n_contract note1) (repeat x11 20)) by (apply A; reflexivity).
  assert (A2 : is_address payer (repeat xab 20)) by (apply (A (u "abababababababababababababababababababab")); vm_compute; reflexivity).
  assert (A3 : is_address (n_to note1) (repeat xaa 20)) by (apply A; reflexivity).
  assert (A4 : is_address (n_to note2) (repeat xaa 20)) by (apply A; reflexivity).
  split; [do 3 eexists; reflexivity|]. split; [exact A1|]. split; [exact A2|]. split; [exact A3|]. split; [exact A1|]. split; [exact A2|]. split; [exact A4|].
  split; [vm_compute; reflexivity|]. split; [vm_compute; reflexivity|]. split; [discriminate|]. split.
  - split; [eauto|]. split; [eauto|]. split; [exists 1000; split; left; reflexivity|]. eexists. split; vm_compute; reflexivity.
  - intros (_ & _ & (z & [Z1|(b & Z1 & _)] & [Z2|(b' & Z2 & _)]) & _); try discriminate. cbn in Z1, Z2. congruence.
Qed.
