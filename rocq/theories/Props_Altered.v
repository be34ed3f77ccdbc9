(** * Ciphertexts that were altered, and the shared data they are tagged with *)
From Verif Require Import EciesTamper.

(** ** C45 *)
(** of an accepted ciphertext nothing can be altered, appended or cut off and the tag
    kept: if another one with its tag is accepted with the same key and shared data then
    the sender's keys differ and lead to the same shared point (and the two say the same),
    or SHA-256 collides on the two shared points, or HMAC on the two middle parts *)
Theorem C45_one_tag :
  forall C, crypto_ok C -> forall timeout created created' history history' m m' data data' k shared d d',
  Forall (eop_ok C) history -> Forall (eop_ok C) history' ->
  fst (decrypt C (erun C timeout history (init_state created)) m data k shared) = Ok d ->
  fst (decrypt C (erun C timeout history' (init_state created')) m' data' k shared) = Ok d' ->
  tag_of data' = tag_of data ->
  data' = data \/
  exists s km km', secret_of C k = Some s /\ ecdh_raw C s (firstn 65 data) = Some km /\ ecdh_raw C s (firstn 65 data') = Some km' /\
   ((firstn 65 data' <> firstn 65 data /\ km' = km /\ middle data' = middle data /\ d' = d) \/
    (km' <> km /\ tag_key C km' = tag_key C km) \/
    ((tag_key C km' <> tag_key C km \/ middle data' <> middle data) /\
     hmac_sha256 C (tag_key C km) (middle data ++ shared) = hmac_sha256 C (tag_key C km') (middle data' ++ shared))).
Proof. exact one_tag. Qed.
Print Assumptions C45_one_tag.
(** the tag does not tell where the ciphertext ends and the shared data begins: whoever
    carries a ciphertext tagged with the shared data [s1 ++ s2] can move [s1] into it, and
    it is accepted with the shared data [s2], as a longer plaintext *)
Theorem C45_shared_moved :
  forall C, crypto_ok C -> forall timeout created created' history history' m m' data k s1 s2 d,
  Forall (eop_ok C) history -> Forall (eop_ok C) history' ->
  fst (decrypt C (erun C timeout history (init_state created)) m data k (s1 ++ s2)) = Ok d ->
  exists d', List.length d' = (List.length d + List.length s1)%nat /\
    fst (decrypt C (erun C timeout history' (init_state created')) m' (firstn 65 data ++ (middle data ++ s1) ++ tag_of data) k s2) = Ok d'.
Proof. exact shared_moved. Qed.
Print Assumptions C45_shared_moved.

(** a ciphertext made with the shared data 07 08; under the toy HMAC, which ignores what
    is tagged, it may also be altered *)
Definition a_key : bytes := x05 :: zeros 30 ++ [x09].
Definition a_state : kstate := init_state (fun _ => 0).
Definition a_ct : bytes := Eval vm_compute in
  match fst (encrypt toy (fun _ => 100) a_state 0 [x0a; x0b] (a_key ++ a_key) [x07; x08]
    {| r_ephem := x06 :: zeros 31; r_iv := x11 :: zeros 15; r_now1 := 5000; r_now2 := 5001 |}) with Ok b => b | Err _ => [] end.
Example C45_ex_tag :
  let open data sh := fst (decrypt toy (erun toy (fun _ => 100) [] a_state) 1 data a_key sh) in
  open a_ct [x07; x08] = Ok [x0a; x0b] /\ open (firstn 65 a_ct ++ (middle a_ct ++ [x07]) ++ tag_of a_ct) [x08] = Ok [x0a; x0b; x07] /\
  (let other := firstn 81 a_ct ++ x0c :: skipn 82 a_ct in
   open other [x07; x08] = Ok [x0c; x0b] /\ tag_of other = tag_of a_ct /\ other <> a_ct) /\
  open (a_ct ++ [x00]) [x07; x08] = Err EDecryptionError.
Proof. cbv zeta. split; [vm_compute; reflexivity|]. split; [vm_compute; reflexivity|]. split; [|vm_compute; reflexivity]. split; [vm_compute; reflexivity|]. split; [vm_compute; reflexivity|vm_compute; discriminate]. Qed.
