(** * C64: key pair objects *)
From Verif Require Import Ecc.

(** whatever is constructed is a 32-byte private key with its 64-byte public key, and
    a given key is kept *)
Theorem C64_constructed :
  forall C check gen n raw e, check_ok C check -> construct C check gen n raw = Some (Ok e) ->
  List.length (e_priv e) = 32%nat /\ List.length (raw_pubkey e) = 64%nat /\ privtopub C (e_priv e) = Ok (raw_pubkey e) /\
  (forall k, raw = Some k -> e_priv e = k).
Proof. exact constructed. Qed.
Print Assumptions C64_constructed.
(** a given key that has a public key: 32 bytes are accepted in the first round, and
    for any other length the loop never ends *)
Theorem C64_given :
  forall C check gen n k s p, crypto_ok C -> check_ok C check -> secret_of C k = Some s -> pub_of C s = Some p ->
  (List.length k = 32%nat ->
     construct C check gen (S n) (Some k) = Some (Ok {| e_priv := k; e_x := firstn 32 p; e_y := skipn 32 p |})) /\
  (k <> [] -> List.length k <> 32%nat -> construct C check gen n (Some k) = None).
Proof. exact construct_given. Qed.
Print Assumptions C64_given.
Theorem C64_given_refused :
  forall C check gen n k, secret_of C k = None -> construct C check gen n (Some k) = Some (Err EValueError).
Proof. exact construct_refused. Qed.
Print Assumptions C64_given_refused.
(** so the constructor does not return for every key that has a public key *)
Theorem C64_returns_refuted :
  exists C check k p, crypto_ok C /\ check_ok C check /\ privtopub C k = Ok p /\ forall gen n, construct C check gen n (Some k) = None.
Proof.
  exists toy_pad, pad_check, [x01], ((zeros 31 ++ [x01]) ++ (zeros 31 ++ [x01])). split; [exact toy_pad_ok|]. split; [exact pad_check_ok|].
  split; [vm_compute; reflexivity|]. intros gen n.
  eapply (construct_given toy_pad pad_check gen n [x01]); [exact toy_pad_ok|exact pad_check_ok|vm_compute; reflexivity|vm_compute; reflexivity|discriminate|discriminate].
Qed.
Print Assumptions C64_returns_refuted.
(** generated keys: the first pair whose private key has 32 bytes (or is empty)
    decides, whatever comes later *)
Theorem C64_generated :
  forall C check gen n r, construct C check gen n None = Some r <->
  exists j, (j < n)%nat /\ (forall k, (k < j)%nat -> retried (gen k)) /\ ~ retried (gen j) /\
    r = if has_valid_keys check (gen j) then Ok (gen j) else Err ECryptoError.
Proof. exact construct_generated. Qed.
Print Assumptions C64_generated.
Theorem C64_valid_exact :
  forall C check e, check_ok C check -> has_valid_keys check e = true <->
  (In (List.length (e_priv e)) [32; 33; 64; 66]%nat /\ List.length (raw_pubkey e) = 64%nat /\
   exists s, secret_of C (e_priv e) = Some s /\ pub_of C s = Some (raw_pubkey e)).
Proof.
  intros C check e K. rewrite (has_valid_exact C check e K). unfold privkey_format. rewrite !orb_true_iff, !is_len_true. cbn [In].
  intuition congruence.
Qed.
Print Assumptions C64_valid_exact.
(** there is no second try for a public key whose coordinates lack a leading zero *)
Theorem C64_short_coordinate :
  forall C check gen n i, (forall j, (j < i)%nat -> retried (gen j)) -> List.length (e_priv (gen i)) = 32%nat ->
  List.length (raw_pubkey (gen i)) <> 64%nat -> (i < n)%nat -> construct C check gen n None = Some (Err ECryptoError).
Proof. exact short_coordinate. Qed.
Print Assumptions C64_short_coordinate.
(** signatures *)
Theorem C64_signed :
  forall C e1 e2 m, crypto_ok C -> privtopub C (e_priv e1) = Ok (raw_pubkey e1) -> List.length (raw_pubkey e2) = 64%nat ->
  exists sig, ecc_sign C e1 m = Ok sig /\ List.length sig = 65%nat /\
    ecc_verify C e2 sig m = if bytes_eqb (raw_pubkey e1) (raw_pubkey e2) then Ok tt else Err EInvalidSignature.
Proof. exact ecc_signed. Qed.
Print Assumptions C64_signed.
Theorem C64_verify_exact :
  forall C e sig m, List.length (raw_pubkey e) = 64%nat ->
  (ecc_verify C e sig m = Ok tt <-> List.length sig = 65%nat /\ recover C sig (sha3_256 C m) = Some (x04 :: raw_pubkey e)) /\
  (ecc_verify C e sig m <> Ok tt -> ecc_verify C e sig m = Err EInvalidSignature).
Proof. exact ecc_verify_exact. Qed.
Print Assumptions C64_verify_exact.
Definition ex_pair (b : byte) (n m : nat) : ecc := {| e_priv := repeat b n; e_x := repeat b m; e_y := repeat b 32 |}.
Definition ex_gen (i : nat) : ecc := match i with O => ex_pair x07 31 32 | S O => ex_pair x08 32 32 | _ => ex_pair x09 32 31 end.
Example C64_ex :
  check_ok toy toy_check /\ check_ok toy_pad pad_check /\ retried (ex_gen 0) /\
  construct toy toy_check ex_gen 1 None = None /\ construct toy toy_check ex_gen 5 None = Some (Ok (ex_gen 1)) /\
  construct toy toy_check (fun i => ex_gen (S (S i))) 5 None = Some (Err ECryptoError) /\
  construct toy toy_check ex_gen 5 (Some (repeat x05 32)) = Some (Ok (ex_pair x05 32 32)) /\
  (do s <- ecc_sign toy (ex_gen 1) [x01]; ecc_verify toy (ex_gen 1) s [x01]) = Ok tt /\
  (do s <- ecc_sign toy (ex_gen 1) [x01]; ecc_verify toy (ex_pair x05 32 32) s [x01]) = Err EInvalidSignature.
Proof.
  split; [exact toy_check_ok|]. split; [exact pad_check_ok|]. split; [split; discriminate|]. vm_compute. auto 10.
Qed.
