(** * The encrypted flag of the header is the choice of whoever writes the frame *)
From Verif Require Import FlagFacts Samples.

(** ** C76 *)
(** what a frame is accepted as depends on nothing but its type, its time, its
    signature, its payload once decrypted and, for Hello, its version: two frames that
    agree on these, under decryption functions of their own, are accepted as the same
    message up to the flag, which is that of the frame (any byte but zero is set) *)
Theorem C76_only_content :
  forall E now msg msg' decf decf' ct pub c ty ts f sig a,
  deserialize E now msg decf ct pub = Ok (VMsg c ty ts (VBool f) sig a) -> (76 < List.length msg')%nat ->
  firstn 10 msg' = firstn 10 msg -> firstn 65 (body c msg') = firstn 65 (body c msg) ->
  (c = MHello -> slice_last 32 (skipn 11 msg') = slice_last 32 (skipn 11 msg)) ->
  let f' := negb (bytes_eqb (firstn 1 (skipn 10 msg')) [x00]) in
  decrypted decf' f' (skipn 65 (body c msg')) = decrypted decf f (skipn 65 (body c msg)) ->
  deserialize E now msg' decf' ct pub = Ok (VMsg c ty ts (VBool f') sig a).
Proof. exact only_content. Qed.
Print Assumptions C76_only_content.
(** so whoever can decrypt a frame can send it on in the clear, to anyone, as its sender:
    the signature does not cover the encryption and no class insists on it *)
Theorem C76_in_clear :
  forall E now msg decf decf' ct pub c ty ts f sig a payload,
  deserialize E now msg decf ct pub = Ok (VMsg c ty ts (VBool f) sig a) -> decrypted decf f (skipn 65 (body c msg)) = Ok payload ->
  (c = MHello -> 108 <= List.length msg)%nat ->
  deserialize E now (in_clear c msg payload) decf' ct pub = Ok (VMsg c ty ts (VBool false) sig a).
Proof. exact plain_accepted. Qed.
Print Assumptions C76_in_clear.
(** and whoever knows what is in a frame can encrypt it, to anyone, as its sender: a
    message that arrives encrypted need not have been encrypted by who signed it *)
Theorem C76_sealed :
  forall E now msg decf decf' ct pub c ty ts f sig a flag p payload, flag <> x00 -> p <> [] ->
  deserialize E now msg decf ct pub = Ok (VMsg c ty ts (VBool f) sig a) -> decrypted decf f (skipn 65 (body c msg)) = Ok payload ->
  (c = MHello -> 108 <= List.length msg)%nat -> decf' p = Ok payload ->
  deserialize E now (sealed c msg flag p) decf' ct pub = Ok (VMsg c ty ts (VBool true) sig a).
Proof. exact sealed_accepted. Qed.
Print Assumptions C76_sealed.
(** [load] without a private key does not decrypt: a plain frame with the flag set is
    accepted as an encrypted message *)
Theorem C76_no_key :
  forall E now st mgr hd flag rest k pub ct c ty ts f sig a, List.length hd = 10%nat -> flag <> x00 -> key_given k = false ->
  load E now st mgr (hd ++ [x00] ++ rest) k pub ct = Ok (VMsg c ty ts (VBool f) sig a) ->
  load E now st mgr (hd ++ [flag] ++ rest) k pub ct = Ok (VMsg c ty ts (VBool true) sig a).
Proof. exact no_key. Qed.
Print Assumptions C76_no_key.

(** a TaskToCompute, which [dump] encrypts, as dumped for the provider *)
Definition st0 : kstate := init_state (fun _ => 0).
Definition rnd0 : rnd := {| r_ephem := repeat x55 32; r_iv := repeat x66 16; r_now1 := 10; r_now2 := 11 |}.
Definition ttc_sealed : bytes := Eval vm_compute in
  Samples.get [] (snd (dump E0 (fun _ => 100) st0 0 rnd0 ex_ttc None (Some (pub prov_key)))).
Definition load_prov (bs : bytes) (k : option bytes) : result pyval := load E0 (now0 * 1000000) st0 0 bs k (Some (pub req_key)) true.
Definition ttc_plain : bytes := Eval vm_compute in
  in_clear MTaskToCompute ttc_sealed (Samples.get [] (load_decrypt E0 st0 0 (Some prov_key) (skipn 76 ttc_sealed))).
(** a class that is to be encrypted is accepted in the clear, by a receiver that has a
    private key too *)
Theorem C76_accepted_only_encrypted_refuted :
  exists E now st mgr bs k pub ty ts sig a, crypto_ok (cr E) /\ key_given (Some k) = true /\ key_given (Some pub) = true /\
    encrypts MTaskToCompute = true /\
    load E now st mgr bs (Some k) (Some pub) true = Ok (VMsg MTaskToCompute ty ts (VBool false) sig a).
Proof.
  exists E0, (now0 * 1000000), st0, 0%nat, ttc_plain, prov_key, (pub req_key). do 4 eexists. split; [exact toy_ok|].
  do 3 (split; [reflexivity|]). vm_compute. reflexivity.
Qed.
Print Assumptions C76_accepted_only_encrypted_refuted.
(** the encrypted frame and the plain one are accepted as the same message up to the
    flag, the latter by a receiver without a key as well, and there with the flag set
    too; the plain one encrypted again, by anyone, is accepted by whom it is for *)
Definition flag_of (m : pyval) : pyval := match m with VMsg _ _ _ f _ _ => f | _ => VNone end.
Definition flagged (bs : bytes) : bytes := firstn 10 bs ++ [x07] ++ skipn 11 bs.
Definition for_conc : bytes := Eval vm_compute in
  Samples.get [] (fst (encrypt toy (fun _ => 100) st0 0 (skipn 76 ttc_plain) (pub conc_key) [] rnd0)).
Example C76_ex :
  let got bs k := match load_prov bs k with Ok m => Some (flag_of m, bytes_eqb (dump0 m) (dump0 ex_ttc)) | Err _ => None end in
  encrypts MTaskToCompute = true /\ key_given None = false /\ for_conc <> [] /\
  load_decrypt E0 st0 0 (Some conc_key) for_conc = Ok (skipn 76 ttc_plain) /\
  got ttc_sealed (Some prov_key) = Some (VBool true, true) /\ got ttc_sealed None = None /\
  got ttc_plain (Some prov_key) = Some (VBool false, true) /\ got ttc_plain None = Some (VBool false, true) /\
  got (flagged ttc_plain) None = Some (VBool true, true) /\ got (flagged ttc_plain) (Some prov_key) = None /\
  got (sealed MTaskToCompute ttc_plain x01 for_conc) (Some conc_key) = Some (VBool true, true).
Proof. cbv zeta. do 2 (split; [reflexivity|]). split; [discriminate|]. repeat split; vm_compute; reflexivity. Qed.
(** a plain Hello meets the length; encrypted by anyone, which its own class never does,
    it is accepted *)
Definition hello_for_conc : bytes := Eval vm_compute in
  Samples.get [] (fst (encrypt toy (fun _ => 100) st0 0 (skipn 65 (body MHello (dump0 ex_hello))) (pub conc_key) [] rnd0)).
Example C76_ex_hello :
  is_ok (load0 None (dump0 ex_hello)) = true /\ Nat.leb 108 (List.length (dump0 ex_hello)) = true /\
  encrypts MHello = false /\ hello_for_conc <> [] /\
  match load E0 (now0 * 1000000) st0 0 (sealed MHello (dump0 ex_hello) x01 hello_for_conc) (Some conc_key) None true with
  | Ok m => flag_of m = VBool true
  | Err _ => False
  end.
Proof. split; [vm_compute; reflexivity|]. split; [vm_compute; reflexivity|]. split; [reflexivity|]. split; [discriminate|vm_compute; reflexivity]. Qed.
