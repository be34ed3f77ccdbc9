(** * A message passed on to someone it was not sent to *)
From Verif Require Import ForwardFacts Samples.

(** ** C98 *)
(** who received a message, encrypted for them or not, can encrypt its payload for anyone
    else, with the header and the signature they received: it is accepted there as the same
    message from the same sender, encrypted.  Neither signature nor payload say for whom
    the sender encrypted it.  ([tail_of] is the version field of a Hello, which is behind
    the payload.  For all states of the caches on all three machines.) *)
Theorem C98_passed_on :
  forall E timeout created created' created'' before here after now mgr m1 m2 msg kb pub chk c ty ts f sig a kc sc pc r,
  crypto_ok (cr E) -> Forall (eop_ok (cr E)) here -> Forall (eop_ok (cr E)) after -> rnd_ok (cr E) r ->
  kc <> [] -> secret_of (cr E) kc = Some sc -> pub_of (cr E) sc = Some pc ->
  load E now (erun (cr E) timeout before (init_state created)) mgr msg kb pub chk = Ok (VMsg c ty ts (VBool f) sig a) ->
  exists payload p,
    decrypted (load_decrypt E (erun (cr E) timeout before (init_state created)) mgr kb) f (skipn 65 (body c msg)) = Ok payload /\
    fst (encrypt (cr E) timeout (erun (cr E) timeout here (init_state created')) m1 payload pc [] r) = Ok p /\
    load E now (erun (cr E) timeout after (init_state created'')) m2 (firstn 10 msg ++ [x01] ++ firstn 65 (skipn 11 msg) ++ p ++ tail_of c msg) (Some kc) pub chk =
      Ok (VMsg c ty ts (VBool true) sig a).
Proof. exact passed_on. Qed.
Print Assumptions C98_passed_on.

(** a RemoveTask dumped for the provider by the requestor, passed on to the Concent *)
Definition st0 : kstate := init_state (fun _ => 0).
Definition rnd0 (x : byte) : rnd := {| r_ephem := repeat x 32; r_iv := repeat x66 16; r_now1 := 10; r_now2 := 11 |}.
Definition remove_sealed : bytes := Eval vm_compute in
  Samples.get [] (snd (dump E0 (fun _ => 100) st0 0 (rnd0 x55) ex_remove (Some req_key) (Some (pub prov_key)))).
Definition load_as (k : bytes) (bs : bytes) : result pyval := load E0 (now0 * 1000000) st0 0 bs (Some k) (Some (pub req_key)) true.
Definition remove_got : pyval := Eval vm_compute in Samples.get VNone (load_as prov_key remove_sealed).
Definition remove_clear : bytes := Eval vm_compute in Samples.get [] (load_decrypt E0 st0 0 (Some prov_key) (skipn 76 remove_sealed)).
Definition remove_again : bytes := Eval vm_compute in Samples.get [] (fst (encrypt toy (fun _ => 100) st0 0 remove_clear (pub conc_key) [] (rnd0 x77))).
Definition remove_passed : bytes := Eval vm_compute in firstn 10 remove_sealed ++ [x01] ++ firstn 65 (skipn 11 remove_sealed) ++ remove_again.
(** so a message that is accepted as encrypted need not have been encrypted for its
    receiver by its sender, and the receiver cannot tell *)
Theorem C98_encrypted_for_me_refuted :
  exists E now st sent passed kb kc pub m, crypto_ok (cr E) /\
    snd (dump E (fun _ => 100) st 0 (rnd0 x55) ex_remove (Some req_key) (Some (Samples.pub kb))) = Ok sent /\
    load E now st 0 sent (Some kb) (Some pub) true = Ok m /\ (exists e, load E now st 0 sent (Some kc) (Some pub) true = Err e) /\
    load E now st 0 passed (Some kc) (Some pub) true = Ok m.
Proof.
  exists E0, (now0 * 1000000), st0, remove_sealed, remove_passed, prov_key, conc_key, (pub req_key), remove_got. split; [exact toy_ok|].
  split; [vm_compute; reflexivity|]. split; [vm_compute; reflexivity|]. split; [eexists; vm_compute; reflexivity|vm_compute; reflexivity].
Qed.
Print Assumptions C98_encrypted_for_me_refuted.
(** the hypotheses of the theorem hold of it *)
Example C98_ex :
  load_as prov_key remove_sealed = Ok remove_got /\ (exists ty ts sig a, remove_got = VMsg MRemoveTask ty ts (VBool true) sig a) /\
  rnd_ok toy (rnd0 x77) /\ secret_of toy conc_key = Some conc_key /\ pub_of toy conc_key = Some (pub conc_key) /\ conc_key <> [] /\
  fst (encrypt toy (fun _ => 100) (erun toy (fun _ => 100) [] st0) 0 remove_clear (pub conc_key) [] (rnd0 x77)) = Ok remove_again.
Proof.
  split; [vm_compute; reflexivity|]. split; [do 4 eexists; reflexivity|]. split; [split; reflexivity|]. split; [reflexivity|]. split; [reflexivity|]. split; [discriminate|vm_compute; reflexivity].
Qed.
(** and of a Hello, which is never encrypted by its sender *)
Definition hello_again : bytes := Eval vm_compute in
  Samples.get [] (fst (encrypt toy (fun _ => 100) st0 0 (skipn 65 (body MHello (dump0 ex_hello))) (pub conc_key) [] (rnd0 x77))).
Example C98_ex_hello :
  let sent := dump0 ex_hello in let passed := firstn 10 sent ++ [x01] ++ firstn 65 (skipn 11 sent) ++ hello_again ++ tail_of MHello sent in
  match load E0 (now0 * 1000000) st0 0 sent None None true, load E0 (now0 * 1000000) st0 0 passed (Some conc_key) None true with
  | Ok (VMsg c ty ts f sig a), Ok m => c = MHello /\ f = VBool false /\ m = VMsg c ty ts (VBool true) sig a
  | _, _ => False
  end.
Proof. vm_compute. repeat split. Qed.
