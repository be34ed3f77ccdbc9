(** * C91: receiving frames one after the other *)
From Verif Require Import Replay EciesProofs Samples.

(** every frame that arrives gets the result it would get as the first thing a fresh
    process does, whatever arrived or was encrypted and decrypted before *)
Theorem C91_each :
  forall E timeout created created' evs, crypto_ok (cr E) -> Forall (event_ok E) evs ->
  receive E timeout (init_state created) evs =
  flat_map (fun e => match e with
                     | Arrives now mgr data sk pk ct => [load E now (init_state created') mgr data sk pk ct]
                     | Uses _ => []
                     end) evs.
Proof.
  intros E timeout created created' evs HC F. exact (received E timeout HC created' evs _ (einv_init (cr E) created) F).
Qed.
Print Assumptions C91_each.
(** loading depends on the decrypting function through one call at most, the one the
    caches are changed by *)
Theorem C91_one_decryption :
  forall E now msg f g ct pub, (forall p, decrypted_part E now msg ct = Some p -> f p = g p) ->
  deserialize E now msg f ct pub = deserialize E now msg g ct pub.
Proof. exact only_part. Qed.
Print Assumptions C91_one_decryption.
(** and that call is really made: if it fails, so does loading *)
Theorem C91_decryption_made :
  forall E now msg f ct pub p e, decrypted_part E now msg ct = Some p -> f p = Err e ->
  deserialize E now msg f ct pub = Err (if is_message_error e then e else EDecryptionError).
Proof. exact part_reached. Qed.
Print Assumptions C91_decryption_made.
(** a frame that was accepted once is accepted again, as the same message, from five
    minutes before its timestamp to ten minutes after it and at no other time *)
Theorem C91_again :
  forall E now msg f pub m, deserialize E now msg f true pub = Ok m ->
  exists c ty ts enc sig a, m = VMsg c ty (VInt ts) enc sig a /\ forall now',
  deserialize E now' msg f true pub =
    if ts * 1000000 <? now' - 600000000 then Err EMessageTooOldError
    else if now' + 300000000 <? ts * 1000000 then Err EMessageFromFutureError else Ok m.
Proof. exact again. Qed.
Print Assumptions C91_again.
(** so it is one message, accepted for at most a quarter of an hour *)
Theorem C91_span :
  forall E now now' msg f pub m m', deserialize E now msg f true pub = Ok m -> deserialize E now' msg f true pub = Ok m' ->
  m = m' /\ Z.abs (now - now') <= 900000000.
Proof. exact span. Qed.
Print Assumptions C91_span.
(** without the check of the time it is accepted at any time *)
Theorem C91_unchecked :
  forall E now now' msg f pub, deserialize E now msg f false pub = deserialize E now' msg f false pub.
Proof. reflexivity. Qed.
Print Assumptions C91_unchecked.
(** a process sending a frame to [p], then receiving it twice, with other uses of the
    caches in between *)
Definition rp_rnd (b : byte) (now : Z) : rnd := {| r_ephem := repeat b 32; r_iv := repeat x0c 16; r_now1 := now; r_now2 := now |}.
Definition rp_frame : bytes := Eval vm_compute in
  get [] (snd (dump E0 (fun _ => 100) (init_state (fun _ => 0)) 0 (rp_rnd x05 10) ex_rct None (Some (pub req_key)))).
Definition rp_arrives (d : Z) : event :=
  Arrives ((now0 + d) * 1000000) 0 rp_frame (Some req_key) (Some (pub prov_key)) true.
Definition rp_events : list event :=
  [rp_arrives (-291); rp_arrives (-290); Uses (OpEncrypt 0 [x01; x02] (pub conc_key) [] (rp_rnd x06 20));
   rp_arrives 610; Uses (OpDecrypt 0 rp_frame req_key []); rp_arrives 611].
Definition rp_outcomes : list (option exn) :=
  Eval vm_compute in map (fun r => match r with Ok _ => None | Err e => Some e end) (receive E0 (fun _ => 100) (init_state (fun _ => 0)) rp_events).
Example C91_ex : crypto_ok (cr E0) /\ Forall (event_ok E0) rp_events /\ nth 10 rp_frame x00 <> x00 /\
  rp_outcomes = [Some EMessageFromFutureError; None; None; Some EMessageTooOldError].
Proof.
  split; [exact toy_ok|]. split; [|split; [vm_compute; discriminate|reflexivity]].
  repeat constructor.
Qed.
(** nothing keeps a frame from being delivered twice: encrypted, signed and with its
    time checked, it arrives as the same message fifteen minutes apart *)
Theorem C91_once_refuted :
  exists E timeout created now now' mgr data sk pk m, crypto_ok (cr E) /\ now' = now + 900000000 /\
  (exists p, decrypted_part E now data true = Some p) /\
  receive E timeout (init_state created) [Arrives now mgr data (Some sk) (Some pk) true; Arrives now' mgr data (Some sk) (Some pk) true] = [Ok m; Ok m].
Proof.
  exists E0, (fun _ => 100), (fun _ => 0), ((now0 - 290) * 1000000), ((now0 + 610) * 1000000), 0%nat, rp_frame, req_key, (pub prov_key).
  eexists. split; [exact toy_ok|]. split; [reflexivity|]. split; [eexists; vm_compute; reflexivity|]. vm_compute. reflexivity.
Qed.
Print Assumptions C91_once_refuted.
