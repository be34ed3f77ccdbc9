(** * C92: how far the clocks of sender and receiver may be apart *)
From Verif Require Import Clocks FrameFacts Samples.

(** a message built when the sender's clock shows [a] microseconds and loaded when the
    receiver's shows [b]: from 300 s before to 599.000001 s after, checking the time
    changes nothing, whatever the message, the keys and the encryption *)
Theorem C92_guaranteed :
  forall E E' a c kw m key encf m' bs b decf pub, crypto_ok (cr E) ->
  msg_init E (a / 1000000) c None VNone (VList []) kw = Ok m -> serialize E m key encf = (m', Ok bs) ->
  (76 < List.length bs)%nat -> 1262304000 < a / 1000000 < 32819212800 ->
  -300000000 <= b - a <= 599000001 ->
  deserialize E' b bs decf true pub = deserialize E' b bs decf false pub.
Proof.
  intros E E' a c kw m key encf m' bs b decf pub HC M S L R D. rewrite (sent_at _ _ _ _ _ _ _ _ _ _ b decf pub HC M S L R). pose proof (whole a).
  destruct (Z.ltb_spec 600000000 (b - a / 1000000 * 1000000)); [lia|]. destruct (Z.ltb_spec (b - a / 1000000 * 1000000) (-300000000)); [lia|]. reflexivity.
Qed.
Print Assumptions C92_guaranteed.
(** more than 600 s after it is too old, more than 300.999999 s before from the future *)
Theorem C92_refused :
  forall E E' a c kw m key encf m' bs b decf pub, crypto_ok (cr E) ->
  msg_init E (a / 1000000) c None VNone (VList []) kw = Ok m -> serialize E m key encf = (m', Ok bs) ->
  (76 < List.length bs)%nat -> 1262304000 < a / 1000000 < 32819212800 ->
  (600000000 < b - a -> deserialize E' b bs decf true pub = Err EMessageTooOldError) /\
  (b - a < -300999999 -> deserialize E' b bs decf true pub = Err EMessageFromFutureError).
Proof.
  intros E E' a c kw m key encf m' bs b decf pub HC M S L R. rewrite (sent_at _ _ _ _ _ _ _ _ _ _ b decf pub HC M S L R). pose proof (whole a).
  destruct (Z.ltb_spec 600000000 (b - a / 1000000 * 1000000)); [split; [reflexivity|lia]|].
  destruct (Z.ltb_spec (b - a / 1000000 * 1000000) (-300000000)); (split; [lia|]); [reflexivity|lia].
Qed.
Print Assumptions C92_refused.
(** in between it depends on the fraction of the second the message was built in *)
Theorem C92_tight :
  forall d, (599000001 < d <= 600000000 -> exists a a', verify_time (a + d) (a / 1000000) = Ok tt /\ verify_time (a' + d) (a' / 1000000) = Err EMessageTooOldError) /\
  (-300999999 <= d < -300000000 -> exists a a', verify_time (a + d) (a / 1000000) = Ok tt /\ verify_time (a' + d) (a' / 1000000) = Err EMessageFromFutureError).
Proof.
  intros d. set (k := 1600000000).
  assert (Q : (k * 1000000) / 1000000 = k) by reflexivity. assert (Q' : (k * 1000000 + 999999) / 1000000 = k) by reflexivity.
  split; intros D.
  - exists (k * 1000000), (k * 1000000 + 999999). rewrite Q, Q'. split; [apply verify_time_iff; unfold k; lia|].
    destruct (verify_time (k * 1000000 + 999999 + d) k) as [[]|e] eqn:V.
    + apply verify_time_iff in V. unfold k in V. lia.
    + apply verify_time_err in V as [[_ V]|[[-> _]|[_ V]]]; [unfold k in V; lia|reflexivity|unfold k in V; lia].
  - exists (k * 1000000 + 999999), (k * 1000000). rewrite Q, Q'. split; [apply verify_time_iff; unfold k; lia|].
    destruct (verify_time (k * 1000000 + d) k) as [[]|e] eqn:V.
    + apply verify_time_iff in V. unfold k in V. lia.
    + apply verify_time_err in V as [[_ V]|[[_ V]|[-> _]]]; [unfold k in V; lia|unfold k in V; lia|reflexivity].
Qed.
Print Assumptions C92_tight.
(** the docstring of [verify_time] says that microseconds are ignored: they are not,
    two readings of the clock in the same second can differ *)
Theorem C92_whole_seconds_refuted :
  exists now now' ts, now / 1000000 = now' / 1000000 /\ verify_time now ts = Ok tt /\ verify_time now' ts = Err EMessageTooOldError.
Proof. exists 1600000600000000, 1600000600000001, 1600000000. repeat split; vm_compute; reflexivity. Qed.
Print Assumptions C92_whole_seconds_refuted.

Definition ck_at (a : Z) : pyval := get VNone (msg_init E0 (a / 1000000) MRemoveTask None VNone (VList []) [("task_id", ex_task_id)]%string).
Definition ck_frame : bytes := Eval vm_compute in get [] (snd (serialize E0 (ck_at 1600000000500000) (Some req_key) None)).
Example C92_ex : crypto_ok (cr E0) /\ msg_init E0 (1600000000500000 / 1000000) MRemoveTask None VNone (VList []) [("task_id", ex_task_id)]%string = Ok (ck_at 1600000000500000) /\
  snd (serialize E0 (ck_at 1600000000500000) (Some req_key) None) = Ok ck_frame /\ (76 < List.length ck_frame)%nat /\
  map (fun d => match deserialize E0 (1600000000500000 + d) ck_frame (fun b => Ok b) true (Some (pub req_key)) with Ok _ => None | Err e => Some e end)
    [-301000000; -300500001; -300500000; 0; 599000001; 599500000; 599500001; 600000001] =
  [Some EMessageFromFutureError; Some EMessageFromFutureError; None; None; None; None; Some EMessageTooOldError; Some EMessageTooOldError].
Proof.
  split; [exact toy_ok|]. split; [vm_compute; reflexivity|]. split; [vm_compute; reflexivity|]. split; [|vm_compute; reflexivity].
  apply Nat.ltb_lt. vm_compute. reflexivity.
Qed.
