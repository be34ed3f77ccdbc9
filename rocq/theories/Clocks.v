(** * Clocks of the sender and the receiver.
    message/base.py 131-139: the header of a new message has the sender's clock in
    whole seconds ([calendar.timegm(time.gmtime())]); 28-53: the receiver compares it
    with its own clock in microseconds. *)
From Verif Require Export Wire.
From Verif Require Import FrameFacts HashFacts.

Lemma msg_init_time E t c sig s kw m : msg_init E t c None sig s kw = Ok m -> exists a, m = VMsg c (VInt (type_of c)) (VInt t) (VBool false) sig a.
Proof.
  unfold msg_init. destruct (load_attrs FUEL c s) as [a|]; [|discriminate]. cbn [bind].
  destruct (apply_kwargs (cr E) c kw a) as [a'|]; [|discriminate]. cbn [bind]. intros H. apply Ok_inj in H. subst m. eauto.
Qed.
(** a message built when the sender's clock showed [a] microseconds, loaded when the
    receiver's shows [b] *)
Lemma sent_at E E' a c kw m key encf m' bs b decf pub : crypto_ok (cr E) ->
  msg_init E (a / 1000000) c None VNone (VList []) kw = Ok m -> serialize E m key encf = (m', Ok bs) ->
  (76 < List.length bs)%nat -> 1262304000 < a / 1000000 < 32819212800 ->
  deserialize E' b bs decf true pub =
    if 600000000 <? b - a / 1000000 * 1000000 then Err EMessageTooOldError
    else if b - a / 1000000 * 1000000 <? -300000000 then Err EMessageFromFutureError
    else deserialize E' b bs decf false pub.
Proof.
  intros HC M S L R. destruct (msg_init_time _ _ _ _ _ _ _ M) as (at' & ->).
  destruct (frame_layout _ _ _ _ _ _ _ _ _ _ _ HC S ltac:(discriminate)) as (s & p & sl & sf & _ & _ & _ & _ & _ & _ & (n & N & U) & _).
  cbn [num_of] in N. assert (J : forall x y, Some (FFin x 0) = Some (FFin y 0) -> x = y) by (intros x y [= ->]; reflexivity).
  apply J in N. subst n. clear J.
  destruct (getitem library (type_of c)) as [d|e] eqn:G; [|destruct c; vm_compute in G; discriminate G].
  rewrite (deserialize_dispatch E' b bs decf true pub _ _ _ _ L U R G), (deserialize_dispatch E' b bs decf false pub _ _ _ _ L U R G).
  cbn [andb].
  replace (a / 1000000 * 1000000 <? b - 600000000) with (600000000 <? b - a / 1000000 * 1000000) by lia.
  replace (b + 300000000 <? a / 1000000 * 1000000) with (b - a / 1000000 * 1000000 <? -300000000) by lia. reflexivity.
Qed.
Lemma whole a : a - 999999 <= a / 1000000 * 1000000 <= a.
Proof. pose proof (Z.div_mod a 1000000 ltac:(lia)) as D. pose proof (Z.mod_pos_bound a 1000000 ltac:(lia)). lia. Qed.
