(** * A signature of a task header and a signature of a message (C34): lemmas. *)
From Verif Require Export SignFacts FrameFacts DataFacts.
Local Open Scope Z_scope.

(** [x] and [y] are a collision of the hash [f] *)
Definition clash (f : bytes -> bytes) (x y : bytes) : Prop := x <> y /\ f x = f y.

Lemma head_map n h : enc_head 5 n = Some h -> exists x r, h = x :: r /\ 160 <= b2z x.
Proof.
  unfold enc_head. destruct (n <? 0) eqn:N; [discriminate|].
  destruct (n <? 24) eqn:N1. { intros H. apply Some_inj in H. subst h. eexists _, _. split; [reflexivity|]. rewrite b2z_z2b by lia. lia. }
  destruct (n <? 2 ^ 8). { intros H. apply Some_inj in H. subst h. eexists _, _. split; [reflexivity|]. rewrite b2z_z2b by lia. lia. }
  destruct (n <? 2 ^ 16). { intros H. apply Some_inj in H. subst h. eexists _, _. split; [reflexivity|]. rewrite b2z_z2b by lia. lia. }
  destruct (n <? 2 ^ 32). { intros H. apply Some_inj in H. subst h. eexists _, _. split; [reflexivity|]. rewrite b2z_z2b by lia. lia. }
  destruct (n <? 2 ^ 64). { intros H. apply Some_inj in H. subst h. eexists _, _. split; [reflexivity|]. rewrite b2z_z2b by lia. lia. }
  discriminate.
Qed.
Lemma oapp_some a b r : oapp a b = Some r -> exists x y, a = Some x /\ b = Some y /\ r = x ++ y.
Proof. destruct a as [x|], b as [y|]; cbn [oapp]; try discriminate. intros H. apply Some_inj in H. subst r. eauto. Qed.
Lemma map_bytes d kvs b : dumps (VDict d kvs) = Ok b -> exists x r, b = x :: r /\ 160 <= b2z x.
Proof.
  unfold dumps. destruct (enc (VDict d kvs)) as [b'|] eqn:E; [|discriminate]. intros H. apply Ok_inj in H. subst b'.
  cbn [enc] in E. apply oapp_some in E as (h & t & Eh & _ & ->). destruct (head_map _ _ Eh) as (x & r & -> & Hx).
  exists x, (r ++ t). auto.
Qed.
Lemma two_bytes x y b : dumps (VList [x; y]) = Ok b -> exists r, b = z2b 130 :: r.
Proof.
  unfold dumps. destruct (enc (VList [x; y])) as [b'|] eqn:E; [|discriminate]. intros H. apply Ok_inj in H. subst b'.
  cbn [enc] in E. apply oapp_some in E as (h & t & Eh & _ & ->). change (Some [z2b 130] = Some h) in Eh. apply Some_inj in Eh. subst h.
  exists t. reflexivity.
Qed.
Lemma apart d kvs x y b h p : dumps (VDict d kvs) = Ok b -> dumps (VList [x; y]) = Ok h -> b <> h ++ p.
Proof.
  intros Hb Hh E. destruct (map_bytes _ _ _ Hb) as (z & r & Eb & Hz). destruct (two_bytes _ _ _ Hh) as (r' & ->). rewrite Eb in E.
  cbn [app] in E. injection E as E _. subst z. rewrite b2z_z2b in Hz by lia. lia.
Qed.
Lemma header_hash_ok C a h : header_hash C a = Ok h -> exists kvs b, to_dict (VObj CTaskHeader a) = Ok (VDict DPlain kvs) /\
  dumps (VDict DPlain (filter (fun kv => negb (py_eq (fst kv) (VStr (u "signature")))) kvs)) = Ok b /\ h = sha1 C b.
Proof.
  unfold header_hash. intros H. apply bind_ok in H as (kvs & Hk & H). apply bind_ok in H as (b & Hb & H). apply Ok_inj in H.
  exists kvs, b. split; [cbn [to_dict]; rewrite Hk; reflexivity|]. split; [exact Hb|auto].
Qed.
Lemma not_both E a c ty ts enc b p : crypto_ok (cr E) -> header_verify (cr E) a (VBytes p) = Ok tt ->
  verify_signature E (VMsg c ty ts enc (attr_get_or_none "signature" a) b) (VBytes p) = Ok tt ->
  exists sg kvs bh d s pl hm, attr_get_or_none "signature" a = VBytes sg /\
    to_dict (VObj CTaskHeader a) = Ok (VDict DPlain kvs) /\
    dumps (VDict DPlain (filter (fun (kv : pyval * pyval) => negb (py_eq (fst kv) (VStr (u "signature")))) kvs)) = Ok bh /\
    dumps (VList [ty; ts]) = Ok d /\ slots c b = Ok s /\ dumps s = Ok pl /\
    short_hash E (VMsg c ty ts enc (VBytes sg) b) = Ok hm /\
    (clash (sha1 (cr E)) bh (d ++ pl) \/ clash (sha3_256 (cr E)) (sha1 (cr E) bh) hm \/
     sha3_256 (cr E) (sha1 (cr E) bh) <> sha3_256 (cr E) hm /\
     recover (cr E) sg (sha3_256 (cr E) (sha1 (cr E) bh)) = Some (x04 :: p) /\ recover (cr E) sg (sha3_256 (cr E) hm) = Some (x04 :: p)).
Proof.
  intros HC Hh Hm.
  cbn [verify_signature] in Hm. apply bind_ok in Hm as (hm & Sm & Hm). apply ecdsa_verify_ok in Hm as (L & sg & Es & Rm).
  apply header_verify_iff in Hh; [|exact L]. destruct Hh as (sg' & h & Es' & Sh & Rh). rewrite Es in Es'.
  assert (sg' = sg) by congruence. subst sg'. rewrite Es in Sm.
  destruct (header_hash_ok _ _ _ Sh) as (kvs & bh & K1 & K2 & ->).
  destruct (short_hash_ok _ _ _ _ _ _ _ _ Sm) as (s & d & pl & S1 & S2 & S3 & NH & IH).
  exists sg, kvs, bh, d, s, pl, hm. split; [exact Es|]. split; [exact K1|]. split; [exact K2|]. split; [exact S3|].
  split; [exact S1|]. split; [exact S2|]. split; [exact Sm|].
  pose proof (apart _ _ _ _ _ _ pl K2 S3) as N.
  destruct (list_eq_dec byte_eq_dec (sha1 (cr E) bh) hm) as [X|X].
  - left. split; [exact N|]. destruct (mcls_eq_dec c MHello) as [-> | NC]; [|rewrite <- (NH NC); exact X].
    destruct (IH eq_refl) as (v & _ & ->). assert (Lv : List.length v = 0%nat).
    { apply (f_equal (@List.length byte)) in X. rewrite app_length in X. rewrite !(sha1_len _ HC) in X. lia. }
    destruct v; [|discriminate Lv]. rewrite app_nil_r in X. exact X.
  - right. destruct (list_eq_dec byte_eq_dec (sha3_256 (cr E) (sha1 (cr E) bh)) (sha3_256 (cr E) hm)) as [Y|Y].
    + left. split; assumption.
    + right. auto.
Qed.
