(** * A message passed on to someone it was not sent to *)
From Verif Require Export TamperFacts.

(** what [load] accepts as a Hello has a whole signature and a payload *)
Lemma hello_long E now st mgr msg k pub chk ty ts f sig a : load E now st mgr msg k pub chk = Ok (VMsg MHello ty ts (VBool f) sig a) -> (108 < List.length msg)%nat.
Proof.
  unfold load. intros H. pose proof H as D. apply deserialize_ok in D as (_ & y & z & e & c1 & _ & _ & _ & _ & D). pose proof D as D1.
  apply class_load_msg in D1 as (s & b & Q). assert (c1 = MHello /\ e = f) as [-> ->] by (split; congruence). clear Q.
  apply class_load_hello in D as (v & _ & _ & D). apply base_load_ok in D as (p & s' & _ & _ & Hp & Hs & _).
  destruct (Nat.ltb_spec 108 (List.length msg)) as [G|G]; [exact G|]. exfalso.
  assert (N : forall d : bytes, (List.length d <= 97)%nat -> skipn 65 (body' MHello d) = []).
  { intros d Ld. apply skipn_all2. cbn [body']. rewrite firstn_length. lia. }
  change (firstn (List.length (skipn 11 msg) - 32) (skipn 11 msg)) with (body' MHello (skipn 11 msg)) in Hp.
  rewrite N in Hp by (rewrite skipn_length; lia).
  assert (E0 : p = []).
  { unfold decrypted in Hp. destruct f; [|congruence]. destruct k as [[|x k]|]; cbn [load_decrypt] in Hp; try congruence. unfold decrypt in Hp. cbn in Hp. discriminate Hp. }
  subst p. unfold loads in Hs. destruct (cdepth E); discriminate Hs.
Qed.
Lemma slice_last_skip n k (m : bytes) : (n + k <= List.length m)%nat -> slice_last n (skipn k m) = slice_last n m.
Proof. intros L. unfold slice_last. rewrite skipn_skipn', skipn_length. f_equal. lia. Qed.
Lemma firstn_body c (msg : bytes) : (c = MHello -> 108 < List.length msg)%nat -> firstn 65 (body c msg) = firstn 65 (skipn 11 msg).
Proof.
  intros L. destruct (mcls_eqb c MHello) eqn:Q.
  - apply mcls_eqb_eq in Q. subst c. specialize (L eq_refl). cbn [body]. rewrite firstn_firstn. f_equal. lia.
  - destruct c; reflexivity || discriminate Q.
Qed.
(** the version field of a Hello *)
Definition tail_of (c : mcls) (msg : bytes) : bytes := match c with MHello => slice_last 32 msg | _ => [] end.
Lemma passed_on E timeout created created' created'' before here after now mgr m1 m2 msg kb pub chk c ty ts f sig a kc sc pc r :
  crypto_ok (cr E) -> Forall (eop_ok (cr E)) here -> Forall (eop_ok (cr E)) after -> rnd_ok (cr E) r ->
  kc <> [] -> secret_of (cr E) kc = Some sc -> pub_of (cr E) sc = Some pc ->
  load E now (erun (cr E) timeout before (init_state created)) mgr msg kb pub chk = Ok (VMsg c ty ts (VBool f) sig a) ->
  exists payload p,
    decrypted (load_decrypt E (erun (cr E) timeout before (init_state created)) mgr kb) f (skipn 65 (body c msg)) = Ok payload /\
    fst (encrypt (cr E) timeout (erun (cr E) timeout here (init_state created')) m1 payload pc [] r) = Ok p /\
    load E now (erun (cr E) timeout after (init_state created'')) m2 (firstn 10 msg ++ [x01] ++ firstn 65 (skipn 11 msg) ++ p ++ tail_of c msg) (Some kc) pub chk =
      Ok (VMsg c ty ts (VBool true) sig a).
Proof.
  intros HC Fh Fa Hr Nk Hs Hp H.
  assert (LH : c = MHello -> (108 < List.length msg)%nat) by (intros ->; exact (hello_long _ _ _ _ _ _ _ _ _ _ _ _ _ H)).
  unfold load in *.
  assert (P : exists payload, decrypted (load_decrypt E (erun (cr E) timeout before (init_state created)) mgr kb) f (skipn 65 (body c msg)) = Ok payload).
  { pose proof H as D. apply deserialize_ok in D as (_ & y & z & e & c1 & _ & _ & _ & _ & D). pose proof D as D1.
    apply class_load_msg in D1 as (s & b & Q). assert (c1 = c /\ e = f) as [-> ->] by (split; congruence). clear Q. rewrite <- body_skip.
    destruct (mcls_eqb c MHello) eqn:QH.
    - apply mcls_eqb_eq in QH. subst c. apply class_load_hello in D as (v & _ & _ & D). apply base_load_ok in D as (p & _ & _ & _ & D & _). eauto.
    - assert (N : c <> MHello) by (intros ->; discriminate QH). rewrite class_load_split in D by exact N. apply bind_ok in D as (m & D & _).
      apply base_load_ok in D as (p & _ & _ & _ & D & _). replace (body' c (skipn 11 msg)) with (skipn 11 msg) by (destruct c; reflexivity || congruence). eauto. }
  destruct P as (payload & P). exists payload.
  assert (Ih : einv (cr E) (erun (cr E) timeout here (init_state created'))) by (apply (erun_inv _ HC timeout); auto; apply einv_init).
  assert (Ia : einv (cr E) (erun (cr E) timeout after (init_state created''))) by (apply (erun_inv _ HC timeout); auto; apply einv_init).
  destruct (encrypt_total (cr E) HC timeout _ m1 payload kc sc pc [] r Ih Hr Hs Hp) as (p & Ep & Lp). exists p. split; [exact P|]. split; [exact Ep|].
  assert (Dp : load_decrypt E (erun (cr E) timeout after (init_state created'')) m2 (Some kc) p = Ok payload).
  { destruct kc as [|x kc]; [congruence|]. cbn [load_decrypt]. exact (roundtrip (cr E) HC timeout _ _ m1 m2 payload _ _ _ [] r p Ih Ia Hr Hs Hp Ep). }
  assert (Np : p <> []) by (intros ->; cbn in Lp; lia).
  pose proof (sealed_accepted E now msg _ (load_decrypt E (erun (cr E) timeout after (init_state created'')) m2 (Some kc)) chk pub c ty ts f sig a x01 p payload
    ltac:(discriminate) Np H P (fun e => Nat.lt_le_incl _ _ (LH e)) Dp) as Z.
  assert (T : sealed c msg x01 p = firstn 10 msg ++ [x01] ++ firstn 65 (skipn 11 msg) ++ p ++ tail_of c msg).
  { unfold sealed. rewrite (firstn_body c msg LH). do 4 apply f_equal. destruct (mcls_eqb c MHello) eqn:QH.
    - apply mcls_eqb_eq in QH. subst c. specialize (LH eq_refl). cbn [tail_of]. apply slice_last_skip. lia.
    - destruct c; reflexivity || discriminate QH. }
  rewrite T in Z. exact Z.
Qed.
