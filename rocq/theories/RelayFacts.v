(** * Relaying a Hello (C59): lemmas. *)
From Verif Require Export CleanFacts.

(** ** An accepted version is ASCII *)
Definition FFFD : Z := 65533.
Lemma take_while_keeps f s a b : f FFFD = false -> take_while f s = (a, b) -> In FFFD s -> In FFFD b.
Proof.
  intros N H I. apply take_while_spec in H as (-> & F & _). apply in_app_or in I as [I|I]; [|exact I].
  rewrite forallb_forall in F. rewrite (F _ I) in N. discriminate N.
Qed.
Lemma ver_num_keeps s n r : ver_num s = Some (n, r) -> In FFFD s -> In FFFD r.
Proof.
  unfold ver_num. destruct (take_while is_decimal s) as [d b] eqn:T. intros H I. apply (take_while_keeps _ _ _ _ eq_refl T) in I.
  destruct d as [|x d]; [discriminate|]. destruct (leading_zero (x :: d)); [discriminate|]. congruence.
Qed.
Lemma ver_char_keeps c s r : c <> FFFD -> ver_char c s = Some r -> In FFFD s -> In FFFD r.
Proof.
  intros N. destruct s as [|x s]; cbn [ver_char]; [discriminate|]. destruct (Z.eqb_spec x c) as [->|]; [|discriminate]. intros H [I|I]; congruence.
Qed.
Lemma ver_group_keeps c ok s g r : c <> FFFD -> ver_group c ok s = Some (g, r) -> In FFFD s -> In FFFD r.
Proof.
  intros N. unfold ver_group. destruct (ver_char c s) as [t|] eqn:Q; [|congruence]. intros H I. apply (ver_char_keeps _ _ _ N Q) in I.
  destruct (take_while is_run t) as [d b] eqn:T. apply (take_while_keeps _ _ _ _ eq_refl T) in I.
  destruct d as [|x d]; [discriminate|]. cbv zeta in H. destruct (forallb ok (split_on 46 (x :: d))); [congruence|discriminate].
Qed.
Lemma parsed_no_fffd s v : ver_parse s = Some v -> ~ In FFFD s.
Proof.
  intros H I. unfold ver_parse in H.
  destruct (ver_num s) as [[n1 s1]|] eqn:Q1; [|discriminate]. apply (ver_num_keeps _ _ _ Q1) in I.
  destruct (ver_char 46 s1) as [s2|] eqn:Q2; [|discriminate]. apply (ver_char_keeps 46 _ _ ltac:(discriminate) Q2) in I.
  destruct (ver_num s2) as [[n3 s3]|] eqn:Q3; [|discriminate]. apply (ver_num_keeps _ _ _ Q3) in I.
  destruct (ver_char 46 s3) as [s4|] eqn:Q4; [|discriminate]. apply (ver_char_keeps 46 _ _ ltac:(discriminate) Q4) in I.
  destruct (ver_num s4) as [[n5 s5]|] eqn:Q5; [|discriminate]. apply (ver_num_keeps _ _ _ Q5) in I.
  destruct (ver_group 45 pre_ok s5) as [[g6 s6]|] eqn:Q6; [|discriminate]. apply (ver_group_keeps 45 _ _ _ _ ltac:(discriminate) Q6) in I.
  destruct (ver_group 43 build_ok s6) as [[g7 s7]|] eqn:Q7; [|discriminate]. apply (ver_group_keeps 43 _ _ _ _ ltac:(discriminate) Q7) in I.
  destruct s7 as [|x [|y s7]]; cbn [ver_end] in H; [destruct I| |discriminate].
  destruct I as [->|[]]. unfold FFFD in H. cbn in H. discriminate H.
Qed.
Lemma accepted_ascii ours v : verify_version ours v = Ok tt -> (forall x, In x v -> 0 <= x < 128 \/ x = 65533) -> Forall (fun x => 0 <= x < 128) v.
Proof.
  intros H A. unfold verify_version in H. destruct (ver_parse v) as [w|] eqn:P; [|discriminate]. apply parsed_no_fffd in P.
  apply Forall_forall. intros x I. destruct (A x I) as [B|B]; [exact B|]. subst x. elim (P I).
Qed.

(** ** One hop *)
(** the receiver accepts the version of a Hello *)
Definition gate (E : env) (m : pyval) : Prop :=
  match m with VMsg MHello _ _ _ _ a => forall v, attr_get "_version" a = Some (VStr v) -> verify_version (our_version E) v = Ok tt | _ => True end.
Lemma relay_whole E E1 E2 now bs decf ct pub c ty ts enc sg a0 m' bs' now' ct' decf' pub' :
  cr E1 = cr E -> cr E2 = cr E -> crypto_ok (cr E) ->
  deserialize E now bs decf ct pub = Ok (VMsg c ty ts enc (VBytes sg) a0) -> complete (VMsg c ty ts enc (VBytes sg) a0) = true ->
  List.length sg = 65%nat -> gate E2 (VMsg c ty ts enc (VBytes sg) a0) ->
  (forall s, slots c a0 = Ok s -> wirewf s = true /\ (vdepth s < cdepth E2)%nat) ->
  serialize E1 (VMsg c ty ts enc (VBytes sg) a0) None None = (m', Ok bs') ->
  (forall t, ts = VInt t -> ct' = true -> now' - 600000000 <= t * 1000000 <= now' + 300000000) ->
  (forall k, pub' = Some k -> k <> [] -> signs c = true -> verify_signature E1 m' (VBytes k) = Ok tt) ->
  deserialize E2 now' bs' decf' ct' pub' = Ok (VMsg c ty ts (VBool false) (VBytes sg) a0).
Proof.
  intros HE1 HE2 HC HD HCo L G W HS Hct HV. destruct (mcls_eq_dec c MHello) as [->|NH]; [|exact (relay E E1 E2 now bs decf ct pub c ty ts enc (VBytes sg) a0 m' bs' now' ct' decf' pub' HE1 HE2 HC HD HCo NH W HS Hct HV)].
  destruct (received_ok _ _ _ _ _ _ _ _ _ _ _ _ HD HCo) as (t & enc' & sig' & v & a & -> & -> & -> & Q & -> & M & MW & T & _ & Hg & _).
  assert (sig' = sg) by congruence. subst sig'. clear Q. destruct (Hg eq_refl) as (_ & A & Lv).
  assert (Hf : map fst a = slot_names MHello) by (apply mok_good in M; apply M).
  rewrite (slots_full _ _ _ Hf) in W. pose proof (version_not_slot MHello) as N. rewrite <- Hf in N.
  assert (V : verify_version (our_version E2) v = Ok tt) by (apply G; cbn [full]; apply attr_get_last; exact N).
  rewrite (trip_same E1 E2 now' MHello t (VBool enc') (VBytes sg) v a None None m' bs' ct' decf' pub'); try assumption; try congruence.
  - pose proof (serialize_msg _ _ _ _ _ _ _ _ _ _ _ HS) as Em. cbn [given] in Em. rewrite andb_false_r in Em.
    assert (Es : sig_of m' = VBytes sg).
    { apply serialize_ok in HS as (h & s1 & payload1 & p1 & v1 & -> & _ & _ & _ & _ & _ & Q & _). rewrite Q by discriminate. reflexivity. }
    rewrite Es in Em. rewrite Em. reflexivity.
  - intros Hc. apply Hct; [reflexivity|exact Hc].
  - intros _. split; [exact (accepted_ascii _ _ V A)|]. split; [exact Lv|exact V].
Qed.

(** ** Any number of hops *)
Definition hop_takes (E : env) (m : pyval) (h : hop) : Prop := hop_fits E m h /\ gate (h_to h) m.
Lemma gate_flag E c ty ts e e' sig a : gate E (VMsg c ty ts e sig a) -> gate E (VMsg c ty ts e' sig a).
Proof. intros G. exact G. Qed.
Lemma pass_whole E hs : crypto_ok (cr E) -> forall E0 now bs decf ct pub c ty ts enc sg a0, cr E0 = cr E ->
  deserialize E0 now bs decf ct pub = Ok (VMsg c ty ts enc (VBytes sg) a0) -> complete (VMsg c ty ts enc (VBytes sg) a0) = true ->
  List.length sg = 65%nat -> (forall s, slots c a0 = Ok s -> vsize s < 2 ^ 64) -> Forall (hop_takes E (VMsg c ty ts enc (VBytes sg) a0)) hs ->
  pass (VMsg c ty ts enc (VBytes sg) a0) hs = Ok (VMsg c ty ts (match hs with [] => enc | _ => VBool false end) (VBytes sg) a0).
Proof.
  intros HC. induction hs as [|h r IH]; intros E0 now bs decf ct pub c ty ts enc sg a0 HE HD Hc L S F; [reflexivity|].
  inversion F as [|? ? [F1 G1] F2]; subst. destruct F1 as (P1 & P2 & P3 & P4 & P5).
  destruct (resend E0 (h_from h) _ _ _ _ _ _ _ _ _ _ _ HD Hc) as (s & Hs & W & HS). destruct (HS (S _ Hs)) as [bs' Hb].
  assert (HD' : deserialize (h_to h) (h_now h) bs' (h_dec h) (h_check h) (h_pub h) = Ok (VMsg c ty ts (VBool false) (VBytes sg) a0)).
  { apply (relay_whole E0 (h_from h) (h_to h) now bs decf ct pub c ty ts enc sg a0 (VMsg c ty ts (VBool false) (VBytes sg) a0)); try assumption; try congruence.
    intros s' Hs'. split; [congruence|apply P3; exact Hs']. }
  cbn [pass]. rewrite Hb. cbn [snd bind]. rewrite HD'. cbn [bind].
  rewrite (IH _ _ _ _ _ _ _ _ _ _ _ _ P2 HD' Hc L S); [destruct r; reflexivity|exact F2].
Qed.
