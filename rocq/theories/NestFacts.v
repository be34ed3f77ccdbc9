(** * What the hash of a message says about the messages nested in it (C07, C08) *)
From Verif Require Export TripFacts.

(** [slots()] lists the declared slots in order *)
Lemma slots_at c a s k : slots c a = Ok s -> In k (slot_names c) ->
  exists x l, s = VList l /\ assoc_or (Ok VNone) k (map (fun kv => (fst kv, ser_slot c (fst kv) (snd kv))) a) = Ok x /\
    exists i, nth_error l i = Some (VList [skey k; x]) /\ nth_error (slot_names c) i = Some k.
Proof.
  unfold slots, slot_list. set (e := map _ a). clearbody e. intros H Hk. apply bind_ok in H as (l & Hl & H). apply Ok_inj in H. subst s.
  rewrite collect_map in Hl. revert l Hl. induction (slot_names c) as [|k0 ks IH]; intros l Hl; [destruct Hk|].
  cbn [mapM] in Hl. apply bind_ok in Hl as (y & Hy & Hl). apply bind_ok in Hl as (l' & Hl' & Hl). apply Ok_inj in Hl. subst l.
  apply bind_ok in Hy as (x & Hx & Hy). apply Ok_inj in Hy. subst y. destruct Hk as [->|Hk].
  - exists x, (VList [skey k; x] :: l'). split; [reflexivity|]. split; [exact Hx|]. exists O. split; reflexivity.
  - destruct (IH Hk _ Hl') as (x' & l0 & Q & Hx' & i & Hi & Hn). assert (l0 = l') by congruence. subst l0.
    exists x', (VList [skey k0; x] :: l'). split; [reflexivity|]. split; [exact Hx'|]. exists (S i). split; assumption.
Qed.
Lemma nth_name_inj c i j k : nth_error (slot_names c) i = Some k -> nth_error (slot_names c) j = Some k -> i = j.
Proof.
  intros Hi Hj. pose proof (slot_names_NoDup c) as ND. rewrite NoDup_nth_error in ND. apply ND; [|congruence].
  apply nth_error_Some. congruence.
Qed.
Lemma norm_slots_at c a1 a2 s1 s2 k : slots c a1 = Ok s1 -> slots c a2 = Ok s2 -> norm s1 = norm s2 -> In k (slot_names c) ->
  exists x1 x2, assoc_or (Ok VNone) k (map (fun kv => (fst kv, ser_slot c (fst kv) (snd kv))) a1) = Ok x1 /\
    assoc_or (Ok VNone) k (map (fun kv => (fst kv, ser_slot c (fst kv) (snd kv))) a2) = Ok x2 /\ norm x1 = norm x2.
Proof.
  intros H1 H2 N Hk. destruct (slots_at _ _ _ _ H1 Hk) as (x1 & l1 & -> & X1 & i & I1 & J1). destruct (slots_at _ _ _ _ H2 Hk) as (x2 & l2 & -> & X2 & j & I2 & J2).
  exists x1, x2. split; [exact X1|]. split; [exact X2|]. assert (j = i) by (eapply nth_name_inj; eassumption). subst j.
  cbn [norm] in N. injection N as N. apply (map_nth_error norm) in I1, I2. rewrite N in I1. rewrite I1 in I2. apply Some_inj in I2. cbn [norm map] in I2. congruence.
Qed.
Lemma assoc_attr c (a : attrs_t) k : assoc_or (Ok VNone) k (map (fun kv => (fst kv, ser_slot c (fst kv) (snd kv))) a) =
  match attr_get k a with Some w => ser_slot c k w | None => Ok VNone end.
Proof.
  induction a as [|[k0 w] a IH]; [reflexivity|]. cbn [map assoc_or attr_get fst snd]. rewrite IH.
  destruct (String.eqb_spec k0 k) as [->|N]; reflexivity.
Qed.

(** the same message as far as its bytes can tell *)
Inductive agree : pyval -> pyval -> Prop :=
| agree_msg c ty1 ts1 enc1 sig1 a1 ty2 ts2 enc2 sig2 a2 s1 s2 :
    norm ty1 = norm ty2 -> norm ts1 = norm ts2 -> norm enc1 = norm enc2 -> norm sig1 = norm sig2 ->
    slots c a1 = Ok s1 -> slots c a2 = Ok s2 -> norm s1 = norm s2 ->
    agree (VMsg c ty1 ts1 enc1 sig1 a1) (VMsg c ty2 ts2 enc2 sig2 a2).
Lemma agree_wire d k m1 m2 x1 x2 : ser_single wire d k m1 = Ok x1 -> ser_single wire d k m2 = Ok x2 -> norm x1 = norm x2 -> agree m1 m2.
Proof.
  intros H1 H2 N. destruct m1 as [| | | | | | | | | | | |c1 ty1 ts1 e1 g1 a1|]; try discriminate H1. destruct m2 as [| | | | | | | | | | | |c2 ty2 ts2 e2 g2 a2|]; try discriminate H2.
  unfold ser_single in H1, H2. destruct (mcls_eqb c1 d) eqn:Q1; [|discriminate]. destruct (mcls_eqb c2 d) eqn:Q2; [|discriminate].
  apply mcls_eqb_eq in Q1, Q2. subst c1 c2. rewrite wire_msg in H1, H2. apply bind_ok in H1 as (s1 & S1 & H1). apply bind_ok in H2 as (s2 & S2 & H2).
  apply Ok_inj in H1, H2. subst x1 x2. cbn [norm map] in N. injection N as N1 N2 N3 N4 N5. econstructor; eassumption.
Qed.
Lemma agree_follow p : forall m1 m2 n1, agree m1 m2 -> follow p m1 = Some n1 -> (exists c ty ts e g a, n1 = VMsg c ty ts e g a) ->
  exists n2, follow p m2 = Some n2 /\ agree n1 n2.
Proof.
  induction p as [|[k i] p IH]; intros m1 m2 n1 A F M.
  { cbn [follow] in *. apply Some_inj in F. subst n1. eauto. }
  destruct A as [c ty1 ts1 e1 g1 a1 ty2 ts2 e2 g2 a2 s1 s2 _ _ _ _ S1 S2 N]. cbn [follow] in F |- *.
  destruct (slot_kind c k) as [| |d an il| | | | | | | | | |] eqn:K; try discriminate.
  destruct (norm_slots_at _ _ _ _ _ k S1 S2 N (msg_slot_name _ _ _ _ _ K)) as (x1 & x2 & X1 & X2 & NX). rewrite assoc_attr in X1, X2.
  destruct (attr_get k a1) as [w1|]; [|discriminate]. unfold ser_slot, ser_slot_with in X1. rewrite K in X1.
  assert (One : forall w1 y1 n, ser_single wire d k w1 = Ok y1 -> follow p w1 = Some n1 -> n = VTuple [VBool false; y1] ->
     match attr_get k a2 with Some w => ser_slot c k w | None => Ok VNone end = Ok x2 -> norm n = norm x2 ->
     exists n2, match attr_get k a2 with
                | Some (VList l) => match nth_error l 0 with Some x => follow p x | None => None end
                | Some w => follow p w | None => None end = Some n2 /\ agree n1 n2).
  { clear w1 F X1 X2 NX. intros w1 y1 n Y1 F -> X2 NX. destruct (attr_get k a2) as [w2|]; [|apply Ok_inj in X2; subst x2; discriminate NX].
    unfold ser_slot, ser_slot_with in X2. rewrite K in X2.
    assert (Y : (exists l, w2 = VList l) \/ w2 = VNone \/ (exists e s, w2 = VEnum e s) \/
       ((exists y2, ser_single wire d k w2 = Ok y2 /\ x2 = VTuple [VBool false; y2]) /\
        match w2 with VList l => match nth_error l 0 with Some x => follow p x | None => None end | _ => follow p w2 end = follow p w2)).
    { destruct w2; eauto 10; right; right; right; (split; [|reflexivity]); apply bind_ok in X2 as (y2 & Y2 & X2); apply Ok_inj in X2; eauto. }
    destruct Y as [(l & ->)|[->|[(e & s & ->)|[(y2 & Y2 & ->) Hm]]]].
    - apply bind_ok in X2 as (r & _ & X2). apply Ok_inj in X2. subst x2. cbn [norm map] in NX. discriminate NX.
    - destruct an; [|discriminate]. apply Ok_inj in X2. subst x2. cbn [norm map] in NX. injection NX as NX.
      exfalso. destruct w1; try discriminate Y1. unfold ser_single in Y1. destruct (mcls_eqb _ _); [|discriminate]. rewrite wire_msg in Y1. apply bind_ok in Y1 as (s & _ & Y1). apply Ok_inj in Y1. subst y1. discriminate NX.
    - apply Ok_inj in X2. subst x2. discriminate NX.
    - rewrite Hm. cbn [norm map] in NX. injection NX as NX. eapply IH; [|exact F|exact M]. eapply agree_wire; eassumption. }
  assert (Y : (exists l, w1 = VList l) \/ w1 = VNone \/ (exists e s, w1 = VEnum e s) \/
     (i = O /\ follow p w1 = Some n1 /\ exists y1, ser_single wire d k w1 = Ok y1 /\ x1 = VTuple [VBool false; y1])).
  { destruct w1; eauto 10; right; right; right; (destruct i; [|discriminate F]); (split; [reflexivity|]); (split; [exact F|]);
      apply bind_ok in X1 as (y1 & Y1 & X1); apply Ok_inj in X1; eauto. }
  destruct Y as [(l & ->)|[->|[(e & s & ->)|(-> & F' & y1 & Y1 & ->)]]].
  - (* list *) clear One. apply bind_ok in X1 as (r1 & R1 & X1). apply Ok_inj in X1. subst x1.
    destruct (attr_get k a2) as [w2|]; [|apply Ok_inj in X2; subst x2; discriminate NX]. unfold ser_slot, ser_slot_with in X2. rewrite K in X2.
    assert (Y : exists l2, w2 = VList l2).
    { destruct w2 as [| | | | | | | | | | | | |]; eauto; exfalso;
        try (destruct an; [|discriminate X2]; apply Ok_inj in X2; subst x2; cbn [norm map] in NX; discriminate NX);
        try (apply Ok_inj in X2; subst x2; discriminate NX);
        apply bind_ok in X2 as (y2 & Y2 & X2); apply Ok_inj in X2; subst x2; cbn [norm map] in NX; discriminate NX. }
    destruct Y as (l2 & ->). apply bind_ok in X2 as (r2 & R2 & X2). apply Ok_inj in X2. subst x2. cbn [norm map] in NX. injection NX as NX.
    rewrite collect_map in R1, R2. destruct (nth_error l i) as [m|] eqn:Q; [|discriminate]. clear K S1 S2 N.
    assert (X : exists m2, nth_error l2 i = Some m2 /\ exists y1 y2, ser_single wire d k m = Ok y1 /\ ser_single wire d k m2 = Ok y2 /\ norm y1 = norm y2).
    { clear F. revert l2 r1 r2 i R1 R2 NX Q. induction l as [|x l IHl]; intros l2 r1 r2 i R1 R2 NX Q; [destruct i; discriminate|].
      cbn [mapM] in R1. apply bind_ok in R1 as (y1 & Y1 & R1). apply bind_ok in R1 as (r1' & R1' & R1). apply Ok_inj in R1. subst r1.
      destruct l2 as [|z l2]; [apply Ok_inj in R2; subst r2; discriminate NX|].
      cbn [mapM] in R2. apply bind_ok in R2 as (y2 & Y2 & R2). apply bind_ok in R2 as (r2' & R2' & R2). apply Ok_inj in R2. subst r2.
      cbn [map] in NX. injection NX as NX1 NX2. destruct i as [|i]; cbn [nth_error] in *.
      - apply Some_inj in Q. subst x. exists z. split; [reflexivity|]. eauto.
      - eapply IHl; eassumption. }
    destruct X as (m2 & Q2 & y1 & y2 & Y1 & Y2 & NY). rewrite Q2. eapply IH; [|exact F|exact M]. eapply agree_wire; eassumption.
  - exfalso. destruct i; [|discriminate]. destruct M as (c' & ty & ts & e & g & a & ->). destruct p as [|[k' i'] p]; cbn [follow] in F; discriminate F.
  - exfalso. destruct i; [|discriminate]. destruct M as (c' & ty & ts & e' & g & a & ->). destruct p as [|[k' i'] p]; cbn [follow] in F; discriminate F.
  - destruct (One _ _ _ Y1 F' eq_refl X2 NX) as (n2 & Hn & A). exists n2. split; [|exact A]. exact Hn.
Qed.

(** same hash: same nested messages, flags and signatures included, or a collision *)
Lemma hash_binds_nested E c ts1 e1 g1 a1 ts2 e2 g2 a2 s1 s2 h : crypto_ok (cr E) ->
  short_hash E (VMsg c (VInt (type_of c)) (VInt ts1) e1 g1 a1) = Ok h ->
  short_hash E (VMsg c (VInt (type_of c)) (VInt ts2) e2 g2 a2) = Ok h ->
  slots c a1 = Ok s1 -> slots c a2 = Ok s2 -> wirewf s1 = true -> wirewf s2 = true ->
  sha1_collision E (VMsg c (VInt (type_of c)) (VInt ts1) e1 g1 a1) (VMsg c (VInt (type_of c)) (VInt ts2) e2 g2 a2) \/
  forall p d ty ts enc sig b, p <> [] -> follow p (VMsg c (VInt (type_of c)) (VInt ts1) e1 g1 a1) = Some (VMsg d ty ts enc sig b) ->
    exists ty' ts' enc' sig' b', follow p (VMsg c (VInt (type_of c)) (VInt ts2) e2 g2 a2) = Some (VMsg d ty' ts' enc' sig' b') /\
      norm ty = norm ty' /\ norm ts = norm ts' /\ norm enc = norm enc' /\ norm sig = norm sig' /\ payload_of d b = payload_of d b'.
Proof.
  intros HC H1 H2 S1 S2 W1 W2. destruct (hash_binds _ _ _ _ _ _ _ _ _ _ _ _ HC H1 H2) as (d1 & d2 & p1 & p2 & t1 & t2 & D1 & T1 & P1 & D2 & T2 & P2 & HS & [C|(_ & -> & _ & _ & N)]).
  { left. exists (d1 ++ p1), (d2 ++ p2). split; [|split; [|split; assumption]].
    - exists c, (VInt (type_of c)), (VInt ts1), e1, g1, a1, d1, p1. unfold payload_of. rewrite T1. auto.
    - exists c, (VInt (type_of c)), (VInt ts2), e2, g2, a2, d2, p2. unfold payload_of. rewrite T2. auto. }
  right. assert (t1 = s1) by congruence. assert (t2 = s2) by congruence. subst t1 t2. specialize (N W1 W2).
  intros p d ty ts enc sig b NE F.
  assert (A : exists n2, follow p (VMsg c (VInt (type_of c)) (VInt ts2) e2 g2 a2) = Some n2 /\ agree (VMsg d ty ts enc sig b) n2).
  { destruct p as [|q p]; [congruence|].
    eapply (agree_follow (q :: p) (VMsg c (VInt (type_of c)) (VInt ts2) VNone VNone a1) (VMsg c (VInt (type_of c)) (VInt ts2) VNone VNone a2)); [|exact F|eauto 10].
    apply agree_msg with (s1 := s1) (s2 := s2); try reflexivity; assumption. }
  destruct A as (n2 & F2 & A). inversion A; subst. do 5 eexists. split; [exact F2|]. repeat (split; [assumption|]).
  unfold payload_of. repeat match goal with H : slots _ _ = Ok _ |- _ => rewrite H; clear H end. cbn [bind]. rewrite <- (dumps_norm s0), <- (dumps_norm s3). congruence.
Qed.
