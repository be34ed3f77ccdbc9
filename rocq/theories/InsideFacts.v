(** * Equality of messages that contain messages (C49): lemmas. *)
From Verif Require Export EquivFacts.

Lemma eqs_app p x q p' x' q' : List.length p = List.length p' -> eqs (p ++ x :: q) (p' ++ x' :: q') = eqs p p' && (py_eq x x' && eqs q q').
Proof.
  revert p'. induction p as [|y p IH]; intros [|y' p'] L; try discriminate L; [reflexivity|]. cbn [app eqs]. rewrite IH by (cbn in L; congruence).
  rewrite andb_assoc. reflexivity.
Qed.
Lemma attr_split k v v' a : NoDup (map fst a) -> attr_get k a = Some v -> exists p q, a = p ++ (k, v) :: q /\ attr_set k v' a = p ++ (k, v') :: q.
Proof.
  induction a as [|[k' w] a IH]; [discriminate|]. cbn [map fst attr_get attr_set]. intros N H. apply NoDup_cons_iff in N as [_ N].
  destruct (String.eqb_spec k' k) as [->|X].
  - apply Some_inj in H. subst w. exists [], a. auto.
  - destruct (IH N H) as (p & q & -> & ->). exists ((k', w) :: p), q. auto.
Qed.
Lemma msg_eq_parts c ty ts e sig a c' ty' ts' e' sig' a' : msg_eq (VMsg c ty ts e sig a) (VMsg c' ty' ts' e' sig' a') = Ok true ->
  c = c' /\ py_eq ty ty' = true /\ py_eq ts ts' = true /\ py_eq sig sig' = true /\
  exists s s', slots c a = Ok s /\ slots c' a' = Ok s' /\ py_eq s s' = true.
Proof.
  intros H.
  assert (B : (if mcls_eqb c c' && py_eq ty ty' && py_eq ts ts' && py_eq sig sig' then
              do s <- slots c a; do s' <- slots c' a'; Ok (py_eq s s') else Ok false) = Ok true).
  { unfold msg_eq in H. cbv zeta in H. destruct c; try exact H. destruct (py_eq (version_of _) (version_of _)); [exact H|discriminate]. }
  clear H. destruct (mcls_eqb c c' && py_eq ty ty' && py_eq ts ts' && py_eq sig sig') eqn:X; [|discriminate].
  rewrite !andb_true_iff in X. destruct X as (((X1 & X2) & X3) & X4). apply mcls_eqb_eq in X1.
  apply bind_ok in B as (s & Hs & B). apply bind_ok in B as (s' & Hs' & B). apply Ok_inj in B. do 4 (split; [assumption|]). eauto.
Qed.
Lemma collect_mid {A} (p q : list (result A)) x r : collect (p ++ Ok x :: q) = Ok r ->
  exists r1 r2, r = r1 ++ x :: r2 /\ forall y, collect (p ++ Ok y :: q) = Ok (r1 ++ y :: r2).
Proof.
  revert r. induction p as [|z p IH]; intros r; cbn [app collect].
  - cbn [bind]. intros H. apply bind_ok in H as (r2 & H & Q). apply Ok_inj in Q. exists [], r2. split; [auto|]. intros y. cbn [bind]. rewrite H. reflexivity.
  - intros H. apply bind_ok in H as (z' & -> & H). apply bind_ok in H as (r' & H & Q). apply Ok_inj in Q. destruct (IH _ H) as (r1 & r2 & -> & R).
    exists (z' :: r1), r2. split; [auto|]. intros y. cbn [bind]. rewrite R. reflexivity.
Qed.
(** one slot replaced: the whole compares as what the slot is serialized to *)
Lemma slot_replaced c ty0 ts0 e0 sig0 a k d n il w w' x x' :
  map fst a = slot_names c -> slot_kind c k = KMsg d n il -> attr_get k a = Some w -> ser_slot c k w = Ok x -> ser_slot c k w' = Ok x' ->
  msg_eq (VMsg c ty0 ts0 e0 sig0 a) (VMsg c ty0 ts0 e0 sig0 a) = Ok true ->
  py_eq x x = true /\ msg_eq (VMsg c ty0 ts0 e0 sig0 a) (VMsg c ty0 ts0 e0 sig0 (attr_set k w' a)) = Ok (py_eq x x').
Proof.
  intros F K G X X' S.
  assert (V : c = MHello -> forall y, version_of (VMsg c ty0 ts0 e0 sig0 a) = version_of (VMsg c ty0 ts0 e0 sig0 (attr_set k y a))).
  { intros -> y. cbn [version_of]. unfold attr_get_or_none. rewrite attr_get_set_other; [reflexivity|]. intros <-. discriminate K. }
  apply msg_eq_parts in S as SP. destruct SP as (_ & S1 & S2 & S3 & s & s0 & Hs & Hs0 & S4). assert (s0 = s) by congruence. subst s0. clear Hs0.
  assert (N : NoDup (map fst a)) by (rewrite F; apply slot_names_NoDup).
  destruct (attr_split k _ w' a N G) as (p & q & Ea & Es).
  assert (F' : map fst (attr_set k w' a) = slot_names c) by (rewrite Es, <- F, Ea, !map_app; reflexivity).
  apply slots_inv in Hs as Hl; [|exact F]. destruct Hl as (l & -> & L). rewrite Ea in L.
  apply Forall2_app_inv_l in L as (lp & lq & Lp & Lq & ->). inversion Lq as [|? [k1 y] ? lq' [E1 Y] Lq' X1 X2]. subst lq. cbn [fst snd] in E1, Y. subst k1.
  assert (y = x) by congruence. subst y.
  assert (Q : slots c (attr_set k w' a) = Ok (pairs (lp ++ (k, x') :: lq'))).
  { apply slots_inv; [exact F'|]. eexists. split; [reflexivity|]. rewrite Es. apply Forall2_app; [exact Lp|]. constructor; [|exact Lq'].
    split; [reflexivity|]. exact X'. }
  assert (P : py_eq x x = true /\ py_eq (pairs (lp ++ (k, x) :: lq')) (pairs (lp ++ (k, x') :: lq')) = py_eq x x').
  { unfold pairs in *. rewrite py_eq_list in *. rewrite !map_app in *. cbn [map fst snd] in *. rewrite eqs_app in * by reflexivity.
    apply andb_true_iff in S4 as [Sp S4]. apply andb_true_iff in S4 as [Sx Sq]. rewrite Sp, Sq. cbn [andb]. rewrite andb_true_r.
    rewrite !py_eq_list in *. cbn [eqs] in *. rewrite py_eq_skey, String.eqb_refl in *. cbn [andb] in *. rewrite andb_true_r in *. auto. }
  destruct P as [P0 P]. split; [exact P0|].
  assert (B : (if mcls_eqb c c && py_eq ty0 ty0 && py_eq ts0 ts0 && py_eq sig0 sig0 then
      do s <- slots c a; do s' <- slots c (attr_set k w' a); Ok (py_eq s s') else Ok false) = Ok (py_eq x x')).
  { rewrite mcls_eqb_refl, S1, S2, S3, Hs, Q. cbn [andb bind]. rewrite P. reflexivity. }
  unfold msg_eq in S |- *. cbv zeta in S |- *. destruct c; try exact B. rewrite <- (V eq_refl). destruct (py_eq (version_of _) (version_of _)); [exact B|discriminate S].
Qed.
Lemma flag_inside c ty0 ts0 e0 sig0 a k d n il ty ts e sig b ty' ts' e' sig' b' :
  map fst a = slot_names c -> slot_kind c k = KMsg d n il -> attr_get k a = Some (VMsg d ty ts e sig b) ->
  msg_eq (VMsg c ty0 ts0 e0 sig0 a) (VMsg c ty0 ts0 e0 sig0 a) = Ok true ->
  msg_eq (VMsg d ty ts e sig b) (VMsg d ty' ts' e' sig' b') = Ok true ->
  msg_eq (VMsg c ty0 ts0 e0 sig0 a) (VMsg c ty0 ts0 e0 sig0 (attr_set k (VMsg d ty' ts' e' sig' b') a)) = Ok (py_eq e e').
Proof.
  intros F K G S I. apply msg_eq_parts in I as (_ & I1 & I2 & I3 & t & t' & Ht & Ht' & I4).
  assert (W : forall g1 g2 g3 g4 g5 r, slots d g5 = Ok r -> ser_slot c k (VMsg d g1 g2 g3 g4 g5) = Ok (VTuple [VBool false; VTuple [VTuple [g1; g2; g3]; g4; r]])).
  { intros g1 g2 g3 g4 g5 r Hr. unfold ser_slot, ser_slot_with. rewrite K. cbn [ser_single]. rewrite mcls_eqb_refl, wire_msg, Hr. reflexivity. }
  destruct (slot_replaced c ty0 ts0 e0 sig0 a k d n il _ _ _ _ F K G (W ty ts e sig b t Ht) (W ty' ts' e' sig' b' t' Ht') S) as [_ P]. rewrite P. f_equal.
  rewrite py_eq_tuple. cbn [eqs]. rewrite py_eq_tuple. cbn [eqs]. rewrite py_eq_tuple. cbn [eqs]. rewrite I1, I2, I3, I4, !andb_true_r. reflexivity.
Qed.
Lemma flag_in_list c ty0 ts0 e0 sig0 a k d n il p q ty ts e sig b ty' ts' e' sig' b' :
  map fst a = slot_names c -> slot_kind c k = KMsg d n il -> attr_get k a = Some (VList (p ++ VMsg d ty ts e sig b :: q)) ->
  msg_eq (VMsg c ty0 ts0 e0 sig0 a) (VMsg c ty0 ts0 e0 sig0 a) = Ok true ->
  msg_eq (VMsg d ty ts e sig b) (VMsg d ty' ts' e' sig' b') = Ok true ->
  msg_eq (VMsg c ty0 ts0 e0 sig0 a) (VMsg c ty0 ts0 e0 sig0 (attr_set k (VList (p ++ VMsg d ty' ts' e' sig' b' :: q)) a)) = Ok (py_eq e e').
Proof.
  intros F K G S I. apply msg_eq_parts in I as (_ & I1 & I2 & I3 & t & t' & Ht & Ht' & I4).
  assert (W : forall g1 g2 g3 g4 g5 r, slots d g5 = Ok r -> ser_single wire d k (VMsg d g1 g2 g3 g4 g5) = Ok (VTuple [VTuple [g1; g2; g3]; g4; r])).
  { intros g1 g2 g3 g4 g5 r Hr. cbn [ser_single]. rewrite mcls_eqb_refl, wire_msg, Hr. reflexivity. }
  apply msg_eq_parts in S as SP. destruct SP as (_ & _ & _ & _ & s & _ & Hs & _).
  apply slots_inv in Hs; [|exact F]. destruct Hs as (l & _ & L).
  assert (X : exists x, ser_slot c k (VList (p ++ VMsg d ty ts e sig b :: q)) = Ok x).
  { assert (N : NoDup (map fst a)) by (rewrite F; apply slot_names_NoDup). destruct (attr_split k _ VNone a N G) as (p0 & q0 & Ea & _).
    assert (G0 : In (k, VList (p ++ VMsg d ty ts e sig b :: q)) a) by (rewrite Ea; apply in_elt). revert L G0. clear. intros L. induction L as [|[k1 v1] [k2 x2] a l [E X] _ IH]; intros H; [contradiction|]. cbn [fst snd] in *.
    destruct H as [H|H]; [|exact (IH H)]. injection H as -> ->. eauto. }
  clear L l s. destruct X as [x X]. pose proof X as X0. unfold ser_slot, ser_slot_with in X0. rewrite K in X0. apply bind_ok in X0 as (r & R & X0). apply Ok_inj in X0. subst x.
  rewrite map_app in R. cbn [map] in R. rewrite (W _ _ _ _ _ _ Ht) in R. apply collect_mid in R as (r1 & r2 & -> & R').
  assert (X' : ser_slot c k (VList (p ++ VMsg d ty' ts' e' sig' b' :: q)) = Ok (VTuple [VBool true; VList (r1 ++ VTuple [VTuple [ty'; ts'; e']; sig'; t'] :: r2)])).
  { unfold ser_slot, ser_slot_with. rewrite K, map_app. cbn [map]. rewrite (W _ _ _ _ _ _ Ht'), R'. reflexivity. }
  destruct (slot_replaced c ty0 ts0 e0 sig0 a k d n il _ _ _ _ F K G X X' S) as [P0 P]. rewrite P. f_equal.
  rewrite py_eq_tuple in *. cbn [eqs] in *. rewrite py_eq_list in *. rewrite eqs_app in * by reflexivity. rewrite !andb_true_iff in P0. destruct P0 as (_ & (P1 & _ & P2) & _).
  rewrite P1, P2, py_eq_tuple. cbn [eqs]. rewrite py_eq_tuple. cbn [eqs]. rewrite I1, I2, I3, I4, !andb_true_r. reflexivity.
Qed.
