(** * Facts about interleaved calls (Threads.v) *)
From Verif Require Import Threads.
From Verif Require Import EciesProofs IdsProofs.

(** ** Any pool *)
Section PoolFacts.
Context {S O P : Type} (start : O -> P) (step : O -> S -> P -> S -> P -> Prop).
(** [I] holds of the state and [J] of every call in progress, if the calls in the
    pool are all [ok], [J] holds at the start, a step keeps both and one call's
    step does not disturb what is known of another *)
Lemma runs_inv (ok : O -> Prop) (I : S -> Prop) (J : O -> S -> P -> Prop) st0 :
  I st0 ->
  (forall o st, ok o -> I st -> J o st (start o)) ->
  (forall o st p st' p', ok o -> I st -> J o st p -> step o st p st' p' -> I st' /\ J o st' p') ->
  (forall o st p st' p' o' q, ok o -> ok o' -> I st -> J o st p -> step o st p st' p' -> J o' st q -> J o' st' q) ->
  forall b, reached start step st0 b -> (forall o p, In (o, p) (snd b) -> ok o) ->
  I (fst b) /\ forall o p, In (o, p) (snd b) -> J o (fst b) p.
Proof.
  intros I0 Hs Hst Hst2 b R. induction R as [|b b' R IH X]; intros Hok; [split; [exact I0|intros o p []]|].
  destruct X as [st pool o|st pre o p post st' p' X]; cbn [fst snd] in *.
  - destruct IH as [A B]; [intros o' p' H; apply (Hok o' p'), in_or_app; auto|]. split; [exact A|].
    intros o' p' H. apply in_app_or in H as [H|[H|[]]]; [auto|].
    injection H as <- <-. apply Hs; [|exact A]. apply (Hok o (start o)), in_or_app. right. left. reflexivity.
  - assert (Ho : ok o) by (apply (Hok o p'), in_or_app; right; left; reflexivity).
    destruct IH as [A B].
    { intros o' q H. apply in_app_or in H as [H|[H|H]].
      - apply (Hok o' q), in_or_app. auto.
      - injection H as <- <-. exact Ho.
      - apply (Hok o' q), in_or_app. right. right. exact H. }
    assert (Jo : J o st p) by (apply B, in_or_app; right; left; reflexivity).
    destruct (Hst o st p st' p' Ho A Jo X) as [A' Jp].
    split; [exact A'|]. intros o' q H. apply in_app_or in H as [H|[H|H]].
    + apply (Hst2 o st p st' p'); auto; [apply (Hok o' q), in_or_app; auto|]. apply B, in_or_app. auto.
    + injection H as <- <-. exact Jp.
    + apply (Hst2 o st p st' p'); auto; [apply (Hok o' q), in_or_app; right; right; exact H|].
      apply B, in_or_app. right. right. exact H.
Qed.

(** a schedule and the configuration it leads to *)
Inductive act := Begin (o : O) | Move (i : nat).
Fixpoint exec (next : O -> S -> P -> option (S * P)) (l : list act) (a : S * list (O * P)) : option (S * list (O * P)) :=
  match l with
  | [] => Some a
  | Begin o :: l => exec next l (fst a, snd a ++ [(o, start o)])
  | Move i :: l =>
      match skipn i (snd a) with
      | (o, p) :: post =>
          match next o (fst a) p with
          | Some (st', p') => exec next l (st', firstn i (snd a) ++ (o, p') :: post)
          | None => None
          end
      | [] => None
      end
  end.
Lemma exec_runs next l a b :
  (forall o st p st' p', next o st p = Some (st', p') -> step o st p st' p') ->
  exec next l a = Some b -> runs start step a b.
Proof.
  intros N. enough (G : forall c, runs start step a c -> exec next l c = Some b -> runs start step a b)
    by (apply G; constructor).
  induction l as [|[o|i] l IH]; intros [st pool] R X; cbn [exec fst snd] in X.
  - injection X as <-. exact R.
  - apply IH in X; [exact X|]. eapply runs_step; [exact R|]. constructor.
  - destruct (skipn i pool) as [|[o p] post] eqn:E; [discriminate|].
    destruct (next o st p) as [[st' p']|] eqn:F; [|discriminate]. apply IH in X; [exact X|].
    eapply runs_step; [exact R|].
    replace pool with (firstn i pool ++ (o, p) :: post) at 1 by (rewrite <- E; apply firstn_skipn).
    constructor. apply N, F.
Qed.
Lemma runs_trans a b c : runs start step a b -> runs start step b c -> runs start step a c.
Proof. intros H K. induction K; [exact H|]. eapply runs_step; eassumption. Qed.
Lemma runs_begin a st pool o : runs start step a (st, pool) -> runs start step a (st, pool ++ [(o, start o)]).
Proof. intros H. eapply runs_step; [exact H|]. constructor. Qed.
Lemma runs_alone a o pre post st p st' p' :
  alone step o st p st' p' ->
  runs start step a (st, pre ++ (o, p) :: post) -> runs start step a (st', pre ++ (o, p') :: post).
Proof.
  intros A. revert a. induction A as [st p|st p st1 p1 st2 p2 X A IH]; intros a H; [exact H|].
  apply IH. eapply runs_step; [exact H|]. constructor. exact X.
Qed.
Lemma alone_trans o st p st1 p1 st2 p2 :
  alone step o st p st1 p1 -> alone step o st1 p1 st2 p2 -> alone step o st p st2 p2.
Proof. intros A B. induction A; [exact B|]. eapply alone_step; eauto. Qed.
Lemma alone_one o st p st' p' : step o st p st' p' -> alone step o st p st' p'.
Proof. intros H. eapply alone_step; [exact H|constructor]. Qed.
Lemma own_bound (left : P -> nat) o :
  (forall st p st' p', step o st p st' p' -> (left p' < left p)%nat) ->
  forall n p p', own step o n p p' -> (n + left p' <= left p)%nat.
Proof.
  intros H n p p' A. induction A as [p|n st p st' p1 p2 X A IH]; [lia|]. apply H in X. lia.
Qed.
End PoolFacts.

(** ** ECIES *)
Section Ecies.
Context (C : crypto) (HC : crypto_ok C) (timeout : nat -> Z).

Definition sound (st : kstate) : Prop :=
  (forall k v, In (k, v) (c_ecdh st) -> P_ecdh C k v) /\
  (forall k v, In (k, v) (c_derived st) -> P_derived C k v) /\
  (forall k v, In (k, v) (c_ephem st) -> P_ephem C k v).
Lemma sound_init created : sound (init_state created).
Proof. repeat split; intros k v []. Qed.

(** the result of decryption when nothing is cached *)
Definition opened (data k sh : bytes) : result bytes :=
  if negb (bytes_eqb (firstn 1 data) [x04]) then Err EDecryptionError else
  match secret_of C k with
  | None => Err EValueError
  | Some s =>
      match ecdh_raw C s (firstn (1 + 64) data) with
      | None => Err EValueError
      | Some km => if negb (Nat.eqb (List.length km) 32) then Err EAssertionError else unseal C (spec_keys C km) data sh
      end
  end.
Lemma decrypt_opened st m data k sh : einv C st -> fst (decrypt C st m data k sh) = opened data k sh.
Proof.
  intros I. unfold decrypt, opened. destruct (bytes_eqb (firstn 1 data) [x04]); cbn [negb]; [|reflexivity].
  destruct (secret_of C k) as [s|]; [|reflexivity]. cbv zeta.
  destruct (ecdh_spec C st s (firstn (1 + 64) data) I) as (st1 & E & I1). rewrite E.
  destruct (ecdh_raw C s (firstn (1 + 64) data)) as [km|]; [|reflexivity].
  destruct (Nat.eqb (List.length km) 32); cbn [negb]; [|reflexivity].
  destruct (derived_spec C HC st1 m km I1) as (st2 & E2 & I2). rewrite E2.
  destruct (spec_keys C km) as [ek mk]. reflexivity.
Qed.

(** what is known of a call at each point *)
Definition knows (o : eop) (p : ephase) : Prop :=
  match o, p with
  | OpEncrypt _ _ _ _ _, (EAsk | ECheck | EClear | EStamp | EDraw) => True
  | OpEncrypt _ _ raw _ r, EDh ep k => pub_of C (r_ephem r) = Some ep /\ compress C (x04 :: raw) = Some k
  | OpEncrypt _ _ raw _ r, EGot ep km =>
      exists k, pub_of C (r_ephem r) = Some ep /\ compress C (x04 :: raw) = Some k /\ ecdh_raw C (r_ephem r) k = Some km
  | OpEncrypt _ _ raw _ r, EDerive ep km =>
      exists k, pub_of C (r_ephem r) = Some ep /\ compress C (x04 :: raw) = Some k /\
        ecdh_raw C (r_ephem r) k = Some km /\ List.length km = 32%nat
  | OpEncrypt m _ raw _ _, (EStore v | ESeal v) => P_ephem C (m, raw) v
  | OpEncrypt m d raw sh r, EDone res =>
      (exists v, P_ephem C (m, raw) v /\ res = seal C v d sh (r_iv r)) \/
      (exists e, res = Err e /\ forall k s, secret_of C k = Some s -> pub_of C s = Some raw -> False)
  | OpDecrypt _ _ _ _, DAsk => True
  | OpDecrypt _ data k _, DDh s p => firstn 1 data = [x04] /\ secret_of C k = Some s /\ p = firstn (1 + 64) data
  | OpDecrypt _ data k _, DGot km =>
      firstn 1 data = [x04] /\ exists s, secret_of C k = Some s /\ ecdh_raw C s (firstn (1 + 64) data) = Some km
  | OpDecrypt _ data k _, DDerive km =>
      firstn 1 data = [x04] /\ List.length km = 32%nat /\
      exists s, secret_of C k = Some s /\ ecdh_raw C s (firstn (1 + 64) data) = Some km
  | OpDecrypt _ data k sh, DOpen keys => opened data k sh = unseal C keys data sh
  | OpDecrypt _ data k sh, EDone res => res = opened data k sh
  | _, _ => False
  end.

Lemma key_bad r raw k s :
  rnd_ok C r -> secret_of C k = Some s -> pub_of C s = Some raw ->
  exists p c km, pub_of C (r_ephem r) = Some p /\ compress C (x04 :: raw) = Some c /\
    ecdh_raw C (r_ephem r) c = Some km /\ List.length km = 32%nat.
Proof.
  intros [Hr _] Hs Hpk. destruct (pub_total _ HC _ _ Hr) as [p Hp].
  destruct (dh _ HC s raw (r_ephem r) p (secret_idem _ HC _ _ Hs) Hpk Hr Hp) as (c & km & A & B & _ & D). eauto 8.
Qed.

Lemma tstep_sound o st p st' p' :
  eop_ok C o -> sound st -> knows o p -> tstep C timeout o st p st' p' -> sound st' /\ knows o p'.
Proof.
  intros Ho (I1 & I2 & I3) K X.
  destruct X; cbn [eop_ok knows] in *; unfold sound, with_ecdh, with_derived, with_ephem, with_last;
    cbn [c_ecdh c_derived c_ephem].
  - split; [|auto]. repeat split; auto. intros k w Hw. apply I3, H0, Hw.
  - repeat split; auto.
  - split; [repeat split; auto|]. destruct (_ <? _); exact Logic.I.
  - repeat split; auto. intros k v [].
  - repeat split; auto.
  - split; [repeat split; auto|]. right. eexists. split; [reflexivity|]. intros k s Hs Hp.
    destruct (key_bad _ _ _ _ Ho Hs Hp) as (? & ? & ? & ? & ? & _). destruct H; congruence.
  - split; [repeat split; auto; intros k' w Hw; apply I1, H2, Hw|].
    exists k. split; [exact H|]. split; [exact H0|]. exact (I1 _ _ H1).
  - repeat split; auto.
  - split; [repeat split; auto|]. right. eexists. split; [reflexivity|]. intros k' s Hs Hp.
    destruct (key_bad _ _ _ _ Ho Hs Hp) as (? & ? & ? & ? & ? & ? & _). destruct K. congruence.
  - split; [repeat split; auto|].
    + intros k' w Hw. destruct (H0 _ Hw) as [E|Hi]; [|auto]. injection E as -> ->. exact H.
    + exists k. destruct K. auto.
  - split; [repeat split; auto|]. right. eexists. split; [reflexivity|]. intros k' s Hs Hp.
    destruct (key_bad _ _ _ _ Ho Hs Hp) as (? & ? & ? & ? & ? & ? & ?). destruct K as (k & ? & ? & ?). congruence.
  - split; [repeat split; auto; intros k' w Hw; apply I2, H1, Hw|].
    destruct K as (k & K1 & K2 & K3). destruct Ho as [Hr _]. exists (r_ephem r), p, k, km.
    pose proof (I2 _ _ H0) as P. unfold P_derived in P. cbn [snd] in P. rewrite <- P. cbn [fst snd]. auto 10.
  - split; [repeat split; auto|]. destruct K as (k & K1 & K2 & K3). exists k. auto.
  - rewrite (derive_ok C HC) in H. discriminate.
  - rewrite (derive_ok C HC) in H. assert (Hk : spec_keys C km = (ek, mk)) by congruence.
    split; [repeat split; auto|].
    + intros k' w Hw. destruct (H0 _ Hw) as [E|Hi]; [|auto]. injection E as -> ->. unfold P_derived. cbn [snd]. auto.
    + destruct K as (k & K1 & K2 & K3 & K4). destruct Ho as [Hr _]. exists (r_ephem r), p, k, km.
      rewrite Hk. cbn [fst snd]. auto 10.
  - split; [repeat split; auto|exact K].
    intros k' w Hw. destruct (H _ Hw) as [E|Hi]; [|auto]. injection E as -> ->. exact K.
  - split; [repeat split; auto|]. left. eauto.
  - split; [repeat split; auto|]. unfold opened.
    destruct (bytes_eqb (firstn 1 data) [x04]) eqn:E; [apply bytes_eqb_eq in E; contradiction|reflexivity].
  - split; [repeat split; auto|]. unfold opened. apply bytes_eqb_eq in H. rewrite H, H0. reflexivity.
  - split; [repeat split; auto; intros k' w Hw; apply I1, H2, Hw|].
    split; [exact H|]. exists s. split; [exact H0|]. exact (I1 _ _ H1).
  - repeat split; auto.
  - split; [repeat split; auto|]. destruct K as (K1 & K2 & ->). unfold opened. apply bytes_eqb_eq in K1.
    rewrite K1, K2, H. reflexivity.
  - split; [repeat split; auto|].
    + intros k' w Hw. destruct (H0 _ Hw) as [E|Hi]; [|auto]. injection E as -> ->. exact H.
    + destruct K as (K1 & K2 & ->). eauto.
  - split; [repeat split; auto|]. destruct K as (K1 & s & K2 & K3). unfold opened. apply bytes_eqb_eq in K1.
    rewrite K1, K2, K3. apply Nat.eqb_neq in H. rewrite H. reflexivity.
  - split; [repeat split; auto; intros k' w Hw; apply I2, H1, Hw|].
    destruct K as (K1 & s & K2 & K3). unfold opened. apply bytes_eqb_eq in K1.
    rewrite K1, K2, K3, H. pose proof (I2 _ _ H0) as P. unfold P_derived in P. cbn [snd] in P. rewrite P. reflexivity.
  - split; [repeat split; auto|]. destruct K as (K1 & K2). auto.
  - rewrite (derive_ok C HC) in H. discriminate.
  - rewrite (derive_ok C HC) in H. assert (Hk : keys = spec_keys C km) by congruence.
    split; [repeat split; auto|].
    + intros k' w Hw. destruct (H0 _ Hw) as [E|Hi]; [|auto]. injection E as -> ->. exact Hk.
    + destruct K as (K1 & K2 & s & K3 & K4). unfold opened. apply bytes_eqb_eq in K1.
      rewrite K1, K3, K4, K2, Hk. reflexivity.
  - split; [repeat split; auto|]. symmetry. exact K.
Qed.

Lemma reached_sound created st pool :
  reached ebegin (tstep C timeout) (init_state created) (st, pool) ->
  (forall o p, In (o, p) pool -> eop_ok C o) ->
  sound st /\ forall o p, In (o, p) pool -> knows o p.
Proof.
  intros R Ho.
  apply (runs_inv ebegin (tstep C timeout) (eop_ok C) sound (fun o _ p => knows o p) (init_state created))
    with (b := (st, pool)); [apply sound_init| | | |exact R|exact Ho].
  - intros [m d raw sh r|m d k sh] st' _ _; exact Logic.I.
  - exact tstep_sound.
  - intros. assumption.
Qed.

(** every result of an encryption is one a single thread can get *)
Definition primed (m : nat) (raw : bytes) (v : bytes * bytes * bytes) : kstate :=
  {| c_ecdh := []; c_derived := []; c_ephem := [((m, raw), v)]; last_cleanup := fun _ => 0 |}.
Lemma primed_inv m raw v : P_ephem C (m, raw) v -> einv C (primed m raw v).
Proof.
  intros H. split; [apply good_nil|]. split; [apply good_nil|]. split; [cbn; unfold MAXSIZE; lia|].
  intros k w [[= <- <-]|[]]. exact H.
Qed.
Lemma primed_encrypt m raw v d sh r : fst (encrypt C timeout (primed m raw v) m d raw sh r) = seal C v d sh (r_iv r).
Proof.
  unfold encrypt, get_ephem_key, primed. cbn [c_ephem lru_find]. unfold keynb. cbn [fst snd].
  rewrite Nat.eqb_refl, bytes_eqb_refl. cbn [andb]. destruct v as [[ek mk] ep]. reflexivity.
Qed.

Lemma sealed created st pool m d k s pk sh r res :
  reached ebegin (tstep C timeout) (init_state created) (st, pool) ->
  (forall o p, In (o, p) pool -> eop_ok C o) ->
  In (OpEncrypt m d pk sh r, EDone res) pool -> secret_of C k = Some s -> pub_of C s = Some pk ->
  exists ct, res = Ok ct /\ List.length ct = (113 + List.length d)%nat /\ opened ct k sh = Ok d.
Proof.
  intros R Ho Hin Hs Hp. destruct (reached_sound _ _ _ R Ho) as [_ K].
  pose proof (Ho _ _ Hin) as Hr. cbn [eop_ok] in Hr.
  destruct (K _ _ Hin) as [(v & P & E)|(e & _ & N)]; [|destruct (N _ _ Hs Hp)].
  pose proof (primed_inv _ _ _ P) as I. rewrite <- primed_encrypt with (m := m) (raw := pk) in E.
  destruct (encrypt_total C HC timeout _ m d k s pk sh r I Hr Hs Hp) as (ct & E' & L).
  exists ct. split; [congruence|]. split; [exact L|].
  rewrite <- (decrypt_opened (init_state (fun _ => 0)) m) by apply einv_init.
  eapply roundtrip; eauto using einv_init.
Qed.

Lemma in_pool_opened created st pool m data k sh res :
  reached ebegin (tstep C timeout) (init_state created) (st, pool) ->
  (forall o p, In (o, p) pool -> eop_ok C o) ->
  In (OpDecrypt m data k sh, EDone res) pool -> res = opened data k sh.
Proof. intros R Ho Hin. destruct (reached_sound _ _ _ R Ho) as [_ K]. exact (K _ _ Hin). Qed.

Lemma history_opened created ops m data k sh :
  Forall (eop_ok C) ops ->
  fst (decrypt C (erun C timeout ops (init_state created)) m data k sh) = opened data k sh.
Proof. intros H. apply decrypt_opened, erun_inv; auto using einv_init. Qed.

Lemma sealed_history created st pool :
  reached ebegin (tstep C timeout) (init_state created) (st, pool) ->
  (forall o p, In (o, p) pool -> eop_ok C o) ->
  forall m d k s pk sh r res,
  In (OpEncrypt m d pk sh r, EDone res) pool -> secret_of C k = Some s -> pub_of C s = Some pk ->
  exists ct, res = Ok ct /\ List.length ct = (113 + List.length d)%nat /\
    forall history m', Forall (eop_ok C) history ->
      fst (decrypt C (erun C timeout history (init_state created)) m' ct k sh) = Ok d.
Proof.
  intros R Ho m d k s pk sh r res H Hs Hp. destruct (sealed _ _ _ _ _ _ _ _ _ _ _ R Ho H Hs Hp) as (ct & A & B & D).
  exists ct. split; [exact A|]. split; [exact B|]. intros hist m' Hh. rewrite history_opened; assumption.
Qed.
Lemma opened_history created st pool :
  reached ebegin (tstep C timeout) (init_state created) (st, pool) ->
  (forall o p, In (o, p) pool -> eop_ok C o) ->
  forall m data k sh res, In (OpDecrypt m data k sh, EDone res) pool ->
  forall history m', Forall (eop_ok C) history ->
  res = fst (decrypt C (erun C timeout history (init_state created)) m' data k sh).
Proof.
  intros R Ho m data k sh res H hist m' Hh. rewrite history_opened by assumption.
  eapply in_pool_opened; eassumption.
Qed.
Lemma pool_round_trip created st pool :
  reached ebegin (tstep C timeout) (init_state created) (st, pool) ->
  (forall o p, In (o, p) pool -> eop_ok C o) ->
  forall m d k s pk sh r ct m' res,
  In (OpEncrypt m d pk sh r, EDone (Ok ct)) pool -> secret_of C k = Some s -> pub_of C s = Some pk ->
  In (OpDecrypt m' ct k sh, EDone res) pool -> res = Ok d.
Proof.
  intros R Ho m d k s pk sh r ct m' res H Hs Hp D.
  destruct (sealed _ _ _ _ _ _ _ _ _ _ _ R Ho H Hs Hp) as (ct' & A & _ & B).
  assert (ct' = ct) by congruence. subst ct'. rewrite <- B. eapply in_pool_opened; eassumption.
Qed.

(** *** nobody waits *)
Lemma lru_found {K V} (keqb : K -> K -> bool) (k : K) (c : list (K * V)) :
  (forall a b, keqb a b = true <-> a = b) -> (exists v, In (k, v) c) \/ absent k c.
Proof.
  intros H. destruct (lru_find keqb k c) as [v|] eqn:F; [left; exists v; eapply lru_find_in; eassumption|].
  right. intros v. revert F. induction c as [|[k' v'] c IH]; cbn; [tauto|].
  destruct (keqb k' k) eqn:E; [discriminate|]. intros F [[= -> ->]|Hi]; [|exact (IH F Hi)].
  assert (keqb k k = true) by (apply H; reflexivity). congruence.
Qed.
Lemma same_refl {A} (c : list A) : same_entries c c.
Proof. intros x. tauto. Qed.
Lemma stores_cons {A} (x : A) c : stores x c (x :: c).
Proof. intros y [->|H]; auto. Qed.

Lemma can_step o p st : knows o p -> (exists res, p = EDone res) \/ exists st' p', tstep C timeout o st p st' p'.
Proof.
  destruct o as [m d raw sh r|m data k sh]; destruct p; cbn [knows]; intros K;
    try contradiction; eauto; right.
  - destruct (lru_found keynb (m, raw) (c_ephem st) keynb_eq) as [[v H]|H].
    + eexists _, _. eapply t_ask_hit; [exact H|apply same_refl].
    + eexists _, _. apply t_ask_miss, H.
  - eexists _, _. apply t_check.
  - eexists _, _. apply t_clear.
  - eexists _, _. apply t_stamp.
  - destruct (pub_of C (r_ephem r)) as [p|] eqn:E1; [|eexists _, _; apply t_draw_bad; auto].
    destruct (compress C (x04 :: raw)) as [k|] eqn:E2; [|eexists _, _; apply t_draw_bad; auto].
    destruct (lru_found key2b (r_ephem r, k) (c_ecdh st) key2b_eq) as [[v H]|H].
    + eexists _, _. eapply t_draw_hit; eauto. apply same_refl.
    + eexists _, _. eapply t_draw_miss; eauto.
  - destruct (ecdh_raw C (r_ephem r) pubkey) as [km|] eqn:E.
    + eexists _, _. eapply t_dh; [exact E|apply stores_cons].
    + eexists _, _. eapply t_dh_bad, E.
  - destruct (Nat.eq_dec (List.length km) 32) as [E|E]; [|eexists _, _; apply t_got_bad, E].
    destruct (lru_found keynb (m, km) (c_derived st) keynb_eq) as [[[ek mk] H]|H].
    + eexists _, _. eapply t_got_hit; eauto. apply same_refl.
    + eexists _, _. eapply t_got_miss; eauto.
  - destruct (derive C km) as [[ek mk]|e] eqn:E.
    + eexists _, _. eapply t_derive; [exact E|apply stores_cons].
    + eexists _, _. eapply t_derive_bad, E.
  - eexists _, _. eapply t_store, stores_cons.
  - eexists _, _. apply t_seal.
  - destruct (bytes_eqb (firstn 1 data) [x04]) eqn:E4.
    2:{ eexists _, _. apply t_open_bad. intros H. apply bytes_eqb_eq in H. congruence. }
    apply bytes_eqb_eq in E4. destruct (secret_of C k) as [s|] eqn:Es; [|eexists _, _; eapply t_open_key; eauto].
    destruct (lru_found key2b (s, firstn (1 + 64) data) (c_ecdh st) key2b_eq) as [[v H]|H].
    + eexists _, _. eapply t_open_hit; eauto. apply same_refl.
    + eexists _, _. eapply t_open_miss; eauto.
  - destruct (ecdh_raw C secret pubkey) as [km|] eqn:E.
    + eexists _, _. eapply t_ddh; [exact E|apply stores_cons].
    + eexists _, _. eapply t_ddh_bad, E.
  - destruct (Nat.eq_dec (List.length km) 32) as [E|E]; [|eexists _, _; apply t_dgot_bad, E].
    destruct (lru_found keynb (m, km) (c_derived st) keynb_eq) as [[v H]|H].
    + eexists _, _. eapply t_dgot_hit; eauto. apply same_refl.
    + eexists _, _. eapply t_dgot_miss; eauto.
  - destruct (derive C km) as [keys|e] eqn:E.
    + eexists _, _. eapply t_dderive; [exact E|apply stores_cons].
    + eexists _, _. eapply t_dderive_bad, E.
  - eexists _, _. apply t_open.
Qed.

Definition left (p : ephase) : nat :=
  match p with
  | EAsk => 10 | ECheck => 9 | EClear => 8 | EStamp => 7 | EDraw => 6 | EDh _ _ => 5 | EGot _ _ => 4
  | EDerive _ _ => 3 | EStore _ => 2 | ESeal _ => 1
  | DAsk => 5 | DDh _ _ => 4 | DGot _ => 3 | DDerive _ => 2 | DOpen _ => 1 | EDone _ => 0
  end.
Lemma tstep_left o st p st' p' : tstep C timeout o st p st' p' -> (left p' < left p)%nat.
Proof. intros X. destruct X; cbn [left]; try lia. destruct (_ <? _); cbn [left]; lia. Qed.
Lemma ten_steps o n p : own (tstep C timeout) o n (ebegin o) p -> (n <= 10)%nat.
Proof.
  intros H. apply (own_bound ebegin _ left) in H; [|intros; eapply tstep_left; eassumption].
  destruct o; cbn [ebegin left] in H; lia.
Qed.
Lemma finishes_alone n : forall o st p, (left p <= n)%nat -> eop_ok C o -> sound st -> knows o p ->
  exists st' res, alone (tstep C timeout) o st p st' (EDone res).
Proof.
  induction n as [|n IH]; intros o st p L Ho I K; (destruct (can_step o p st K) as [[res ->]|(st1 & p1 & X)];
    [exists st, res; constructor|]); pose proof (tstep_left _ _ _ _ _ X); [lia|].
  destruct (tstep_sound _ _ _ _ _ Ho I K X) as [I1 K1].
  destruct (IH o st1 p1 ltac:(lia) Ho I1 K1) as (st2 & res & A). exists st2, res. eapply alone_step; eassumption.
Qed.
Lemma finishes created st pool o p :
  reached ebegin (tstep C timeout) (init_state created) (st, pool) ->
  (forall o p, In (o, p) pool -> eop_ok C o) -> In (o, p) pool ->
  exists st' res, alone (tstep C timeout) o st p st' (EDone res).
Proof.
  intros R Ho Hin. destruct (reached_sound _ _ _ R Ho) as [I K]. eapply finishes_alone; eauto.
Qed.

(** *** one thread *)
Lemma lru_find_none {K V} (keqb : K -> K -> bool) (k : K) (c : list (K * V)) :
  (forall a b, keqb a b = true <-> a = b) -> lru_find keqb k c = None -> absent k c.
Proof.
  intros H F v. revert F. induction c as [|[k' v'] c IH]; cbn; [tauto|].
  destruct (keqb k' k) eqn:E; [discriminate|]. intros F [[= -> ->]|Hi]; [|exact (IH F Hi)].
  assert (keqb k k = true) by (apply H; reflexivity). congruence.
Qed.
Lemma lru_hit_same {K V} (keqb : K -> K -> bool) (k : K) (v : V) (c : list (K * V)) :
  (forall a b, keqb a b = true <-> a = b) -> lru_find keqb k c = Some v -> same_entries c (lru_hit keqb k v c).
Proof.
  intros H F x. unfold lru_hit. split.
  - intros [<-|Hx]; [eapply lru_find_in; eassumption|eapply lru_remove_incl; eassumption].
  - revert F. induction c as [|[k' v'] c IH]; cbn; [tauto|].
    destruct (keqb k' k) eqn:E.
    + apply H in E. intros [= ->] [<-|Hx]; subst; auto.
    + intros F [<-|Hx]; cbn [In]; [auto|]. destruct (IH F Hx); auto.
Qed.
Lemma lru_add_stores {K V} (k : K) (v : V) n (c : list (K * V)) : stores (k, v) c (lru_add n k v c).
Proof. intros y [<-|H]; [auto|]. right. eapply firstn_incl, H. Qed.

Lemma make_alone m d raw sh r st :
  alone (tstep C timeout) (OpEncrypt m d raw sh r) st ECheck (snd (make_ephem_key C timeout st m raw r))
    (match fst (make_ephem_key C timeout st m raw r) with Ok v => EStore v | Err e => EDone (Err e) end).
Proof.
  unfold make_ephem_key.
  set (st0 := if last_cleanup st m <? r_now1 r - timeout m then _ else st).
  apply alone_trans with (st1 := st0) (p1 := EDraw).
  { unfold st0. eapply alone_step; [apply t_check|]. destruct (_ <? _); [|constructor].
    eapply alone_step; [apply t_clear|]. eapply alone_step; [apply t_stamp|]. constructor. }
  clearbody st0. cbv zeta.
  destruct (pub_of C (r_ephem r)) as [p|] eqn:E1; cbn [fst snd]; [|apply alone_one, t_draw_bad; auto].
  destruct (compress C (x04 :: raw)) as [k|] eqn:E2; cbn [fst snd]; [|apply alone_one, t_draw_bad; auto].
  assert (A : alone (tstep C timeout) (OpEncrypt m d raw sh r) st0 EDraw (snd (ecdh C st0 (r_ephem r) k))
                (match fst (ecdh C st0 (r_ephem r) k) with Ok km => EGot p km | Err e => EDone (Err e) end)).
  { unfold ecdh. destruct (lru_find key2b (r_ephem r, k) (c_ecdh st0)) as [v|] eqn:F.
    - apply alone_one. eapply t_draw_hit; eauto using lru_hit_same, key2b_eq. eapply lru_find_in; eauto using key2b_eq.
    - eapply alone_step; [eapply t_draw_miss; eauto using lru_find_none, key2b_eq|].
      destruct (ecdh_raw C (r_ephem r) k) as [km|] eqn:Ek; cbn [fst snd]; apply alone_one.
      + eapply t_dh; [exact Ek|apply lru_add_stores].
      + eapply t_dh_bad, Ek. }
  destruct (ecdh C st0 (r_ephem r) k) as [[km|e] st1]; cbn [fst snd] in *; [|exact A].
  eapply alone_trans; [exact A|].
  destruct (Nat.eqb (List.length km) 32) eqn:L; cbn [negb fst snd];
    [|apply alone_one, t_got_bad, Nat.eqb_neq, L].
  apply Nat.eqb_eq in L.
  unfold get_derived_keys. destruct (lru_find keynb (m, km) (c_derived st1)) as [[ek mk]|] eqn:F; cbn [fst snd].
  - apply alone_one. eapply t_got_hit; eauto using lru_hit_same, keynb_eq. eapply lru_find_in; eauto using keynb_eq.
  - eapply alone_step; [eapply t_got_miss; eauto using lru_find_none, keynb_eq|].
    destruct (derive C km) as [[ek mk]|e] eqn:Ed; cbn [fst snd]; apply alone_one.
    + eapply t_derive; [exact Ed|apply lru_add_stores].
    + eapply t_derive_bad, Ed.
Qed.
Lemma rest_alone m d raw sh r st :
  lru_find keynb (m, raw) (c_ephem st) = None ->
  forall st0, st0 = st ->
  alone (tstep C timeout) (OpEncrypt m d raw sh r) st0 ECheck (snd (encrypt C timeout st m d raw sh r))
    (EDone (fst (encrypt C timeout st m d raw sh r))).
Proof.
  intros F st0 ->. unfold encrypt, get_ephem_key. rewrite F.
  pose proof (make_alone m d raw sh r st) as A.
  destruct (make_ephem_key C timeout st m raw r) as [[v|e] st1]; cbn [fst snd] in *; [|exact A].
  eapply alone_trans; [exact A|]. destruct v as [[ek mk] ep]. cbn [fst snd].
  eapply alone_step; [eapply t_store, lru_add_stores|]. apply alone_one. apply t_seal.
Qed.
Lemma encrypt_alone m d raw sh r st :
  alone (tstep C timeout) (OpEncrypt m d raw sh r) st EAsk (snd (encrypt C timeout st m d raw sh r))
    (EDone (fst (encrypt C timeout st m d raw sh r))).
Proof.
  destruct (lru_find keynb (m, raw) (c_ephem st)) as [v|] eqn:F.
  - unfold encrypt, get_ephem_key. rewrite F. destruct v as [[ek mk] ep]. cbn [fst snd].
    eapply alone_step; [eapply t_ask_hit; [eapply lru_find_in; eauto using keynb_eq|eauto using lru_hit_same, keynb_eq]|].
    apply alone_one. apply t_seal.
  - eapply alone_step; [apply t_ask_miss; eauto using lru_find_none, keynb_eq|]. apply rest_alone; auto.
Qed.
Lemma decrypt_alone m data k sh st :
  alone (tstep C timeout) (OpDecrypt m data k sh) st DAsk (snd (decrypt C st m data k sh))
    (EDone (fst (decrypt C st m data k sh))).
Proof.
  unfold decrypt. destruct (bytes_eqb (firstn 1 data) [x04]) eqn:E4; cbn [negb fst snd].
  2:{ apply alone_one, t_open_bad. intros H. apply bytes_eqb_eq in H. congruence. }
  apply bytes_eqb_eq in E4. cbv zeta.
  destruct (secret_of C k) as [s|] eqn:Es; cbn [fst snd]; [|apply alone_one, t_open_key; auto].
  assert (A : alone (tstep C timeout) (OpDecrypt m data k sh) st DAsk (snd (ecdh C st s (firstn (1 + 64) data)))
                (match fst (ecdh C st s (firstn (1 + 64) data)) with Ok km => DGot km | Err e => EDone (Err e) end)).
  { unfold ecdh. match goal with |- context [lru_find key2b ?q ?c] => destruct (lru_find key2b q c) as [v|] eqn:F end.
    - apply alone_one. eapply t_open_hit; eauto using lru_hit_same, key2b_eq. eapply lru_find_in; eauto using key2b_eq.
    - eapply alone_step; [eapply t_open_miss; eauto using lru_find_none, key2b_eq|].
      destruct (ecdh_raw C s (firstn (1 + 64) data)) as [km|] eqn:Ek; cbn [fst snd]; apply alone_one.
      + eapply t_ddh; [exact Ek|apply lru_add_stores].
      + eapply t_ddh_bad, Ek. }
  destruct (ecdh C st s (firstn (1 + 64) data)) as [[km|e] st1]; cbn [fst snd] in *; [|exact A].
  eapply alone_trans; [exact A|].
  destruct (Nat.eqb (List.length km) 32) eqn:L; cbn [negb fst snd];
    [|apply alone_one, t_dgot_bad, Nat.eqb_neq, L].
  apply Nat.eqb_eq in L.
  unfold get_derived_keys. destruct (lru_find keynb (m, km) (c_derived st1)) as [[ek mk]|] eqn:F; cbn [fst snd].
  - eapply alone_step; [eapply t_dgot_hit; eauto using lru_hit_same, keynb_eq; eapply lru_find_in; eauto using keynb_eq|].
    apply alone_one. apply t_open.
  - eapply alone_step; [eapply t_dgot_miss; eauto using lru_find_none, keynb_eq|].
    destruct (derive C km) as [[ek mk]|e] eqn:Ed; cbn [fst snd].
    + eapply alone_step; [eapply t_dderive; [exact Ed|apply lru_add_stores]|]. apply alone_one. apply t_open.
    + apply alone_one. eapply t_dderive_bad, Ed.
Qed.
End Ecies.

(** two threads, one recipient, two ephemeral keys *)
Lemma two_keys (C : crypto) timeout created m pk d1 d2 r1 r2 :
  let st1 := snd (encrypt C timeout (init_state created) m d1 pk [] r1) in
  reached ebegin (tstep C timeout) (init_state created)
    (snd (make_ephem_key C timeout st1 m pk r2),
     [(OpEncrypt m d1 pk [] r1, EDone (fst (encrypt C timeout (init_state created) m d1 pk [] r1)));
      (OpEncrypt m d2 pk [] r2,
       match fst (make_ephem_key C timeout st1 m pk r2) with Ok v => EStore v | Err e => EDone (Err e) end)]).
Proof.
  cbv zeta. set (o1 := OpEncrypt m d1 pk [] r1). set (o2 := OpEncrypt m d2 pk [] r2).
  set (s0 := init_state created).
  assert (H : reached ebegin (tstep C timeout) s0 (s0, [(o1, ECheck); (o2, ECheck)])).
  { apply runs_step with (b := (s0, [(o1, ECheck)] ++ (o2, EAsk) :: [])).
    - change (o2, EAsk) with (o2, ebegin o2). apply runs_begin with (pool := [(o1, ECheck)]).
      apply runs_step with (b := (s0, [] ++ (o1, EAsk) :: [])).
      + change (o1, EAsk) with (o1, ebegin o1). apply runs_begin with (pool := []). constructor.
      + apply (Moves ebegin (tstep C timeout) s0 [] o1 EAsk [] s0 ECheck). apply t_ask_miss. intros v [].
    - apply (Moves ebegin (tstep C timeout) s0 [(o1, ECheck)] o2 EAsk [] s0 ECheck). apply t_ask_miss. intros v []. }
  match goal with |- reached _ _ _ (?st, [?a; (?o, ?p)]) =>
    refine (runs_alone ebegin (tstep C timeout) (s0, []) o [a] [] _ ECheck st p _ _) end.
  - apply make_alone.
  - match goal with |- runs _ _ _ (?st, [(?o, ?p)] ++ ?post) =>
      refine (runs_alone ebegin (tstep C timeout) (s0, []) o [] post s0 ECheck st p _ H) end.
    apply rest_alone; reflexivity.
Qed.
Lemma two_keys_done (C : crypto) timeout created m pk d1 d2 r1 r2 v :
  let st1 := snd (encrypt C timeout (init_state created) m d1 pk [] r1) in
  fst (make_ephem_key C timeout st1 m pk r2) = Ok v ->
  exists st, reached ebegin (tstep C timeout) (init_state created)
    (st, [(OpEncrypt m d1 pk [] r1, EDone (fst (encrypt C timeout (init_state created) m d1 pk [] r1)));
          (OpEncrypt m d2 pk [] r2, EDone (seal C v d2 [] (r_iv r2)))]).
Proof.
  cbv zeta. intros E. pose proof (two_keys C timeout created m pk d1 d2 r1 r2) as H. cbv zeta in H. rewrite E in H.
  set (o2 := OpEncrypt m d2 pk [] r2) in *.
  match type of H with reached _ _ _ (?st, [?a; _]) =>
    pose proof (runs_alone ebegin (tstep C timeout) _ o2 [a] [] st (EStore v) _ (EDone (seal C v d2 [] (r_iv r2)))
      (alone_step _ _ _ _ _ _ _ _ (t_store C timeout m d2 pk [] r2 st v _ (stores_cons _ _))
        (alone_one _ _ _ _ _ _ (t_seal C timeout m d2 pk [] r2 _ v))) H) as G end.
  eexists. exact G.
Qed.

(** ** Ids *)
Lemma uuid1_int_seq t1 t2 c1 c2 n1 n2 :
  0 <= n1 < 2 ^ 48 -> 0 <= n2 < 2 ^ 48 ->
  uuid1_int t1 c1 n1 = uuid1_int t2 c2 n2 -> n1 = n2 /\ c1 mod 2 ^ 14 = c2 mod 2 ^ 14.
Proof.
  intros H1 H2 E. assert (N : n1 = n2) by (rewrite <- (uuid1_int_node t1 c1 n1 H1), <- (uuid1_int_node t2 c2 n2 H2), E; reflexivity).
  split; [exact N|]. subst n2. unfold uuid1_int in E.
  assert (M : forall c, c mod 2 ^ 14 = ((c / 256) mod 64) * 256 + c mod 256).
  { intros c. change (2 ^ 14) with (256 * 64). rewrite Z.rem_mul_r by lia. lia. }
  rewrite !M.
  pose proof (Z.mod_pos_bound (c1 / 256) 64 ltac:(lia)). pose proof (Z.mod_pos_bound (c2 / 256) 64 ltac:(lia)).
  pose proof (Z.mod_pos_bound c1 256 ltac:(lia)). pose proof (Z.mod_pos_bound c2 256 ltac:(lia)).
  generalize dependent (t1 mod 2 ^ 32). generalize dependent ((t1 / 2 ^ 32) mod 2 ^ 16).
  generalize dependent ((t1 / 2 ^ 48) mod 2 ^ 12). generalize dependent (t2 mod 2 ^ 32).
  generalize dependent ((t2 / 2 ^ 32) mod 2 ^ 16). generalize dependent ((t2 / 2 ^ 48) mod 2 ^ 12).
  generalize dependent ((c1 / 256) mod 64). generalize dependent ((c2 / 256) mod 64).
  generalize dependent (c1 mod 256). generalize dependent (c2 mod 256).
  intros. lia.
Qed.

Definition ibegin (o : icall) : iphase := IFirst.
Definition iknows (o : icall) (last : option Z) (p : iphase) : Prop :=
  match p with
  | IDone id => exists ts, id = uuid_str (uuid1_int ts (i_seq o) (seed_to_node (i_seed o)))
  | ICompare | IBump => last <> None
  | _ => True
  end.
Lemma ireached last0 last pool :
  reached ibegin istep last0 (last, pool) -> forall o p, In (o, p) pool -> iknows o last p.
Proof.
  intros R. apply (runs_inv ibegin istep (fun _ => True) (fun _ => True) iknows last0) with (b := (last, pool));
    auto.
  - intros o st p st' p' _ _ _ X. split; [exact Logic.I|]. destruct X; cbn [iknows]; try discriminate; auto.
    + destruct (_ <=? _); cbn; [discriminate|exact Logic.I].
    + eauto.
  - intros o st p st' p' o' q _ _ _ _ X K. destruct q; cbn [iknows] in *; auto;
      (destruct X; [contradiction|..]; discriminate).
Qed.
Lemma id_seeded last0 last pool o id seed2 :
  reached ibegin istep last0 (last, pool) -> In (o, IDone id) pool ->
  check_id_seed (VStr id) seed2 = Ok (be_dec (firstn 6 seed2) =? be_dec (firstn 6 (i_seed o))).
Proof.
  intros R H. destruct (ireached _ _ _ R _ _ H) as [ts ->]. pose proof (seed_to_node_range (i_seed o)).
  rewrite check_id_seed_str by (apply uuid1_int_range; lia). rewrite uuid1_int_node by lia. reflexivity.
Qed.
Lemma id_collide last0 last pool o1 o2 id :
  reached ibegin istep last0 (last, pool) -> In (o1, IDone id) pool -> In (o2, IDone id) pool ->
  be_dec (firstn 6 (i_seed o1)) = be_dec (firstn 6 (i_seed o2)) /\ i_seq o1 mod 2 ^ 14 = i_seq o2 mod 2 ^ 14.
Proof.
  intros R H1 H2. destruct (ireached _ _ _ R _ _ H1) as [t1 E1]. destruct (ireached _ _ _ R _ _ H2) as [t2 E2].
  pose proof (seed_to_node_range (i_seed o1)). pose proof (seed_to_node_range (i_seed o2)).
  rewrite E1 in E2. apply uuid_str_inj in E2; try (apply uuid1_int_range; lia).
  exact (uuid1_int_seq _ _ _ _ _ _ H H0 E2).
Qed.
Lemma id_alone o last id last' :
  generate_id last (i_now o) (i_seq o) (i_seed o) = (Ok id, last') -> alone istep o last IFirst last' (IDone id).
Proof.
  rewrite generate_id_ok. intros [= <- <-]. unfold uuid1_ticks. destruct last as [t|].
  - eapply alone_step; [apply i_first|]. eapply alone_step; [apply i_compare|].
    destruct (i_now o <=? t).
    + eapply alone_step; [apply i_bump|]. apply alone_one, i_write.
    + apply alone_one, i_write.
  - eapply alone_step; [apply i_first_none|]. apply alone_one, i_write.
Qed.
Definition ileft (p : iphase) : nat :=
  match p with IFirst => 4 | ICompare => 3 | IBump => 2 | IWrite _ => 1 | IDone _ => 0 end.
Lemma id_four o n p : own istep o n IFirst p -> (n <= 4)%nat.
Proof.
  intros H. apply (own_bound ibegin _ ileft) in H; [cbn [ileft] in H; lia|].
  intros st q st' q' X. destruct X; cbn [ileft]; try lia. destruct (_ <=? _); cbn [ileft]; lia.
Qed.
Lemma id_finishes last0 last pool o p :
  reached ibegin istep last0 (last, pool) -> In (o, p) pool -> exists last' id, alone istep o last p last' (IDone id).
Proof.
  intros R H. pose proof (ireached _ _ _ R _ _ H) as K. clear R H.
  assert (W : forall last ts, exists last' id, alone istep o last (IWrite ts) last' (IDone id)).
  { intros l ts. eexists _, _. apply alone_one, i_write. }
  assert (B : forall t, exists last' id, alone istep o (Some t) IBump last' (IDone id)).
  { intros t. destruct (W (Some t) (t + 1)) as (l & id & A). exists l, id. eapply alone_step; [apply i_bump|exact A]. }
  assert (G : forall t, exists last' id, alone istep o (Some t) ICompare last' (IDone id)).
  { intros t. destruct (i_now o <=? t) eqn:E.
    - destruct (B t) as (l & id & A). exists l, id. eapply alone_step; [apply i_compare|]. rewrite E. exact A.
    - destruct (W (Some t) (i_now o)) as (l & id & A). exists l, id. eapply alone_step; [apply i_compare|]. rewrite E. exact A. }
  destruct p; cbn [iknows] in K.
  - destruct last as [t|].
    + destruct (G t) as (l & id & A). exists l, id. eapply alone_step; [apply i_first|exact A].
    + destruct (W None (i_now o)) as (l & id & A). exists l, id. eapply alone_step; [apply i_first_none|exact A].
  - destruct last as [t|]; [apply G|congruence].
  - destruct last as [t|]; [apply B|congruence].
  - apply W.
  - exists last, id. constructor.
Qed.
Definition inext (o : icall) (last : option Z) (p : iphase) : option (option Z * iphase) :=
  match p, last with
  | IFirst, None => Some (None, IWrite (i_now o))
  | IFirst, Some t => Some (Some t, ICompare)
  | ICompare, Some t => Some (Some t, if i_now o <=? t then IBump else IWrite (i_now o))
  | IBump, Some t => Some (Some t, IWrite (t + 1))
  | IWrite ts, _ => Some (Some ts, IDone (uuid_str (uuid1_int ts (i_seq o) (seed_to_node (i_seed o)))))
  | _, _ => None
  end.
Lemma inext_step o st p st' p' : inext o st p = Some (st', p') -> istep o st p st' p'.
Proof.
  destruct p, st as [t|]; cbn [inext]; intros H; try discriminate; injection H as <- <-; constructor.
Qed.

(** ** Dumps of one message *)
Section Dump.
Context (E : env) (c : mcls) (ty ts : pyval) (a : attrs_t).
Local Notation dstep := (dstep E c ty ts a).
Local Notation new_sig := (new_sig E c ty ts a).
Local Notation joined := (joined c a).
Local Notation flag := (flag c).
Definition dbegin (o : dump_call) : dphase := SKey.

(** encrypting, as one call alone does it *)
Definition own_body (o : dump_call) (q : bytes) : result bytes :=
  match d_encf o with Some f => if encrypts c then f q else Ok q | None => Ok q end.
Lemma after_seal_own o q :
  after_seal o (flag o) q = match own_body o q with Ok q' => SHeader q' | Err e => SDone (Err e) end.
Proof.
  unfold after_seal, flag, with_encf, own_body. destruct (d_encf o) as [f|]; destruct (encrypts c); cbn [truthy andb]; reflexivity.
Qed.
Definition own_sig (o : dump_call) (sig : pyval) (q : bytes) : result pyval :=
  if is_none sig then do s <- new_sig o q; Ok (VBytes s) else Ok sig.
Lemma serialize_eq enc sig o :
  serialize E (VMsg c ty ts enc sig a) (d_key o) (d_encf o) =
  if again o sig then (VMsg c ty ts enc sig a, Err ESignatureAlreadyExists) else
  match payload_of c a with
  | Err e => (VMsg c ty ts (flag o) sig a, Err e)
  | Ok q =>
      match own_sig o sig q with
      | Err e => (VMsg c ty ts (flag o) sig a, Err e)
      | Ok sig' =>
          (VMsg c ty ts (flag o) sig' a,
           do q' <- own_body o q; do h <- pack_header (type_of c) ts (flag o); joined h sig' q')
      end
  end.
Proof.
  unfold serialize, again. destruct (key_given (d_key o) && truthy sig); [reflexivity|].
  destruct (payload_of c a) as [q|e]; [|reflexivity]. unfold own_sig, Threads.new_sig. cbv zeta.
  destruct (is_none sig); [|reflexivity].
  destruct (key_given (d_key o) && signs c); [|reflexivity].
  destruct (hash_payload E c ty ts a q) as [h|e]; cbn [bind]; [|reflexivity].
  destruct (ecdsa_sign _ _ _); reflexivity.
Qed.

Lemma dump_alone enc sig o enc' sig' res :
  serialize E (VMsg c ty ts enc sig a) (d_key o) (d_encf o) = (VMsg c ty ts enc' sig' a, res) ->
  alone dstep o (enc, sig) SKey (enc', sig') (SDone res).
Proof.
  rewrite serialize_eq. destruct (again o sig) eqn:A.
  { intros [= <- <- <-]. apply alone_one, s_key_bad, A. }
  intros H. eapply alone_step; [apply s_key, A|]. eapply alone_step; [apply s_flag|]. unfold after_flag.
  destruct (payload_of c a) as [q|e]; [|injection H as <- <- <-; constructor].
  eapply alone_step; [apply s_sig|]. unfold after_sig. unfold own_sig in H.
  assert (T : forall sg, alone dstep o (flag o, sg) (SSeal q) (flag o, sg)
              (SDone (do q' <- own_body o q; do h <- pack_header (type_of c) ts (flag o); joined h sg q'))).
  { intros sg. eapply alone_step; [apply s_seal|]. rewrite after_seal_own.
    destruct (own_body o q) as [q'|e]; cbn [bind]; [|constructor].
    eapply alone_step; [apply s_header|]. unfold after_header.
    destruct (pack_header (type_of c) ts (flag o)) as [h|e]; cbn [bind]; [|constructor].
    apply alone_one, s_join. }
  assert (J : forall e1 s1 (r1 : result bytes), (VMsg c ty ts e1 s1 a, r1) = (VMsg c ty ts enc' sig' a, res) ->
              e1 = enc' /\ s1 = sig' /\ r1 = res) by (intros e1 s1 r1 [= -> -> ->]; auto).
  destruct (is_none sig).
  - destruct (new_sig o q) as [s|e] eqn:N; cbn [bind] in H; apply J in H as (<- & <- & <-).
    + eapply alone_step; [apply s_sign, N|]. apply T.
    + apply alone_one, s_sign_bad, N.
  - apply J in H as (<- & <- & <-). apply T.
Qed.

(** *** what any frame is made of *)
Section Frame.
Context (sig0 : pyval) (ok : dump_call -> Prop).
Definition fstate (st : pyval * pyval) : Prop :=
  snd st = sig0 \/ sig0 = VNone /\ exists o q s, ok o /\ payload_of c a = Ok q /\ new_sig o q = Ok s /\ snd st = VBytes s.
Definition body_ok (o : dump_call) (q q' : bytes) : Prop :=
  (exists f, d_encf o = Some f /\ f q = Ok q') \/
  (q' = q /\ exists o', ok o' /\ encrypts c && with_encf o' = false).
Definition fknows (o : dump_call) (st : pyval * pyval) (p : dphase) : Prop :=
  match p with
  | SKey | SFlag => True
  | SSig q => payload_of c a = Ok q /\ exists o', ok o' /\ fst st = flag o'
  | SSign q => payload_of c a = Ok q /\ sig0 = VNone /\ exists o', ok o' /\ fst st = flag o'
  | SSeal q => payload_of c a = Ok q /\ exists o', ok o' /\ fst st = flag o'
  | SHeader q' => exists q, payload_of c a = Ok q /\ body_ok o q q' /\ exists o', ok o' /\ fst st = flag o'
  | SJoin h q' => exists q, payload_of c a = Ok q /\ body_ok o q q' /\
                  exists o', ok o' /\ pack_header (type_of c) ts (flag o') = Ok h
  | SDone (Ok bs) =>
      exists q q' h s v, payload_of c a = Ok q /\ body_ok o q q' /\ bs = h ++ s ++ q' ++ v /\
        (exists o', ok o' /\ pack_header (type_of c) ts (flag o') = Ok h) /\
        (sig0 = VBytes s \/ sig0 = VNone /\ exists o', ok o' /\ new_sig o' q = Ok s) /\
        (c <> MHello -> v = [])
  | SDone (Err _) => True
  end.
Lemma frame_inv enc0 st pool :
  reached dbegin dstep (enc0, sig0) (st, pool) -> (forall o p, In (o, p) pool -> ok o) ->
  fstate st /\ forall o p, In (o, p) pool -> fknows o st p.
Proof.
  intros R Hok.
  apply (runs_inv dbegin dstep ok fstate fknows (enc0, sig0)) with (b := (st, pool)); auto.
  - left. reflexivity.
  - intros o st1 _ _. exact Logic.I.
  - intros o st1 p st2 p2 Ho I K X. destruct X; cbn [fknows fst snd] in *.
    + auto.
    + auto.
    + split; [exact I|]. unfold after_flag. destruct (payload_of c a) as [q|e] eqn:Ep; cbn [fknows fst]; [|exact Logic.I].
      split; [exact Ep|]. eauto.
    + split; [exact I|]. unfold after_sig. destruct K as [K1 K2]. destruct (is_none sig) eqn:N; cbn [fknows fst]; [|auto].
      split; [auto|]. split; [|auto]. destruct I as [I|[I _]]; [|exact I]. cbn [snd] in I. subst. destruct sig0; discriminate || reflexivity.
    + destruct K as (K1 & K2 & K3). split; [|auto]. right. split; [exact K2|]. exists o, p, s. auto.
    + split; [exact I|]. exact Logic.I.
    + split; [exact I|]. destruct K as (K1 & o' & K2 & K3). unfold after_seal.
      destruct (truthy enc) eqn:T.
      * destruct (d_encf o) as [f|] eqn:Ef; [|exact Logic.I]. destruct (f p) as [q'|e] eqn:Eq; [|exact Logic.I].
        cbn [fknows fst]. exists p. split; [exact K1|]. split; [left; eauto|eauto].
      * cbn [fknows fst]. exists p. split; [exact K1|]. split; [|eauto]. right. split; [reflexivity|].
        exists o'. split; [exact K2|]. rewrite K3 in T. exact T.
    + split; [exact I|]. destruct K as (q & K1 & K2 & o' & K3 & K4). unfold after_header.
      destruct (pack_header (type_of c) ts enc) as [h|e] eqn:Eh; [|exact Logic.I]. cbn [fknows].
      exists q. split; [exact K1|]. split; [exact K2|]. exists o'. subst enc. auto.
    + split; [exact I|]. destruct K as (q & K1 & K2 & o' & K3 & K4). unfold Threads.joined.
      destruct sig as [| | | | |s| | | | | | | |] eqn:Es; try exact Logic.I. cbn [bind].
      assert (S : sig0 = VBytes s \/ sig0 = VNone /\ exists o', ok o' /\ new_sig o' q = Ok s).
      { destruct I as [I|(I1 & o2 & q2 & s2 & I2 & I3 & I4 & I5)]; cbn [snd] in *; [auto|]. right. split; [exact I1|].
        exists o2. split; [exact I2|]. congruence. }
      remember (match c with MHello => do v <- version_bytes a; Ok (pack32p v) | _ => Ok [] end) as tail eqn:Et.
      assert (T : c <> MHello -> tail = Ok []) by (intros N; rewrite Et; destruct c; reflexivity || contradiction).
      clear Et. destruct tail as [v|e]; cbn [bind fknows]; [|exact Logic.I].
      exists q, p, h, s, v. repeat (split; [eauto; fail|]). intros N. specialize (T N). congruence.
  - intros o st1 p st2 p2 o' q Ho Ho' I K X K'.
    assert (F : fst st2 = fst st1 \/ fst st2 = flag o) by (destruct X; cbn [fst]; auto).
    assert (G : (exists o2, ok o2 /\ fst st1 = flag o2) -> exists o2, ok o2 /\ fst st2 = flag o2).
    { intros (o2 & G1 & G2). destruct F as [F|F]; [|eauto]. exists o2. split; congruence. }
    destruct q; cbn [fknows] in *; auto; try tauto.
    destruct K' as (q & K1 & K2 & K3). eauto.
Qed.
End Frame.

Lemma any_frame enc0 sig0 st pool o bs :
  reached dbegin dstep (enc0, sig0) (st, pool) -> In (o, SDone (Ok bs)) pool ->
  exists q q' h s v, payload_of c a = Ok q /\ bs = h ++ s ++ q' ++ v /\
    (exists o' p', In (o', p') pool /\ pack_header (type_of c) ts (flag o') = Ok h) /\
    (sig0 = VBytes s \/ sig0 = VNone /\ exists o' p', In (o', p') pool /\ new_sig o' q = Ok s) /\
    ((exists f, d_encf o = Some f /\ f q = Ok q') \/
     (q' = q /\ exists o' p', In (o', p') pool /\ encrypts c && with_encf o' = false)) /\
    (c <> MHello -> v = []).
Proof.
  intros R H.
  destruct (frame_inv sig0 (fun o => exists p, In (o, p) pool) enc0 st pool R) as [_ K]; [eauto|].
  destruct (K _ _ H) as (q & q' & h & s & v & K1 & K2 & K3 & (o1 & [p1 K4] & K5) & K6 & K7).
  exists q, q', h, s, v. split; [exact K1|]. split; [exact K3|]. split; [eauto|]. split; [|split; [|exact K7]].
  - destruct K6 as [K6|(K6 & o2 & [p2 K8] & K9)]; [auto|]. right. split; [exact K6|]. eauto.
  - destruct K2 as [K2|(K2 & o2 & [p2 K8] & K9)]; [auto|]. right. split; [exact K2|]. eauto.
Qed.

(** *** calls that agree *)
Section Agree.
Context (enc0 sig0 b : pyval) (K : option bytes).
Definition agrees (o : dump_call) : Prop := flag o = b /\ (sig0 <> VNone \/ d_key o = K).
Definition mine (o : dump_call) : result bytes := snd (serialize E (VMsg c ty ts enc0 sig0 a) (d_key o) (d_encf o)).
Definition final (o : dump_call) (q : bytes) (sig : pyval) : Prop := own_sig o sig0 q = Ok sig.
Definition astate (st : pyval * pyval) : Prop :=
  snd st = sig0 \/ sig0 = VNone /\ exists o q, agrees o /\ payload_of c a = Ok q /\ final o q (snd st).
Definition aknows (o : dump_call) (st : pyval * pyval) (p : dphase) : Prop :=
  match p with
  | SKey => True
  | SFlag => again o sig0 = false
  | SSig q => again o sig0 = false /\ payload_of c a = Ok q /\ fst st = b
  | SSign q => again o sig0 = false /\ payload_of c a = Ok q /\ fst st = b /\ sig0 = VNone
  | SSeal q => again o sig0 = false /\ payload_of c a = Ok q /\ fst st = b /\ final o q (snd st)
  | SHeader q' => exists q, again o sig0 = false /\ payload_of c a = Ok q /\ fst st = b /\ final o q (snd st) /\ own_body o q = Ok q'
  | SJoin h q' => exists q, again o sig0 = false /\ payload_of c a = Ok q /\ final o q (snd st) /\ own_body o q = Ok q' /\
                  pack_header (type_of c) ts b = Ok h
  | SDone r => r = mine o \/ r = Err ESignatureAlreadyExists /\ sig0 = VNone /\ key_given (d_key o) = true
  end.
Lemma none_is v : is_none v = true -> v = VNone.
Proof. destruct v; discriminate || reflexivity. Qed.
Lemma final_same o o' q : agrees o -> agrees o' -> own_sig o sig0 q = own_sig o' sig0 q.
Proof.
  intros [_ A] [_ A']. unfold own_sig. destruct (is_none sig0) eqn:Z; [|reflexivity]. apply none_is in Z.
  destruct A as [A|A]; [contradiction|]. destruct A' as [A'|A']; [contradiction|].
  unfold Threads.new_sig. rewrite A, A'. reflexivity.
Qed.
Lemma agree_inv st pool :
  reached dbegin dstep (enc0, sig0) (st, pool) -> (forall o p, In (o, p) pool -> agrees o) ->
  astate st /\ forall o p, In (o, p) pool -> aknows o st p.
Proof.
  intros R Hok.
  apply (runs_inv dbegin dstep agrees astate aknows (enc0, sig0)) with (b := (st, pool)); auto.
  - left. reflexivity.
  - intros o st1 _ _. exact Logic.I.
  - intros o st1 p st2 p2 Ho I H X. destruct Ho as [Hf Hk]. pose proof (conj Hf Hk) as Ho.
    destruct X; cbn [aknows fst snd] in *.
    + split; [exact I|]. destruct I as [I|(I & _)]; cbn [snd] in I.
      * left. unfold mine. rewrite serialize_eq. subst sig. rewrite H0. reflexivity.
      * right. split; [reflexivity|]. split; [exact I|]. unfold again in H0. destruct (key_given (d_key o)); [reflexivity|discriminate].
    + split; [exact I|]. destruct I as [I|(I & _)]; cbn [snd] in I; [congruence|]. rewrite I. unfold again.
      cbn [truthy]. apply andb_false_r.
    + split; [exact I|]. unfold after_flag. destruct (payload_of c a) as [q|e] eqn:Ep; cbn [aknows fst].
      * auto.
      * left. unfold mine. rewrite serialize_eq, H, Ep. reflexivity.
    + split; [exact I|]. destruct H as (H1 & H2 & H3). unfold after_sig. destruct (is_none sig) eqn:N; cbn [aknows fst snd].
      * apply none_is in N. subst sig. destruct I as [I|(I & _)]; auto.
      * split; [exact H1|]. split; [exact H2|]. split; [exact H3|].
        destruct I as [I|(I & o2 & q2 & I1 & I2 & I3)]; cbn [snd] in *.
        -- unfold final, own_sig. rewrite <- I, N. reflexivity.
        -- assert (q2 = p) by congruence. subst q2. unfold final. rewrite (final_same o o2); [exact I3|exact Ho|exact I1].
    + destruct H as (H1 & H2 & H3 & H4).
      assert (Fi : final o p (VBytes s)) by (unfold final, own_sig; rewrite H4; cbn [is_none]; rewrite H0; reflexivity).
      split; [|auto]. right. split; [exact H4|]. exists o, p. auto.
    + destruct H as (H1 & H2 & H3 & H4). split; [exact I|]. left. unfold mine. rewrite serialize_eq, H1, H2.
      unfold own_sig. rewrite H4. cbn [is_none]. rewrite H0. reflexivity.
    + destruct H as (H1 & H2 & H3 & H4). split; [exact I|]. rewrite H3, <- Hf, after_seal_own.
      destruct (own_body o p) as [q'|e] eqn:Eb; cbn [aknows fst snd].
      * exists p. auto 10.
      * left. unfold mine. rewrite serialize_eq, H1, H2. unfold final in H4. rewrite H4. cbn [snd]. rewrite Eb. reflexivity.
    + destruct H as (q & H1 & H2 & H3 & H4 & H5). split; [exact I|]. rewrite H3. unfold after_header.
      destruct (pack_header (type_of c) ts b) as [h|e] eqn:Eh; cbn [aknows fst snd].
      * exists q. auto 10.
      * left. unfold mine. rewrite serialize_eq, H1, H2. unfold final in H4. rewrite H4. cbn [snd]. rewrite H5. cbn [bind].
        rewrite Hf, Eh. reflexivity.
    + destruct H as (q & H1 & H2 & H3 & H4 & H5). split; [exact I|]. left. unfold mine. rewrite serialize_eq, H1, H2.
      unfold final in H3. rewrite H3. cbn [snd]. rewrite H4. cbn [bind]. rewrite Hf, H5. reflexivity.
  - intros o st1 p st2 p2 o' q Ho Ho' I H X H'.
    assert (F : fst st1 = b -> fst st2 = b) by (destruct Ho as [Hf _]; destruct X; cbn [fst]; auto).
    assert (G : forall q, payload_of c a = Ok q -> final o' q (snd st1) -> final o' q (snd st2)).
    { intros q1 E1 Fi. destruct X; cbn [snd] in *; auto. cbn [aknows fst snd] in H. destruct H as (H1 & H2 & H3 & H4).
      assert (q1 = p) by congruence. subst q1. unfold final. rewrite (final_same o' o) by assumption.
      unfold own_sig. rewrite H4. cbn [is_none]. rewrite H0. reflexivity. }
    destruct q; cbn [aknows] in *; auto; try tauto.
    + destruct H' as (H1 & H2 & H3 & H4). auto.
    + destruct H' as (q & H1 & H2 & H3 & H4 & H5). eauto 10.
    + destruct H' as (q & H1 & H2 & H3 & H4 & H5). eauto 10.
Qed.
End Agree.

Lemma agreeing enc0 sig0 st pool o r :
  reached dbegin dstep (enc0, sig0) (st, pool) -> In (o, SDone r) pool ->
  (forall o1 p1 o2 p2, In (o1, p1) pool -> In (o2, p2) pool ->
     (encrypts c = true -> with_encf o1 = with_encf o2) /\ (sig0 = VNone -> d_key o1 = d_key o2)) ->
  r = snd (serialize E (VMsg c ty ts enc0 sig0 a) (d_key o) (d_encf o)) \/
  r = Err ESignatureAlreadyExists /\ sig0 = VNone /\ key_given (d_key o) = true.
Proof.
  intros R H A.
  destruct (agree_inv enc0 sig0 (flag o) (d_key o) st pool R) as [_ Kn]; [|exact (Kn _ _ H)].
  intros o1 p1 H1. destruct (A _ _ _ _ H1 H) as [A1 A2]. split.
  - unfold Threads.flag. destruct (encrypts c); [|reflexivity]. rewrite A1; reflexivity.
  - destruct (is_none sig0) eqn:N; [apply none_is in N; auto|]. left. intros ->. discriminate.
Qed.

Definition dnext (o : dump_call) (st : pyval * pyval) (p : dphase) : option ((pyval * pyval) * dphase) :=
  match p with
  | SKey => Some (st, if again o (snd st) then SDone (Err ESignatureAlreadyExists) else SFlag)
  | SFlag => Some ((flag o, snd st), after_flag c a)
  | SSig q => Some (st, after_sig (snd st) q)
  | SSign q => match new_sig o q with
               | Ok s => Some ((fst st, VBytes s), SSeal q)
               | Err e => Some (st, SDone (Err e))
               end
  | SSeal q => Some (st, after_seal o (fst st) q)
  | SHeader q => Some (st, after_header c ts (fst st) q)
  | SJoin h q => Some (st, SDone (joined h (snd st) q))
  | SDone _ => None
  end.
Lemma dnext_step o st p st' p' : dnext o st p = Some (st', p') -> dstep o st p st' p'.
Proof.
  assert (J : forall (x y : pyval * pyval) (p q : dphase), Some (x, p) = Some (y, q) -> x = y /\ p = q)
    by (intros x y p0 q [= -> ->]; auto).
  destruct st as [enc sig]. destruct p; cbn [dnext fst snd]; intros H.
  - apply J in H as [<- <-]. destruct (again o sig) eqn:A; [apply s_key_bad, A|apply s_key, A].
  - apply J in H as [<- <-]. apply s_flag.
  - apply J in H as [<- <-]. apply s_sig.
  - destruct (new_sig o payload) as [s|e] eqn:N; apply J in H as [<- <-]; [apply s_sign, N|apply s_sign_bad, N].
  - apply J in H as [<- <-]. apply s_seal.
  - apply J in H as [<- <-]. apply s_header.
  - apply J in H as [<- <-]. apply s_join.
  - discriminate.
Qed.
Definition dleft (p : dphase) : nat :=
  match p with SKey => 7 | SFlag => 6 | SSig _ => 5 | SSign _ => 4 | SSeal _ => 3 | SHeader _ => 2 | SJoin _ _ => 1 | SDone _ => 0 end.
Lemma dstep_left o st p st' p' : dstep o st p st' p' -> (dleft p' < dleft p)%nat.
Proof.
  intros X. destruct X; cbn [dleft]; try lia.
  - unfold after_flag. destruct (payload_of c a); cbn [dleft]; lia.
  - unfold after_sig. destruct (is_none sig); cbn [dleft]; lia.
  - unfold after_seal. destruct (truthy enc); [destruct (d_encf o) as [f|]; [destruct (f p)|]|]; cbn [dleft]; lia.
  - unfold after_header. destruct (pack_header _ _ _); cbn [dleft]; lia.
Qed.
Lemma dump_seven o n p : own dstep o n SKey p -> (n <= 7)%nat.
Proof.
  intros H. apply (own_bound dbegin _ dleft) in H; [cbn [dleft] in H; lia|]. intros st q st' q'. apply dstep_left.
Qed.
Lemma dump_finishes o : forall st p, exists st' r, alone dstep o st p st' (SDone r).
Proof.
  enough (G : forall n st p, (dleft p <= n)%nat -> exists st' r, alone dstep o st p st' (SDone r)) by eauto.
  assert (D : forall st p, (exists r, p = SDone r) \/ exists st' p', dstep o st p st' p').
  { intros st p.
    assert (N : (exists r, p = SDone r) \/ exists x, dnext o st p = Some x).
    { destruct p; cbn [dnext]; eauto. destruct (new_sig o payload); eauto. }
    destruct N as [N|[[st' p'] N]]; [auto|]. right. eauto using dnext_step. }
  induction n as [|n IH]; intros st p L; (destruct (D st p) as [[r ->]|(st1 & p1 & X)]; [exists st, r; constructor|]);
    pose proof (dstep_left _ _ _ _ _ X); [lia|].
  destruct (IH st1 p1 ltac:(lia)) as (st2 & r & A). exists st2, r. eapply alone_step; eassumption.
Qed.
End Dump.

Lemma agreeing_calls E c ty ts a enc sig st pool :
  reached (fun _ => SKey) (dstep E c ty ts a) (enc, sig) (st, pool) ->
  (forall o1 p1 o2 p2, In (o1, p1) pool -> In (o2, p2) pool ->
     (encrypts c = true -> (d_encf o1 = None <-> d_encf o2 = None)) /\ (sig = VNone -> d_key o1 = d_key o2)) ->
  forall o r, In (o, SDone r) pool ->
  r = snd (serialize E (VMsg c ty ts enc sig a) (d_key o) (d_encf o)) \/
  r = Err ESignatureAlreadyExists /\ sig = VNone /\ key_given (d_key o) = true.
Proof.
  intros R A o r H. apply (agreeing E c ty ts a enc sig st pool o r R H).
  intros o1 p1 o2 p2 H1 H2. destruct (A _ _ _ _ H1 H2) as [A1 A2]. split; [|exact A2].
  intros Ec. specialize (A1 Ec). unfold with_encf. destruct A1 as [A1 A3].
  destruct (d_encf o1), (d_encf o2); try reflexivity; [specialize (A3 eq_refl)|specialize (A1 eq_refl)]; discriminate.
Qed.
Lemma every_frame E c ty ts a enc sig st pool o bs :
  reached (fun _ => SKey) (dstep E c ty ts a) (enc, sig) (st, pool) -> In (o, SDone (Ok bs)) pool ->
  exists payload body h s v,
    payload_of c a = Ok payload /\ bs = h ++ s ++ body ++ v /\
    (exists o' p', In (o', p') pool /\
       pack_header (type_of c) ts (VBool (encrypts c && match d_encf o' with Some _ => true | None => false end)) = Ok h) /\
    (sig = VBytes s \/ sig = VNone /\ exists o' p', In (o', p') pool /\ new_sig E c ty ts a o' payload = Ok s) /\
    ((exists f, d_encf o = Some f /\ f payload = Ok body) \/
     (body = payload /\ exists o' p', In (o', p') pool /\ (encrypts c = false \/ d_encf o' = None))) /\
    (c <> MHello -> v = []).
Proof.
  intros R H. destruct (any_frame E c ty ts a enc sig st pool o bs R H) as (q & q' & h & s & v & A1 & A2 & A3 & A4 & A5 & A6).
  exists q, q', h, s, v. split; [exact A1|]. split; [exact A2|]. split; [exact A3|]. split; [exact A4|]. split; [|exact A6].
  destruct A5 as [A5|(A5 & o' & p' & A7 & A8)]; [auto|]. right. split; [exact A5|]. exists o', p'. split; [exact A7|].
  unfold with_encf in A8. destruct (encrypts c); [|auto]. destruct (d_encf o'); [discriminate|auto].
Qed.
