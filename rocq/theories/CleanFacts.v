(** * Whatever was received whole can be sent again, over any number of hops (C59, C60) *)
From Verif Require Export TotalFacts.

Lemma single_clean d k n : (rank d < n)%nat ->
  (forall c a s, (rank c < n)%nat -> loaded c a -> slots c a = Ok s -> clean s) ->
  forall m x, loaded_one loaded d m -> ser_single wire d k m = Ok x -> clean x.
Proof.
  intros R IH m x (ty & ts & enc & sig & b & -> & P1 & P2 & P3 & P4 & Hb) H. unfold ser_single in H. rewrite mcls_eqb_refl, wire_msg in H.
  apply bind_ok in H as (s & Hs & H). apply Ok_inj in H. subst x. apply clean_tuple. intros x [<-|[<-|[<-|[]]]].
  - apply clean_tuple. intros x [<-|[<-|[<-|[]]]]; apply clean_pure; assumption.
  - apply clean_pure, P4.
  - eapply IH; eassumption.
Qed.
Lemma loaded_clean_n n : forall c a s, (rank c < n)%nat -> loaded c a -> slots c a = Ok s -> clean s.
Proof.
  induction n as [|n IH]; intros c a s R [Hf HV HM] H; [lia|]. rewrite slots_own in H by exact Hf.
  apply bind_ok in H as (r & Hr & H). apply Ok_inj in H. subst s. apply clean_list. intros y Hy. apply in_map_iff in Hy as ([k x] & <- & Hy).
  apply mapM_ok in Hr.
  assert (G : exists w, In (k, w) a /\ ser_slot c k w = Ok x).
  { clear - Hr Hy. induction Hr as [|[k0 w0] p l r Hp _ IHr]; [destruct Hy|]. cbn [fst snd] in Hp. apply bind_ok in Hp as (x0 & Hx & Hp). apply Ok_inj in Hp. subst p.
    destruct Hy as [Hy|Hy]; [|destruct (IHr Hy) as (w & ? & ?); exists w; split; [right|]; assumption].
    assert (k0 = k /\ x0 = x) as [-> ->] by (split; congruence). exists w0. split; [left; reflexivity|exact Hx]. }
  destruct G as (w & Hin & Hx). apply clean_list. intros z [<-|[<-|[]]]; [apply clean_str|].
  destruct (HV _ _ Hin) as (_ & _ & _ & C). unfold ser_slot, ser_slot_with in Hx.
  destruct (slot_kind c k) as [| |d an il| | | | | | | | | |] eqn:K; try (exact (C _ _ Hx)).
  pose proof (rank_decreases _ _ _ _ _ K) as Rd. pose proof (single_clean d k n ltac:(lia) IH) as One.
  destruct (HM _ _ _ _ _ Hin K) as [->|[[-> _]|[[_ H]|[_ (l & -> & _ & Hl)]]]].
  - destruct an; [|discriminate]. apply Ok_inj in Hx. subst x. split; reflexivity.
  - destruct an; [|discriminate]. apply Ok_inj in Hx. subst x. split; reflexivity.
  - assert (Q : exists y, ser_single wire d k w = Ok y /\ x = VTuple [VBool false; y]).
    { destruct H as (ty & ts & enc & sig & b & -> & _). apply bind_ok in Hx as (y & Hy' & Hx). apply Ok_inj in Hx. eauto. }
    destruct Q as (y & Hy' & ->). apply clean_tuple. intros z [<-|[<-|[]]]; [split; reflexivity|]. eapply One; eassumption.
  - rewrite collect_map in Hx. apply bind_ok in Hx as (q & Hq & Hx). apply Ok_inj in Hx. subst x.
    apply clean_tuple. intros z [<-|[<-|[]]]; [split; reflexivity|]. apply clean_list. apply Forall_forall. rewrite Forall_forall in Hl.
    eapply (mapM_each _ (fun m => In m l)); [| |exact Hq]; [|intros m Hm; exact Hm]. intros m y Hm Hy'. eapply One; [apply Hl, Hm|exact Hy'].
Qed.
Lemma loaded_clean c a s : loaded c a -> slots c a = Ok s -> encb s = true /\ wirewf s = true.
Proof. exact (loaded_clean_n FUEL c a s (rank_bound c)). Qed.

Lemma received_clean E now bs decf ct pub c ty ts enc sig a0 s :
  deserialize E now bs decf ct pub = Ok (VMsg c ty ts enc sig a0) -> slots c a0 = Ok s -> encb s = true /\ wirewf s = true.
Proof.
  intros H Hs. apply deserialize_loaded in H as (c' & t & enc' & sig' & v & a & E1 & L & _). assert (c' = c) by congruence. subst c'.
  assert (a0 = full c v a) by congruence. subst a0. rewrite slots_full in Hs; [eapply loaded_clean; eassumption|]. destruct L; assumption.
Qed.
(** C60 *)
Lemma resend_slots E E1 now bs decf ct pub c ty ts enc sig a0 s :
  deserialize E now bs decf ct pub = Ok (VMsg c ty ts enc sig a0) -> slots c a0 = Ok s -> vsize s < 2 ^ 64 ->
  exists bs', serialize E1 (VMsg c ty ts enc sig a0) None None = (VMsg c ty ts (VBool false) sig a0, Ok bs').
Proof.
  intros HD Hs S. destruct (received_clean _ _ _ _ _ _ _ _ _ _ _ _ _ HD Hs) as [C W].
  apply deserialize_loaded in HD as (c' & t & enc' & sig' & v & a & E0 & L & T & _). injection E0 as <- -> -> -> -> ->.
  assert (Hf : map fst a = slot_names c) by (destruct L; assumption).
  destruct (enc_total s C S) as [p Hp]. unfold serialize. cbn [key_given andb]. unfold payload_of. rewrite Hs. cbn [bind]. unfold dumps. rewrite Hp. cbn [is_none].
  rewrite andb_false_r. cbn [bind].
  assert (Hh : exists h, pack_header (type_of c) (VInt t) (VBool false) = Ok h).
  { unfold pack_header, pack_u64.
    replace ((0 <=? type_of c) && (type_of c <? 2 ^ 16)) with true by (destruct c; reflexivity).
    replace ((0 <=? t) && (t <? 2 ^ 64)) with true; [cbn [bind]; eauto|]. symmetry. apply andb_true_iff. split; [apply Z.leb_le|apply Z.ltb_lt]; lia. }
  destruct Hh as [h ->]. cbn [bind].
  assert (Hvb : exists w, match c with MHello => do v0 <- version_bytes (full c v a); Ok (pack32p v0) | _ => Ok [] end = Ok w).
  { destruct c; eauto. rewrite version_full by exact Hf. cbn [bind]. eauto. }
  destruct Hvb as [w ->]. cbn [bind]. eauto.
Qed.
Lemma resend E E1 now bs decf ct pub c ty ts enc sig a0 :
  deserialize E now bs decf ct pub = Ok (VMsg c ty ts enc sig a0) -> complete (VMsg c ty ts enc sig a0) = true ->
  exists s, slots c a0 = Ok s /\ wirewf s = true /\
    (vsize s < 2 ^ 64 -> exists bs', serialize E1 (VMsg c ty ts enc sig a0) None None = (VMsg c ty ts (VBool false) sig a0, Ok bs')).
Proof.
  intros HD HC. destruct (received_ok _ _ _ _ _ _ _ _ _ _ _ _ HD HC) as (t & enc' & sig' & v & a & -> & -> & -> & -> & -> & M & MW & T & L & HV & Hv).
  destruct (slots_total _ _ M) as [s Hs]. assert (Hf : map fst a = slot_names c) by (apply mok_good in M; apply M).
  assert (Hs' : slots c (full c v a) = Ok s) by (rewrite slots_full; assumption). exists s. split; [exact Hs'|].
  destruct (received_clean _ _ _ _ _ _ _ _ _ _ _ _ _ HD Hs') as [C W]. split; [exact W|]. intros S. eapply resend_slots; eassumption.
Qed.
(** whole or not: it is sent, or a FieldError says why not *)
Lemma resend_any E E1 now bs decf ct pub c ty ts enc sig a0 :
  deserialize E now bs decf ct pub = Ok (VMsg c ty ts enc sig a0) -> (forall s, slots c a0 = Ok s -> vsize s < 2 ^ 64) ->
  (exists bs', serialize E1 (VMsg c ty ts enc sig a0) None None = (VMsg c ty ts (VBool false) sig a0, Ok bs')) \/
  exists f, serialize E1 (VMsg c ty ts enc sig a0) None None = (VMsg c ty ts (VBool false) sig a0, Err (EFieldError f)).
Proof.
  intros HD S. pose proof HD as H. apply deserialize_loaded in H as (c' & t & enc' & sig' & v & a & E0 & L & T & _). injection E0 as <- -> -> -> -> ->.
  assert (Hf : map fst a = slot_names c) by (destruct L; assumption). pose proof (slots_full c v a Hf) as F.
  destruct (slots_field c a L) as [[s Q]|[f Q]].
  - left. rewrite Q in F. eapply resend_slots; eauto.
  - right. exists f. rewrite Q in F. unfold serialize. cbn [key_given andb]. unfold payload_of. rewrite F. cbn [bind is_none]. rewrite andb_false_r. reflexivity.
Qed.
(** C68 *)
Lemma repr_received E now bs decf ct pub c ty ts enc sig a :
  deserialize E now bs decf ct pub = Ok (VMsg c ty ts enc sig a) ->
  exists r, msg_repr (VMsg c ty ts enc sig a) = Ok r /\ sh_class r = c /\ sh_header r = VTuple [ty; ts; enc] /\ sh_sig r = sig /\
    (forall s, sh_slots r = Some s <-> slots c a = Ok s) /\ (forall w, sh_version r = Some w <-> c = MHello /\ attr_get "_version" a = Some w).
Proof.
  intros H. apply deserialize_loaded in H as (c' & t & enc' & sig' & v & a0 & E0 & L & _). injection E0 as <- -> -> -> -> ->.
  assert (Hf : map fst a0 = slot_names c) by (destruct L; assumption). cbn [msg_repr]. cbv zeta. rewrite (slots_full c v a0 Hf).
  assert (V : forall w, match c with MHello => Some (version_of (VMsg c (VInt (type_of c)) (VInt t) (VBool enc') (VBytes sig') (full c v a0))) | _ => None end = Some w <->
    c = MHello /\ attr_get "_version" (full c v a0) = Some w).
  { intros w. destruct (mcls_eq_dec c MHello) as [->|N]; [|destruct c; try congruence; split; (discriminate || (intros [Q _]; congruence))].
    cbn [full version_of]. pose proof (version_not_slot MHello) as N. rewrite <- Hf in N. unfold attr_get_or_none. rewrite attr_get_last by exact N.
    split; [intros Q; split; [reflexivity|exact Q]|intros [_ Q]; exact Q]. }
  destruct (slots_field c a0 L) as [[s ->]|[f ->]]; eexists; (split; [reflexivity|]); cbn [sh_class sh_header sh_sig sh_slots sh_version]; (split; [reflexivity|]); (split; [reflexivity|]); (split; [reflexivity|]); (split; [intros s'; split; intro Q; congruence|exact V]).
Qed.

(** ** Any number of hops *)
(** one relay: its environment when it sends, and the next receiver *)
Record hop := { h_from : env; h_to : env; h_now : Z; h_dec : bytes -> result bytes; h_check : bool; h_pub : option bytes }.
(** forward a message unchanged along the hops *)
Fixpoint pass (m : pyval) (hs : list hop) : result pyval :=
  match hs with
  | [] => Ok m
  | h :: r =>
      do bs <- snd (serialize (h_from h) m None None);
      do m' <- deserialize (h_to h) (h_now h) bs (h_dec h) (h_check h) (h_pub h);
      pass m' r
  end.
(** the receiver uses the same cryptography, decodes deep enough, checks the time at a
    moment when the message is still fresh and uses a key that the signature fits, if any *)
Definition hop_fits (E : env) (m : pyval) (h : hop) : Prop :=
  match m with
  | VMsg c ty ts enc sig a =>
      cr (h_from h) = cr E /\ cr (h_to h) = cr E /\
      (forall s, slots c a = Ok s -> (vdepth s < cdepth (h_to h))%nat) /\
      (forall t, ts = VInt t -> h_check h = true -> h_now h - 600000000 <= t * 1000000 <= h_now h + 300000000) /\
      (forall k, h_pub h = Some k -> k <> [] -> signs c = true -> verify_signature (h_from h) (VMsg c ty ts (VBool false) sig a) (VBytes k) = Ok tt)
  | _ => False
  end.
Lemma relay_again E h now bs decf ct pub c ty ts enc sig a0 :
  crypto_ok (cr E) -> deserialize E now bs decf ct pub = Ok (VMsg c ty ts enc sig a0) -> complete (VMsg c ty ts enc sig a0) = true ->
  c <> MHello -> (forall s, slots c a0 = Ok s -> vsize s < 2 ^ 64) -> hop_fits E (VMsg c ty ts enc sig a0) h ->
  exists bs', snd (serialize (h_from h) (VMsg c ty ts enc sig a0) None None) = Ok bs' /\
    deserialize (h_to h) (h_now h) bs' (h_dec h) (h_check h) (h_pub h) = Ok (VMsg c ty ts (VBool false) sig a0).
Proof.
  intros HC HD Hc NH S (F1 & F2 & F3 & F4 & F5). destruct (resend E (h_from h) _ _ _ _ _ _ _ _ _ _ _ HD Hc) as (s & Hs & W & HS).
  destruct (HS (S _ Hs)) as [bs' Hb]. exists bs'. rewrite Hb. split; [reflexivity|]. 
  apply (relay E (h_from h) (h_to h) now bs decf ct pub c ty ts enc sig a0 (VMsg c ty ts (VBool false) sig a0)); try assumption.
  intros s' Hs'. split; [|auto]. congruence.
Qed.
Lemma pass_all E hs : crypto_ok (cr E) -> forall E0 now bs decf ct pub c ty ts enc sig a0, cr E0 = cr E ->
  deserialize E0 now bs decf ct pub = Ok (VMsg c ty ts enc sig a0) -> complete (VMsg c ty ts enc sig a0) = true ->
  c <> MHello -> (forall s, slots c a0 = Ok s -> vsize s < 2 ^ 64) -> Forall (hop_fits E (VMsg c ty ts enc sig a0)) hs ->
  pass (VMsg c ty ts enc sig a0) hs = Ok (VMsg c ty ts (match hs with [] => enc | _ => VBool false end) sig a0).
Proof.
  intros HC. induction hs as [|h r IH]; intros E0 now bs decf ct pub c ty ts enc sig a0 HE HD Hc NH S F; [reflexivity|].
  inversion F as [|? ? F1 F2]; subst. assert (F1' : hop_fits E0 (VMsg c ty ts enc sig a0) h) by (cbn [hop_fits] in *; rewrite HE; exact F1).
  destruct (relay_again E0 h _ _ _ _ _ _ _ _ _ _ _ ltac:(rewrite HE; exact HC) HD Hc NH S F1') as (bs' & Hb & HD'). cbn [pass]. rewrite Hb. cbn [bind]. rewrite HD'. cbn [bind].
  assert (HT : cr (h_to h) = cr E) by (cbn [hop_fits] in F1; apply F1).
  rewrite (IH _ _ _ _ _ _ _ _ _ _ _ _ HT HD' Hc NH S); [destruct r; reflexivity|exact F2].
Qed.
