(** * Signatures of nested messages after a trip, encryption by shortcuts.dump, and relaying *)
From Verif Require Export EqFacts EciesProofs.

(** ** Paths to nested messages: a message slot and an index into its list (0 if
    the slot holds one message) *)
Fixpoint follow (p : list (string * nat)) (m : pyval) : option pyval :=
  match p with
  | [] => Some m
  | (k, i) :: r =>
      match m with
      | VMsg c _ _ _ _ a =>
          match slot_kind c k with
          | KMsg _ _ _ =>
              match attr_get k a with
              | Some (VList l) => match nth_error l i with Some x => follow r x | None => None end
              | Some w => match i with O => follow r w | _ => None end
              | None => None
              end
          | _ => None
          end
      | _ => None
      end
  end.

Lemma nested_not_hello c k d an il : slot_kind c k = KMsg d an il -> d <> MHello.
Proof.
  intros H ->. destruct (slot_kind_cases c k) as [Hin|Hn]; [|rewrite (slot_kind_default _ _ Hn) in H; discriminate].
  rewrite H in Hin.
  assert (F : forallb (fun c => forallb (fun p => match snd p with KMsg MHello _ _ => false | _ => true end) (slot_table c)) all_classes = true)
    by (vm_compute; reflexivity).
  pose proof (for_all_classes _ F c) as G. cbv beta in G. rewrite forallb_forall in G. specialize (G _ Hin). discriminate G.
Qed.
Lemma msg_slot_name c k d an il : slot_kind c k = KMsg d an il -> In k (slot_names c).
Proof.
  intros Hk. destruct (slot_kind_cases c k) as [H|H]; [rewrite Hk in H; apply (in_map fst) in H; exact H|rewrite (slot_kind_default _ _ H) in Hk; discriminate].
Qed.
(** the messages at the two ends of a path: absent on both sides, or same class,
    header and signature, slots as they arrive *)
Definition same_end (n n' : pyval) : Prop :=
  (n = VNone /\ n' = VNone) \/
  exists d ty ts enc sig b b', d <> MHello /\ n = VMsg d ty ts enc sig b /\
    n' = VMsg d (norm ty) (norm ts) (norm enc) (norm sig) b' /\ arrives d b b' /\ mok d b.
Lemma follow_arr p : forall c ty ts e s a ty' ts' e' s' a' n, mok c a -> arrives c a a' -> p <> [] ->
  follow p (VMsg c ty ts e s a) = Some n ->
  exists n', follow p (VMsg c ty' ts' e' s' a') = Some n' /\ same_end n n'.
Proof.
  induction p as [|[k i] p IH]; intros c ty ts e s a ty' ts' e' s' a' n M AR NE H; [congruence|]. cbn [follow] in H |- *.
  destruct (slot_kind c k) as [| |d an il| | | | | | | | | |] eqn:K; try discriminate.
  pose proof (msg_slot_name _ _ _ _ _ K) as Hk. pose proof (nested_not_hello _ _ _ _ _ K) as NH.
  destruct (arr_slot c a a' k M AR Hk) as ([_ G] & _ & N). specialize (G _ _ _ K). specialize (N _ _ _ K).
  assert (F' : map fst a' = map fst a) by (destruct AR; assumption). pose proof (mok_fst _ _ M) as F.
  assert (Ha : attr_get k a = Some (attr_get_or_none k a)).
  { rewrite <- F in Hk. destruct (attr_get_some _ _ Hk) as (w & Hw & _). unfold attr_get_or_none. rewrite Hw. reflexivity. }
  assert (Ha' : attr_get k a' = Some (attr_get_or_none k a')).
  { rewrite <- F, <- F' in Hk. destruct (attr_get_some _ _ Hk) as (w & Hw & _). unfold attr_get_or_none. rewrite Hw. reflexivity. }
  rewrite Ha in H. rewrite Ha'. clear Ha Ha'. set (w := attr_get_or_none k a) in *. set (w' := attr_get_or_none k a') in *. clearbody w w'.
  (* one message of the slot *)
  assert (One : forall m m', (exists ty ts enc sig b b', m = VMsg d ty ts enc sig b /\ m' = VMsg d (norm ty) (norm ts) (norm enc) (norm sig) b' /\ arrives d b b') ->
      (exists ty ts enc sig b, m = VMsg d ty ts enc sig b /\ mok d b) -> follow p m = Some n -> exists n', follow p m' = Some n' /\ same_end n n').
  { intros m m' (ty0 & ts0 & e0 & s0 & b & b' & -> & -> & Ab) (ty1 & ts1 & e1 & s1 & b1 & E1 & Mb) Hf.
    assert (b1 = b) by congruence. subst b1. destruct p as [|q p'].
    - cbn [follow] in *. apply Some_inj in Hf. subst n. eexists. split; [reflexivity|]. right. exists d, ty0, ts0, e0, s0, b, b'. auto.
    - eapply IH; [exact Mb|exact Ab|discriminate|exact Hf]. }
  destruct G as [[-> _]|[[_ G]|[_ (l & -> & _ & G)]]].
  - (* None *) destruct N as [[_ ->]|[N|(l1 & l2 & E1 & _)]].
    + destruct i; [|discriminate]. destruct p as [|[k' i'] p']; cbn [follow] in H |- *; [|discriminate]. apply Some_inj in H. subst n. eexists. split; [reflexivity|]. left. auto.
    + destruct N as (? & ? & ? & ? & ? & ? & E1 & _). congruence.
    + congruence.
  - destruct N as [[E1 _]|[N|(l1 & l2 & E1 & _)]].
    + destruct G as (? & ? & ? & ? & ? & E2 & _). congruence.
    + assert (H' : i = O /\ follow p w = Some n).
      { destruct G as (? & ? & ? & ? & ? & E2 & _). rewrite E2 in H |- *. destruct i; [auto|discriminate]. }
      destruct H' as [-> H']. destruct (One _ _ N G H') as (n' & Hn & S). exists n'. split; [|exact S].
      destruct N as (? & ? & ? & ? & ? & ? & _ & E2 & _). rewrite E2 in Hn |- *. exact Hn.
    + destruct G as (? & ? & ? & ? & ? & E2 & _). congruence.
  - destruct N as [[E1 _]|[N|(l1 & l2 & E1 & -> & F2)]]; [congruence| |].
    + destruct N as (? & ? & ? & ? & ? & ? & E1 & _). congruence.
    + assert (l1 = l) by congruence. subst l1. destruct (nth_error l i) as [m|] eqn:Q; [|discriminate].
      assert (X : exists m', nth_error l2 i = Some m' /\ (exists ty ts enc sig b b', m = VMsg d ty ts enc sig b /\ m' = VMsg d (norm ty) (norm ts) (norm enc) (norm sig) b' /\ arrives d b b')).
      { clear -F2 Q. revert i Q. induction F2 as [|x y l1 l2 Hxy _ IH]; intros [|i] Q; cbn [nth_error] in *; try discriminate.
        - apply Some_inj in Q. subst x. eauto.
        - apply IH, Q. }
      destruct X as (m' & Q' & X). rewrite Q'. eapply One; [exact X| |exact H].
      rewrite Forall_forall in G. apply G. eapply nth_error_In, Q.
Qed.
Lemma same_end_verify E E' n n' key : cr E' = cr E -> same_end n n' -> verify_signature E' n' key = verify_signature E n key.
Proof.
  intros HE [[-> ->]|(d & ty & ts & enc & sig & b & b' & N & -> & -> & AR & _)]; [reflexivity|]. apply verify_arr; assumption.
Qed.
(** the outer message: its hash does not change either *)
Lemma outer_verify E E' c t e s e' v a a' key : cr E' = cr E -> mok c a -> arrives c a a' ->
  verify_signature E' (VMsg c (VInt (type_of c)) (VInt t) e' s (full c v a')) key =
  verify_signature E (VMsg c (VInt (type_of c)) (VInt t) e s (full c v a)) key.
Proof.
  intros HE M AR. pose proof (mok_fst _ _ M) as F. assert (F' : map fst a' = slot_names c) by (destruct AR; congruence).
  assert (P : forall m, short_hash E' m = short_hash E m).
  { intros m. destruct m; try reflexivity. cbn [short_hash]. destruct (payload_of _ _); [|reflexivity]. cbn [bind]. unfold hash_payload. rewrite HE. reflexivity. }
  cbn [verify_signature]. rewrite P, HE.
  assert (H : short_hash E (VMsg c (VInt (type_of c)) (VInt t) e' s (full c v a')) = short_hash E (VMsg c (VInt (type_of c)) (VInt t) e s (full c v a))).
  { destruct (mcls_eqb c MHello) eqn:Q.
    - apply mcls_eqb_eq in Q. subst c. cbn [short_hash]. rewrite !payload_full by assumption.
      destruct AR as [_ _ _ (s1 & s2 & H1 & H2 & Q)]. unfold payload_of. rewrite H1, H2. cbn [bind].
      rewrite <- (dumps_norm s2), Q, dumps_norm. destruct (dumps s1) as [p|]; [|reflexivity]. cbn [bind]. unfold hash_payload.
      destruct (dumps _); [|reflexivity]. cbn [bind]. cbv zeta. unfold version_bytes. cbn [full].
      rewrite !attr_get_last by (rewrite ?F, ?F'; apply version_not_slot). reflexivity.
    - assert (N : c <> MHello) by (intros ->; discriminate Q). replace (full c v a') with a' by (destruct c; reflexivity || congruence).
      replace (full c v a) with a by (destruct c; reflexivity || congruence). apply (hash_arr E c (VInt (type_of c)) (VInt t) e s e' s a a' N AR). }
  rewrite H. reflexivity.
Qed.

(** ** Encryption by [shortcuts.dump] undone by [shortcuts.load] *)
Lemma ecies_undoes E E' timeout timeout' created created' ops ops' mgr mgr' r k s pk c p :
  cr E' = cr E -> crypto_ok (cr E) -> Forall (eop_ok (cr E)) ops -> Forall (eop_ok (cr E)) ops' -> rnd_ok (cr E) r ->
  secret_of (cr E) k = Some s -> pub_of (cr E) s = Some pk -> k <> [] -> pk <> [] ->
  undoes (dump_encrypt E timeout (erun (cr E) timeout ops (init_state created)) mgr r (Some pk))
         (load_decrypt E' (erun (cr E) timeout' ops' (init_state created')) mgr' (Some k)) c p.
Proof.
  intros HE HC H1 H2 Hr Hs Hp Nk Npk f x Hf _ Hx. unfold dump_encrypt in Hf. destruct pk as [|b0 pk0]; [congruence|].
  apply Some_inj in Hf. subst f.
  pose proof (erun_inv _ HC timeout ops _ (einv_init _ created) H1) as I1.
  pose proof (erun_inv _ HC timeout' ops' _ (einv_init _ created') H2) as I2.
  cbv beta in Hx. split.
  - destruct (encrypt_total _ HC timeout _ mgr p k s (b0 :: pk0) [] r I1 Hr Hs Hp) as (ct & E1 & L). rewrite E1 in Hx. apply Ok_inj in Hx.
    subst ct. intros ->. cbn [List.length] in L. lia.
  - unfold load_decrypt. destruct k as [|k0 k1]; [congruence|]. rewrite HE.
    eapply (roundtrip (cr E) HC); [exact I1|exact I2|exact Hr|exact Hs|exact Hp|exact Hx].
Qed.

(** ** Whole trips *)
Lemma full_not_hello c v a : c <> MHello -> full c v a = a.
Proof. destruct c; try reflexivity. congruence. Qed.
Lemma serialize_msg E c ty ts enc sig a key encf m' bs : serialize E (VMsg c ty ts enc sig a) key encf = (m', Ok bs) ->
  m' = VMsg c ty ts (VBool (encrypts c && given encf)) (sig_of m') a.
Proof. intros H. apply serialize_ok in H as (h & s1 & payload1 & p1 & v1 & -> & _). reflexivity. Qed.

(** everything in wire form: the receiver gets exactly what the sender holds *)
Lemma trip_same E E' now c t enc0 sig v a key encf m' bs ct decf pub :
  cr E' = cr E -> crypto_ok (cr E) -> (forall s, sig = VBytes s -> List.length s = 65%nat) ->
  1262304000 < t < 32819212800 -> (ct = true -> now - 600000000 <= t * 1000000 <= now + 300000000) ->
  mok c a -> mwire c a -> hello_ok E' c v ->
  (forall s, slots c a = Ok s -> wirewf s = true /\ (vdepth s < cdepth E')%nat) ->
  (forall p, payload_of c a = Ok p -> undoes encf decf c p) ->
  serialize E (VMsg c (VInt (type_of c)) (VInt t) enc0 sig (full c v a)) key encf = (m', Ok bs) ->
  (forall k, pub = Some k -> k <> [] -> signs c = true -> verify_signature E m' (VBytes k) = Ok tt) ->
  deserialize E' now bs decf ct pub = match vet E' c m' with Ok _ => Ok m' | Err e => Err e end.
Proof.
  intros HE HC HL HT Hct M MW HH W U H HV.
  destruct (frame_rt E E' now c t enc0 sig v a key encf m' bs ct decf pub HE HC HL HT Hct M HH W U H HV) as (a' & _ & _ & Ea & D).
  rewrite (proj1 Ea MW) in D. cbv zeta in D. pose proof (serialize_msg _ _ _ _ _ _ _ _ _ _ _ H) as Em. rewrite <- Em in D. rewrite D.
  destruct (vet E' c m'); reflexivity.
Qed.
(** any well-formed content: accepted whenever the sender's own message is *)
Lemma trip_any E E' now c t enc0 sig v a key encf m' bs ct decf pub :
  cr E' = cr E -> crypto_ok (cr E) -> (forall s, sig = VBytes s -> List.length s = 65%nat) ->
  1262304000 < t < 32819212800 -> (ct = true -> now - 600000000 <= t * 1000000 <= now + 300000000) ->
  mok c a -> hello_ok E' c v ->
  (forall s, slots c a = Ok s -> wirewf s = true /\ (vdepth s < cdepth E')%nat) ->
  (forall p, payload_of c a = Ok p -> undoes encf decf c p) ->
  serialize E (VMsg c (VInt (type_of c)) (VInt t) enc0 sig (full c v a)) key encf = (m', Ok bs) ->
  (forall k, pub = Some k -> k <> [] -> signs c = true -> verify_signature E m' (VBytes k) = Ok tt) ->
  vet E c m' = Ok tt ->
  exists a', arrives c a a' /\ mok c a' /\ mwire c a' /\
    deserialize E' now bs decf ct pub =
      Ok (VMsg c (VInt (type_of c)) (VInt t) (VBool (encrypts c && given encf)) (sig_of m') (full c v a')).
Proof.
  intros HE HC HL HT Hct M HH W U H HV Hvet.
  destruct (frame_rt E E' now c t enc0 sig v a key encf m' bs ct decf pub HE HC HL HT Hct M HH W U H HV) as (a' & AR & M' & [_ (dd & q & s0 & Q1 & Q2 & Q3)] & D).
  assert (MW : mwire c a').
  { apply loads_pure in Q1. pose proof (load_attrs_loaded _ _ _ _ Q1 Q2) as L. rewrite Q3 in L. exact (loaded_mwire _ c a' (rank_bound c) L). }
  exists a'. split; [exact AR|]. split; [exact M'|]. split; [exact MW|]. cbv zeta in D. rewrite D.
  pose proof (serialize_msg _ _ _ _ _ _ _ _ _ _ _ H) as Em. rewrite Em in Hvet.
  assert (V : vet E' c (VMsg c (VInt (type_of c)) (VInt t) (VBool (encrypts c && given encf)) (sig_of m') (full c v a')) = Ok tt); [|rewrite V; reflexivity].
  destruct (mcls_eqb c MVerdictReportComputedTask) eqn:Q.
  - apply mcls_eqb_eq in Q. subst c. rewrite full_not_hello in Hvet |- * by discriminate. unfold vet in Hvet |- *. cbn [is_task_message is_valid] in Hvet |- *.
    apply serialize_ok in H as (h & s1 & payload1 & p1 & v1 & _ & _ & _ & Hp1 & _). unfold payload_of in Hp1. apply bind_ok in Hp1 as (sl & Hsl & _).
    rewrite full_not_hello in Hsl by discriminate. apply bind_ok in Hvet as ([] & Hv & _).
    rewrite (verdict_arrives _ _ _ _ a (VInt (type_of MVerdictReportComputedTask)) (VInt t) (VBool (encrypts MVerdictReportComputedTask && given encf)) (sig_of m') a' sl M M' MW AR Hsl (proj1 (W _ Hsl)) Hv). reflexivity.
  - assert (NV : c <> MVerdictReportComputedTask) by (intros ->; discriminate Q).
    exact (vet_arrives E E' c _ _ _ _ (VBool (encrypts c && given encf)) (sig_of m') a a' v HE M AR NV Hvet).
Qed.
(** a class that opts out of encryption ignores the encryption function *)
Lemma in_clear E c ty ts enc sig a key f : encrypts c = false ->
  serialize E (VMsg c ty ts enc sig a) key (Some f) = serialize E (VMsg c ty ts enc sig a) key None.
Proof. intros H. unfold serialize. rewrite H. reflexivity. Qed.

(** received and complete messages are well-formed and in wire form *)
Lemma received_ok E now bs decf ct pub c ty ts enc sig a0 :
  deserialize E now bs decf ct pub = Ok (VMsg c ty ts enc sig a0) -> complete (VMsg c ty ts enc sig a0) = true ->
  exists t enc' sig' v a, ty = VInt (type_of c) /\ ts = VInt t /\ enc = VBool enc' /\ sig = VBytes sig' /\ a0 = full c v a /\
    mok c a /\ mwire c a /\ 1262304000 < t < 32819212800 /\ (c <> MHello \/ enc' = false -> List.length sig' = 65%nat) /\
    (c = MHello -> verify_version (our_version E) v = Ok tt /\ (forall x, In x v -> 0 <= x < 128 \/ x = 65533) /\ (List.length v <= 31)%nat) /\
    (c <> MHello -> vet E c (VMsg c ty ts enc sig a0) = Ok tt).
Proof.
  intros H C. apply deserialize_loaded in H as (c' & t & enc' & sig' & v & a & E1 & L & T & S & V1 & V2).
  assert (Ec : c = c') by congruence. subst c'.
  assert (Q : ty = VInt (type_of c) /\ ts = VInt t /\ enc = VBool enc' /\ sig = VBytes sig' /\ a0 = full c v a) by (repeat split; congruence).
  destruct Q as (-> & -> & -> & -> & ->). exists t, enc', sig', v, a.
  assert (Ca : complete_attrs c a = true).
  { cbn [complete] in C. unfold complete_attrs. destruct (mcls_eqb c MHello) eqn:Q.
    - apply mcls_eqb_eq in Q. subst c. cbn [full] in C. rewrite forallb_app in C. apply andb_true_iff in C as [C _]. exact C.
    - rewrite full_not_hello in C by (intros ->; discriminate Q). exact C. }
  destruct (loaded_ok c a L Ca) as [M MW]. repeat (split; [reflexivity|]). auto 10.
Qed.
(** relaying: what was received and is sent on is received identically *)
Lemma relay E E1 E2 now bs decf ct pub c ty ts enc sig a0 m' bs' now' ct' decf' pub' :
  cr E1 = cr E -> cr E2 = cr E -> crypto_ok (cr E) ->
  deserialize E now bs decf ct pub = Ok (VMsg c ty ts enc sig a0) -> complete (VMsg c ty ts enc sig a0) = true ->
  c <> MHello ->
  (forall s, slots c a0 = Ok s -> wirewf s = true /\ (vdepth s < cdepth E2)%nat) ->
  serialize E1 (VMsg c ty ts enc sig a0) None None = (m', Ok bs') ->
  (forall t, ts = VInt t -> ct' = true -> now' - 600000000 <= t * 1000000 <= now' + 300000000) ->
  (forall k, pub' = Some k -> k <> [] -> signs c = true -> verify_signature E1 m' (VBytes k) = Ok tt) ->
  deserialize E2 now' bs' decf' ct' pub' = Ok (VMsg c ty ts (VBool false) sig a0).
Proof.
  intros HE1 HE2 HC HD HCo NH W HS Hct HV.
  destruct (received_ok _ _ _ _ _ _ _ _ _ _ _ _ HD HCo) as (t & enc' & sig' & v & a & -> & -> & -> & -> & -> & M & MW & T & L & _ & Hv).
  rewrite full_not_hello in W by exact NH.
  rewrite (trip_same E1 E2 now' c t (VBool enc') (VBytes sig') v a None None m' bs' ct' decf' pub'); try assumption; try congruence.
  - pose proof (serialize_msg _ _ _ _ _ _ _ _ _ _ _ HS) as Em. cbn [given] in Em. rewrite andb_false_r in Em.
    assert (Es : sig_of m' = VBytes sig').
    { apply serialize_ok in HS as (h & s1 & payload1 & p1 & v1 & -> & _ & _ & _ & _ & _ & Q & _). rewrite Q by discriminate. reflexivity. }
    rewrite Es in Em. rewrite Em. rewrite <- (vet_same E E2 c (VInt (type_of c)) (VInt t) (VBool enc') (VBytes sig') (VBool false) (VBytes sig') (full c v a) HE2).
    rewrite (Hv NH). reflexivity.
  - intros s Q. assert (s = sig') by congruence. subst. apply L. left. exact NH.
  - intros Hc. apply Hct; [reflexivity|exact Hc].
Qed.

(** a frame signed on the way out verifies for the signer's public key *)
Lemma signed_now E c ty ts enc a k s pk encf m' bs : crypto_ok (cr E) ->
  serialize E (VMsg c ty ts enc VNone a) (Some k) encf = (m', Ok bs) -> k <> [] -> signs c = true ->
  secret_of (cr E) k = Some s -> pub_of (cr E) s = Some pk -> verify_signature E m' (VBytes pk) = Ok tt.
Proof.
  intros HC H Nk Sg Hs Hp. apply serialize_ok in H as (h & sg & payload & p & v & -> & _ & _ & P & _ & _ & _ & _ & _ & Q).
  destruct (Q eq_refl Sg k eq_refl) as (d & Hd & Sd); [destruct k; [congruence|reflexivity]|].
  destruct (ecdsa_sign_ok _ _ _ _ HC Sd) as (sk & pk' & K1 & K2 & _ & V). assert (sk = s) by congruence. subst sk.
  assert (pk' = pk) by congruence. subst pk'. cbn [verify_signature short_hash]. rewrite P. cbn [bind]. rewrite Hd. exact V.
Qed.
(** dump for a recipient, load with the recipient's key and the sender's public key *)
Lemma dump_load E E' now c t enc0 v a ks ss pks kr sr pkr m' bs ct timeout timeout' created created' ops ops' mgr mgr' r :
  cr E' = cr E -> crypto_ok (cr E) ->
  Forall (eop_ok (cr E)) ops -> Forall (eop_ok (cr E)) ops' -> rnd_ok (cr E) r ->
  secret_of (cr E) ks = Some ss -> pub_of (cr E) ss = Some pks -> ks <> [] ->
  secret_of (cr E) kr = Some sr -> pub_of (cr E) sr = Some pkr -> kr <> [] -> pkr <> [] ->
  1262304000 < t < 32819212800 -> (ct = true -> now - 600000000 <= t * 1000000 <= now + 300000000) ->
  mok c a -> mwire c a -> hello_ok E' c v ->
  (forall s, slots c a = Ok s -> wirewf s = true /\ (vdepth s < cdepth E')%nat) ->
  dump E timeout (erun (cr E) timeout ops (init_state created)) mgr r
    (VMsg c (VInt (type_of c)) (VInt t) enc0 VNone (full c v a)) (Some ks) (Some pkr) = (m', Ok bs) ->
  (exists sig, m' = VMsg c (VInt (type_of c)) (VInt t) (VBool (encrypts c)) (VBytes sig) (full c v a)) /\
  load E' now (erun (cr E) timeout' ops' (init_state created')) mgr' bs (Some kr) (Some pks) ct =
    match vet E' c m' with Ok _ => Ok m' | Err e => Err e end.
Proof.
  intros HE HC O1 O2 Hr S1 S2 S3 R1 R2 R3 R4 HT Hct M MW HH W H. unfold dump in H. split.
  - apply serialize_ok in H as (h & sg & payload & p & v' & -> & _). exists sg. unfold dump_encrypt. destruct pkr; [congruence|]. cbn [given].
    rewrite andb_true_r. reflexivity.
  - unfold load. eapply trip_same; try exact H; try eassumption; [intros; discriminate| |].
    + intros p _. eapply ecies_undoes; eassumption.
    + intros k Q _ Sg. apply Some_inj in Q. subst k. eapply signed_now; eassumption.
Qed.

(** every message nested in the dumped one arrives, and verifies for the same keys *)
Lemma trip_ends E E' now c t enc0 sig v a key encf m' bs ct decf pub m2 :
  cr E' = cr E -> crypto_ok (cr E) -> (forall s, sig = VBytes s -> List.length s = 65%nat) ->
  1262304000 < t < 32819212800 ->
  mok c a -> hello_ok E' c v ->
  (forall s, slots c a = Ok s -> wirewf s = true /\ (vdepth s < cdepth E')%nat) ->
  (forall p, payload_of c a = Ok p -> undoes encf decf c p) ->
  serialize E (VMsg c (VInt (type_of c)) (VInt t) enc0 sig (full c v a)) key encf = (m', Ok bs) ->
  deserialize E' now bs decf ct pub = Ok m2 ->
  (forall k, verify_signature E' m2 k = verify_signature E m' k) /\
  forall p n, follow p m' = Some n -> exists n', follow p m2 = Some n' /\
    (forall k, verify_signature E' n' k = verify_signature E n k) /\ (p <> [] -> same_end n n').
Proof.
  intros HE HC HL HT M HH W U H HD.
  (* loading without a key and without the time check gives the same message *)
  assert (D0 : deserialize E' now bs decf false None = Ok m2).
  { assert (D1 : deserialize E' now bs decf ct None = Ok m2).
    { destruct pub as [[|b k]|]; [rewrite empty_sender_key in HD|apply sender_exact in HD as [HD _]; [|discriminate]|]; exact HD. }
    apply deserialize_ok in D1 as (Q1 & ty & ts & enc & c0 & Q2 & Q3 & Q4 & Q5 & Q6). apply deserialize_ok. split; [exact Q1|].
    exists ty, ts, enc, c0. split; [exact Q2|]. split; [exact Q3|]. split; [exact Q4|]. split; [discriminate|]. exact Q6. }
  destruct (frame_rt E E' now c t enc0 sig v a key encf m' bs false decf None HE HC HL HT ltac:(discriminate) M HH W U H ltac:(discriminate)) as (a' & AR & M' & _ & D).
  cbv zeta in D. pose proof (eq_trans (eq_sym D) D0) as D1. clear D D0. rename D1 into D0. apply bind_ok in D0 as (_ & _ & D0). apply Ok_inj in D0. subst m2.
  pose proof (serialize_msg _ _ _ _ _ _ _ _ _ _ _ H) as Em. 
  assert (OV : forall k, verify_signature E' (VMsg c (VInt (type_of c)) (VInt t) (VBool (encrypts c && given encf)) (sig_of m') (full c v a')) k = verify_signature E m' k).
  { intros k. rewrite Em at 2. apply outer_verify; assumption. }
  split; [exact OV|]. intros p n Hp. destruct p as [|kp p].
  - cbn [follow] in Hp |- *. apply Some_inj in Hp. subst n. eexists. split; [reflexivity|]. split; [exact OV|congruence].
  - assert (NH : c <> MHello).
    { intros ->. rewrite Em in Hp. destruct kp as [k i]. cbn [follow] in Hp. 
      destruct (slot_kind MHello k) as [| |d an il| | | | | | | | | |] eqn:K; try discriminate.
      pose proof (rank_decreases _ _ _ _ _ K) as R. cbn in R. lia. }
    rewrite Em in Hp. rewrite full_not_hello in Hp by exact NH. rewrite full_not_hello by exact NH.
    assert (NE : kp :: p <> []) by discriminate.
    destruct (follow_arr _ _ _ _ _ _ _ (VInt (type_of c)) (VInt t) (VBool (encrypts c && given encf)) (sig_of m') _ _ M AR NE Hp) as (n' & F & S).
    exists n'. split; [exact F|]. split; [|intros _; exact S]. intros k. apply same_end_verify; assumption.
Qed.
Lemma trip_follow E E' now c t enc0 sig v a key encf m' bs ct decf pub m2 :
  cr E' = cr E -> crypto_ok (cr E) -> (forall s, sig = VBytes s -> List.length s = 65%nat) ->
  1262304000 < t < 32819212800 ->
  mok c a -> hello_ok E' c v ->
  (forall s, slots c a = Ok s -> wirewf s = true /\ (vdepth s < cdepth E')%nat) ->
  (forall p, payload_of c a = Ok p -> undoes encf decf c p) ->
  serialize E (VMsg c (VInt (type_of c)) (VInt t) enc0 sig (full c v a)) key encf = (m', Ok bs) ->
  deserialize E' now bs decf ct pub = Ok m2 ->
  (forall k, verify_signature E' m2 k = verify_signature E m' k) /\
  forall p n, follow p m' = Some n -> exists n', follow p m2 = Some n' /\ forall k, verify_signature E' n' k = verify_signature E n k.
Proof.
  intros HE HC HL HT M HH W U H HD.
  destruct (trip_ends E E' now c t enc0 sig v a key encf m' bs ct decf pub m2 HE HC HL HT M HH W U H HD) as [A B].
  split; [exact A|]. intros p n Hp. destruct (B p n Hp) as (n' & F & V & _). exists n'. split; assumption.
Qed.

(** ** Lists of messages *)
Lemma list_rt c k d an l x : slot_kind c k = KMsg d an true -> l <> [] ->
  Forall (fun m => exists ty ts enc sig b, m = VMsg d ty ts enc sig b /\ mok d b) l ->
  ser_slot c k (VList l) = Ok x ->
  exists l', deser_slot (load_attrs FUEL) c k (norm x) = Ok (VList l') /\
    Forall2 (fun m m' => exists ty ts enc sig b b', m = VMsg d ty ts enc sig b /\
      m' = VMsg d (norm ty) (norm ts) (norm enc) (norm sig) b' /\ arrives d b b') l l' /\
    ((forall ty ts enc sig b, In (VMsg d ty ts enc sig b) l -> norm ty = ty /\ norm ts = ts /\ norm enc = enc /\ norm sig = sig /\ mwire d b) -> l' = l).
Proof.
  intros K Ne F Hx.
  destruct (nested_rt FUEL c k d an true (VList l) x K) as (w' & x' & D & _ & N & _ & _ & Wi).
  - intros b Mb s Hs. destruct (slots_rt FUEL d b (rank_bound d) Mb s Hs) as (a' & R). exists a'. tauto.
  - right. right. split; [reflexivity|]. exists l. auto.
  - exact Hx.
  - destruct N as [[N _]|[(? & ? & ? & ? & ? & ? & N & _)|(l0 & l' & N & -> & F2)]]; try discriminate.
    injection N as <-. exists l'. split; [exact D|]. split; [exact F2|]. intros W. assert (Q : VList l' = VList l) by (apply Wi; exact W). congruence.
Qed.
(** an empty list is written but refused on arrival *)
Lemma list_empty rec c k d an il : slot_kind c k = KMsg d an il ->
  exists x, ser_slot c k (VList []) = Ok x /\ deser_slot rec c k (norm x) = Err (EFieldError (u k)).
Proof.
  intros K. exists (VTuple [VBool true; VList []]). unfold ser_slot, ser_slot_with, deser_slot. rewrite K. split; reflexivity.
Qed.
Lemma ser_single_tuple d k m x : ser_single wire d k m = Ok x -> exists a b c, norm x = VList [a; b; c].
Proof.
  unfold ser_single. destruct m; try discriminate. destruct (mcls_eqb c d); [|discriminate]. rewrite wire_msg. intros H.
  apply bind_ok in H as (s & _ & H). apply Ok_inj in H. subst x. cbn [norm map]. eauto.
Qed.
(** a list where one message is declared, or the other way round, is refused on arrival *)
Lemma list_mismatch rec c k d an w x : slot_kind c k = KMsg d an false -> ser_slot c k (VList w) = Ok x ->
  deser_slot rec c k (norm x) = Err (EFieldError (u k)).
Proof.
  intros K. unfold ser_slot, ser_slot_with, deser_slot. rewrite K. intros H. apply bind_ok in H as (r & Hr & H). apply Ok_inj in H. subst x.
  cbn [norm map]. unfold deser_message. cbn [py_iter]. destruct r as [|x r]; reflexivity.
Qed.
Lemma single_mismatch rec c k d an c' ty ts enc sig b x : slot_kind c k = KMsg d an true -> ser_slot c k (VMsg c' ty ts enc sig b) = Ok x ->
  deser_slot rec c k (norm x) = Err (EFieldError (u k)).
Proof.
  intros K. unfold ser_slot, ser_slot_with, deser_slot. rewrite K. intros H. apply bind_ok in H as (r & Hr & H). apply Ok_inj in H. subst x.
  destruct (ser_single_tuple _ _ _ _ Hr) as (x1 & x2 & x3 & Q). cbn [norm map]. rewrite Q. reflexivity.
Qed.

(** ** Slots *)
Lemma aligned c : forall a a' l l', NoDup (map fst a) -> map fst a' = map fst a ->
  Forall2 (fun kw kx => fst kx = fst kw /\ ser_slot c (fst kw) (snd kw) = Ok (snd kx)) a l ->
  Forall2 (fun kw kx => fst kx = fst kw /\ ser_slot c (fst kw) (snd kw) = Ok (snd kx)) a' l' ->
  norm (pairs l') = norm (pairs l) ->
  forall k w w', In (k, w) a -> In (k, w') a' ->
  exists x x', ser_slot c k w = Ok x /\ ser_slot c k w' = Ok x' /\ norm x = norm x'.
Proof.
  induction a as [|[k0 w0] a IH]; intros a' l l' N F F1 F2 E k w w' H1 H2; [destruct H1|].
  destruct a' as [|[k1 w1] a']; [discriminate F|]. cbn [map fst] in F, N. injection F as -> F. inversion N as [|? ? N1 N2]; subst.
  inversion F1 as [|? [k2 x] ? l0 [Q1 Q2] F1']; subst. inversion F2 as [|? [k3 x'] ? l0' [Q3 Q4] F2']; subst. cbn [fst snd] in *. subst.
  unfold pairs in E. cbn [map norm fst snd] in E. injection E as E1 E2.
  assert (K : forall (v : pyval) (b : attrs_t), map fst b = map fst a -> In (k0, v) b -> False).
  { intros v b Hb Hin. apply N1. rewrite <- Hb. exact (in_map fst _ _ Hin). }
  destruct H1 as [H1|H1], H2 as [H2|H2].
  - assert (k = k0 /\ w = w0 /\ w' = w1) as (-> & -> & ->) by (repeat split; congruence). exists x, x'. auto.
  - assert (k = k0) as -> by congruence. exfalso. exact (K _ _ F H2).
  - assert (k = k0) as -> by congruence. exfalso. exact (K _ _ eq_refl H1).
  - refine (IH a' l0 l0' N2 F F1' F2' _ k w w' H1 H2). unfold pairs. cbn [norm]. congruence.
Qed.
Lemma slots_read E c v a p : mok c a -> mwire c a -> payload_of c a = Ok p ->
  (forall s, slots c a = Ok s -> wirewf s = true /\ (vdepth s < cdepth E)%nat) ->
  exists s, loads (cdepth E) p = Ok s /\
    forall ty ts enc sig, msg_init E 0 c (Some (ty, ts, enc)) sig s (match c with MHello => [("_version"%string, VStr v)] | _ => [] end)
      = Ok (VMsg c ty ts enc sig (full c v a)).
Proof.
  intros M MW P W. destruct (payload_rt E c v a p M P W) as (s & a' & L & _ & _ & Ea & _ & I). rewrite (proj1 Ea MW) in I.
  exists s. split; [exact L|]. intros ty ts enc sig. apply (I (ty, ts, enc)).
Qed.
Lemma each_slot_read E c v a p : mok c a -> payload_of c a = Ok p ->
  (forall s, slots c a = Ok s -> wirewf s = true /\ (vdepth s < cdepth E)%nat) ->
  exists s a', loads (cdepth E) p = Ok s /\
    (forall ty ts enc sig, msg_init E 0 c (Some (ty, ts, enc)) sig s (match c with MHello => [("_version"%string, VStr v)] | _ => [] end)
      = Ok (VMsg c ty ts enc sig (full c v a'))) /\
    map fst a' = slot_names c /\
    forall k w w', In (k, w) a -> In (k, w') a' ->
      match slot_kind c k with
      | KPlain => w' = norm (deenum w)
      | KEnum _ | KCpu | KNum | KInt => w' = w
      | KCtd => forall kvs, w = VDict DCTD kvs -> w' = VDict DCTD (map (fun kv => (norm (fst kv), norm (snd kv))) kvs)
      | KMsg d _ _ => nested_arr arrives d w w'
      | _ => (exists x x', ser_slot c k w = Ok x /\ ser_slot c k w' = Ok x' /\ norm x = norm x')
      end.
Proof.
  intros M P W. destruct (payload_rt E c v a p M P W) as (s & a' & L & AR & M' & _ & _ & I).
  exists s, a'. split; [exact L|]. split; [intros ty ts enc sig; apply (I (ty, ts, enc))|]. split; [exact (mok_fst _ _ M')|].
  intros k w w' H1 H2. destruct AR as [_ A1 A2 (s0 & s' & S0 & S1 & S2)]. specialize (A1 k w w' H1 H2). specialize (A2 k w w').
  assert (R : exists x x', ser_slot c k w = Ok x /\ ser_slot c k w' = Ok x' /\ norm x = norm x').
  { apply (slots_inv _ _ _ (mok_fst _ _ M)) in S0 as (l & -> & F1). apply (slots_inv _ _ _ (mok_fst _ _ M')) in S1 as (l' & -> & F2).
    refine (aligned c a a' l l' _ _ F1 F2 S2 k w w' H1 H2).
    - rewrite (mok_fst _ _ M). apply slot_names_NoDup.
    - rewrite (mok_fst _ _ M), (mok_fst _ _ M'). reflexivity. }
  destruct (slot_kind c k) as [| |d an il| | | | | | | | | |] eqn:K; try exact A1; try exact R. eapply A2; eauto.
Qed.
Lemma clear_frame E c ty ts enc sig a key f m' bs : c = MHello \/ c = MDisconnect ->
  serialize E (VMsg c ty ts enc sig a) key (Some f) = (m', Ok bs) ->
  serialize E (VMsg c ty ts enc sig a) key None = (m', Ok bs) /\ nth_error bs 10 = Some x00.
Proof.
  intros Hc H. assert (N : encrypts c = false) by (destruct Hc; subst; reflexivity). split; [rewrite <- H; symmetry; apply in_clear; exact N|].
  apply serialize_ok in H as (h & sg & payload & p & v & _ & -> & Hh & _). rewrite N in Hh. cbn [andb] in Hh.
  unfold pack_header in Hh. apply bind_ok in Hh as (t & Ht & Hh). apply bind_ok in Hh as (q & Hq & Hh). apply Ok_inj in Hh. subst h.
  assert (L1 : List.length t = 2%nat) by (destruct (_ && _) in Ht; [apply Ok_inj in Ht; subst t; apply be_enc_length|discriminate]).
  assert (L2 : List.length q = 8%nat).
  { apply pack_u64_ok in Hq as (n & _ & -> & _). apply be_enc_length. }
  rewrite <- app_assoc, nth_error_app2 by lia. rewrite L1, <- app_assoc, nth_error_app2 by lia. rewrite L2. reflexivity.
Qed.

(** ** Equality after two trips *)
Lemma arrived E E' now c t enc0 sig v a key encf m' bs ct decf pub m2 :
  cr E' = cr E -> crypto_ok (cr E) -> (forall s, sig = VBytes s -> List.length s = 65%nat) ->
  1262304000 < t < 32819212800 -> mok c a -> hello_ok E' c v ->
  (forall s, slots c a = Ok s -> wirewf s = true /\ (vdepth s < cdepth E')%nat) ->
  (forall p, payload_of c a = Ok p -> undoes encf decf c p) ->
  serialize E (VMsg c (VInt (type_of c)) (VInt t) enc0 sig (full c v a)) key encf = (m', Ok bs) ->
  deserialize E' now bs decf ct pub = Ok m2 ->
  exists a', arrives c a a' /\ mok c a' /\ mwire c a' /\
    m2 = VMsg c (VInt (type_of c)) (VInt t) (VBool (encrypts c && given encf)) (sig_of m') (full c v a').
Proof.
  intros HE HC HL HT M HH W U H HD.
  assert (D0 : deserialize E' now bs decf false None = Ok m2).
  { assert (D1 : deserialize E' now bs decf ct None = Ok m2).
    { destruct pub as [[|b k]|]; [rewrite empty_sender_key in HD|apply sender_exact in HD as [HD _]; [|discriminate]|]; exact HD. }
    apply deserialize_ok in D1 as (Q1 & ty & ts & enc & c0 & Q2 & Q3 & Q4 & Q5 & Q6). apply deserialize_ok. split; [exact Q1|].
    exists ty, ts, enc, c0. split; [exact Q2|]. split; [exact Q3|]. split; [exact Q4|]. split; [discriminate|]. exact Q6. }
  destruct (frame_rt E E' now c t enc0 sig v a key encf m' bs false decf None HE HC HL HT ltac:(discriminate) M HH W U H ltac:(discriminate)) as (a' & AR & M' & [_ (dd & q & s0 & Q1 & Q2 & Q3)] & D).
  cbv zeta in D. pose proof (eq_trans (eq_sym D) D0) as D1. apply bind_ok in D1 as (_ & _ & D1). apply Ok_inj in D1.
  exists a'. split; [exact AR|]. split; [exact M'|]. split; [|symmetry; exact D1].
  apply loads_pure in Q1. pose proof (load_attrs_loaded _ _ _ _ Q1 Q2) as L. rewrite Q3 in L. exact (loaded_mwire _ c a' (rank_bound c) L).
Qed.
Lemma sig_bytes E c ty ts enc0 sig a key encf m' bs : serialize E (VMsg c ty ts enc0 sig a) key encf = (m', Ok bs) -> exists s, sig_of m' = VBytes s.
Proof. intros H. apply serialize_ok in H as (h & s1 & payload1 & p1 & v1 & -> & _). cbn [sig_of]. eauto. Qed.
Lemma equal_after_trip E E' now1 now2 c t1 t2 enc1 enc2 sig1 sig2 v1 v2 a1 a2 key1 key2 encf1 encf2 m1 m2 bs1 bs2 ct1 ct2 decf1 decf2 pub1 pub2 r1 r2 :
  cr E' = cr E -> crypto_ok (cr E) ->
  (forall s, sig1 = VBytes s -> List.length s = 65%nat) -> (forall s, sig2 = VBytes s -> List.length s = 65%nat) ->
  1262304000 < t1 < 32819212800 -> 1262304000 < t2 < 32819212800 -> mok c a1 -> mok c a2 -> hello_ok E' c v1 -> hello_ok E' c v2 ->
  (forall s, slots c a1 = Ok s \/ slots c a2 = Ok s -> wirewf s = true /\ (vdepth s < cdepth E')%nat) ->
  (forall p, payload_of c a1 = Ok p -> undoes encf1 decf1 c p) -> (forall p, payload_of c a2 = Ok p -> undoes encf2 decf2 c p) ->
  serialize E (VMsg c (VInt (type_of c)) (VInt t1) enc1 sig1 (full c v1 a1)) key1 encf1 = (m1, Ok bs1) ->
  serialize E (VMsg c (VInt (type_of c)) (VInt t2) enc2 sig2 (full c v2 a2)) key2 encf2 = (m2, Ok bs2) ->
  deserialize E' now1 bs1 decf1 ct1 pub1 = Ok r1 -> deserialize E' now2 bs2 decf2 ct2 pub2 = Ok r2 ->
  msg_eq m1 m2 = Ok true -> msg_eq r1 r2 = Ok true.
Proof.
  intros HE HC L1 L2 T1 T2 M1 M2 H1 H2 W U1 U2 S1 S2 D1 D2.
  destruct (arrived E E' now1 c t1 enc1 sig1 v1 a1 key1 encf1 m1 bs1 ct1 decf1 pub1 r1 HE HC L1 T1 M1 H1 (fun s Q => W s (or_introl Q)) U1 S1 D1) as (b1 & A1 & N1 & X1 & ->).
  destruct (arrived E E' now2 c t2 enc2 sig2 v2 a2 key2 encf2 m2 bs2 ct2 decf2 pub2 r2 HE HC L2 T2 M2 H2 (fun s Q => W s (or_intror Q)) U2 S2 D2) as (b2 & A2 & N2 & X2 & ->).
  pose proof (serialize_msg _ _ _ _ _ _ _ _ _ _ _ S1) as E1. pose proof (serialize_msg _ _ _ _ _ _ _ _ _ _ _ S2) as E2.
  destruct (sig_bytes _ _ _ _ _ _ _ _ _ _ _ S1) as [g1 G1]. destruct (sig_bytes _ _ _ _ _ _ _ _ _ _ _ S2) as [g2 G2]. rewrite G1 in E1 |- *. rewrite G2 in E2 |- *.
  rewrite E1, E2. intros Q. apply msg_eq_iff in Q as (_ & _ & Qt & Qg & (s & s' & Hs & Hs' & Q) & QV). subst t2 g2. apply msg_eq_iff.
  repeat (split; [reflexivity|]). pose proof (mok_fst _ _ M1) as F1. pose proof (mok_fst _ _ M2) as F2. pose proof (mok_fst _ _ N1) as F1'. pose proof (mok_fst _ _ N2) as F2'.
  rewrite slots_full in Hs, Hs' by assumption. split.
  - destruct A1 as [_ _ _ (s0 & s1 & P0 & P1 & P2)]. destruct A2 as [_ _ _ (s0' & s1' & P0' & P1' & P2')].
    assert (s0 = s) by congruence. assert (s0' = s') by congruence. subst s0 s0'. exists s1, s1'. rewrite !slots_full by assumption. split; [exact P1|]. split; [exact P1'|].
    apply (slots_back _ c b1 b2 (rank_bound c) N1 N2 X1 X2 s1 s1' P1 P1'). rewrite P2, P2'. apply py_eq_norm; [apply W; auto|apply W; auto|exact Q].
  - intros ->. specialize (QV eq_refl). cbn [full] in *. unfold attr_get_or_none in *. pose proof (version_not_slot MHello) as NV.
    rewrite !attr_get_last in QV by (rewrite ?F1, ?F2; exact NV). rewrite !attr_get_last by (rewrite ?F1', ?F2'; exact NV). exact QV.
Qed.
