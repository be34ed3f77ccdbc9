(** * A process that receives frames one after the other.
    [shortcuts.load] (20-28) keeps nothing but the caches of the module's [ecies]
    object, which other calls of the process change too. *)
From Verif Require Export Wire.
From Verif Require Import EciesProofs FrameFacts HashFacts.

Section Receiver.
Context (E : env) (timeout : nat -> Z).
(** the ciphertext [decrypt_func] is called with, if it gets that far: message/base.py
    417-451, 453-463 and for Hello 656-677 *)
Definition decrypted_part (now : Z) (msg : bytes) (check_time : bool) : option bytes :=
  if Nat.leb (List.length msg) (HDR_LEN + SIG_LEN) then None
  else match deserialize_header (firstn HDR_LEN msg) with
  | Err _ => None
  | Ok (ty, ts, enc) =>
      match (if check_time then verify_time now ts else Ok tt), getitem library ty with
      | Ok _, Ok MHello =>
          let data := skipn HDR_LEN msg in
          match unpack32p (slice_last VERSION_LENGTH data) with
          | Ok v =>
              match verify_version (our_version E) (ascii_decode v) with
              | Ok _ => if enc then Some (skipn SIG_LEN (firstn (List.length data - VERSION_LENGTH) data)) else None
              | Err _ => None
              end
          | Err _ => None
          end
      | Ok _, Ok _ => if enc then Some (skipn SIG_LEN (skipn HDR_LEN msg)) else None
      | _, _ => None
      end
  end.
(** the caches after [load] *)
Definition load_state (now : Z) (st : kstate) (mgr : nat) (data : bytes) (privkey : option bytes) (check_time : bool) : kstate :=
  match decrypted_part now data check_time, privkey with
  | Some p, Some ((_ :: _) as k) => snd (decrypt (cr E) st mgr p k [])
  | _, _ => st
  end.
(** what happens in the process: a frame arrives and is loaded, or [ecies] is used for
    something else *)
Inductive event :=
| Arrives (now : Z) (mgr : nat) (data : bytes) (privkey pubkey : option bytes) (check_time : bool)
| Uses (o : eop).
Fixpoint receive (st : kstate) (evs : list event) : list (result pyval) :=
  match evs with
  | [] => []
  | Arrives now mgr data sk pk ct :: evs' =>
      load E now st mgr data sk pk ct :: receive (load_state now st mgr data sk ct) evs'
  | Uses o :: evs' => receive (estep (cr E) timeout st o) evs'
  end.
(** other uses draw valid keys *)
Definition event_ok (e : event) : Prop := match e with Uses o => eop_ok (cr E) o | _ => True end.

(** ** Facts *)
Lemma decrypt_stateless (HC : crypto_ok (cr E)) st st' m m' d k sh : einv (cr E) st -> einv (cr E) st' ->
  fst (decrypt (cr E) st m d k sh) = fst (decrypt (cr E) st' m' d k sh).
Proof.
  intros I I'. unfold decrypt. destruct (negb (bytes_eqb (firstn 1 d) [x04])); [reflexivity|]. cbv zeta.
  destruct (secret_of (cr E) k) as [s|]; [|reflexivity].
  destruct (ecdh_spec (cr E) st s (firstn (1 + 64) d) I) as (s1 & -> & I1).
  destruct (ecdh_spec (cr E) st' s (firstn (1 + 64) d) I') as (s2 & -> & I2).
  destruct (ecdh_raw (cr E) s (firstn (1 + 64) d)) as [km|]; [|reflexivity].
  destruct (negb (Nat.eqb (List.length km) 32)); [reflexivity|].
  destruct (derived_spec (cr E) HC s1 m km I1) as (s3 & -> & _).
  destruct (derived_spec (cr E) HC s2 m' km I2) as (s4 & -> & _). destruct (spec_keys (cr E) km) as [a b]. reflexivity.
Qed.
Lemma deserialize_ext now msg f g ct pub : (forall b, f b = g b) -> deserialize E now msg f ct pub = deserialize E now msg g ct pub.
Proof.
  intros X. assert (B : forall c ty ts enc data kw, base_load E c ty ts enc data f pub kw = base_load E c ty ts enc data g pub kw).
  { intros. unfold base_load, decrypted. cbv zeta. rewrite X. reflexivity. }
  unfold deserialize. destruct (Nat.leb _ _); [reflexivity|]. destruct (deserialize_header _) as [[[ty ts] enc]|]; [|reflexivity]. cbn [bind].
  destruct (if ct then _ else _); [|reflexivity]. cbn [bind]. destruct (getitem library ty) as [c|]; [|reflexivity]. cbn [bind].
  unfold class_load. destruct c; rewrite ?B; try reflexivity.
  destruct (unpack32p _) as [v|e]; [|reflexivity]. destruct (verify_version _ _); [|reflexivity]. cbn [bind]. apply B.
Qed.
Lemma load_stateless (HC : crypto_ok (cr E)) now st st' m m' d sk pk ct : einv (cr E) st -> einv (cr E) st' ->
  load E now st m d sk pk ct = load E now st' m' d sk pk ct.
Proof.
  intros I I'. unfold load. apply deserialize_ext. intros b. unfold load_decrypt. destruct sk as [[|k0 k]|]; try reflexivity.
  apply decrypt_stateless; assumption.
Qed.
Lemma load_state_inv (HC : crypto_ok (cr E)) now st m d sk ct : einv (cr E) st -> einv (cr E) (load_state now st m d sk ct).
Proof.
  intros I. unfold load_state. destruct (decrypted_part now d ct) as [p|]; [|exact I]. destruct sk as [[|k0 k]|]; try exact I.
  exact (estep_inv (cr E) HC timeout st (OpDecrypt m p (k0 :: k) []) I Logic.I).
Qed.
Definition as_first (created : nat -> Z) (e : event) : list (result pyval) :=
  match e with Arrives now mgr data sk pk ct => [load E now (init_state created) mgr data sk pk ct] | Uses _ => [] end.
Lemma received (HC : crypto_ok (cr E)) created evs : forall st, einv (cr E) st -> Forall event_ok evs ->
  receive st evs = flat_map (as_first created) evs.
Proof.
  induction evs as [|e evs IH]; intros st I F; [reflexivity|]. inversion F as [|x l O F']; subst.
  destruct e as [now mgr data sk pk ct|o]; cbn [receive flat_map as_first app].
  - rewrite (load_stateless HC now st (init_state created) mgr mgr data sk pk ct I (einv_init (cr E) created)). f_equal.
    apply IH; [apply load_state_inv; assumption|exact F'].
  - apply IH; [apply estep_inv; assumption|exact F'].
Qed.
(** nothing else is decrypted *)
Lemma only_part now msg f g ct pub : (forall p, decrypted_part now msg ct = Some p -> f p = g p) ->
  deserialize E now msg f ct pub = deserialize E now msg g ct pub.
Proof.
  unfold deserialize, decrypted_part. destruct (Nat.leb _ _); [reflexivity|]. destruct (deserialize_header _) as [[[ty ts] enc]|]; [|reflexivity].
  cbn [bind]. destruct (if ct then _ else _); [|reflexivity]. cbn [bind]. destruct (getitem library ty) as [c|]; [|reflexivity]. cbn [bind].
  assert (B : forall c data kw, (forall p, (if enc then Some (skipn SIG_LEN data) else None) = Some p -> f p = g p) ->
    base_load E c ty ts enc data f pub kw = base_load E c ty ts enc data g pub kw).
  { intros c0 data kw X. unfold base_load, decrypted. cbv zeta. destruct enc; [|reflexivity]. rewrite (X _ eq_refl). reflexivity. }
  intros X. unfold class_load. destruct c; try (rewrite (B _ _ _ X); reflexivity).
  destruct (unpack32p _) as [v|e]; [|reflexivity]. destruct (verify_version _ _); [|reflexivity]. cbn [bind]. apply B. exact X.
Qed.
Lemma part_reached now msg f ct pub p e : decrypted_part now msg ct = Some p -> f p = Err e ->
  deserialize E now msg f ct pub = Err (if is_message_error e then e else EDecryptionError).
Proof.
  intros D F. assert (B : forall c ty ts data kw, p = skipn SIG_LEN data ->
    base_load E c ty ts true data f pub kw = Err (if is_message_error e then e else EDecryptionError)).
  { intros c ty ts data kw ->. unfold base_load, decrypted. cbv zeta. rewrite F. destruct (is_message_error e); reflexivity. }
  revert D. unfold deserialize, decrypted_part. destruct (Nat.leb _ _); [discriminate|]. destruct (deserialize_header _) as [[[ty ts] enc]|]; [|discriminate].
  cbn [bind]. destruct (if ct then _ else _); [|discriminate]. cbn [bind]. destruct (getitem library ty) as [c|]; [|discriminate]. cbn [bind].
  unfold class_load. cbv zeta.
  destruct c; try (destruct enc; [|discriminate]; intros Q; apply Some_inj in Q; symmetry in Q; rewrite (B _ _ _ _ _ Q); reflexivity).
  destruct (unpack32p _) as [v|]; [|discriminate]. destruct (verify_version _ _); [|discriminate]. destruct enc; [|discriminate].
  intros Q. apply Some_inj in Q. symmetry in Q. cbn [bind]. rewrite (B _ _ _ _ _ Q). reflexivity.
Qed.
(** the same frame at another time *)
Lemma again now msg f pub m : deserialize E now msg f true pub = Ok m ->
  exists c ty ts enc sig a, m = VMsg c ty (VInt ts) enc sig a /\ forall now',
  deserialize E now' msg f true pub =
    if ts * 1000000 <? now' - 600000000 then Err EMessageTooOldError
    else if now' + 300000000 <? ts * 1000000 then Err EMessageFromFutureError else Ok m.
Proof.
  intros H. apply deserialize_ok in H as (L & ty & ts & enc & c & U & T & G & _ & K).
  destruct (class_load_msg _ _ _ _ _ _ _ _ _ K) as (sig & a & Q).
  exists c, (VInt ty), ts, (VBool enc), (VBytes sig), a. split; [exact Q|]. intros now'.
  rewrite (deserialize_dispatch E now' msg f true pub ty ts enc c L U T G), K. reflexivity.
Qed.
Lemma span now now' msg f pub m m' : deserialize E now msg f true pub = Ok m -> deserialize E now' msg f true pub = Ok m' ->
  m = m' /\ Z.abs (now - now') <= 900000000.
Proof.
  intros H H'. destruct (again _ _ _ _ _ H) as (c & ty & ts & enc & sig & a & -> & A). pose proof (A now) as B. rewrite H in B.
  rewrite A in H'. destruct (Z.ltb_spec (ts * 1000000) (now' - 600000000)) as [|X1]; [discriminate H'|].
  destruct (Z.ltb_spec (now' + 300000000) (ts * 1000000)) as [|X2]; [discriminate H'|].
  destruct (Z.ltb_spec (ts * 1000000) (now - 600000000)) as [|X3]; [discriminate B|].
  destruct (Z.ltb_spec (now + 300000000) (ts * 1000000)) as [|X4]; [discriminate B|].
  split; [apply Ok_inj in H'; exact H'|lia].
Qed.
End Receiver.
