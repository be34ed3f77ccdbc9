(** * Property theorems: ECIES (C44, C45, C46, C57)

    [crypto_ok C] collects the laws assumed of the primitives (Crypto.v);
    [eop_ok C] / [rnd_ok C] say that the random inputs of an encryption are a valid
    secret and a 16-byte IV, which is what the libraries return; a history is any
    list of encryptions and decryptions by any managers from empty caches. *)
From Verif Require Import EciesProofs.

(** ** C44 after any history, encrypting to the public key of [k] succeeds, adds 113
    bytes, and after any further history any manager decrypts it with [k] *)
Theorem C44_round_trip :
  forall (C : crypto), crypto_ok C ->
  forall (timeout created : nat -> Z) (before after : list eop) m1 m2 data k s pk shared r,
  Forall (eop_ok C) before -> Forall (eop_ok C) after -> rnd_ok C r ->
  secret_of C k = Some s -> pub_of C s = Some pk ->
  let st := erun C timeout before (init_state created) in
  exists ct, fst (encrypt C timeout st m1 data pk shared r) = Ok ct /\
    List.length ct = (113 + List.length data)%nat /\
    fst (decrypt C (erun C timeout after (snd (encrypt C timeout st m1 data pk shared r))) m2 ct k shared) = Ok data.
Proof. exact roundtrip_history. Qed.
Print Assumptions C44_round_trip.

(** ** C45 decryption succeeds exactly on data of at least 113 bytes starting with 04
    whose last 32 bytes are the HMAC of the bytes between (and the shared data) under
    the key derived from the Diffie-Hellman secret *)
Theorem C45_accepts_exactly :
  forall (C : crypto), crypto_ok C ->
  forall (timeout created : nat -> Z) (history : list eop) m data k shared d,
  Forall (eop_ok C) history ->
  fst (decrypt C (erun C timeout history (init_state created)) m data k shared) = Ok d <->
  (113 <= List.length data)%nat /\ firstn 1 data = [x04] /\
  exists s km, secret_of C k = Some s /\ ecdh_raw C s (firstn 65 data) = Some km /\ List.length km = 32%nat /\
    let key := sha256 C (be_enc 4 1 ++ km) in
    let body := firstn (List.length data - 97) (skipn 65 data) in
    skipn (List.length data - 32) data = hmac_sha256 C (sha256 C (skipn 16 key)) (body ++ shared) /\
    d = aes_ctr C (firstn 16 key) (firstn 16 body) (skipn 16 body).
Proof. exact decrypt_exact. Qed.
Print Assumptions C45_accepts_exactly.

(** changing anything in the tag of an accepted ciphertext makes it rejected *)
Theorem C45_altered_tag_rejected :
  forall (C : crypto), crypto_ok C ->
  forall (timeout created : nat -> Z) (history : list eop) m data data' k shared d,
  Forall (eop_ok C) history ->
  fst (decrypt C (erun C timeout history (init_state created)) m data k shared) = Ok d ->
  List.length data' = List.length data ->
  firstn (List.length data - 32) data' = firstn (List.length data - 32) data -> data' <> data ->
  exists e, fst (decrypt C (erun C timeout history (init_state created)) m data' k shared) = Err e.
Proof. exact tag_altered. Qed.
Print Assumptions C45_altered_tag_rejected.

(** ** C46 *)
Theorem C46_caches_bounded :
  forall (C : crypto), crypto_ok C ->
  forall (timeout created : nat -> Z) (history : list eop), Forall (eop_ok C) history ->
  let st := erun C timeout history (init_state created) in
  (List.length (c_ecdh st) <= 1024)%nat /\ (List.length (c_derived st) <= 1024)%nat /\
  (List.length (c_ephem st) <= 1024)%nat.
Proof. exact caches_bounded. Qed.
Print Assumptions C46_caches_bounded.

(** the memoised pure functions return what the function itself returns *)
Theorem C46_memoised_faithful :
  forall (C : crypto), crypto_ok C ->
  forall (timeout created : nat -> Z) (history : list eop), Forall (eop_ok C) history ->
  let st := erun C timeout history (init_state created) in
  (forall s p, fst (ecdh C st s p) = match ecdh_raw C s p with Some v => Ok v | None => Err EValueError end) /\
  (forall m km, fst (get_derived_keys C st m km) =
     Ok (firstn 16 (sha256 C (be_enc 4 1 ++ km)), sha256 C (skipn 16 (sha256 C (be_enc 4 1 ++ km))))).
Proof. exact memo_faithful. Qed.
Print Assumptions C46_memoised_faithful.

(** a lookup of a key not in the cache, later than [timeout] after the last cleanup,
    drops every cached ephemeral key and restarts the period *)
Theorem C46_cleanup_on_miss :
  forall (C : crypto) (timeout : nat -> Z) st m pk r v st',
  lru_find keynb (m, pk) (c_ephem st) = None ->
  last_cleanup st m < r_now1 r - timeout m ->
  get_ephem_key C timeout st m pk r = (Ok v, st') ->
  c_ephem st' = [((m, pk), v)] /\ last_cleanup st' m = r_now2 r.
Proof. exact cleanup_on_miss. Qed.
Print Assumptions C46_cleanup_on_miss.

(** but two consecutive encryptions to the same key use the same ephemeral key,
    whatever the clock says: on a hit the timeout is not consulted *)
Theorem C46_reused_whatever_the_clock :
  forall (C : crypto), crypto_ok C ->
  forall (timeout created : nat -> Z) (history : list eop) m pk d1 d2 sh1 sh2 r1 r2 ct1 ct2,
  Forall (eop_ok C) history -> rnd_ok C r1 -> rnd_ok C r2 ->
  let st := erun C timeout history (init_state created) in
  fst (encrypt C timeout st m d1 pk sh1 r1) = Ok ct1 ->
  fst (encrypt C timeout (snd (encrypt C timeout st m d1 pk sh1 r1)) m d2 pk sh2 r2) = Ok ct2 ->
  firstn 65 ct1 = firstn 65 ct2.
Proof. exact reused. Qed.
Print Assumptions C46_reused_whatever_the_clock.

(** the claimed renewal is false: a key made at time 0 with a timeout of 100 s still
    serves at time 10^6 although fresh randomness was different *)
Theorem C46_renewal_refuted :
  exists (C : crypto) (timeout created : nat -> Z) m pk d1 d2 r1 r2 ct1 ct2,
  crypto_ok C /\ rnd_ok C r1 /\ rnd_ok C r2 /\ r_ephem r1 <> r_ephem r2 /\
  r_now1 r1 + timeout m < r_now1 r2 /\ r_now2 r1 + timeout m < r_now1 r2 /\
  let st1 := snd (encrypt C timeout (init_state created) m d1 pk [] r1) in
  fst (encrypt C timeout (init_state created) m d1 pk [] r1) = Ok ct1 /\
  fst (encrypt C timeout st1 m d2 pk [] r2) = Ok ct2 /\
  firstn 65 ct1 = firstn 65 ct2.
Proof.
  exists toy, (fun _ => 100), (fun _ => 0), 0%nat, (zeros 64), [], [],
         {| r_ephem := zeros 32; r_iv := zeros 16; r_now1 := 0; r_now2 := 0 |},
         {| r_ephem := x01 :: zeros 31; r_iv := zeros 16; r_now1 := 1000000; r_now2 := 1000000 |}.
  eexists. eexists. split; [exact toy_ok|]. split; [split; reflexivity|]. split; [split; reflexivity|].
  split; [discriminate|]. split; [reflexivity|]. split; [reflexivity|]. split; [reflexivity|].
  split; reflexivity.
Qed.
Print Assumptions C46_renewal_refuted.

(** ** C57 the key derivation loop stops early: the exact length returned *)
Theorem C57_kdf_length_exact :
  forall (C : crypto), crypto_ok C -> forall km n,
  List.length (ckdf C km n) = Nat.min n (32 * S ((n + 7) / 64)).
Proof. exact ckdf_length. Qed.
Print Assumptions C57_kdf_length_exact.
Theorem C57_kdf_length_refuted :
  exists C km n, crypto_ok C /\ List.length (ckdf C km n) <> n.
Proof. exists toy, [], 33%nat. split; [exact toy_ok|]. rewrite (ckdf_length _ toy_ok). discriminate. Qed.
Print Assumptions C57_kdf_length_refuted.

(** ** The hypotheses are met *)
Definition ex_key : bytes := x05 :: zeros 30 ++ [x09].
Definition ex_pub : bytes := ex_key ++ ex_key.
Definition ex_rnd (b : byte) (t : Z) : rnd :=
  {| r_ephem := b :: zeros 31; r_iv := x11 :: zeros 15; r_now1 := t; r_now2 := t + 1 |}.
Definition ex_hist : list eop :=
  [OpEncrypt 0 [x01] ex_pub [] (ex_rnd x02 10); OpDecrypt 1 [x04] ex_key []; OpEncrypt 1 [] [x01] [] (ex_rnd x03 11)].
Example C44_ex :
  Forall (eop_ok toy) ex_hist /\ rnd_ok toy (ex_rnd x06 5000) /\
  secret_of toy ex_key = Some ex_key /\ pub_of toy ex_key = Some ex_pub /\
  let st := erun toy (fun _ => 100) ex_hist (init_state (fun _ => 0)) in
  (do ct <- fst (encrypt toy (fun _ => 100) st 0 [x0a; x0b] ex_pub [x07] (ex_rnd x06 5000));
   do d <- fst (decrypt toy st 3 ct ex_key [x07]); Ok (List.length ct, d)) = Ok (115%nat, [x0a; x0b])
  /\ is_ok (fst (decrypt toy st 3 ([x04] ++ zeros 120) ex_key [])) = false.
Proof. split; [repeat constructor|]. split; [repeat split|]. repeat split; vm_compute; reflexivity. Qed.
Example C45_ex_alter :
  let st := init_state (fun _ => 0) in
  (do ct <- fst (encrypt toy (fun _ => 100) st 0 [x0a; x0b] ex_pub [x07] (ex_rnd x06 5000));
   fst (decrypt toy st 3 (firstn 114 ct ++ [xff]) ex_key [x07])) = Err EDecryptionError.
Proof. vm_compute; reflexivity. Qed.
Example C46_ex_cleanup :
  let st := erun toy (fun _ => 100) ex_hist (init_state (fun _ => 0)) in
  lru_find keynb (0%nat, zeros 64) (c_ephem st) = None /\
  last_cleanup st 0%nat < r_now1 (ex_rnd x06 5000) - 100 /\
  List.length (c_ephem st) = 1%nat /\
  is_ok (fst (get_ephem_key toy (fun _ => 100) st 0 (zeros 64) (ex_rnd x06 5000))) = true.
Proof. repeat split; vm_compute; reflexivity. Qed.
