(** * Property theorems: tokens, payments, sessions and peers from the factories (C78, C79, C80).

    [made_token E t]: [t] came from the token factory, with any operation and any key.
    [granted E priv pk rk c m]: [m] came from the factory of one of the Concent's three
    replies that carry a token, signed by the Concent.  [sent E priv pk rk c m]: [m] came
    from one of the other factories, see its definition.  [usable E k]: [k] is a private
    key.  Draws and clock readings are arbitrary within [a_text], [a_name] and [clock]. *)
From Verif Require Import SampleHonest GrantFacts Props_Replies.

(** ** C78 *)
(** the factories return *)
Theorem C78_total :
  forall E priv pk rk ck, crypto_ok (cr E) -> key_pairs (cr E) priv pk rk ck -> (forall o, priv o <> []) ->
  (forall now id url client files up down p, clock now -> a_text id -> a_text url -> (List.length client <= 200)%nat -> files_ok files -> (forall k, p = Some k -> usable E k) ->
     exists m, token_factory E now id url client files up down p = Ok m) /\
  (forall now t, clock now -> made_token E t ->
     (forall s, made_up E priv pk rk MSubtaskResultsVerify s -> exists m, ack_verify_factory E now s t (Some (priv OConcent)) = Ok m) /\
     (forall g, made_up E priv pk rk MForceGetTaskResult g ->
        (exists m, upload_factory E now g t (Some (priv OConcent)) = Ok m) /\ (exists m, download_factory E now g t (Some (priv OConcent)) = Ok m))) /\
  (forall now paid key account amount actor p, clock now -> clock paid -> a_text key -> a_text account -> 0 <= amount < 2 ^ 62 -> In actor (members EnActor) ->
     (forall k, p = Some k -> usable E k) -> exists m, committed_factory E now paid key account amount actor p = Ok m) /\
  (forall now f p, clock now -> sent E priv pk rk MForcePayment f -> (forall k, p = Some k -> usable E k) -> exists m, payment_rejected_factory E now f p = Ok m) /\
  (forall now client p, clock now -> (List.length client <= 200)%nat -> (forall k, p = Some k -> usable E k) -> exists m, authorization_factory E now client p = Ok m) /\
  (forall now key name conn name' p, clock now -> a_name name -> a_name name' -> a_text key -> a_text conn -> (forall k, p = Some k -> usable E k) ->
     (exists m, want_session_factory E now name conn name' p = Ok m) /\ (exists m, set_session_factory E now key name conn name' p = Ok m)).
Proof. exact all_total. Qed.
Print Assumptions C78_total.
(** the Concent's reply is accepted for the three parties' keys whatever the token: who
    signed it, if anyone, and what it was changed to afterwards *)
Theorem C78_accepted :
  forall E priv pk rk ck c m now, crypto_ok (cr E) -> key_pairs (cr E) priv pk rk ck -> (forall o, priv o <> []) ->
  granted E priv pk rk c m ->
  verify_owners E m (VBytes pk) (VBytes rk) (VBytes ck) = Ok tt /\ clone_message E now m None None = Ok m.
Proof. exact granted_accepted. Qed.
Print Assumptions C78_accepted.
(** and so is what arrives when it is dumped and loaded within the time window *)
Theorem C78_delivered :
  forall E E' now priv pk rk ck c ty t enc sig a key ct pub, let m := VMsg c ty (VInt t) enc sig a in
  cr E' = cr E -> crypto_ok (cr E) -> key_pairs (cr E) priv pk rk ck -> (forall o, priv o <> []) ->
  granted E priv pk rk c m -> 1262304000 < t < 32819212800 -> (ct = true -> now - 600000000 <= t * 1000000 <= now + 300000000) ->
  (forall s, slots c a = Ok s -> (vdepth s < cdepth E')%nat) ->
  (forall k, pub = Some k -> k <> [] -> verify_signature E m (VBytes k) = Ok tt) -> key_given key = false ->
  exists bs m2, serialize E m key None = (m, Ok bs) /\ deserialize E' now bs (fun b => Ok b) ct pub = Ok m2 /\
    verify_owners E' m2 (VBytes pk) (VBytes rk) (VBytes ck) = Ok tt.
Proof. exact granted_delivered. Qed.
Print Assumptions C78_delivered.

Definition ex_file : pyval := Eval vm_compute in Samples.get VNone (file_factory (u "a/b") (u "abc") 1024 None).
Definition ex_grant_token : pyval := Eval vm_compute in
  Samples.get VNone (token_factory E0 (now0 + 20) (u "id") (u "http://x") [] [ex_file] false true (Some req_key)).
Definition ex_get : pyval := Eval vm_compute in Samples.get VNone (get_result_factory E0 (now0 + 20) ex_made_report (Some (ex_priv ORequestor))).
Definition ex_download : pyval := Eval vm_compute in Samples.get VNone (download_factory E0 (now0 + 30) ex_get ex_grant_token (Some (ex_priv OConcent))).
Lemma ex_download_granted : granted E0 ex_priv ex_pk ex_rk MForceGetTaskResultDownload ex_download.
Proof.
  assert (C : forall k, 0 <= k < 100 -> clock (now0 + k)) by (intros k Hk; unfold clock; change now0 with 1600000000; lia).
  apply (gr_download E0 ex_priv ex_pk ex_rk (now0 + 30) ex_get ex_grant_token); [apply C; lia| | |vm_compute; reflexivity].
  - apply (mu_get_result E0 ex_priv ex_pk ex_rk (now0 + 20) ORequestor ex_made_report); [apply C; lia|left; reflexivity|apply C69_ex|vm_compute; reflexivity].
  - exists (now0 + 20), (u "id"), (u "http://x"), [], [ex_file], false, true, (Some req_key). split; [apply C; lia|].
    split; [split; [apply Nat.leb_le; reflexivity|reflexivity]|]. split; [split; [apply Nat.leb_le; reflexivity|reflexivity]|].
    split; [apply Nat.leb_le; reflexivity|]. split; [|vm_compute; reflexivity]. split; [apply Nat.leb_le; reflexivity|]. constructor; [|constructor].
    exists (u "a/b"), (u "abc"), 1024, None. split; [split; [apply Nat.leb_le; reflexivity|reflexivity]|]. split; [split; [apply Nat.leb_le; reflexivity|reflexivity]|].
    split; [lia|]. split; [discriminate|]. vm_compute. reflexivity.
Qed.
Example C78_ex :
  granted E0 ex_priv ex_pk ex_rk MForceGetTaskResultDownload ex_download /\ is_ok (load0 (Some (pub conc_key)) (dump0 ex_download)) = true.
Proof. split; [exact ex_download_granted|]. vm_compute. reflexivity. Qed.
(** so a reply may be accepted though its token verifies neither with the Concent's key
    nor with that of whoever signed it *)
Theorem C78_token_refuted :
  exists E priv pk rk ck m t, crypto_ok (cr E) /\ key_pairs (cr E) priv pk rk ck /\ granted E priv pk rk MForceGetTaskResultDownload m /\
    verify_owners E m (VBytes pk) (VBytes rk) (VBytes ck) = Ok tt /\ getattr "file_transfer_token" m = Ok t /\
    verify_signature E t (VBytes ck) = Err EInvalidSignature /\ verify_signature E t (VBytes rk) = Err EInvalidSignature /\ verify_signature E t (VBytes pk) = Err EInvalidSignature.
Proof.
  exists E0, ex_priv, ex_pk, ex_rk, (pub conc_key), ex_download, ex_grant_token. split; [exact toy_ok|]. split; [exact ex_pairs|]. split; [exact ex_download_granted|].
  repeat split; vm_compute; reflexivity.
Qed.
Print Assumptions C78_token_refuted.

(** ** C79 *)
(** a request for payment cannot be built signed: it is signed before it gets its list *)
Theorem C79_key :
  forall E now given generated k, k <> [] ->
  payment_factory E now given generated (Some k) = Err (EFieldError (u "subtask_results_accepted_list")).
Proof. exact payment_signed. Qed.
Print Assumptions C79_key.
(** built without a key it holds the acceptances given, or else those generated *)
Theorem C79_built :
  forall E now given generated, payment_factory E now given generated None =
  Ok (VMsg MForcePayment (VInt (type_of MForcePayment)) (VInt now) (VBool false) VNone
    [("subtask_results_accepted_list"%string, match given, generated with [], [] => VNone | [], _ => VList generated | _, _ => VList given end)]).
Proof. exact payment_built. Qed.
Print Assumptions C79_built.
(** the variant that generates holds one acceptance if none is given *)
Theorem C79_one :
  forall E now given one, payment_with_tasks E now given one None =
  Ok (VMsg MForcePayment (VInt (type_of MForcePayment)) (VInt now) (VBool false) VNone
    [("subtask_results_accepted_list"%string, VList (match given with [] => [one] | _ => given end))]).
Proof. intros E now given one. unfold payment_with_tasks. rewrite payment_built. destruct given; reflexivity. Qed.
Print Assumptions C79_one.
(** without any it can be neither signed nor dumped, and nor can a rejection of it *)
Theorem C79_empty :
  forall E now m k encf, payment_factory E now [] [] None = Ok m ->
  sign_message E m k = Err (EFieldError (u "subtask_results_accepted_list")) /\
  snd (serialize E m (Some k) encf) = Err (EFieldError (u "subtask_results_accepted_list")).
Proof. intros E now m k encf H. rewrite payment_built in H. apply Ok_inj in H. subst m. exact (payment_empty E now VNone k encf eq_refl). Qed.
Print Assumptions C79_empty.
Theorem C79_rejected_empty :
  forall E now now' f k encf, payment_factory E now [] [] None = Ok f -> k <> [] ->
  payment_rejected_factory E now' f (Some k) = Err (EFieldError (u "subtask_results_accepted_list")) /\
  exists m, payment_rejected_factory E now' f None = Ok m /\
    snd (serialize E m (Some k) encf) = Err (EFieldError (u "subtask_results_accepted_list")) /\
    snd (serialize E m None encf) = Err (EFieldError (u "subtask_results_accepted_list")).
Proof. intros E now now' f k encf H Hk. rewrite payment_built in H. apply Ok_inj in H. subst f. exact (rejected_empty E now' now VNone k encf Hk). Qed.
Print Assumptions C79_rejected_empty.
(** the two variants of a commitment go to their recipient whoever is asked for *)
Theorem C79_recipient :
  forall E now paid key account amount x p m,
  (committed_to_provider E now paid key account amount x p = Ok m -> getattr "recipient_type" m = Ok (VEnum EnActor "provider")) /\
  (committed_to_requestor E now paid key account amount x p = Ok m -> getattr "recipient_type" m = Ok (VEnum EnActor "requestor")).
Proof. exact recipients. Qed.
Print Assumptions C79_recipient.
Definition ex_payment : pyval := Eval vm_compute in Samples.get VNone (payment_with_tasks E0 (now0 + 30) [] ex_made_accepted None).
(** a request with one generated acceptance is built unsigned, signed when dumped, and arrives *)
Example C79_ex :
  payment_with_tasks E0 (now0 + 30) [] ex_made_accepted None = Ok ex_payment /\
  is_ok (payment_with_tasks E0 (now0 + 30) [] ex_made_accepted (Some prov_key)) = false /\
  is_ok (load0 (Some (pub prov_key)) (Samples.get [] (snd (serialize E0 ex_payment (Some prov_key) None)))) = true /\
  is_ok (committed_to_provider E0 now0 now0 (u "k") (u "a") 5 (Some "requestor"%string) (Some conc_key)) = true.
Proof. repeat split; vm_compute; reflexivity. Qed.

(** ** C80 *)
(** what these factories return can be dumped, with a key if it is not yet signed; then it
    verifies with the public key, and loading gives the slots back as [arrives] says *)
Theorem C80_delivered :
  forall E E' now priv pk rk ck c ty t enc sg a key ct pub, let m := VMsg c ty (VInt t) enc sg a in
  cr E' = cr E -> crypto_ok (cr E) -> key_pairs (cr E) priv pk rk ck -> (forall o, priv o <> []) -> sent E priv pk rk c m ->
  (forall s, slots c a = Ok s -> (vdepth s < cdepth E')%nat) -> 1262304000 < t < 32819212800 -> (ct = true -> now - 600000000 <= t * 1000000 <= now + 300000000) ->
  (key_given key = true -> sg = VNone /\ exists k, key = Some k /\ usable E k) ->
  exists m' bs, serialize E m key None = (m', Ok bs) /\
    (forall k, key = Some k -> k <> [] -> exists sk p, secret_of (cr E) k = Some sk /\ pub_of (cr E) sk = Some p /\ verify_signature E m' (VBytes p) = Ok tt) /\
    ((forall k, pub = Some k -> k <> [] -> verify_signature E m' (VBytes k) = Ok tt) ->
     exists a', arrives c a a' /\ deserialize E' now bs (fun b => Ok b) ct pub = Ok (VMsg c (VInt (type_of c)) (VInt t) (VBool false) (sig_of m') a')).
Proof. exact sent_delivered. Qed.
Print Assumptions C80_delivered.
(** a greeting is built, carries this side's version, and is loaded where that version is accepted *)
Theorem C80_hello :
  forall E E' now now' rand proto name p key ct pub, crypto_ok (cr E) -> cr E' = cr E -> clock now -> 0 <= rand < 2 ^ 62 -> 0 <= proto < 2 ^ 62 -> a_name name ->
  (forall k, p = Some k -> usable E k) -> (forall k, key = Some k -> k <> [] -> usable E k) -> p = None \/ key_given key = false ->
  Forall (fun x => 0 <= x < 128) (our_version E) -> (List.length (our_version E) <= 31)%nat -> verify_version (our_version E') (our_version E) = Ok tt ->
  (10 < cdepth E')%nat -> 1262304000 < now < 32819212800 -> (ct = true -> now' - 600000000 <= now * 1000000 <= now' + 300000000) ->
  exists m m' bs, hello_factory E now rand proto name p = Ok m /\ serialize E m key None = (m', Ok bs) /\
    ((forall k, pub = Some k -> k <> [] -> verify_signature E m' (VBytes k) = Ok tt) ->
     exists a', arrives MHello (hello_attrs rand proto name) a' /\
       deserialize E' now' bs (fun b => Ok b) ct pub = Ok (VMsg MHello (VInt 0) (VInt now) (VBool false) (sig_of m') (full MHello (our_version E) a'))).
Proof. exact hello_delivered. Qed.
Print Assumptions C80_hello.
(** a peer is built exactly if its address is an IP address and its port is 1 to 65534;
    a list of peers built can be sent *)
Theorem C80_peer :
  forall address port name, (exists p, peer_factory address port name = Ok p) <->
  validate_ipaddress (u "address") (VStr address) = Ok tt /\ 1 <= port <= 65534.
Proof. exact peer_iff. Qed.
Print Assumptions C80_peer.
Theorem C80_peers :
  forall l, Forall (fun p => exists address port name, peer_factory address port name = Ok p) l -> mok MPeers [("peers"%string, VList l)].
Proof. exact peers_sendable. Qed.
Print Assumptions C80_peers.
(** but the port is drawn from 1 to 65535 *)
Theorem C80_peer_refuted :
  exists address port name, validate_ipaddress (u "address") (VStr address) = Ok tt /\ 1 <= port <= 2 ^ 16 - 1 /\
    peer_factory address port name = Err (EFieldError (u "port")).
Proof. exists (u "10.0.0.1"), 65535, (u "Ada"). split; [vm_compute; reflexivity|]. split; [lia|]. vm_compute. reflexivity. Qed.
Print Assumptions C80_peer_refuted.
Definition ex_want : pyval := Eval vm_compute in Samples.get VNone (want_session_factory E0 (now0 + 30) (u "Ada") (u "c") (u "Bo") None).
Example C80_ex :
  sent E0 ex_priv ex_pk ex_rk MWantToStartTaskSession ex_want /\ usable E0 req_key /\
  is_ok (load0 (Some (pub req_key)) (Samples.get [] (snd (serialize E0 ex_want (Some req_key) None)))) = true /\
  is_ok (load0 None (dump0 (Samples.get VNone (hello_factory E0 (now0 + 30) 77 30 (u "Ada") None)))) = true /\
  is_ok (peer_factory (u "10.0.0.1") 65534 (u "Ada")) = true.
Proof.
  split; [|split; [split; [discriminate|eexists; vm_compute; reflexivity]|repeat split; vm_compute; reflexivity]].
  apply (se_want E0 ex_priv ex_pk ex_rk (now0 + 30) (u "Ada") (u "c") (u "Bo") None); try discriminate; try (vm_compute; reflexivity).
  - unfold clock. change now0 with 1600000000. lia.
  - split; reflexivity.
  - split; reflexivity.
  - split; [apply Nat.leb_le; reflexivity|reflexivity].
Qed.
