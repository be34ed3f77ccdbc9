(** * Property theorems: several threads in one process (C86, C87, C88) *)
From Verif Require Import ThreadExamples.

(** ** C86 ECIES used by several threads at once: with any number of calls on the
    shared caches, their steps interleaved in any order, encryption and decryption
    give what they give one at a time. *)

(** the atomic [encrypt] and [decrypt] of C44-C46 are the runs of one call while
    the others stand still *)
Theorem C86_alone :
  forall (C : crypto) (timeout : nat -> Z) m data key sh r st,
  alone (tstep C timeout) (OpEncrypt m data key sh r) st EAsk
    (snd (encrypt C timeout st m data key sh r)) (EDone (fst (encrypt C timeout st m data key sh r))) /\
  alone (tstep C timeout) (OpDecrypt m data key sh) st DAsk
    (snd (decrypt C st m data key sh)) (EDone (fst (decrypt C st m data key sh))).
Proof. intros. split; [apply encrypt_alone|apply decrypt_alone]. Qed.
Print Assumptions C86_alone.

(** encrypting to the public key of [k] succeeds in every interleaving, is 113
    bytes longer than the data, and is opened by [k] after any history *)
Theorem C86_sealed :
  forall (C : crypto), crypto_ok C ->
  forall (timeout created : nat -> Z) st pool,
  reached ebegin (tstep C timeout) (init_state created) (st, pool) ->
  (forall o p, In (o, p) pool -> eop_ok C o) ->
  forall m d k s pk sh r res,
  In (OpEncrypt m d pk sh r, EDone res) pool -> secret_of C k = Some s -> pub_of C s = Some pk ->
  exists ct, res = Ok ct /\ List.length ct = (113 + List.length d)%nat /\
    forall history m', Forall (eop_ok C) history ->
      fst (decrypt C (erun C timeout history (init_state created)) m' ct k sh) = Ok d.
Proof. exact sealed_history. Qed.
Print Assumptions C86_sealed.

(** a decryption ends, value or exception, as it would end after any history of
    calls made one at a time *)
Theorem C86_opened :
  forall (C : crypto), crypto_ok C ->
  forall (timeout created : nat -> Z) st pool,
  reached ebegin (tstep C timeout) (init_state created) (st, pool) ->
  (forall o p, In (o, p) pool -> eop_ok C o) ->
  forall m data k sh res, In (OpDecrypt m data k sh, EDone res) pool ->
  forall history m', Forall (eop_ok C) history ->
  res = fst (decrypt C (erun C timeout history (init_state created)) m' data k sh).
Proof. exact opened_history. Qed.
Print Assumptions C86_opened.

(** what one thread seals another opens, whatever a third does meanwhile *)
Theorem C86_round_trip :
  forall (C : crypto), crypto_ok C ->
  forall (timeout created : nat -> Z) st pool,
  reached ebegin (tstep C timeout) (init_state created) (st, pool) ->
  (forall o p, In (o, p) pool -> eop_ok C o) ->
  forall m d k s pk sh r ct m' res,
  In (OpEncrypt m d pk sh r, EDone (Ok ct)) pool -> secret_of C k = Some s -> pub_of C s = Some pk ->
  In (OpDecrypt m' ct k sh, EDone res) pool -> res = Ok d.
Proof. exact pool_round_trip. Qed.
Print Assumptions C86_round_trip.

Example C86_ex :
  (exists st, reached ebegin (tstep toy (fun _ => 100)) (init_state (fun _ => 0)) (st, ex_pool)) /\
  (forall o p, In (o, p) ex_pool -> eop_ok toy o) /\
  In (OpEncrypt 0 [x01] (pub prov_key) [] (ex_draw x03), EDone (Ok ex_ct2)) ex_pool /\
  In (OpDecrypt 1 ex_ct2 prov_key [], EDone (Ok [x01])) ex_pool /\
  secret_of toy prov_key = Some prov_key /\ pub_of toy prov_key = Some (pub prov_key).
Proof.
  split; [exact ex_pool_run|]. split; [exact ex_pool_ok|]. split; [right; left; reflexivity|].
  split; [right; right; left; reflexivity|]. split; vm_compute; reflexivity.
Qed.

(** no call ever waits for another: from wherever it stands it ends on its own,
    and it makes at most ten steps *)
Theorem C86_finishes :
  forall (C : crypto), crypto_ok C ->
  forall (timeout created : nat -> Z) st pool,
  reached ebegin (tstep C timeout) (init_state created) (st, pool) ->
  (forall o p, In (o, p) pool -> eop_ok C o) ->
  (forall o p, In (o, p) pool -> exists st' res, alone (tstep C timeout) o st p st' (EDone res)) /\
  (forall o n p, own (tstep C timeout) o n (ebegin o) p -> (n <= 10)%nat).
Proof.
  intros C HC timeout created st pool R Ho. split; [intros o p; exact (finishes C HC timeout created st pool o p R Ho)|exact (ten_steps C timeout)].
Qed.
Print Assumptions C86_finishes.

(** one thing differs: one at a time, two encryptions by one manager to one
    recipient share the ephemeral key (C46_reused_whatever_the_clock); at once
    they may draw one each *)
Theorem C86_reused_refuted :
  exists (C : crypto) (timeout created : nat -> Z) m pk d1 d2 r1 r2 st ct1 ct2,
  crypto_ok C /\ rnd_ok C r1 /\ rnd_ok C r2 /\
  reached ebegin (tstep C timeout) (init_state created)
    (st, [(OpEncrypt m d1 pk [] r1, EDone (Ok ct1)); (OpEncrypt m d2 pk [] r2, EDone (Ok ct2))]) /\
  firstn 65 ct1 <> firstn 65 ct2.
Proof. exact two_keys_ex. Qed.
Print Assumptions C86_reused_refuted.

(** ** C87 Ids generated by several threads at once: every id carries its seed and
    ids are generated without waiting, but they need not differ. *)
Theorem C87_alone :
  forall o last id last',
  generate_id last (i_now o) (i_seq o) (i_seed o) = (Ok id, last') ->
  alone istep o last IFirst last' (IDone id).
Proof. exact id_alone. Qed.
Print Assumptions C87_alone.
Theorem C87_carries_seed :
  forall last0 last pool o id seed2,
  reached (fun _ => IFirst) istep last0 (last, pool) -> In (o, IDone id) pool ->
  check_id_seed (VStr id) seed2 = Ok (be_dec (firstn 6 seed2) =? be_dec (firstn 6 (i_seed o))).
Proof. exact id_seeded. Qed.
Print Assumptions C87_carries_seed.
(** two calls can only get one id if their seeds start with the same six bytes
    and they drew the same 14-bit clock sequence *)
Theorem C87_equal_ids :
  forall last0 last pool o1 o2 id,
  reached (fun _ => IFirst) istep last0 (last, pool) -> In (o1, IDone id) pool -> In (o2, IDone id) pool ->
  be_dec (firstn 6 (i_seed o1)) = be_dec (firstn 6 (i_seed o2)) /\ i_seq o1 mod 2 ^ 14 = i_seq o2 mod 2 ^ 14.
Proof. exact id_collide. Qed.
Print Assumptions C87_equal_ids.
Theorem C87_finishes :
  forall last0 last pool, reached (fun _ => IFirst) istep last0 (last, pool) ->
  (forall o p, In (o, p) pool -> exists last' id, alone istep o last p last' (IDone id)) /\
  (forall o n p, own istep o n IFirst p -> (n <= 4)%nat).
Proof. intros last0 last pool R. split; [intros o p; exact (id_finishes last0 last pool o p R)|exact id_four]. Qed.
Print Assumptions C87_finishes.
Example C87_ex :
  reached (fun _ => IFirst) istep None ex_race /\ In (ex_id 100, IDone ex_id102) (snd ex_race) /\
  In (ex_id 102, IDone ex_id102) (snd ex_race) /\
  check_id_seed (VStr ex_id102) [x01; x02; x03; x04; x05; x06; x07] = Ok true.
Proof.
  split; [exact ex_race_run|]. split; [left; reflexivity|]. split; [right; right; left; reflexivity|]. vm_compute. reflexivity.
Qed.
(** the uniqueness of C22 is lost: three calls from the start of the process, their
    clock readings all different, and two of them get the same id *)
Theorem C87_unique_refuted :
  exists a b c last id id',
  reached (fun _ => IFirst) istep None (last, [(a, IDone id); (b, IDone id'); (c, IDone id)]) /\
  i_now a < i_now b < i_now c.
Proof. exact same_id. Qed.
Print Assumptions C87_unique_refuted.
(** nor does one thread get different ids: here a call that begins after another
    has ended, at a later time, gets the id of the earlier one *)
Theorem C87_later_refuted :
  exists a b c d last pool last' pool' id p p',
  reached (fun _ => IFirst) istep None (last, pool) /\
  pool = [(d, p); (b, p'); (a, IDone id)] /\
  runs (fun _ => IFirst) istep (last, pool) (last', pool' ++ [(c, IDone id)]) /\
  (forall q, ~ In (c, q) pool) /\ i_now d < i_now a /\ i_now a < i_now b /\ i_now b < i_now c.
Proof. exact same_id_later. Qed.
Print Assumptions C87_later_refuted.

(** ** C88 One message object dumped by several threads at once. *)
Theorem C88_alone :
  forall E c ty ts a enc sig o enc' sig' res,
  serialize E (VMsg c ty ts enc sig a) (d_key o) (d_encf o) = (VMsg c ty ts enc' sig' a, res) ->
  alone (dstep E c ty ts a) o (enc, sig) SKey (enc', sig') (SDone res).
Proof. exact dump_alone. Qed.
Print Assumptions C88_alone.
(** if the calls agree - all encrypt or none does, and all sign with the same key
    if the message has no signature yet - each ends as it would end alone, or is
    told that the message has been signed meanwhile *)
Theorem C88_agreeing :
  forall E c ty ts a enc sig st pool,
  reached (fun _ => SKey) (dstep E c ty ts a) (enc, sig) (st, pool) ->
  (forall o1 p1 o2 p2, In (o1, p1) pool -> In (o2, p2) pool ->
     (encrypts c = true -> (d_encf o1 = None <-> d_encf o2 = None)) /\ (sig = VNone -> d_key o1 = d_key o2)) ->
  forall o r, In (o, SDone r) pool ->
  r = snd (serialize E (VMsg c ty ts enc sig a) (d_key o) (d_encf o)) \/
  r = Err ESignatureAlreadyExists /\ sig = VNone /\ key_given (d_key o) = true.
Proof. exact agreeing_calls. Qed.
Print Assumptions C88_agreeing.
Example C88_agreeing_ex :
  let l := [0; 0; 0; 1; 1; 1; 0; 1; 0; 0; 1; 0; 1; 1]%nat in
  let r := SDone (snd (serialize E0 ex_remove (Some req_key) None)) in
  ex_phase (ex_dumps ex_signing ex_signing l) 0 = r /\ ex_phase (ex_dumps ex_signing ex_signing l) 1 = r /\
  ex_phase (ex_dumps ex_signing ex_signing (0 :: 0 :: 0 :: 0 :: 1 :: nil)%nat) 1 = SDone (Err ESignatureAlreadyExists).
Proof. exact agreeing_ex. Qed.
(** in any case a frame is a header with the flag of one of the calls, the
    signature the message had or one made by one of the calls, and the payload:
    encrypted by the call's own function, or in the clear, and then only if one of
    the calls does not encrypt *)
Theorem C88_frame :
  forall E c ty ts a enc sig st pool o bs,
  reached (fun _ => SKey) (dstep E c ty ts a) (enc, sig) (st, pool) -> In (o, SDone (Ok bs)) pool ->
  exists payload body h s v,
    payload_of c a = Ok payload /\ bs = h ++ s ++ body ++ v /\
    (exists o' p', In (o', p') pool /\
       pack_header (type_of c) ts (VBool (encrypts c && match d_encf o' with Some _ => true | None => false end)) = Ok h) /\
    (sig = VBytes s \/ sig = VNone /\ exists o' p', In (o', p') pool /\ new_sig E c ty ts a o' payload = Ok s) /\
    ((exists f, d_encf o = Some f /\ f payload = Ok body) \/
     (body = payload /\ exists o' p', In (o', p') pool /\ (encrypts c = false \/ d_encf o' = None))) /\
    (c <> MHello -> v = []).
Proof. exact every_frame. Qed.
Print Assumptions C88_frame.
Theorem C88_finishes :
  forall E c ty ts a,
  (forall o st p, exists st' r, alone (dstep E c ty ts a) o st p st' (SDone r)) /\
  (forall o n p, own (dstep E c ty ts a) o n SKey p -> (n <= 7)%nat).
Proof. intros E c ty ts a. split; [exact (dump_finishes E c ty ts a)|exact (dump_seven E c ty ts a)]. Qed.
Print Assumptions C88_finishes.
(** calls that disagree get in each other's way: a call given an encryption
    function can return the frame of the plain dump *)
Theorem C88_secret_refuted :
  exists E c ty ts a enc sig f o1 o2 st bs,
  d_encf o1 = Some f /\ d_encf o2 = None /\ encrypts c = true /\
  reached (fun _ => SKey) (dstep E c ty ts a) (enc, sig) (st, [(o1, SDone (Ok bs)); (o2, SDone (Ok bs))]) /\
  snd (serialize E (VMsg c ty ts enc sig a) None None) = Ok bs /\
  snd (serialize E (VMsg c ty ts enc sig a) None (Some f)) <> Ok bs.
Proof. exact leak_ex. Qed.
Print Assumptions C88_secret_refuted.
(** it can return an encrypted payload flagged as plain, which is refused by the
    receiver who can decrypt what the call alone returns *)
Theorem C88_readable_refuted :
  exists E now c ty ts a enc sig f g o1 o2 st bs r2,
  d_encf o1 = Some f /\ d_encf o2 = None /\ (forall p q, f p = Ok q -> g q = Ok p) /\
  reached (fun _ => SKey) (dstep E c ty ts a) (enc, sig) (st, [(o1, SDone (Ok bs)); (o2, r2)]) /\
  is_ok (deserialize E now bs g true None) = false /\
  exists bs', snd (serialize E (VMsg c ty ts enc sig a) None (Some f)) = Ok bs' /\
    is_ok (deserialize E now bs' g true None) = true.
Proof. exact unreadable_ex. Qed.
Print Assumptions C88_readable_refuted.
(** a call that does not encrypt can end with TypeError *)
Theorem C88_plain_refuted :
  exists E c ty ts a enc sig o1 o2 st r1,
  d_encf o1 <> None /\ d_encf o2 = None /\
  reached (fun _ => SKey) (dstep E c ty ts a) (enc, sig) (st, [(o1, r1); (o2, SDone (Err ETypeError))]) /\
  is_ok (snd (serialize E (VMsg c ty ts enc sig a) None None)) = true.
Proof. exact crash_ex. Qed.
Print Assumptions C88_plain_refuted.
(** and a call given a key can return an unsigned frame *)
Theorem C88_signed_refuted :
  exists E c ty ts a enc k pk o1 o2 st bs r2 s,
  d_key o1 = Some k /\ d_key o2 = None /\ secret_of (cr E) k = Some s /\ pub_of (cr E) s = Some pk /\
  reached (fun _ => SKey) (dstep E c ty ts a) (enc, VNone) (st, [(o1, SDone (Ok bs)); (o2, r2)]) /\
  firstn 65 (skipn 11 bs) = zeros 65 /\
  exists bs', snd (serialize E (VMsg c ty ts enc VNone a) (Some k) None) = Ok bs' /\
    is_ok (deserialize E (now0 * 1000000) bs' (fun b => Ok b) true (Some pk)) = true /\
    is_ok (deserialize E (now0 * 1000000) bs (fun b => Ok b) true (Some pk)) = false.
Proof. exact unsigned_ex. Qed.
Print Assumptions C88_signed_refuted.
