(** * Property theorems: round trips (C03, C04, C15, C16, C28, C59).

    [mok c a]: [a] are well-formed contents of a message of class [c], nested
    messages included; [mwire c a]: the plain values are in the form cbor decodes
    to (lists rather than tuples and so on), which makes "the same" an equality;
    otherwise [arrives c a a'] describes slot by slot what arrives.  [vet] are the
    checks of the class (is_valid, the ethereum signature, the task ids). *)
From Verif Require Import SampleTrips.

(** ** C03 *)
(** the receiver gets the very message that the sender holds after dumping, or the
    error of the class's own checks *)
Theorem C03_same_message :
  forall E E' now c t enc0 sig v a key m' bs ct decf pub,
  cr E' = cr E -> crypto_ok (cr E) -> (forall s, sig = VBytes s -> List.length s = 65%nat) ->
  1262304000 < t < 32819212800 -> (ct = true -> now - 600000000 <= t * 1000000 <= now + 300000000) ->
  mok c a -> mwire c a -> hello_ok E' c v ->
  (forall s, slots c a = Ok s -> wirewf s = true /\ (vdepth s < cdepth E')%nat) ->
  serialize E (VMsg c (VInt (type_of c)) (VInt t) enc0 sig (full c v a)) key None = (m', Ok bs) ->
  (forall k, pub = Some k -> k <> [] -> signs c = true -> verify_signature E m' (VBytes k) = Ok tt) ->
  m' = VMsg c (VInt (type_of c)) (VInt t) (VBool false) (sig_of m') (full c v a) /\
  deserialize E' now bs decf ct pub = match vet E' c m' with Ok _ => Ok m' | Err e => Err e end.
Proof.
  intros E E' now c t enc0 sig v a key m' bs ct decf pub H1 H2 H3 H4 H5 H6 H7 H8 H9 H10 H11. split.
  - rewrite (serialize_msg _ _ _ _ _ _ _ _ _ _ _ H10) at 1. cbn [given]. rewrite andb_false_r. reflexivity.
  - eapply trip_same; try eassumption. intros p _ f x Q. discriminate Q.
Qed.
Print Assumptions C03_same_message.
(** contents in any form: what arrives is accepted if the sender's message passes the
    checks of its class, and it is in wire form *)
Theorem C03_any_form :
  forall E E' now c t enc0 sig v a key m' bs ct decf pub,
  cr E' = cr E -> crypto_ok (cr E) -> (forall s, sig = VBytes s -> List.length s = 65%nat) ->
  1262304000 < t < 32819212800 -> (ct = true -> now - 600000000 <= t * 1000000 <= now + 300000000) ->
  mok c a -> hello_ok E' c v ->
  (forall s, slots c a = Ok s -> wirewf s = true /\ (vdepth s < cdepth E')%nat) ->
  serialize E (VMsg c (VInt (type_of c)) (VInt t) enc0 sig (full c v a)) key None = (m', Ok bs) ->
  (forall k, pub = Some k -> k <> [] -> signs c = true -> verify_signature E m' (VBytes k) = Ok tt) ->
  vet E c m' = Ok tt ->
  exists a', arrives c a a' /\ mok c a' /\ mwire c a' /\
    deserialize E' now bs decf ct pub = Ok (VMsg c (VInt (type_of c)) (VInt t) (VBool false) (sig_of m') (full c v a')).
Proof.
  intros E E' now c t enc0 sig v a key m' bs ct decf pub H1 H2 H3 H4 H5 H6 H7 H8 H9 H10 H11.
  destruct (trip_any E E' now c t enc0 sig v a key None m' bs ct decf pub H1 H2 H3 H4 H5 H6 H7 H8) as (a' & R1 & R2 & R3 & R4); try assumption.
  - intros p _ f x Q. discriminate Q.
  - exists a'. cbn [given] in R4. rewrite andb_false_r in R4. auto.
Qed.
Print Assumptions C03_any_form.
(** a verdict holding a chain of four levels, not signed yet, signed while dumped *)
Definition ex_verdict_a : attrs_t := attrs_of (got conc_key ex_verdict).
Definition ex_verdict_out : pyval * result bytes :=
  serialize E0 (VMsg MVerdictReportComputedTask (VInt 4004) (VInt (now0 + 40)) (VBool true) VNone ex_verdict_a) (Some conc_key) None.
Example C03_ex :
  mok MVerdictReportComputedTask ex_verdict_a /\ mwire MVerdictReportComputedTask ex_verdict_a /\
  (forall s, slots MVerdictReportComputedTask ex_verdict_a = Ok s -> wirewf s = true /\ (vdepth s < cdepth E0)%nat) /\
  type_of MVerdictReportComputedTask = 4004 /\
  ex_verdict_out = (fst ex_verdict_out, Ok (get [] (snd ex_verdict_out))) /\
  verify_signature E0 (fst ex_verdict_out) (VBytes (pub conc_key)) = Ok tt /\
  vet E0 MVerdictReportComputedTask (fst ex_verdict_out) = Ok tt /\
  Nat.ltb 2000 (List.length (get [] (snd ex_verdict_out))) = true.
Proof.
  destruct (sample_ok MVerdictReportComputedTask conc_key ex_verdict) as (M & W & S); [vm_compute; reflexivity|].
  split; [exact M|]. split; [exact W|]. split; [exact S|].
  split; [|split; [|split; [|split]]]; vm_compute; reflexivity.
Qed.
(** a tuple in a plain slot arrives as a list *)
Definition ex_gossip_a : attrs_t := [("gossip"%string, VList [VTuple [VInt 1; VInt 2]])].
Example C03_ex_form :
  mok MGossip ex_gossip_a /\
  (do m <- load0 None (dump0 (VMsg MGossip (VInt (type_of MGossip)) (VInt now0) (VBool false) VNone ex_gossip_a)); Ok (attrs_of m))
    = Ok [("gossip"%string, VList [VList [VInt 1; VInt 2]])].
Proof.
  split; [|vm_compute; reflexivity]. constructor; [reflexivity| |].
  - intros k w [Q|[]]. injection Q as <- <-. split; [eexists; reflexivity|vm_compute; auto].
  - intros k w d an il [Q|[]] K. injection Q as <- <-. discriminate K.
Qed.

(** a verdict about two equal TaskToCompute messages holding tuples: both arrive, as lists, and the verdict is accepted *)
Definition ex_ttc_tuple (x : pyval) : pyval := match ex_ttc with
  | VMsg c ty ts e sg a => VMsg c ty ts e sg (attr_set "resources_options" (VTuple [x; VInt 2]) a) | _ => VNone end.
Definition ex_verdict_tuple (x y : pyval) : pyval :=
  let r v := make (now0 + 10) MReportComputedTask [("task_to_compute"%string, ex_ttc_tuple v)] in
  make (now0 + 40) MVerdictReportComputedTask
    [("force_report_computed_task"%string, make (now0 + 20) MForceReportComputedTask [("report_computed_task"%string, r x)]);
     ("ack_report_computed_task"%string, make (now0 + 20) MAckReportComputedTask [("report_computed_task"%string, r y)])].
Example C03_ex_verdict :
  (do m <- load0 None (dump0 (ex_verdict_tuple (VInt 1) (VBool true)));
   do f <- getattr "force_report_computed_task" m; do r <- getattr "report_computed_task" f; do t <- getattr "task_to_compute" r; getattr "resources_options" t)
  = Ok (VList [VInt 1; VInt 2]) /\
  load0 None (dump0 (ex_verdict_tuple (VInt 1) (VInt 2))) = Err EValidationError.
Proof. split; vm_compute; reflexivity. Qed.

(** ** C49 (over the wire): two messages that are equal when sent are equal when received *)
Theorem C49_after_trip :
  forall E E' now1 now2 c t1 t2 enc1 enc2 sig1 sig2 v1 v2 a1 a2 key1 key2 encf1 encf2 m1 m2 bs1 bs2 ct1 ct2 decf1 decf2 pub1 pub2 r1 r2,
  cr E' = cr E -> crypto_ok (cr E) ->
  (forall s, sig1 = VBytes s -> List.length s = 65%nat) -> (forall s, sig2 = VBytes s -> List.length s = 65%nat) ->
  1262304000 < t1 < 32819212800 -> 1262304000 < t2 < 32819212800 -> mok c a1 -> mok c a2 -> hello_ok E' c v1 -> hello_ok E' c v2 ->
  (forall s, slots c a1 = Ok s \/ slots c a2 = Ok s -> wirewf s = true /\ (vdepth s < cdepth E')%nat) ->
  (forall p, payload_of c a1 = Ok p -> undoes encf1 decf1 c p) -> (forall p, payload_of c a2 = Ok p -> undoes encf2 decf2 c p) ->
  serialize E (VMsg c (VInt (type_of c)) (VInt t1) enc1 sig1 (full c v1 a1)) key1 encf1 = (m1, Ok bs1) ->
  serialize E (VMsg c (VInt (type_of c)) (VInt t2) enc2 sig2 (full c v2 a2)) key2 encf2 = (m2, Ok bs2) ->
  deserialize E' now1 bs1 decf1 ct1 pub1 = Ok r1 -> deserialize E' now2 bs2 decf2 ct2 pub2 = Ok r2 ->
  msg_eq m1 m2 = Ok true -> msg_eq r1 r2 = Ok true.
Proof. exact equal_after_trip. Qed.
Print Assumptions C49_after_trip.
(** the converse fails: a tuple and a list differ but arrive as the same list *)
Theorem C49_before_trip_refuted :
  exists c a1 a2 t sig m1 m2 bs1 bs2 r, mok c a1 /\ mok c a2 /\
  serialize E0 (VMsg c (VInt (type_of c)) (VInt t) (VBool false) sig a1) None None = (m1, Ok bs1) /\
  serialize E0 (VMsg c (VInt (type_of c)) (VInt t) (VBool false) sig a2) None None = (m2, Ok bs2) /\
  msg_eq m1 m2 = Ok false /\
  deserialize E0 (now0 * 1000000) bs1 (fun x => Ok x) true None = Ok r /\ deserialize E0 (now0 * 1000000) bs2 (fun x => Ok x) true None = Ok r.
Proof.
  pose (g := fun v => [("gossip"%string, VList [v])]). pose (x := VTuple [VInt 1; VInt 2]). pose (y := VList [VInt 1; VInt 2]).
  pose (m := fun v => VMsg MGossip (VInt (type_of MGossip)) (VInt now0) (VBool false) (VBytes (zeros 65)) (g v)).
  exists MGossip, (g x), (g y), now0, (VBytes (zeros 65)), (m x), (m y), (get [] (snd (serialize E0 (m x) None None))),
    (get [] (snd (serialize E0 (m y) None None))), (m y).
  split; [|split; [|split; [|split; [|split; [|split]]]]]; try (vm_compute; reflexivity); (constructor; [reflexivity| |]).
  1, 3: intros k w [Q|[]]; injection Q as <- <-; split; [eexists; reflexivity|vm_compute; auto].
  all: intros k w d an il [Q|[]]; injection Q as <- <-; discriminate.
Qed.
Print Assumptions C49_before_trip_refuted.
Example C49_ex_trip :
  let m v := VMsg MGossip (VInt (type_of MGossip)) (VInt now0) (VBool false) (VBytes (zeros 65)) [("gossip"%string, VList [VTuple [v; VInt 2]])] in
  msg_eq (m (VInt 1)) (m (VBool true)) = Ok true /\
  (do r <- load0 None (dump0 (m (VInt 1))); do r' <- load0 None (dump0 (m (VBool true))); Ok (msg_eq r r', bytes_eqb (dump0 r) (dump0 r')))
   = Ok (Ok true, false).
Proof. split; vm_compute; reflexivity. Qed.

(** ** C04 *)
Theorem C04_encrypted :
  forall E E' now c t enc0 sig v a key encf m' bs ct decf pub,
  cr E' = cr E -> crypto_ok (cr E) -> (forall s, sig = VBytes s -> List.length s = 65%nat) ->
  1262304000 < t < 32819212800 -> (ct = true -> now - 600000000 <= t * 1000000 <= now + 300000000) ->
  mok c a -> mwire c a -> hello_ok E' c v ->
  (forall s, slots c a = Ok s -> wirewf s = true /\ (vdepth s < cdepth E')%nat) ->
  (forall p x, payload_of c a = Ok p -> encf p = Ok x -> x <> [] /\ decf x = Ok p) ->
  serialize E (VMsg c (VInt (type_of c)) (VInt t) enc0 sig (full c v a)) key (Some encf) = (m', Ok bs) ->
  (forall k, pub = Some k -> k <> [] -> signs c = true -> verify_signature E m' (VBytes k) = Ok tt) ->
  m' = VMsg c (VInt (type_of c)) (VInt t) (VBool (encrypts c)) (sig_of m') (full c v a) /\
  deserialize E' now bs decf ct pub = match vet E' c m' with Ok _ => Ok m' | Err e => Err e end.
Proof.
  intros E E' now c t enc0 sig v a key encf m' bs ct decf pub H1 H2 H3 H4 H5 H6 H7 H8 H9 HU H10 H11. split.
  - rewrite (serialize_msg _ _ _ _ _ _ _ _ _ _ _ H10) at 1. cbn [given]. rewrite andb_true_r. reflexivity.
  - eapply trip_same; try eassumption. intros p Hp f x Q _ Hx. apply Some_inj in Q. subst f. eauto.
Qed.
Print Assumptions C04_encrypted.
(** the same with the library's own encryption: dump with the sender's private and the
    recipient's public key, load with the recipient's private and the sender's public
    key, whatever either side's key caches went through before *)
Theorem C04_dump_load :
  forall E E' now c t enc0 v a ks ss pks kr sr pkr m' bs ct timeout timeout' created created' ops ops' mgr mgr' r,
  cr E' = cr E -> crypto_ok (cr E) ->
  Forall (eop_ok (cr E)) ops -> Forall (eop_ok (cr E)) ops' -> rnd_ok (cr E) r ->
  secret_of (cr E) ks = Some ss -> pub_of (cr E) ss = Some pks -> ks <> [] ->
  secret_of (cr E) kr = Some sr -> pub_of (cr E) sr = Some pkr -> kr <> [] -> pkr <> [] ->
  1262304000 < t < 32819212800 -> (ct = true -> now - 600000000 <= t * 1000000 <= now + 300000000) ->
  mok c a -> mwire c a -> hello_ok E' c v ->
  (forall s, slots c a = Ok s -> wirewf s = true /\ (vdepth s < cdepth E')%nat) ->
  dump E timeout (erun (cr E) timeout ops (init_state created)) mgr r
    (VMsg c (VInt (type_of c)) (VInt t) enc0 VNone (full c v a)) (Some ks) (Some pkr) = (m', Ok bs) ->
  (exists sig, m' = VMsg c (VInt (type_of c)) (VInt t) (VBool (encrypts c)) (VBytes sig) (full c v a)) /\
  load E' now (erun (cr E) timeout' ops' (init_state created')) mgr' bs (Some kr) (Some pks) ct =
    match vet E' c m' with Ok _ => Ok m' | Err e => Err e end.
Proof. exact dump_load. Qed.
Print Assumptions C04_dump_load.
(** Hello and Disconnect ignore the encryption function: the frame is the plain one,
    with the encrypted flag (its eleventh byte) down *)
Theorem C04_in_clear :
  forall E c ty ts enc sig a key f m' bs, c = MHello \/ c = MDisconnect ->
  serialize E (VMsg c ty ts enc sig a) key (Some f) = (m', Ok bs) ->
  serialize E (VMsg c ty ts enc sig a) key None = (m', Ok bs) /\ nth_error bs 10 = Some x00.
Proof. exact clear_frame. Qed.
Print Assumptions C04_in_clear.
Definition ex_rnd4 : rnd := {| r_ephem := repeat x55 32; r_iv := repeat x66 16; r_now1 := 10; r_now2 := 11 |}.
Definition ex_dumped : pyval * result bytes :=
  dump E0 (fun _ => 100) (erun toy (fun _ => 100) [OpDecrypt 1 [x04] conc_key []] (init_state (fun _ => 0))) 0 ex_rnd4
    (VMsg MVerdictReportComputedTask (VInt 4004) (VInt now0) (VBool false) VNone ex_verdict_a) (Some conc_key) (Some (pub prov_key)).
Example C04_ex :
  rnd_ok toy ex_rnd4 /\ Forall (eop_ok toy) [OpDecrypt 1 [x04] conc_key []] /\
  secret_of toy conc_key = Some conc_key /\ pub_of toy conc_key = Some (pub conc_key) /\
  secret_of toy prov_key = Some prov_key /\ pub_of toy prov_key = Some (pub prov_key) /\
  ex_dumped = (fst ex_dumped, Ok (get [] (snd ex_dumped))) /\
  vet E0 MVerdictReportComputedTask (fst ex_dumped) = Ok tt /\
  is_ok (load E0 (now0 * 1000000) (init_state (fun _ => 0)) 2 (get [] (snd ex_dumped)) (Some prov_key) (Some (pub conc_key)) true) = true /\
  is_ok (load E0 (now0 * 1000000) (init_state (fun _ => 0)) 2 (get [] (snd ex_dumped)) None (Some (pub conc_key)) true) = false.
Proof.
  split; [repeat split|]. split; [repeat constructor|].
  split; [|split; [|split; [|split; [|split; [|split; [|split]]]]]]; vm_compute; reflexivity.
Qed.
Example C04_ex_clear :
  let r := snd (serialize E0 ex_hello (Some prov_key) (Some (fun _ => Ok [x01]))) in
  (is_ok r, bytes_eqb (get [] r) (get [] (snd (serialize E0 ex_hello (Some prov_key) None)))) = (true, true).
Proof. vm_compute. reflexivity. Qed.

(** ** C15 *)
(** the slots written are the slots read: the payload of well-formed contents decodes
    and constructs the same contents, for every header and signature *)
Theorem C15_slots :
  forall E c v a p, mok c a -> mwire c a -> payload_of c a = Ok p ->
  (forall s, slots c a = Ok s -> wirewf s = true /\ (vdepth s < cdepth E)%nat) ->
  exists s, loads (cdepth E) p = Ok s /\
    forall ty ts enc sig, msg_init E 0 c (Some (ty, ts, enc)) sig s (match c with MHello => [("_version"%string, VStr v)] | _ => [] end)
      = Ok (VMsg c ty ts enc sig (full c v a)).
Proof. exact slots_read. Qed.
Print Assumptions C15_slots.
(** contents in any form, slot by slot: enums, numbers and flags as they are, plain
    values and task definitions in wire form, and nothing is renamed or dropped *)
Theorem C15_each_slot :
  forall E c v a p, mok c a -> payload_of c a = Ok p ->
  (forall s, slots c a = Ok s -> wirewf s = true /\ (vdepth s < cdepth E)%nat) ->
  exists s a', loads (cdepth E) p = Ok s /\
    (forall ty ts enc sig, msg_init E 0 c (Some (ty, ts, enc)) sig s (match c with MHello => [("_version"%string, VStr v)] | _ => [] end)
      = Ok (VMsg c ty ts enc sig (full c v a'))) /\
    map fst a' = slot_names c /\
    forall k w w', In (k, w) a -> In (k, w') a' ->
      match slot_kind c k with
      | KPlain => w' = norm (deenum w)
      | KEnum _ | KCpu | KNum | KInt => w' = w
      | KCtd => forall kvs, w = VDict DCTD kvs -> w' = VDict DCTD (map (fun kv => (norm (fst kv), norm (snd kv))) kvs)
      | KMsg d _ _ => nested_arr arrives d w w'
      | _ => (exists x x', ser_slot c k w = Ok x /\ ser_slot c k w' = Ok x' /\ norm x = norm x')
      end.
Proof. exact each_slot_read. Qed.
Print Assumptions C15_each_slot.
(** StartSessionResponse: its only slot is written and lost *)
Theorem C15_start_session_refuted :
  exists E now m bs m2, m = VMsg MStartSessionResponse (VInt (type_of MStartSessionResponse)) (VInt now0) (VBool false) (VBytes (zeros 65))
      [("conn_id", VStr (u "id"))]%string /\
    serialize E m None None = (m, Ok bs) /\ deserialize E now bs (fun b => Ok b) true None = Ok m2 /\ acc "conn_id" m2 = Some VNone.
Proof.
  set (m := VMsg MStartSessionResponse (VInt (type_of MStartSessionResponse)) (VInt now0) (VBool false) (VBytes (zeros 65))
      [("conn_id", VStr (u "id"))]%string).
  exists E0, (now0 * 1000000), m, (dump0 m), (get VNone (load0 None (dump0 m))).
  split; [reflexivity|]. split; [vm_compute; reflexivity|]. split; vm_compute; reflexivity.
Qed.
Print Assumptions C15_start_session_refuted.
Example C15_ex :
  mok MTaskToCompute (attrs_of (got req_key ex_ttc)) /\ mwire MTaskToCompute (attrs_of (got req_key ex_ttc)) /\
  is_ok (payload_of MTaskToCompute (attrs_of (got req_key ex_ttc))) = true /\
  (forall s, slots MTaskToCompute (attrs_of (got req_key ex_ttc)) = Ok s -> wirewf s = true /\ (vdepth s < cdepth E0)%nat).
Proof.
  destruct (sample_ok MTaskToCompute req_key ex_ttc) as (M & W & S); [vm_compute; reflexivity|].
  split; [exact M|]. split; [exact W|]. split; [vm_compute; reflexivity|exact S].
Qed.

(** ** C16 *)
Theorem C16_lists :
  forall c k d an l x, slot_kind c k = KMsg d an true -> l <> [] ->
  Forall (fun m => exists ty ts enc sig b, m = VMsg d ty ts enc sig b /\ mok d b) l ->
  ser_slot c k (VList l) = Ok x ->
  exists l', deser_slot (load_attrs FUEL) c k (norm x) = Ok (VList l') /\
    Forall2 (fun m m' => exists ty ts enc sig b b', m = VMsg d ty ts enc sig b /\
      m' = VMsg d (norm ty) (norm ts) (norm enc) (norm sig) b' /\ arrives d b b') l l' /\
    ((forall ty ts enc sig b, In (VMsg d ty ts enc sig b) l -> norm ty = ty /\ norm ts = ts /\ norm enc = enc /\ norm sig = sig /\ mwire d b) -> l' = l).
Proof. exact list_rt. Qed.
Print Assumptions C16_lists.
(** the empty list is written in every list slot, and refused by every receiver *)
Theorem C16_empty_list :
  forall rec c k d an il, slot_kind c k = KMsg d an il ->
  exists x, ser_slot c k (VList []) = Ok x /\ deser_slot rec c k (norm x) = Err (EFieldError (u k)).
Proof. exact list_empty. Qed.
Print Assumptions C16_empty_list.
(** so a container of no tasks can be sent and not received *)
Theorem C16_empty_refuted :
  exists E now m m' bs, msg_init E now0 MRemoveTaskContainer None VNone (VList []) [("remove_tasks", VList [])]%string = Ok m /\
    serialize E m None None = (m', Ok bs) /\ deserialize E now bs (fun b => Ok b) true None = Err (EFieldError (u "remove_tasks")).
Proof.
  set (m := make now0 MRemoveTaskContainer [("remove_tasks", VList [])]%string).
  exists E0, (now0 * 1000000), m, (fst (serialize E0 m None None)), (dump0 m). split; [vm_compute; reflexivity|]. split; vm_compute; reflexivity.
Qed.
Print Assumptions C16_empty_refuted.
Theorem C16_list_for_single :
  forall rec c k d an w x, slot_kind c k = KMsg d an false -> ser_slot c k (VList w) = Ok x ->
  deser_slot rec c k (norm x) = Err (EFieldError (u k)).
Proof. exact list_mismatch. Qed.
Print Assumptions C16_list_for_single.
Theorem C16_single_for_list :
  forall rec c k d an c' ty ts enc sig b x, slot_kind c k = KMsg d an true -> ser_slot c k (VMsg c' ty ts enc sig b) = Ok x ->
  deser_slot rec c k (norm x) = Err (EFieldError (u k)).
Proof. exact single_mismatch. Qed.
Print Assumptions C16_single_for_list.
Example C16_ex :
  slot_kind MForcePayment "subtask_results_accepted_list" = KMsg MSubtaskResultsAccepted false true /\
  slot_kind MReportComputedTask "task_to_compute" = KMsg MTaskToCompute false false /\
  map (fun w => is_ok (ser_slot MForcePayment "subtask_results_accepted_list" w)) [VList [got req_key ex_sra; ex_sra]; VList []; ex_sra] = [true; true; true] /\
  is_ok (ser_slot MReportComputedTask "task_to_compute" (VList [ex_ttc])) = true /\
  mok MSubtaskResultsAccepted (attrs_of (got req_key ex_sra)) /\
  map (fun l => is_ok (load0 None (dump0 (make now0 MForcePayment [("subtask_results_accepted_list"%string, l)]))))
    [VList [ex_sra]; VList [ex_sra; ex_sra; ex_sra]; VList []; ex_sra] = [true; true; false; false].
Proof.
  split; [reflexivity|]. split; [reflexivity|]. split; [vm_compute; reflexivity|]. split; [vm_compute; reflexivity|].
  split; [|vm_compute; reflexivity]. destruct (sample_ok MSubtaskResultsAccepted req_key ex_sra) as (M & _); [vm_compute; reflexivity|exact M].
Qed.

(** ** C28 *)
(** [follow p m]: the message reached through the nested message slots (and list
    positions) on the path [p]; the empty path is [m] itself *)
Theorem C28_nested_signatures :
  forall E E' now c t enc0 sig v a key encf m' bs ct decf pub m2,
  cr E' = cr E -> crypto_ok (cr E) -> (forall s, sig = VBytes s -> List.length s = 65%nat) ->
  1262304000 < t < 32819212800 -> mok c a -> hello_ok E' c v ->
  (forall s, slots c a = Ok s -> wirewf s = true /\ (vdepth s < cdepth E')%nat) ->
  (forall p, payload_of c a = Ok p -> undoes encf decf c p) ->
  serialize E (VMsg c (VInt (type_of c)) (VInt t) enc0 sig (full c v a)) key encf = (m', Ok bs) ->
  deserialize E' now bs decf ct pub = Ok m2 ->
  (forall k, verify_signature E' m2 k = verify_signature E m' k) /\
  forall p n, follow p m' = Some n -> exists n', follow p m2 = Some n' /\ forall k, verify_signature E' n' k = verify_signature E n k.
Proof. exact trip_follow. Qed.
Print Assumptions C28_nested_signatures.
Definition ex_path : list (string * nat) :=
  [("ack_report_computed_task", 0); ("report_computed_task", 0); ("task_to_compute", 0)]%string%nat.
Example C28_ex :
  option_map (fun n => (verify_signature E0 n (VBytes (pub req_key)), verify_signature E0 n (VBytes (pub prov_key)))) (follow ex_path ex_verdict)
    = Some (Ok tt, Err EInvalidSignature) /\
  option_map (fun n => verify_signature E0 n (VBytes (pub prov_key)))
    (follow [("subtask_results_accepted_list", 1); ("report_computed_task", 0)]%string%nat ex_payment) = Some (Ok tt).
Proof. split; vm_compute; reflexivity. Qed.

(** ** C59 *)
(** a message received whole and sent on unchanged is received identically by everyone
    further down the line; only the transport flag is reset *)
Theorem C59_relay :
  forall E E1 E2 now bs decf ct pub c ty ts enc sig a0 m' bs' now' ct' decf' pub',
  cr E1 = cr E -> cr E2 = cr E -> crypto_ok (cr E) ->
  deserialize E now bs decf ct pub = Ok (VMsg c ty ts enc sig a0) -> complete (VMsg c ty ts enc sig a0) = true ->
  c <> MHello ->
  (forall s, slots c a0 = Ok s -> wirewf s = true /\ (vdepth s < cdepth E2)%nat) ->
  serialize E1 (VMsg c ty ts enc sig a0) None None = (m', Ok bs') ->
  (forall t, ts = VInt t -> ct' = true -> now' - 600000000 <= t * 1000000 <= now' + 300000000) ->
  (forall k, pub' = Some k -> k <> [] -> signs c = true -> verify_signature E1 m' (VBytes k) = Ok tt) ->
  deserialize E2 now' bs' decf' ct' pub' = Ok (VMsg c ty ts (VBool false) sig a0).
Proof. exact relay. Qed.
Print Assumptions C59_relay.
Example C59_ex :
  let m := got conc_key ex_verdict in
  is_ok (load0 (Some (pub conc_key)) (dump0 ex_verdict)) = true /\ complete m = true /\
  is_ok (snd (serialize E0 m None None)) = true /\ verify_signature E0 (fst (serialize E0 m None None)) (VBytes (pub conc_key)) = Ok tt.
Proof. split; [|split; [|split]]; vm_compute; reflexivity. Qed.
