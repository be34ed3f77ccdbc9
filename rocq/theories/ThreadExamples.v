(** * Interleavings in which calls get in each other's way *)
From Verif Require Export Threads ThreadFacts EciesProofs Samples.

(** ** ECIES *)
Definition ex_draw (b : byte) : rnd := {| r_ephem := b :: zeros 31; r_iv := x11 :: zeros 15; r_now1 := 10; r_now2 := 11 |}.
Definition ex_ct1 : bytes := Eval vm_compute in
  get [] (fst (encrypt toy (fun _ => 100) (init_state (fun _ => 0)) 0 [x01] (pub prov_key) [] (ex_draw x02))).
Definition ex_v2 : bytes * bytes * bytes := Eval vm_compute in
  get ([], [], []) (fst (make_ephem_key toy (fun _ => 100)
    (snd (encrypt toy (fun _ => 100) (init_state (fun _ => 0)) 0 [x01] (pub prov_key) [] (ex_draw x02)))
    0 (pub prov_key) (ex_draw x03))).
Definition ex_ct2 : bytes := Eval vm_compute in get [] (seal toy ex_v2 [x01] [] (r_iv (ex_draw x03))).
Lemma two_keys_run : exists st,
  reached ebegin (tstep toy (fun _ => 100)) (init_state (fun _ => 0))
    (st, [(OpEncrypt 0 [x01] (pub prov_key) [] (ex_draw x02), EDone (Ok ex_ct1));
          (OpEncrypt 0 [x01] (pub prov_key) [] (ex_draw x03), EDone (Ok ex_ct2))]).
Proof.
  destruct (two_keys_done toy (fun _ => 100) (fun _ => 0) 0 (pub prov_key) [x01] [x01] (ex_draw x02) (ex_draw x03) ex_v2)
    as [st H]; [vm_compute; reflexivity|]. exists st.
  replace (Ok ex_ct1) with (fst (encrypt toy (fun _ => 100) (init_state (fun _ => 0)) 0 [x01] (pub prov_key) [] (ex_draw x02)))
    by (vm_compute; reflexivity).
  replace (Ok ex_ct2) with (seal toy ex_v2 [x01] [] (r_iv (ex_draw x03))) by (vm_compute; reflexivity).
  exact H.
Qed.
Lemma two_keys_ex :
  exists (C : crypto) (timeout created : nat -> Z) m pk d1 d2 r1 r2 st ct1 ct2,
  crypto_ok C /\ rnd_ok C r1 /\ rnd_ok C r2 /\
  reached ebegin (tstep C timeout) (init_state created)
    (st, [(OpEncrypt m d1 pk [] r1, EDone (Ok ct1)); (OpEncrypt m d2 pk [] r2, EDone (Ok ct2))]) /\
  firstn 65 ct1 <> firstn 65 ct2.
Proof.
  destruct two_keys_run as [st H].
  exists toy, (fun _ => 100), (fun _ => 0), 0%nat, (pub prov_key), [x01], [x01], (ex_draw x02), (ex_draw x03), st, ex_ct1, ex_ct2.
  split; [apply toy_ok|]. split; [repeat split|]. split; [repeat split|]. split; [exact H|]. vm_compute. discriminate.
Qed.

(** a third call opens what the second sealed *)
Definition ex_pool : list (eop * ephase) :=
  [(OpEncrypt 0 [x01] (pub prov_key) [] (ex_draw x02), EDone (Ok ex_ct1));
   (OpEncrypt 0 [x01] (pub prov_key) [] (ex_draw x03), EDone (Ok ex_ct2));
   (OpDecrypt 1 ex_ct2 prov_key [], EDone (Ok [x01]))].
Lemma ex_pool_ok o p : In (o, p) ex_pool -> eop_ok toy o.
Proof.
  intros H. unfold ex_pool in H. cbn [In] in H.
  destruct H as [H|[H|[H|[]]]]; apply (f_equal fst) in H; cbn [fst] in H; subst o; repeat split.
Qed.
Lemma ex_pool_run : exists st, reached ebegin (tstep toy (fun _ => 100)) (init_state (fun _ => 0)) (st, ex_pool).
Proof.
  destruct two_keys_run as [st H]. apply runs_begin with (o := OpDecrypt 1 ex_ct2 prov_key []) in H.
  eapply runs_alone in H; [|exact (decrypt_alone toy (fun _ => 100) 1 ex_ct2 prov_key [] st)].
  eexists. unfold ex_pool.
  match type of H with runs _ _ _ (?s, ?l ++ [(_, EDone ?r)]) =>
    assert (R : r = Ok [x01]);
    [assert (G : forall o p, In (o, p) (l ++ [(OpDecrypt 1 ex_ct2 prov_key [], EDone r)]) -> eop_ok toy o);
     [|rewrite (in_pool_opened toy toy_ok _ _ _ _ 1 ex_ct2 prov_key [] r H G);
       [vm_compute; reflexivity|apply in_or_app; right; left; reflexivity]]|rewrite R in H; exact H]
  end.
  intros o p Hi. apply in_app_or in Hi as [Hi|[Hi|[]]].
  - apply (ex_pool_ok o p). unfold ex_pool. cbn [In] in *. tauto.
  - apply (f_equal fst) in Hi. cbn [fst] in Hi. subst o. exact Logic.I.
Qed.

(** ** Ids *)
Definition ex_id (now : Z) : icall := {| i_seed := [x01; x02; x03; x04; x05; x06]; i_now := now; i_seq := 7 |}.
Definition ex_race : option Z * list (icall * iphase) := Eval vm_compute in
  match exec ibegin inext
    [Begin (ex_id 100); Begin (ex_id 101); Begin (ex_id 102); Move 1; Move 1; Move 0; Move 0; Move 0; Move 2; Move 2; Move 0; Move 2]
    (None, []) with Some x => x | None => (None, []) end.
Lemma ex_race_run : reached (fun _ => IFirst) istep None ex_race.
Proof.
  refine (exec_runs ibegin istep inext
    [Begin (ex_id 100); Begin (ex_id 101); Begin (ex_id 102); Move 1; Move 1; Move 0; Move 0; Move 0; Move 2; Move 2; Move 0; Move 2]
    (None, []) ex_race inext_step _).
  vm_compute. reflexivity.
Qed.
Definition ex_id102 : ustr := u "00000066-0000-1000-8007-010203040506".
Lemma same_id :
  exists a b c last id id',
  reached (fun _ => IFirst) istep None (last, [(a, IDone id); (b, IDone id'); (c, IDone id)]) /\
  i_now a < i_now b < i_now c.
Proof.
  exists (ex_id 100), (ex_id 101), (ex_id 102), (Some 102), ex_id102, (u "00000065-0000-1000-8007-010203040506").
  split; [exact ex_race_run|]. cbn. lia.
Qed.
Definition ex_first : list act := [Begin (ex_id 99); Move 0; Begin (ex_id 101); Move 1; Move 1; Begin (ex_id 100); Move 2; Move 2; Move 2; Move 2].
Definition ex_mid : option Z * list (icall * iphase) := Eval vm_compute in
  match exec ibegin inext ex_first (None, []) with Some x => x | None => (None, []) end.
Definition ex_then : list act := [Move 0; Begin (ex_id 102); Move 3; Move 3; Move 3].
Definition ex_end : option Z * list (icall * iphase) := Eval vm_compute in
  match exec ibegin inext ex_then ex_mid with Some x => x | None => (None, []) end.
Lemma same_id_later :
  exists a b c d last pool last' pool' id p p',
  reached (fun _ => IFirst) istep None (last, pool) /\
  pool = [(d, p); (b, p'); (a, IDone id)] /\
  runs (fun _ => IFirst) istep (last, pool) (last', pool' ++ [(c, IDone id)]) /\
  (forall q, ~ In (c, q) pool) /\ i_now d < i_now a /\ i_now a < i_now b /\ i_now b < i_now c.
Proof.
  exists (ex_id 100), (ex_id 101), (ex_id 102), (ex_id 99), (fst ex_mid), (snd ex_mid), (fst ex_end), (firstn 3 (snd ex_end)), ex_id102,
    (IWrite 99), (IDone (u "00000065-0000-1000-8007-010203040506")).
  split. { refine (exec_runs ibegin istep inext ex_first (None, []) ex_mid inext_step _). vm_compute. reflexivity. }
  split; [vm_compute; reflexivity|].
  split. { refine (exec_runs ibegin istep inext ex_then ex_mid ex_end inext_step _). vm_compute. reflexivity. }
  split; [|cbn; lia].
  intros q H. cbn in H. unfold ex_id in H. destruct H as [H|[H|[H|[]]]]; discriminate H.
Qed.

(** ** Dumps: [ex_remove], whose signature is None *)
Definition ex_ty : pyval := Eval vm_compute in match ex_remove with VMsg _ ty _ _ _ _ => ty | _ => VNone end.
Definition ex_ts : pyval := Eval vm_compute in match ex_remove with VMsg _ _ ts _ _ _ => ts | _ => VNone end.
Definition ex_enc : pyval := Eval vm_compute in match ex_remove with VMsg _ _ _ enc _ _ => enc | _ => VNone end.
Definition ex_a : attrs_t := Eval vm_compute in match ex_remove with VMsg _ _ _ _ _ a => a | _ => [] end.
Lemma ex_remove_is : ex_remove = VMsg MRemoveTask ex_ty ex_ts ex_enc VNone ex_a.
Proof. vm_compute. reflexivity. Qed.
Definition ex_f (p : bytes) : result bytes := Ok (xff :: p).
Definition ex_g (q : bytes) : result bytes := Ok (skipn 1 q).
Definition ex_secret : dump_call := {| d_key := None; d_encf := Some ex_f |}.
Definition ex_plain : dump_call := {| d_key := None; d_encf := None |}.
Definition ex_signing : dump_call := {| d_key := Some req_key; d_encf := None |}.
Definition ex_dumps (o1 o2 : dump_call) (l : list nat) : option ((pyval * pyval) * list (dump_call * dphase)) :=
  exec dbegin (dnext E0 MRemoveTask ex_ty ex_ts ex_a) (Begin o1 :: Begin o2 :: map Move l) ((ex_enc, VNone), []).
Lemma ex_dumps_run o1 o2 l x :
  ex_dumps o1 o2 l = Some x -> reached (fun _ => SKey) (dstep E0 MRemoveTask ex_ty ex_ts ex_a) (ex_enc, VNone) x.
Proof. intros H. exact (exec_runs dbegin _ _ _ _ _ (dnext_step E0 MRemoveTask ex_ty ex_ts ex_a) H). Qed.
Definition ex_st (x : option ((pyval * pyval) * list (dump_call * dphase))) : pyval * pyval :=
  match x with Some (st, _) => st | None => (VNone, VNone) end.
Definition ex_phase (x : option ((pyval * pyval) * list (dump_call * dphase))) (i : nat) : dphase :=
  match x with Some (_, l) => match skipn i l with (_, p) :: _ => p | [] => SKey end | None => SKey end.
Definition ex_bs (p : dphase) : bytes := match p with SDone (Ok bs) => bs | _ => [] end.

Definition leak_l : list nat := [0; 0; 0; 0; 1; 1; 0; 0; 0; 1; 1; 1; 1]%nat.
Lemma leak_ex :
  exists E c ty ts a enc sig f o1 o2 st bs,
  d_encf o1 = Some f /\ d_encf o2 = None /\ encrypts c = true /\
  reached (fun _ => SKey) (dstep E c ty ts a) (enc, sig) (st, [(o1, SDone (Ok bs)); (o2, SDone (Ok bs))]) /\
  snd (serialize E (VMsg c ty ts enc sig a) None None) = Ok bs /\
  snd (serialize E (VMsg c ty ts enc sig a) None (Some f)) <> Ok bs.
Proof.
  exists E0, MRemoveTask, ex_ty, ex_ts, ex_a, ex_enc, VNone, ex_f, ex_secret, ex_plain,
    (ex_st (ex_dumps ex_secret ex_plain leak_l)), (dump0 ex_remove).
  split; [reflexivity|]. split; [reflexivity|]. split; [reflexivity|]. split.
  { apply (ex_dumps_run ex_secret ex_plain leak_l). vm_compute. reflexivity. }
  split; vm_compute; [reflexivity|discriminate].
Qed.

Definition odd_l : list nat := [0; 0; 0; 0; 0; 1; 1; 0; 0]%nat.
Definition odd_bs : bytes := Eval vm_compute in ex_bs (ex_phase (ex_dumps ex_secret ex_plain odd_l) 0).
Lemma unreadable_ex :
  exists E now c ty ts a enc sig f g o1 o2 st bs r2,
  d_encf o1 = Some f /\ d_encf o2 = None /\ (forall p q, f p = Ok q -> g q = Ok p) /\
  reached (fun _ => SKey) (dstep E c ty ts a) (enc, sig) (st, [(o1, SDone (Ok bs)); (o2, r2)]) /\
  is_ok (deserialize E now bs g true None) = false /\
  exists bs', snd (serialize E (VMsg c ty ts enc sig a) None (Some f)) = Ok bs' /\
    is_ok (deserialize E now bs' g true None) = true.
Proof.
  exists E0, (now0 * 1000000), MRemoveTask, ex_ty, ex_ts, ex_a, ex_enc, VNone, ex_f, ex_g, ex_secret, ex_plain,
    (ex_st (ex_dumps ex_secret ex_plain odd_l)), odd_bs, (ex_phase (ex_dumps ex_secret ex_plain odd_l) 1).
  split; [reflexivity|]. split; [reflexivity|]. split; [intros p q [= <-]; reflexivity|]. split.
  { apply (ex_dumps_run ex_secret ex_plain odd_l). vm_compute. reflexivity. }
  split; [vm_compute; reflexivity|].
  exists (get [] (snd (serialize E0 ex_remove None (Some ex_f)))). split; vm_compute; reflexivity.
Qed.

Definition crash_l : list nat := [1; 1; 1; 1; 0; 0; 1]%nat.
Lemma crash_ex :
  exists E c ty ts a enc sig o1 o2 st r1,
  d_encf o1 <> None /\ d_encf o2 = None /\
  reached (fun _ => SKey) (dstep E c ty ts a) (enc, sig) (st, [(o1, r1); (o2, SDone (Err ETypeError))]) /\
  is_ok (snd (serialize E (VMsg c ty ts enc sig a) None None)) = true.
Proof.
  exists E0, MRemoveTask, ex_ty, ex_ts, ex_a, ex_enc, VNone, ex_secret, ex_plain,
    (ex_st (ex_dumps ex_secret ex_plain crash_l)), (ex_phase (ex_dumps ex_secret ex_plain crash_l) 0).
  split; [discriminate|]. split; [reflexivity|]. split.
  { apply (ex_dumps_run ex_secret ex_plain crash_l). vm_compute. reflexivity. }
  vm_compute. reflexivity.
Qed.

Definition unsigned_l : list nat := [0; 0; 0; 1; 1; 1; 0; 1; 0; 0; 0]%nat.
Definition unsigned_bs : bytes := Eval vm_compute in ex_bs (ex_phase (ex_dumps ex_signing ex_plain unsigned_l) 0).
Lemma unsigned_ex :
  exists E c ty ts a enc k pk o1 o2 st bs r2 s,
  d_key o1 = Some k /\ d_key o2 = None /\ secret_of (cr E) k = Some s /\ pub_of (cr E) s = Some pk /\
  reached (fun _ => SKey) (dstep E c ty ts a) (enc, VNone) (st, [(o1, SDone (Ok bs)); (o2, r2)]) /\
  firstn 65 (skipn 11 bs) = zeros 65 /\
  exists bs', snd (serialize E (VMsg c ty ts enc VNone a) (Some k) None) = Ok bs' /\
    is_ok (deserialize E (now0 * 1000000) bs' (fun b => Ok b) true (Some pk)) = true /\
    is_ok (deserialize E (now0 * 1000000) bs (fun b => Ok b) true (Some pk)) = false.
Proof.
  exists E0, MRemoveTask, ex_ty, ex_ts, ex_a, ex_enc, req_key, (pub req_key), ex_signing, ex_plain,
    (ex_st (ex_dumps ex_signing ex_plain unsigned_l)), unsigned_bs, (ex_phase (ex_dumps ex_signing ex_plain unsigned_l) 1), req_key.
  split; [reflexivity|]. split; [reflexivity|]. split; [vm_compute; reflexivity|]. split; [vm_compute; reflexivity|]. split.
  { apply (ex_dumps_run ex_signing ex_plain unsigned_l). vm_compute. reflexivity. }
  split; [vm_compute; reflexivity|].
  exists (get [] (snd (serialize E0 ex_remove (Some req_key) None))). repeat split; vm_compute; reflexivity.
Qed.

(** two signing calls at once: both end as they would alone *)
Lemma agreeing_ex :
  let l := [0; 0; 0; 1; 1; 1; 0; 1; 0; 0; 1; 0; 1; 1]%nat in
  let r := SDone (snd (serialize E0 ex_remove (Some req_key) None)) in
  ex_phase (ex_dumps ex_signing ex_signing l) 0 = r /\ ex_phase (ex_dumps ex_signing ex_signing l) 1 = r /\
  ex_phase (ex_dumps ex_signing ex_signing (0 :: 0 :: 0 :: 0 :: 1 :: nil)%nat) 1 = SDone (Err ESignatureAlreadyExists).
Proof. repeat split; vm_compute; reflexivity. Qed.
