(** * Which frames are accepted, and as which message *)
From Verif Require Import AcceptFacts CborSpec SampleLoads Samples.

(** ** C77 *)
(** [Message.deserialize] returns a message exactly if the bytes are a frame of that
    message: the registered number of its class, a time in range, the flag, 65 bytes of
    signature and a payload which, decrypted if the flag is set, starts with an item
    that is read as the attributes; for Hello followed by a compatible version; signed
    by the sender if a key is given; and meeting what its class requires beyond that *)
Theorem C77_frames :
  forall E now bs decf ct pub m, deserialize E now bs decf ct pub = Ok m <-> accepted E now decf ct pub bs m.
Proof. exact accepted_exact. Qed.
Print Assumptions C77_frames.
(** what decoded slots are read as, at every depth of nesting, is what the constructor makes of them *)
Theorem C77_slots :
  forall c s a, pure s = true -> ((exists a0, load_attrs FUEL c s = Ok a0 /\ a = post_init c a0) <-> read c s a).
Proof. exact read_is_load. Qed.
Print Assumptions C77_slots.
(** so they are read as at most one thing *)
Theorem C77_one_reading :
  forall c s a a', pure s = true -> read c s a -> read c s a' -> a = a'.
Proof. exact read_unique. Qed.
Print Assumptions C77_one_reading.
(** a frame is a frame of at most one message *)
Theorem C77_one_message :
  forall E now bs decf ct pub m m', accepted E now decf ct pub bs m -> accepted E now decf ct pub bs m' -> m = m'.
Proof. exact accepted_unique. Qed.
Print Assumptions C77_one_message.
(** what else is required of a message that was read, by class *)
Theorem C77_class_checks :
  forall E c ty t enc sig s a, read c s a -> 1262304000 < t < 32819212800 -> let m := VMsg c ty (VInt t) enc sig a in
  vet E c m = Ok tt <-> checked E m.
Proof. exact vet_exact. Qed.
Print Assumptions C77_class_checks.
(** containers and dicts inside: which values of the wire [TaskHeader], [Node] and the
    validating dicts are made from *)
Theorem C77_containers :
  forall v w, pure v = true ->
  (cnew_star CTaskHeader v = Ok w <-> header v w) /\ ((do kw <- star_star v; node_new kw) = Ok w <-> node v w) /\
  (forall d, loadable d -> (dict_new d v = Ok w <-> frozen d v w)).
Proof. intros v w P. split; [exact (header_built v w P)|]. split; [exact (node_built v w P)|]. intros d L. exact (frozen_exact d v w L P). Qed.
Print Assumptions C77_containers.

(** a RandVal by the rules: the slots as a map, something behind them, and a flag byte
    that is neither 0 nor 1 *)
Definition rv_payload : bytes := [xa1; x68; x72; x61; x6e; x64; x5f; x76; x61; x6c; x05; xff].
Example C77_ex :
  accepted E0 (now0 * 1000000) (fun b => Ok b) true None
    (be_enc 2 1 ++ be_enc 8 now0 ++ [x07] ++ repeat xaa 65 ++ rv_payload)
    (VMsg MRandVal (VInt 1) (VInt now0) (VBool true) (VBytes (repeat xaa 65)) [("rand_val"%string, VInt 5)]).
Proof.
  apply (Accepted E0 (now0 * 1000000) (fun b => Ok b) true None MRandVal now0 x07 (repeat xaa 65) rv_payload rv_payload); try discriminate.
  - split; [unfold now0; lia|]. intros _. unfold now0. lia.
  - reflexivity.
  - right. split; [discriminate|reflexivity].
  - assert (L : loads (cdepth E0) rv_payload = Ok (VDict DPlain [(skey "rand_val", VInt 5)])) by (vm_compute; reflexivity).
    apply loads_exact in L as (e & r & Q & S). exists e, r, (VDict DPlain [(skey "rand_val", VInt 5)]). split; [exact Q|]. split; [exact S|].
    apply Read; [discriminate|reflexivity|]. intros k w [H|[]]. injection H as <- <-. right. exists (VInt 5), (VInt 5).
    split; [exists [], []; split; [apply P_dict|]; split; [intros ? ? []|intros ? []]|]. split; [apply S_plain, A_value|reflexivity].
  - apply Ck_other. intros [?|[?|[?|?]]]; discriminate.
Qed.
(** one accepted frame under each of the other rules *)
Example C77_ex_each :
  map (fun km => is_ok (load0 (Some (pub (fst km))) (dump0 (snd km))))
    [(req_key, ex_ttc); (conc_key, ex_verdict); (req_key, ex_sra); (req_key, ex_srr); (req_key, ex_tasks); (req_key, ex_peers)] = repeat true 6 /\
  is_ok (load0 None (dump0 ex_hello)) = true.
Proof. split; vm_compute; reflexivity. Qed.
(** and frames that break one rule each: the length, the type, the time, the key, the
    item, the check of the class *)
Definition rv (ty ts : Z) (payload : bytes) : bytes := be_enc 2 ty ++ be_enc 8 ts ++ [x00] ++ repeat xaa 65 ++ payload.
Example C77_ex_refused :
  map (fun kb => is_ok (load0 (fst kb) (snd kb)))
    [(None, rv 1 now0 rv_payload); (None, rv 1 now0 []); (None, rv 999 now0 rv_payload); (None, rv 1 (now0 + 301) rv_payload);
     (Some (pub req_key), rv 1 now0 rv_payload); (None, rv 1 now0 (firstn 9 rv_payload)); (None, bs_sra_none)] =
  [true; false; false; false; false; false; false].
Proof. vm_compute. reflexivity. Qed.
