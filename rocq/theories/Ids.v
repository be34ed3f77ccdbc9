(** * Identifiers: uuid parsing/printing (Python 3.6 [uuid]), idgenerator.py,
    uuid helpers of utils.py. *)
From Verif Require Export Text.

(** [uuid.UUID(hex)] on text; [None] stands for ValueError *)
Definition uuid_parse (s : ustr) : option Z :=
  let h := remove_all (u "uuid:") (remove_all (u "urn:") s) in
  let h := remove_all (u "-") (strip (fun c => (c =? 123) || (c =? 125)) h) in
  if Nat.eqb (List.length h) 32 then
    match py_int16 h with
    | Some z => if (0 <=? z) && (z <? 2 ^ 128) then Some z else None
    | None => None
    end
  else None.

(** [uuid.UUID(x)] on any value *)
Definition py_uuid (v : pyval) : result Z :=
  let go s := match uuid_parse s with Some z => Ok z | None => Err EValueError end in
  match v with
  | VStr s => go s
  | VEnum e s => if is_string_enum e then go (u s) else Err EAttributeError
  | VNone | VBytes _ => Err ETypeError
  | _ => Err EAttributeError
  end.

(** [uuid.bytes], [str(uuid)] of the uuid with integer value [z] *)
Definition uuid_bytes (z : Z) : bytes := be_enc 16 z.
Definition uuid_str (z : Z) : ustr :=
  let b := uuid_bytes z in
  hexlify (firstn 4 b) ++ u "-" ++ hexlify (firstn 2 (skipn 4 b)) ++ u "-"
  ++ hexlify (firstn 2 (skipn 6 b)) ++ u "-" ++ hexlify (firstn 2 (skipn 8 b)) ++ u "-"
  ++ hexlify (skipn 10 b).
(** [uuid.node] *)
Definition uuid_node (z : Z) : Z := z mod 2 ^ 48.

(** [uuid.uuid1(node=...)] (Python 3.6, pure path because [node] is given).
    State: module global [_last_timestamp].  Inputs: the clock reading in 100 ns
    ticks since the uuid epoch and the 14-bit random clock sequence (the float
    arithmetic producing the tick count from [time.time()] is not modelled). *)
Definition uuid1_ticks (last : option Z) (now : Z) : Z :=
  match last with
  | Some l => if now <=? l then l + 1 else now
  | None => now
  end.
Definition uuid1_int (ts cs node : Z) : Z :=
  (ts mod 2 ^ 32) * 2 ^ 96 + ((ts / 2 ^ 32) mod 2 ^ 16) * 2 ^ 80
  + (4096 + (ts / 2 ^ 48) mod 2 ^ 12) * 2 ^ 64
  + (128 + (cs / 256) mod 64) * 2 ^ 56 + (cs mod 256) * 2 ^ 48 + node.
(** a node outside 48 bits is a ValueError raised by [UUID(fields=...)]; the
    global has been updated by then *)
Definition uuid1 (last : option Z) (now cs node : Z) : result Z * option Z :=
  let ts := uuid1_ticks last now in
  (if (0 <=? node) && (node <? 2 ^ 48) then Ok (uuid1_int ts cs node) else Err EValueError, Some ts).

(** idgenerator.py 6 *)
Definition SEED_LEN : nat := 6.
(** idgenerator.py 45-46 *)
Definition seed_to_node (seed : bytes) : Z := be_dec (firstn SEED_LEN seed).
(** idgenerator.py 49-51 *)
Definition hex_seed_to_node (hex_seed : pyval) : result Z :=
  do seed <- decode_hex hex_seed; Ok (seed_to_node seed).

(** idgenerator.py 9-15 *)
Definition generate_id (last : option Z) (now cs : Z) (seed : bytes) : result ustr * option Z :=
  let '(r, last') := uuid1 last now cs (seed_to_node seed) in
  (do z <- r; Ok (uuid_str z), last').
(** idgenerator.py 18-20 *)
Definition generate_id_from_hex (last : option Z) (now cs : Z) (hex_seed : pyval) : result ustr * option Z :=
  match decode_hex hex_seed with
  | Ok seed => generate_id last now cs seed
  | Err e => (Err e, last)
  end.
(** idgenerator.py 23-29 *)
Definition generate_new_id_from_id (last : option Z) (now cs : Z) (id_ : pyval) : result ustr * option Z :=
  match py_uuid id_ with
  | Ok z =>
      let '(r, last') := uuid1 last now cs (uuid_node z) in
      (do z <- r; Ok (uuid_str z), last')
  | Err e => (Err e, last)
  end.
(** idgenerator.py 32-37: only ValueError is caught *)
Definition check_id_seed (id_ : pyval) (seed : bytes) : result bool :=
  match py_uuid id_ with
  | Ok z => Ok (seed_to_node seed =? uuid_node z)
  | Err EValueError => Ok false
  | Err e => Err e
  end.
(** idgenerator.py 40-42 *)
Definition check_id_hex_seed (id_ hex_seed : pyval) : result bool :=
  do seed <- decode_hex hex_seed; check_id_seed id_ seed.

(** utils.py 35-36; a uuid is represented by its integer value *)
Definition uuid_to_bytes32 (z : Z) : bytes := uuid_bytes z ++ zeros 16.
(** utils.py 39-40; [UUID(bytes=b)] needs exactly 16 bytes *)
Definition bytes32_to_uuid (b : bytes) : result Z :=
  let h := firstn 16 b in
  if Nat.eqb (List.length h) 16 then Ok (be_dec h) else Err EValueError.

(** ** Facts *)

Lemma lstrip_none f s : forallb (fun c => negb (f c)) s = true -> lstrip f s = s.
Proof. destruct s as [|x s]; cbn; [reflexivity|]. destruct (f x); cbn; [discriminate|reflexivity]. Qed.
Lemma strip_none f s : forallb (fun c => negb (f c)) s = true -> strip f s = s.
Proof.
  intros H. unfold strip. rewrite (lstrip_none f s H).
  rewrite lstrip_none; [apply rev_involutive|].
  rewrite forallb_forall in *. intros x Hx. apply H, in_rev, Hx.
Qed.

Lemma drop_all_absent p0 p s :
  forallb (fun c => negb (c =? p0)) s = true -> drop_all (p0 :: p) O s = s.
Proof.
  induction s as [|x s IH]; intros H; [reflexivity|].
  cbn [forallb] in H. apply andb_true_iff in H as [H1 H2].
  cbn [drop_all is_prefix]. replace (p0 =? x) with false by lia. cbn [andb].
  rewrite (IH H2). reflexivity.
Qed.

Lemma drop_dash s : drop_all (u "-") O s = filter (fun c => negb (c =? 45)) s.
Proof.
  change (u "-") with [45].
  induction s as [|x s IH]; [reflexivity|].
  cbn [drop_all is_prefix List.length Nat.sub filter].
  rewrite andb_true_r. destruct (45 =? x) eqn:E.
  - replace (x =? 45) with true by lia. cbn [negb]. exact IH.
  - replace (x =? 45) with false by lia. cbn [negb]. rewrite IH. reflexivity.
Qed.

(** lowercase hex digits *)
Definition is_lhex (c : Z) : bool := ((48 <=? c) && (c <=? 57)) || ((97 <=? c) && (c <=? 102)).
Lemma hexdig_lhex d : 0 <= d < 16 -> is_lhex (hexdig d) = true.
Proof. intros H. unfold is_lhex, hexdig. destruct (d <? 10) eqn:E; lia. Qed.
Lemma hexlify_lhex b : forallb is_lhex (hexlify b) = true.
Proof.
  induction b as [|x b IH]; [reflexivity|].
  unfold hexlify in *. cbn [flat_map app forallb]. pose proof (b2z_range x).
  rewrite !hexdig_lhex by lia. exact IH.
Qed.
Lemma lhex_hexval c : is_lhex c = true -> exists d, hexval c = Some d.
Proof.
  unfold is_lhex, hexval. intros H.
  destruct ((48 <=? c) && (c <=? 57)); [eauto|].
  destruct ((97 <=? c) && (c <=? 102)); [eauto|]. discriminate.
Qed.

Lemma hex_run_hexlify b acc st :
  b <> [] \/ st = true ->
  hex_run (hexlify b) acc st false = Some (acc * 256 ^ blen b + be_dec b, []).
Proof.
  revert acc st. induction b as [|x b IH]; intros acc st H.
  - destruct H as [H| ->]; [congruence|]. cbn [hexlify flat_map hex_run andb negb]. f_equal. f_equal. rewrite be_dec_nil. change (256 ^ blen []) with 1. lia.
  - change (hexlify (x :: b)) with (hexdig (b2z x / 16) :: hexdig (b2z x mod 16) :: hexlify b).
    pose proof (b2z_range x). cbn [hex_run]. rewrite !hexval_dig by lia.
    rewrite IH by (right; reflexivity). f_equal. f_equal.
    rewrite be_dec_cons. unfold blen. cbn [List.length].
    rewrite Nat2Z.inj_succ, Z.pow_succ_r by lia.
    replace ((acc * 16 + b2z x / 16) * 16 + b2z x mod 16) with (acc * 256 + b2z x) by lia.
    unfold blen. ring.
Qed.

Lemma py_int16_hexlify b : b <> [] -> py_int16 (hexlify b) = Some (be_dec b).
Proof.
  intros Hb. pose proof (hexlify_lhex b) as Hl. rewrite forallb_forall in Hl.
  assert (M : map plain_char (hexlify b) = hexlify b).
  { rewrite <- (map_id (hexlify b)) at 2. apply map_ext_in. intros x Hx. apply Hl in Hx. unfold is_lhex in Hx. unfold plain_char.
    replace (x <? 128) with true by lia. reflexivity. }
  unfold py_int16. rewrite M. clear M.
  rewrite lstrip_none.
  2:{ apply forallb_forall. intros x Hx. apply Hl in Hx. unfold is_lhex in Hx. unfold is_space. lia. }
  assert (E : int_sign (hexlify b) = (false, hexlify b)).
  { unfold int_sign. destruct (hexlify b) as [|a r] eqn:E; [reflexivity|].
    specialize (Hl a (or_introl eq_refl)). unfold is_lhex in Hl.
    replace (a =? 43) with false by lia. replace (a =? 45) with false by lia. reflexivity. }
  rewrite E. clear E.
  assert (E : skip_0x (hexlify b) = hexlify b).
  { unfold skip_0x. destruct (hexlify b) as [|a [|c r]] eqn:E; try reflexivity.
    specialize (Hl c (or_intror (or_introl eq_refl))). unfold is_lhex in Hl.
    replace ((c =? 120) || (c =? 88)) with false by lia. rewrite andb_false_r. reflexivity. }
  rewrite E. rewrite hex_run_hexlify by (left; exact Hb). reflexivity.
Qed.

Lemma filter_id {A} (f : A -> bool) l : forallb f l = true -> filter f l = l.
Proof.
  induction l as [|x l IH]; cbn; [reflexivity|].
  destruct (f x); cbn; [intros H; rewrite (IH H); reflexivity|discriminate].
Qed.

Lemma lhex_nodash b : filter (fun c => negb (c =? 45)) (hexlify b) = hexlify b.
Proof.
  apply filter_id. apply forallb_forall. intros x Hx.
  pose proof (hexlify_lhex b) as Hl. rewrite forallb_forall in Hl. apply Hl in Hx.
  unfold is_lhex in Hx. lia.
Qed.

Lemma split16 (b : bytes) :
  List.length b = 16%nat ->
  firstn 4 b ++ firstn 2 (skipn 4 b) ++ firstn 2 (skipn 6 b) ++ firstn 2 (skipn 8 b) ++ skipn 10 b = b.
Proof.
  intros H. do 16 (destruct b as [|? b]; [discriminate|]). destruct b; [reflexivity|discriminate].
Qed.

Lemma uuid_str_chars z c : In c (uuid_str z) -> is_lhex c = true \/ c = 45.
Proof.
  unfold uuid_str. change (u "-") with [45]. rewrite !in_app_iff. cbn [In].
  pose proof (fun b => proj1 (forallb_forall is_lhex (hexlify b)) (hexlify_lhex b)) as Hl.
  intros H. decompose [or] H; try tauto; try (subst; tauto); left; eapply Hl; eauto.
Qed.

Lemma uuid_parse_str z : 0 <= z < 2 ^ 128 -> uuid_parse (uuid_str z) = Some z.
Proof.
  intros Hz. unfold uuid_parse, remove_all.
  assert (Hc : forall c, In c (uuid_str z) -> is_lhex c = true \/ c = 45) by (intro; apply uuid_str_chars).
  change (u "urn:") with (117 :: [114; 110; 58]).
  change (u "uuid:") with (117 :: [117; 105; 100; 58]).
  rewrite (drop_all_absent 117 [114; 110; 58]).
  2:{ apply forallb_forall. intros c H. apply Hc in H. unfold is_lhex in H. lia. }
  rewrite drop_all_absent.
  2:{ apply forallb_forall. intros c H. apply Hc in H. unfold is_lhex in H. lia. }
  rewrite strip_none.
  2:{ apply forallb_forall. intros c H. apply Hc in H. unfold is_lhex in H. lia. }
  rewrite drop_dash. unfold uuid_str. change (u "-") with [45].
  rewrite !filter_app, !lhex_nodash. cbn [filter]. change (45 =? 45) with true. cbn [negb app].
  rewrite <- !hexlify_app.
  rewrite split16 by apply be_enc_length.
  rewrite hexlify_length. unfold uuid_bytes at 1. rewrite be_enc_length. cbn [Nat.mul Nat.add Nat.eqb].
  rewrite py_int16_hexlify.
  2:{ intros E. apply (f_equal (@List.length _)) in E. unfold uuid_bytes in E. rewrite be_enc_length in E. discriminate. }
  unfold uuid_bytes. rewrite be_dec_enc_small by (change (256 ^ Z.of_nat 16) with (2 ^ 128); lia).
  replace ((0 <=? z) && (z <? 2 ^ 128)) with true by lia. reflexivity.
Qed.

Lemma uuid_str_inj a b : 0 <= a < 2 ^ 128 -> 0 <= b < 2 ^ 128 -> uuid_str a = uuid_str b -> a = b.
Proof.
  intros Ha Hb H. assert (E : Some a = Some b).
  { rewrite <- (uuid_parse_str a Ha), <- (uuid_parse_str b Hb), H. reflexivity. }
  congruence.
Qed.

Lemma seed_to_node_range seed : 0 <= seed_to_node seed < 2 ^ 48.
Proof.
  unfold seed_to_node. pose proof (be_dec_range (firstn SEED_LEN seed)) as H.
  assert (Hl : (List.length (firstn SEED_LEN seed) <= 6)%nat) by (rewrite firstn_length; unfold SEED_LEN; lia).
  unfold blen in H.
  assert (256 ^ Z.of_nat (List.length (firstn SEED_LEN seed)) <= 256 ^ 6)
    by (apply Z.pow_le_mono_r; lia).
  change (256 ^ 6) with (2 ^ 48) in *. lia.
Qed.

Lemma uuid1_int_range ts cs node : 0 <= node < 2 ^ 48 -> 0 <= uuid1_int ts cs node < 2 ^ 128.
Proof.
  intros H. unfold uuid1_int.
  pose proof (Z.mod_pos_bound ts (2 ^ 32) ltac:(lia)).
  pose proof (Z.mod_pos_bound (ts / 2 ^ 32) (2 ^ 16) ltac:(lia)).
  pose proof (Z.mod_pos_bound (ts / 2 ^ 48) (2 ^ 12) ltac:(lia)).
  pose proof (Z.mod_pos_bound (cs / 256) 64 ltac:(lia)).
  pose proof (Z.mod_pos_bound cs 256 ltac:(lia)).
  generalize dependent (ts mod 2 ^ 32). generalize dependent ((ts / 2 ^ 32) mod 2 ^ 16).
  generalize dependent ((ts / 2 ^ 48) mod 2 ^ 12). generalize dependent ((cs / 256) mod 64).
  generalize dependent (cs mod 256). intros. lia.
Qed.

Lemma uuid1_int_node ts cs node : 0 <= node < 2 ^ 48 -> uuid_node (uuid1_int ts cs node) = node.
Proof.
  intros H. unfold uuid_node, uuid1_int.
  generalize (ts mod 2 ^ 32) ((ts / 2 ^ 32) mod 2 ^ 16) ((ts / 2 ^ 48) mod 2 ^ 12)
    ((cs / 256) mod 64) (cs mod 256). intros a b c d e.
  replace (a * 2 ^ 96 + b * 2 ^ 80 + (4096 + c) * 2 ^ 64 + (128 + d) * 2 ^ 56 + e * 2 ^ 48 + node)
    with (node + (a * 2 ^ 48 + b * 2 ^ 32 + (4096 + c) * 2 ^ 16 + (128 + d) * 2 ^ 8 + e) * 2 ^ 48) by ring.
  rewrite Z.mod_add by lia. apply Z.mod_small. exact H.
Qed.

Lemma uuid1_int_ts_inj t1 t2 c1 c2 n1 n2 :
  0 <= t1 < 2 ^ 60 -> 0 <= t2 < 2 ^ 60 -> 0 <= n1 < 2 ^ 48 -> 0 <= n2 < 2 ^ 48 ->
  uuid1_int t1 c1 n1 = uuid1_int t2 c2 n2 -> t1 = t2.
Proof.
  unfold uuid1_int. intros H1 H2 H3 H4 E.
  assert (D : forall t, 0 <= t < 2 ^ 60 ->
     exists a b c, t mod 2 ^ 32 = a /\ (t / 2 ^ 32) mod 2 ^ 16 = b /\ (t / 2 ^ 48) mod 2 ^ 12 = c /\
       t = a + b * 2 ^ 32 + c * 2 ^ 48 /\ 0 <= a < 2 ^ 32 /\ 0 <= b < 2 ^ 16 /\ 0 <= c < 2 ^ 12).
  { intros t Ht. exists (t mod 2 ^ 32), ((t / 2 ^ 32) mod 2 ^ 16), ((t / 2 ^ 48) mod 2 ^ 12).
    repeat split; try (apply Z.mod_pos_bound; lia).
    replace (t / 2 ^ 48) with (t / 2 ^ 32 / 2 ^ 16) by (rewrite Z.div_div by lia; reflexivity).
    rewrite (Z.mod_small (t / 2 ^ 32 / 2 ^ 16)).
    2:{ rewrite Z.div_div by lia. split; [apply Z.div_pos; lia|]. apply Z.div_lt_upper_bound; lia. }
    pose proof (Z.div_mod t (2 ^ 32) ltac:(lia)).
    pose proof (Z.div_mod (t / 2 ^ 32) (2 ^ 16) ltac:(lia)). lia. }
  destruct (D t1 H1) as (a1 & b1 & d1 & Ea1 & Eb1 & Ed1 & Et1 & ?).
  destruct (D t2 H2) as (a2 & b2 & d2 & Ea2 & Eb2 & Ed2 & Et2 & ?).
  rewrite Ea1, Eb1, Ed1, Ea2, Eb2, Ed2 in E.
  pose proof (Z.mod_pos_bound (c1 / 256) 64 ltac:(lia)).
  pose proof (Z.mod_pos_bound (c2 / 256) 64 ltac:(lia)).
  pose proof (Z.mod_pos_bound c1 256 ltac:(lia)).
  pose proof (Z.mod_pos_bound c2 256 ltac:(lia)).
  clear D Ea1 Eb1 Ed1 Ea2 Eb2 Ed2.
  generalize dependent ((c1 / 256) mod 64). generalize dependent ((c2 / 256) mod 64).
  generalize dependent (c1 mod 256). generalize dependent (c2 mod 256). intros. lia.
Qed.
