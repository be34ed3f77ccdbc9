(** * What is raised for a frame that is not accepted *)
From Verif Require Export CheckFacts BlameFacts.
From Verif Require Import CborSpec ErrFacts.

(** the two numbers and the flag byte that start a frame *)
Definition frame (ty ts : Z) (flag : byte) (data : bytes) : bytes := be_enc 2 ty ++ be_enc 8 ts ++ [flag] ++ data.
(** how the rest of a frame is cut into signature, payload and, for Hello, the text of the version *)
Inductive cut : mcls -> bytes -> bytes -> bytes -> bytes -> Prop :=
| Cut c sig cipher : c <> MHello -> List.length sig = 65%nat -> cipher <> [] -> cut c (sig ++ cipher) sig cipher []
| Cut_hello sig cipher n text pad :
    List.length sig = 65%nat \/ (cipher = [] /\ (33 < List.length sig < 65)%nat) ->
    List.length text = Nat.min (Z.to_nat (b2z n)) 31 -> (List.length text + List.length pad = 31)%nat ->
    cut MHello (sig ++ cipher ++ [n] ++ text ++ pad) sig cipher text.
Definition as_text (text : bytes) : ustr := map (fun x => if b2z x <? 128 then b2z x else 65533) text.
Definition as_suffix (text : bytes) : bytes := map (fun x => if b2z x <? 128 then x else x3f) text.

(** ** What goes wrong in the body, in the order in which it is noticed *)
Inductive unread (E : env) (decf : bytes -> result bytes) (pub : option bytes) (c : mcls) (ts : Z) (flag : byte) (sig cipher suffix : bytes)
  : exn -> Prop :=
| Un_cipher e : flag <> x00 -> decf cipher = Err e ->
    unread E decf pub c ts flag sig cipher suffix (if is_message_error e then e else EDecryptionError)
| Un_item payload : opened decf flag cipher payload -> (forall item extra s, payload = item ++ extra -> ~ spelt (cdepth E) item s) ->
    unread E decf pub c ts flag sig cipher suffix ESerializationError
| Un_slots payload item extra s e : opened decf flag cipher payload -> payload = item ++ extra -> spelt (cdepth E) item s -> blame c s e ->
    unread E decf pub c ts flag sig cipher suffix e
| Un_key payload a k : opened decf flag cipher payload -> carries E c payload a -> pub = Some k -> signs c = true ->
    k <> [] -> List.length k <> 64%nat -> unread E decf pub c ts flag sig cipher suffix EInvalidKeys
| Un_signed payload a k : opened decf flag cipher payload -> carries E c payload a -> pub = Some k -> signs c = true ->
    List.length k = 64%nat -> ~ signs_frame E k c ts payload sig suffix ->
    unread E decf pub c ts flag sig cipher suffix EInvalidSignature.

(** ** And in the frame *)
Inductive refused (E : env) (now : Z) (decf : bytes -> result bytes) (ct : bool) (pub : option bytes) : bytes -> exn -> Prop :=
| Rf_short bs : (List.length bs <= 76)%nat -> refused E now decf ct pub bs EMessageError
| Rf_clock ty ts flag data : 0 <= ty < 2 ^ 16 -> 0 <= ts < 2 ^ 64 -> (65 < List.length data)%nat -> ~ 1262304000 < ts < 32819212800 ->
    refused E now decf ct pub (frame ty ts flag data) EHeaderError
| Rf_type ty ts flag data : 0 <= ty < 2 ^ 16 -> 1262304000 < ts < 32819212800 -> (65 < List.length data)%nat -> (forall c, ty <> type_of c) ->
    refused E now decf ct pub (frame ty ts flag data) EHeaderError
| Rf_old c ts flag data : 1262304000 < ts < 32819212800 -> (65 < List.length data)%nat -> ct = true -> ts * 1000000 < now - 600000000 ->
    refused E now decf ct pub (frame (type_of c) ts flag data) EMessageTooOldError
| Rf_future c ts flag data : 1262304000 < ts < 32819212800 -> (65 < List.length data)%nat -> ct = true -> now + 300000000 < ts * 1000000 ->
    refused E now decf ct pub (frame (type_of c) ts flag data) EMessageFromFutureError
| Rf_version ts flag data sig cipher text : timely now ts ct -> cut MHello data sig cipher text ->
    ~ compatible (our_version E) (as_text text) ->
    refused E now decf ct pub (frame (type_of MHello) ts flag data) EVersionMismatchError
| Rf_body c ts flag data sig cipher text e : timely now ts ct -> cut c data sig cipher text ->
    (c = MHello -> compatible (our_version E) (as_text text)) ->
    unread E decf pub c ts flag sig cipher (as_suffix text) e ->
    refused E now decf ct pub (frame (type_of c) ts flag data) e
| Rf_class c ts flag data sig cipher payload a e : let m := VMsg c (VInt (type_of c)) (VInt ts) (VBool (negb (byte_eqb flag x00))) (VBytes sig) a in
    c <> MHello -> timely now ts ct -> cut c data sig cipher [] -> opened decf flag cipher payload -> carries E c payload a ->
    from_sender E pub c ts payload sig [] -> unchecked E m e ->
    refused E now decf ct pub (frame (type_of c) ts flag data) e.

(** ** Proofs *)
Lemma base_steps E c ts flag data decf pub text : 
  base_load E c (type_of c) ts (negb (byte_eqb flag x00)) data decf pub (told c text) =
  do payload <- decrypted decf (negb (byte_eqb flag x00)) (skipn 65 data);
  do s <- loads (cdepth E) payload;
  do a <- load_attrs FUEL c s;
  let m := VMsg c (VInt (type_of c)) (VInt ts) (VBool (negb (byte_eqb flag x00))) (VBytes (firstn 65 data)) (full c (ascii_decode text) (post_init c a)) in
  do _ <- check_sender E m payload pub; Ok m.
Proof.
  unfold base_load, msg_init. cbv zeta. unfold SIG_LEN. destruct (decrypted _ _ _) as [p|]; cbn [bind]; [|reflexivity].
  destruct (loads _ _) as [s|]; cbn [bind]; [|reflexivity]. destruct (load_attrs FUEL c s) as [a0|] eqn:A; cbn [bind]; [|reflexivity].
  pose proof (load_attrs_keys _ _ _ _ A) as Hf.
  destruct c; cbn [told apply_kwargs set_version full bind]; try reflexivity.
  pose proof (version_not_slot MHello) as N. rewrite <- Hf in N.
  assert (N' : attr_get_or_none "_version" a0 = VNone) by (unfold attr_get_or_none; rewrite (proj2 (attr_get_none _ _) N); reflexivity).
  rewrite (unset_slot _ MHello) by reflexivity. rewrite N'. cbn [bind is_none]. change (kw_ok MHello "_version") with true. cbv iota. cbn [bind].
  rewrite attr_set_last by exact N. cbn [post_init set_version]. rewrite attr_get_last by exact N. reflexivity.
Qed.
Lemma sender_err E c ts enc sig a payload pub suffix : 0 <= ts < 2 ^ 64 ->
  (c = MHello -> version_bytes a = Ok suffix) -> (c <> MHello -> suffix = []) ->
  let r := check_sender E (VMsg c (VInt (type_of c)) (VInt ts) enc (VBytes sig) a) payload pub in
  (r = Ok tt /\ from_sender E pub c ts payload sig suffix) \/
  exists k, pub = Some k /\ k <> [] /\ signs c = true /\
    ((List.length k <> 64%nat /\ r = Err EInvalidKeys) \/ (List.length k = 64%nat /\ ~ signs_frame E k c ts payload sig suffix /\ r = Err EInvalidSignature)).
Proof.
  intros Ht H1 H2 r. pose proof (sender_checked E c ts enc sig a payload pub suffix Ht H1 H2) as S. fold r in S.
  destruct r as [[]|e] eqn:R; [left; split; [reflexivity|apply S; reflexivity]|]. right. unfold r in R. cbn [check_sender] in R.
  destruct (key_given pub && signs c) eqn:K; [|discriminate R]. apply andb_true_iff in K as [K1 K2].
  destruct pub as [[|k0 k]|]; try discriminate K1. exists (k0 :: k). split; [reflexivity|]. split; [discriminate|]. split; [exact K2|].
  assert (Hh : exists h, dumps (VList [VInt (type_of c); VInt ts]) = Ok h).
  { apply dumps_ints; [|exact Ht]. pose proof (type_of_range c). change (2 ^ 64) with 18446744073709551616. change (2 ^ 16) with 65536 in H. lia. }
  destruct Hh as [h Hh].
  assert (P : exists p, hash_payload E c (VInt (type_of c)) (VInt ts) a payload = Ok p).
  { unfold hash_payload. rewrite Hh. cbn [bind]. cbv zeta. destruct c; try (eexists; reflexivity). rewrite (H1 eq_refl). eexists. reflexivity. }
  destruct P as [p P]. rewrite P in R. cbn [bind] in R.
  destruct (Nat.eq_dec (List.length (k0 :: k)) 64) as [L|L].
  - right. split; [exact L|]. split.
    + intros G. assert (Q : Err e = Ok tt) by (apply S; intros k' Q _ _; assert (k' = k0 :: k) by congruence; subst; exact G). discriminate Q.
    + unfold ecdsa_verify, blen in R. rewrite L in R. change (Z.of_nat 64 =? 64) with true in R. cbv iota in R.
      destruct (recover _ _ _) as [q|]; [|congruence]. destruct (bytes_eqb _ _); [discriminate R|congruence].
  - left. split; [exact L|]. unfold ecdsa_verify, blen in R. destruct (Z.eqb_spec (Z.of_nat (List.length (k0 :: k))) 64) as [Q|Q]; [lia|congruence].
Qed.
Lemma told_suffix c text ts a : map fst a = slot_names c -> (c <> MHello -> text = []) -> 0 <= ts < 2 ^ 64 ->
  (c = MHello -> version_bytes (full c (ascii_decode text) a) = Ok (as_suffix text)) /\ (c <> MHello -> as_suffix text = []).
Proof.
  intros Hf Ht _. split.
  - intros ->. cbn [full]. unfold version_bytes. pose proof (version_not_slot MHello) as N. rewrite <- Hf in N.
    rewrite attr_get_last by exact N. cbn [str_of]. rewrite ascii_replace_decode. reflexivity.
  - intros N. rewrite (Ht N). reflexivity.
Qed.
Lemma loads_item E payload : (exists s, loads (cdepth E) payload = Ok s) \/
  (loads (cdepth E) payload = Err ESerializationError /\ forall item extra s, payload = item ++ extra -> ~ spelt (cdepth E) item s).
Proof.
  destruct (loads (cdepth E) payload) as [s|e] eqn:L; [left; eauto|]. right. split.
  - unfold loads in L. destruct (dec _ _) as [[? ?]|]; [discriminate|]. symmetry. exact L.
  - intros item extra s Q S. assert (G : loads (cdepth E) payload = Ok s) by (apply loads_exact; eauto). congruence.
Qed.
Lemma item_unique E payload item extra s s' : payload = item ++ extra -> spelt (cdepth E) item s -> loads (cdepth E) payload = Ok s' -> s' = s.
Proof. intros Q S L. assert (G : loads (cdepth E) payload = Ok s) by (apply loads_exact; eauto). congruence. Qed.

Lemma body_refused E c ts flag data decf pub text e : 0 <= ts < 2 ^ 64 -> (c <> MHello -> text = []) ->
  base_load E c (type_of c) ts (negb (byte_eqb flag x00)) data decf pub (told c text) = Err e ->
  unread E decf pub c ts flag (firstn 65 data) (skipn 65 data) (as_suffix text) e.
Proof.
  intros Ht Hx. rewrite base_steps. destruct (decrypted _ _ _) as [p|e0] eqn:D; cbn [bind].
  2:{ intros H. assert (e0 = e) by congruence. subst e0. clear H. unfold decrypted in D. destruct (byte_eqb flag x00) eqn:B; [discriminate D|].
      cbn [negb] in D. assert (N : flag <> x00) by (intros ->; discriminate B). destruct (decf (skipn 65 data)) as [p|e1] eqn:F; [discriminate D|].
      replace e with (if is_message_error e1 then e1 else EDecryptionError) by (destruct (is_message_error e1); congruence).
      exact (Un_cipher E decf pub c ts flag _ _ _ e1 N F). }
  apply decrypted_exact in D. destruct (loads_item E p) as [[s L]|[L N]]; rewrite L; cbn [bind].
  2:{ intros H. replace e with ESerializationError by congruence. exact (Un_item E decf pub c ts flag _ _ _ p D N). }
  pose proof (loads_pure _ _ _ L) as Pu. pose proof L as L'. apply loads_exact in L' as (item & extra & Q & S).
  destruct (load_attrs FUEL c s) as [a0|e0] eqn:A; cbn [bind].
  2:{ intros H. assert (e0 = e) by congruence. subst e0.
      exact (Un_slots E decf pub c ts flag _ _ _ p item extra s e D Q S (proj1 (blame_exact c s e Pu) A)). }
  cbv zeta. assert (R : read c s (post_init c a0)) by (apply read_is_load; eauto).
  destruct (told_suffix c text ts (post_init c a0) (read_keys _ _ _ R) Hx Ht) as [T1 T2].
  assert (C : carries E c p (post_init c a0)) by (exists item, extra, s; auto).
  destruct (sender_err E c ts (VBool (negb (byte_eqb flag x00))) (firstn 65 data) _ p pub (as_suffix text) Ht T1 T2) as [[-> _]|(k & K1 & K2 & K3 & [[K4 ->]|(K4 & K5 & ->)])];
    cbn [bind]; [discriminate| |]; intros H.
  - replace e with EInvalidKeys by congruence. exact (Un_key E decf pub c ts flag _ _ _ p _ k D C K1 K3 K2 K4).
  - replace e with EInvalidSignature by congruence. exact (Un_signed E decf pub c ts flag _ _ _ p _ k D C K1 K3 K4 K5).
Qed.
Lemma refused_body E c ts flag data decf pub text e : 0 <= ts < 2 ^ 64 -> (c <> MHello -> text = []) ->
  unread E decf pub c ts flag (firstn 65 data) (skipn 65 data) (as_suffix text) e ->
  base_load E c (type_of c) ts (negb (byte_eqb flag x00)) data decf pub (told c text) = Err e.
Proof.
  intros Ht Hx U. rewrite base_steps. inversion U as [e0 N F|p D N|p item extra s e' D Q S B|p a k D C K1 K3 K2 K4|p a k D C K1 K3 K4 K5]; subst.
  - unfold decrypted. destruct (byte_eqb flag x00) eqn:B; [apply byte_eqb_eq in B; congruence|]. cbn [negb].
    rewrite F. destruct (is_message_error e0); reflexivity.
  - apply decrypted_exact in D. rewrite D. cbn [bind]. destruct (loads_item E p) as [[s L]|[L _]]; [|rewrite L; reflexivity].
    apply loads_exact in L as (item & extra & Q & S). exfalso. exact (N item extra s Q S).
  - apply decrypted_exact in D. rewrite D. cbn [bind]. assert (L : loads (cdepth E) (item ++ extra) = Ok s) by (apply loads_exact; eauto).
    rewrite L. cbn [bind]. pose proof (proj2 (blame_exact c s e (loads_pure _ _ _ L)) B) as A. rewrite A. reflexivity.
  - apply decrypted_exact in D. rewrite D. cbn [bind]. destruct C as (item & extra & s & -> & S & R).
    assert (L : loads (cdepth E) (item ++ extra) = Ok s) by (apply loads_exact; eauto). rewrite L. cbn [bind].
    apply read_is_load in R as (a0 & A & ->); [|exact (loads_pure _ _ _ L)]. rewrite A. cbn [bind]. cbv zeta.
    assert (R : read c s (post_init c a0)) by (apply read_is_load; [exact (loads_pure _ _ _ L)|eauto]).
    destruct (told_suffix c text ts (post_init c a0) (read_keys _ _ _ R) Hx Ht) as [T1 T2].
    destruct (sender_err E c ts (VBool (negb (byte_eqb flag x00))) (firstn 65 data) _ (item ++ extra) (Some k) (as_suffix text) Ht T1 T2)
      as [[_ F]|(k' & Q & _ & _ & [[_ ->]|(K4' & _)])].
    + exfalso. destruct (F k eq_refl K2 K3) as [F1 _]. congruence.
    + reflexivity.
    + exfalso. congruence.
  - apply decrypted_exact in D. rewrite D. cbn [bind]. destruct C as (item & extra & s & -> & S & R).
    assert (L : loads (cdepth E) (item ++ extra) = Ok s) by (apply loads_exact; eauto). rewrite L. cbn [bind].
    apply read_is_load in R as (a0 & A & ->); [|exact (loads_pure _ _ _ L)]. rewrite A. cbn [bind]. cbv zeta.
    assert (R : read c s (post_init c a0)) by (apply read_is_load; [exact (loads_pure _ _ _ L)|eauto]).
    destruct (told_suffix c text ts (post_init c a0) (read_keys _ _ _ R) Hx Ht) as [T1 T2].
    destruct (sender_err E c ts (VBool (negb (byte_eqb flag x00))) (firstn 65 data) _ (item ++ extra) (Some k) (as_suffix text) Ht T1 T2)
      as [[_ F]|(k' & Q & _ & _ & [[K4' _]|(_ & _ & ->)])].
    + exfalso. apply K5. apply F; [reflexivity| |exact K3]. intros ->. discriminate K4.
    + exfalso. apply K4'. congruence.
    + reflexivity.
Qed.

(** *** how the bytes behind the header are cut *)
Lemma cut_plain c data : c <> MHello -> (65 < List.length data)%nat -> cut c data (firstn 65 data) (skipn 65 data) [].
Proof.
  intros N L. rewrite <- (firstn_skipn 65 data) at 1. apply Cut; [exact N|rewrite firstn_length; lia|].
  intros Q. apply (f_equal (@List.length byte)) in Q. rewrite skipn_length in Q. cbn [List.length] in Q. lia.
Qed.
Lemma cut_hello data : (65 < List.length data)%nat -> let bd := firstn (List.length data - 32) data in
  exists text, unpack32p (slice_last 32 data) = Ok text /\ cut MHello data (firstn 65 bd) (skipn 65 bd) text.
Proof.
  intros Ld bd.
  assert (Ed : data = bd ++ slice_last 32 data) by (unfold bd, slice_last; symmetry; apply firstn_skipn).
  assert (L32 : List.length (slice_last 32 data) = 32%nat) by (unfold slice_last; rewrite skipn_length; lia).
  unfold unpack32p. rewrite L32. change (negb (Nat.eqb 32 32)) with false. cbv iota.
  destruct (slice_last 32 data) as [|n r]; [discriminate L32|]. eexists. split; [reflexivity|].
  assert (Lr : List.length r = 31%nat) by (cbn [List.length] in L32; lia).
  assert (Lb : (33 < List.length bd)%nat) by (rewrite Ed, app_length, L32 in Ld; lia).
  rewrite Ed. clearbody bd.
  replace (bd ++ n :: r) with (firstn 65 bd ++ skipn 65 bd ++ [n] ++ firstn (Nat.min (Z.to_nat (b2z n)) 31) r ++ skipn (Nat.min (Z.to_nat (b2z n)) 31) r).
  2:{ rewrite (firstn_skipn (Nat.min (Z.to_nat (b2z n)) 31) r), app_assoc, firstn_skipn. reflexivity. }
  apply Cut_hello.
  - destruct (Nat.le_gt_cases 65 (List.length bd)) as [G|G].
    + left. rewrite firstn_length. lia.
    + right. split; [apply skipn_all2; lia|]. rewrite firstn_length. lia.
  - rewrite firstn_length. lia.
  - rewrite <- app_length, firstn_skipn. exact Lr.
Qed.
Lemma cut_inv c data sig cipher text : cut c data sig cipher text -> (65 < List.length data)%nat /\ (c <> MHello -> text = []) /\
  (c <> MHello -> firstn 65 data = sig /\ skipn 65 data = cipher) /\
  (c = MHello -> let bd := firstn (List.length data - 32) data in unpack32p (slice_last 32 data) = Ok text /\ firstn 65 bd = sig /\ skipn 65 bd = cipher).
Proof.
  intros C. inversion C as [c0 s0 c1 N L1 L2|s0 c1 n t pad Ls Lt Lp]; subst.
  - split; [rewrite app_length; destruct cipher; [congruence|cbn [List.length]; lia]|]. split; [reflexivity|]. split; [|congruence].
    intros _. rewrite firstn_app_exact, skipn_app_exact by exact L1. auto.
  - assert (Lb : (33 < List.length (sig ++ cipher))%nat) by (rewrite app_length; destruct Ls as [Ls|[-> Ls]]; cbn [List.length]; lia).
    assert (Lv : List.length ([n] ++ text ++ pad) = 32%nat) by (rewrite !app_length; cbn [List.length]; lia).
    split; [rewrite (app_assoc sig), app_length, Lv; lia|]. split; [congruence|]. split; [congruence|]. intros _. cbv zeta.
    rewrite (app_assoc sig cipher). rewrite <- Lv at 1. rewrite slice_last_app. split.
    { unfold unpack32p. rewrite Lv. change (negb (Nat.eqb 32 32)) with false. cbv iota. cbn [app]. f_equal. apply firstn_app_exact. exact Lt. }
    replace (firstn (List.length ((sig ++ cipher) ++ [n] ++ text ++ pad) - 32) ((sig ++ cipher) ++ [n] ++ text ++ pad)) with (sig ++ cipher)
      by (rewrite app_length, Lv, Nat.add_sub, firstn_app_exact by reflexivity; reflexivity).
    destruct Ls as [Ls|[-> Ls]]; [rewrite firstn_app_exact, skipn_app_exact by exact Ls; auto|].
    rewrite app_nil_r. split; [apply firstn_all2; lia|apply skipn_all2; lia].
Qed.
Lemma version_err ours theirs : (exists o, spells_version ours o) ->
  (verify_version ours theirs = Ok tt /\ compatible ours theirs) \/ (verify_version ours theirs = Err EVersionMismatchError /\ ~ compatible ours theirs).
Proof.
  intros [o Ho]. pose proof (compatible_exact ours theirs) as C. destruct (verify_version ours theirs) as [[]|e] eqn:V; [left; split; [reflexivity|apply C; reflexivity]|].
  right. split; [|intros G; apply C in G; discriminate G]. f_equal. unfold verify_version in V.
  destruct (ver_parse theirs) as [t|]; [|congruence].
  assert (P : ver_parse ours = Some o) by (apply ver_parse_iff; exact Ho). rewrite P in V. destruct (in_range _ _ _); congruence.
Qed.

(** *** the steps of [deserialize] on a frame *)
Lemma long_frame ty ts flag data : (65 < List.length data)%nat -> (76 < List.length (frame ty ts flag data))%nat.
Proof. intros L. unfold frame. rewrite !app_length, !be_enc_length. cbn [List.length]. lia. Qed.
Lemma frame_steps E now ty ts flag data decf ct pub : (65 < List.length data)%nat -> 0 <= ty < 2 ^ 16 -> 0 <= ts < 2 ^ 64 ->
  deserialize E now (frame ty ts flag data) decf ct pub =
    if negb ((1262304000 <? ts) && (ts <? 32819212800)) then Err EHeaderError
    else if negb (contains library ty) then Err EHeaderError
    else do _ <- (if ct then verify_time now ts else Ok tt);
      do c <- getitem library ty; class_load E c ty ts (negb (byte_eqb flag x00)) data decf pub.
Proof.
  intros L T1 T2. pose proof (long_frame ty ts flag data L) as L'. unfold deserialize.
  destruct (Nat.leb_spec (List.length (frame ty ts flag data)) (HDR_LEN + SIG_LEN)) as [G|_]; [exfalso; revert G L'; unfold HDR_LEN, SIG_LEN; lia|].
  destruct (header_first ty ts flag data) as [F1 F2]. unfold HDR_LEN, frame. rewrite F1, F2. unfold deserialize_header.
  rewrite unpack_layout by assumption. cbn [bind]. unfold MIN_TIMESTAMP, MAX_TIMESTAMP.
  destruct (negb ((1262304000 <? ts) && (ts <? 32819212800))); [reflexivity|]. destruct (negb (contains library ty)); reflexivity.
Qed.
Lemma is_frame (bs : bytes) : (76 < List.length bs)%nat ->
  exists ty ts flag data, bs = frame ty ts flag data /\ (65 < List.length data)%nat /\ 0 <= ty < 2 ^ 16 /\ 0 <= ts < 2 ^ 64.
Proof.
  intros L. set (h := firstn 2 bs). set (t := firstn 8 (skipn 2 bs)). set (r := skipn 8 (skipn 2 bs)).
  assert (Lh : List.length h = 2%nat) by (unfold h; rewrite firstn_length; lia).
  assert (Lt : List.length t = 8%nat) by (unfold t; rewrite firstn_length, skipn_length; lia).
  assert (Lr : (66 < List.length r)%nat) by (unfold r; rewrite !skipn_length; lia).
  assert (Q : bs = h ++ t ++ r) by (unfold h, t, r; rewrite !firstn_skipn; reflexivity).
  destruct r as [|flag data]; [cbn [List.length] in Lr; lia|].
  exists (be_dec h), (be_dec t), flag, data. split; [unfold frame; rewrite !be_enc_dec by assumption; exact Q|].
  split; [cbn [List.length] in Lr; lia|]. pose proof (be_dec_range h) as R1. pose proof (be_dec_range t) as R2.
  unfold blen in R1, R2. rewrite Lh in R1. rewrite Lt in R2. split; [exact R1|exact R2].
Qed.

Lemma T64 ts : 1262304000 < ts < 32819212800 -> 0 <= ts < 2 ^ 64.
Proof. change (2 ^ 64) with 18446744073709551616. lia. Qed.
Theorem raises E now bs decf ct pub e : (exists o, spells_version (our_version E) o) ->
  refused E now decf ct pub bs e -> deserialize E now bs decf ct pub = Err e.
Proof.
  intros Ho R.
  assert (TY : forall c, 0 <= type_of c < 2 ^ 16) by (intros c; apply type_of_range).
  assert (CT : forall c, contains library (type_of c) = true) by (intros c; apply contains_iff; eauto).
  assert (W : forall ts, 1262304000 < ts < 32819212800 -> negb ((1262304000 <? ts) && (ts <? 32819212800)) = false) by (intros ts T; lia).
  assert (VT : forall ts, timely now ts ct -> (if ct then verify_time now ts else Ok tt) = Ok tt).
  { intros ts [T1 T2]. destruct ct; [|reflexivity]. apply verify_time_iff. specialize (T2 eq_refl). lia. }
  inversion R as [bs0 L|ty ts flag data T1 T2 L N|ty ts flag data T1 T2 L N|c ts flag data T L Hc O|c ts flag data T L Hc O|ts flag data sig cipher text T C N|c ts flag data sig cipher text e0 T C Hv U|c ts flag data sig cipher payload a e0 m N T C O K S U]; subst.
  - unfold deserialize.
    destruct (Nat.leb_spec (List.length bs) (HDR_LEN + SIG_LEN)) as [_|G]; [reflexivity|exfalso; revert G L; unfold HDR_LEN, SIG_LEN; lia].
  - rewrite frame_steps by assumption.
    replace (negb ((1262304000 <? ts) && (ts <? 32819212800))) with true by lia. reflexivity.
  - rewrite frame_steps by (assumption || apply T64, T2). rewrite W by exact T2.
    destruct (contains library ty) eqn:Q; [|reflexivity]. apply contains_iff in Q as [c Q]. exfalso. exact (N c Q).
  - rewrite frame_steps by (assumption || apply T64, T || apply TY). rewrite W, CT by exact T. cbn [negb].
    destruct (verify_time now ts) as [[]|e] eqn:V; [apply verify_time_iff in V; lia|]. cbn [bind].
    apply verify_time_err in V as [[_ V]|[[-> _]|[_ V]]]; [exfalso; lia|reflexivity|exfalso; lia].
  - rewrite frame_steps by (assumption || apply T64, T || apply TY). rewrite W, CT by exact T. cbn [negb].
    destruct (verify_time now ts) as [[]|e] eqn:V; [apply verify_time_iff in V; lia|]. cbn [bind].
    apply verify_time_err in V as [[_ V]|[[_ V]|[-> _]]]; [exfalso; lia|exfalso; lia|reflexivity].
  - pose proof (proj1 T) as T1. destruct (cut_inv _ _ _ _ _ C) as (L & _ & _ & I).
    destruct (I eq_refl) as (U & _ & _). rewrite frame_steps by (assumption || apply T64, T1 || apply TY). rewrite W, CT by exact T1. cbn [negb].
    rewrite VT by exact T. cbn [bind]. rewrite registry_roundtrip. cbn [bind class_load]. unfold VERSION_LENGTH. cbv zeta. rewrite U.
    destruct (version_err (our_version E) (ascii_decode text) Ho) as [[_ G]|[-> _]]; [exfalso; exact (N G)|reflexivity].
  - pose proof (proj1 T) as T1. destruct (cut_inv _ _ _ _ _ C) as (L & Hx & I1 & I2).
    rewrite frame_steps by (assumption || apply T64, T1 || apply TY). rewrite W, CT by exact T1. cbn [negb].
    rewrite VT by exact T. cbn [bind]. rewrite registry_roundtrip. cbn [bind].
    destruct (mcls_eqb c MHello) eqn:Q.
    + apply mcls_eqb_eq in Q. subst c. destruct (I2 eq_refl) as (U1 & U2 & U3). cbn [class_load]. unfold VERSION_LENGTH. cbv zeta. rewrite U1.
      destruct (version_err (our_version E) (ascii_decode text) Ho) as [[-> _]|[_ G]]; [|exfalso; exact (G (Hv eq_refl))]. cbn [bind].
      apply (refused_body E MHello ts flag _ decf pub text e); [apply T64, T1|congruence|]. rewrite U2, U3. exact U.
    + assert (N : c <> MHello) by (intros ->; discriminate Q). rewrite class_load_split by exact N.
      replace (@nil (string * pyval)) with (told c text) by (destruct c; reflexivity || congruence).
      destruct (I1 N) as [U1 U2]. rewrite (refused_body E c ts flag data decf pub text e);
        [reflexivity|apply T64, T1|exact Hx|rewrite U1, U2; exact U].
  - pose proof (proj1 T) as T1. destruct (cut_inv _ _ _ _ _ C) as (L & _ & I1 & _).
    rewrite frame_steps by (assumption || apply T64, T1 || apply TY). rewrite W, CT by exact T1. cbn [negb].
    rewrite VT by exact T. cbn [bind]. rewrite registry_roundtrip. cbn [bind]. rewrite class_load_split by exact N.
    replace (@nil (string * pyval)) with (told c []) by (destruct c; reflexivity || congruence).
    assert (B : base_load E c (type_of c) ts (negb (byte_eqb flag x00)) data decf pub (told c []) = Ok m).
    { apply base_exact; [apply T64, T1|]. destruct (I1 N) as [-> ->]. exists payload, a. split; [exact O|]. split; [exact K|]. split; [destruct c; exact S|].
      destruct c; reflexivity || congruence. }
    rewrite B. cbn [bind]. destruct K as (item & extra & s & Q & Sp & Rd).
    assert (Pu : pure s = true) by (eapply loads_pure, (proj2 (loads_exact (cdepth E) payload s)); eauto).
    unfold m. rewrite (proj2 (vet_error E c _ ts _ _ s a e Pu Rd T1) U). reflexivity.
Qed.
Theorem raised E now bs decf ct pub e : (exists o, spells_version (our_version E) o) ->
  deserialize E now bs decf ct pub = Err e -> refused E now decf ct pub bs e.
Proof.
  intros Ho H. destruct (Nat.le_gt_cases (List.length bs) 76) as [G|G].
  { unfold deserialize in H. destruct (Nat.leb_spec (List.length bs) (HDR_LEN + SIG_LEN)) as [_|X]; [|exfalso; revert X G; unfold HDR_LEN, SIG_LEN; lia].
    replace e with EMessageError by congruence. exact (Rf_short E now decf ct pub bs G). }
  destruct (is_frame bs G) as (ty & ts & flag & data & -> & L & R1 & R2). rewrite frame_steps in H by assumption.
  destruct (negb ((1262304000 <? ts) && (ts <? 32819212800))) eqn:W.
  { replace e with EHeaderError by congruence. apply (Rf_clock E now decf ct pub ty ts flag data R1 R2 L). lia. }
  assert (T : 1262304000 < ts < 32819212800) by lia.
  destruct (contains library ty) eqn:CT; cbn [negb] in H.
  2:{ replace e with EHeaderError by congruence. apply (Rf_type E now decf ct pub ty ts flag data R1 T L). intros c ->.
      assert (X : contains library (type_of c) = true) by (apply contains_iff; eauto). congruence. }
  apply contains_iff in CT as [c ->]. rewrite registry_roundtrip in H. cbn [bind] in H.
  destruct (if ct then verify_time now ts else Ok tt) as [[]|e0] eqn:V; cbn [bind] in H.
  2:{ destruct ct; [|discriminate V]. assert (e0 = e) by congruence. subst e0.
      apply verify_time_err in V as [[_ V]|[[-> V]|[-> V]]]; [exfalso; lia| |].
      - exact (Rf_old E now decf true pub c ts flag data T L eq_refl V).
      - exact (Rf_future E now decf true pub c ts flag data T L eq_refl V). }
  assert (TT : timely now ts ct).
  { split; [exact T|]. intros ->. apply verify_time_iff in V. lia. }
  destruct (mcls_eqb c MHello) eqn:Q.
  - apply mcls_eqb_eq in Q. subst c. destruct (cut_hello data L) as (text & U & C). cbv zeta in U, C.
    cbn [class_load] in H. unfold VERSION_LENGTH in H. cbv zeta in H. rewrite U in H.
    destruct (version_err (our_version E) (ascii_decode text) Ho) as [[V1 V2]|[V1 V2]]; rewrite V1 in H; cbn [bind] in H.
    + apply (body_refused E MHello ts flag _ decf pub text e (T64 _ T)) in H; [|congruence].
      eapply (Rf_body E now decf ct pub MHello ts flag data _ _ text e TT C); [intros _; exact V2|exact H].
    + replace e with EVersionMismatchError by congruence. exact (Rf_version E now decf ct pub ts flag data _ _ text TT C V2).
  - assert (N : c <> MHello) by (intros ->; discriminate Q). rewrite class_load_split in H by exact N.
    replace (@nil (string * pyval)) with (told c []) in H by (destruct c; reflexivity || congruence).
    pose proof (cut_plain c data N L) as C.
    destruct (base_load E c (type_of c) ts (negb (byte_eqb flag x00)) data decf pub (told c [])) as [m|e0] eqn:B; cbn [bind] in H.
    + apply base_exact in B as (payload & a & B1 & B2 & B3 & ->); [|exact (T64 _ T)].
      replace (full c (ascii_decode []) a) with a in * by (destruct c; reflexivity || congruence).
      assert (B4 : from_sender E pub c ts payload (firstn 65 data) []) by (destruct c; exact B3).
      pose proof B2 as (item & extra & s & Qp & Sp & Rd).
      assert (Pu : pure s = true) by (eapply loads_pure, (proj2 (loads_exact (cdepth E) payload s)); eauto).
      destruct (vet E c (VMsg c (VInt (type_of c)) (VInt ts) (VBool (negb (byte_eqb flag x00))) (VBytes (firstn 65 data)) a)) as [[]|e1] eqn:X; cbn [bind] in H; [discriminate H|].
      assert (e1 = e) by congruence. subst e1. apply (vet_error E c _ ts _ _ s a e Pu Rd T) in X.
      exact (Rf_class E now decf ct pub c ts flag data _ _ payload a e N TT C B1 B2 B4 X).
    + assert (e0 = e) by congruence. subst e0. apply (body_refused E c ts flag data decf pub [] e (T64 _ T)) in B; [|reflexivity].
      eapply (Rf_body E now decf ct pub c ts flag data _ _ [] e TT C); [congruence|exact B].
Qed.
Theorem refused_exact E now bs decf ct pub e : (exists o, spells_version (our_version E) o) ->
  deserialize E now bs decf ct pub = Err e <-> refused E now decf ct pub bs e.
Proof. intros Ho. split; [apply raised|apply raises]; exact Ho. Qed.
(** every frame is accepted or refused, never both, and refused for one reason *)
Theorem one_fate E now bs decf ct pub : (exists o, spells_version (our_version E) o) ->
  ((exists m, accepted E now decf ct pub bs m) \/ (exists e, refused E now decf ct pub bs e)) /\
  ~ ((exists m, accepted E now decf ct pub bs m) /\ (exists e, refused E now decf ct pub bs e)) /\
  forall e e', refused E now decf ct pub bs e -> refused E now decf ct pub bs e' -> e = e'.
Proof.
  intros Ho. split; [|split].
  - destruct (deserialize E now bs decf ct pub) as [m|e] eqn:D; [left; exists m; apply accepted_exact; exact D|].
    right. exists e. exact (raised _ _ _ _ _ _ _ Ho D).
  - intros [[m A] [e R]]. apply accepted_exact in A. apply (raises _ _ _ _ _ _ _ Ho) in R. congruence.
  - intros e e' R R'. apply (raises _ _ _ _ _ _ _ Ho) in R, R'. congruence.
Qed.
