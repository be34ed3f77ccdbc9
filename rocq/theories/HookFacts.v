(** * Parts assigned after signing (C70) *)
From Verif Require Export ReplyFacts.
Open Scope Z_scope.

(** ** A message in place of None changes the bytes *)
Lemma enc_list_split l x r b : enc (VList (l ++ x :: r)) = Some b ->
  exists h bl bx br, enc_head 4 (Z.of_nat (List.length (l ++ x :: r))) = Some h /\ fold_right (fun x acc => oapp (enc x) acc) (Some []) l = Some bl /\
    enc x = Some bx /\ b = h ++ bl ++ bx ++ br.
Proof.
  cbn [enc]. intros H. destruct (enc_head 4 _) as [h|]; [|discriminate H]. exists h. rewrite fold_right_app in H. cbn [fold_right] in H. cbn [oapp] in H.
  assert (G : forall l t c, fold_right (fun x acc => oapp (enc x) acc) t l = Some c -> exists cl ct, fold_right (fun x acc => oapp (enc x) acc) (Some []) l = Some cl /\ t = Some ct /\ c = cl ++ ct).
  { clear. induction l as [|y l IH]; intros t c H; cbn [fold_right] in *; [exists [], c; auto|]. destruct (enc y) as [by_|]; [|discriminate H]. cbn [oapp] in H.
    destruct (fold_right (fun x acc => oapp (enc x) acc) t l) as [c'|] eqn:Q; [|discriminate H]. apply Some_inj in H. subst c.
    destruct (IH _ _ Q) as (cl & ct & -> & -> & ->). cbn [oapp]. exists (by_ ++ cl), ct. rewrite app_assoc. auto. }
  destruct (fold_right (fun x acc => oapp (enc x) acc) (oapp (enc x) (fold_right (fun x acc => oapp (enc x) acc) (Some []) r)) l) as [c|] eqn:Q; [|discriminate H].
  apply Some_inj in H. subst b. destruct (G _ _ _ Q) as (cl & ct & -> & Ht & ->). destruct (enc x) as [bx|]; [|discriminate Ht]. cbn [oapp] in Ht.
  destruct (fold_right (fun x acc => oapp (enc x) acc) (Some []) r) as [br|]; [|discriminate Ht]. apply Some_inj in Ht. subst ct. exists cl, bx, br. auto.
Qed.
Lemma dumps_enc v b : dumps v = Ok b -> enc v = Some b.
Proof. unfold dumps. destruct (enc v); intros H; [apply Ok_inj in H; congruence|discriminate]. Qed.
(** the first slot that differs, if neither encoding starts the other, decides *)
Lemma first_diff c pre k w1 w2 post post' p p' :
  map fst (pre ++ (k, w1) :: post) = slot_names c -> map fst (pre ++ (k, w2) :: post') = slot_names c ->
  (forall x1 x2 b1 b2 r1 r2, ser_slot c k w1 = Ok x1 -> ser_slot c k w2 = Ok x2 -> enc x1 = Some b1 -> enc x2 = Some b2 -> b1 ++ r1 <> b2 ++ r2) ->
  payload_of c (pre ++ (k, w1) :: post) = Ok p -> payload_of c (pre ++ (k, w2) :: post') = Ok p' -> p <> p'.
Proof.
  intros F1 F2 K H1 H2 Q. subst p'. unfold payload_of in *. apply bind_ok in H1 as (s1 & S1 & H1). apply bind_ok in H2 as (s2 & S2 & H2).
  apply slots_inv in S1 as (l1 & -> & L1); [|exact F1]. apply slots_inv in S2 as (l2 & -> & L2); [|exact F2].
  apply Forall2_app_inv_l in L1 as (q1 & r1 & Q1 & R1 & ->). apply Forall2_app_inv_l in L2 as (q2 & r2 & Q2 & R2 & ->).
  assert (q1 = q2). { clear - Q1 Q2. revert q2 Q2. induction Q1 as [|[k w] [k1 x] pre q1 [A B] _ IH]; intros q2 Q2; inversion Q2 as [|? [k2 y] ? ? [A' B'] ? ]; subst; [reflexivity|].
    cbn [fst snd] in *. subst k1 k2. assert (x = y) by congruence. subst y. f_equal. apply IH. assumption. }
  subst q2. inversion R1 as [|? [k1 x1] ? t1 [A1 B1] T1]; subst. inversion R2 as [|? [k2 x2] ? t2 [A2 B2] T2]; subst. cbn [fst snd] in *. subst k1 k2.
  unfold pairs in H1, H2. rewrite map_app in H1, H2. cbn [map fst snd] in H1, H2.
  apply dumps_enc in H1, H2. apply enc_list_split in H1 as (h1 & b1 & e1 & f1 & G1 & P1 & X1 & ->). apply enc_list_split in H2 as (h2 & b2 & e2 & f2 & G2 & P2 & X2 & Y).
  assert (b1 = b2) by congruence. subst b2.
  assert (h1 = h2).
  { rewrite app_length in *. cbn [List.length] in *. rewrite !map_length in *.
    assert (LL : List.length t1 = List.length t2).
    { apply (f_equal (@List.length string)) in F1, F2. rewrite !map_length, !app_length in F1, F2. cbn [List.length] in F1, F2.
      assert (FL : forall A B (R : A -> B -> Prop) l m, Forall2 R l m -> List.length l = List.length m) by (clear; induction 1; cbn [List.length]; congruence).
      apply FL in T1. apply FL in T2. lia. }
    rewrite LL in G1. congruence. }
  subst h2. apply app_inv_head in Y. apply app_inv_head in Y.
  cbn [enc fold_right List.length] in X1, X2. change (Z.of_nat 2) with 2 in *. change (enc_head 4 2) with (Some [z2b 130]) in *.
  destruct (enc (skey k)) as [bk|]; [|discriminate X1]. destruct (enc x1) as [y1|] eqn:Z1; [|discriminate X1]. destruct (enc x2) as [y2|] eqn:Z2; [|discriminate X2].
  cbn [oapp] in X1, X2. apply Some_inj in X1, X2. subst e1 e2. cbn [app] in Y. injection Y as Y. rewrite <- !app_assoc in Y. apply app_inv_head in Y. cbn [app] in Y.
  exact (K _ _ _ _ _ _ B1 B2 Z1 Z2 Y).
Qed.
Lemma part_bytes c pre k post post' d an ty ts enc0 sig b p p' :
  map fst (pre ++ (k, VNone) :: post) = slot_names c -> map fst (pre ++ (k, VMsg d ty ts enc0 sig b) :: post') = slot_names c ->
  slot_kind c k = KMsg d an false ->
  payload_of c (pre ++ (k, VNone) :: post) = Ok p -> payload_of c (pre ++ (k, VMsg d ty ts enc0 sig b) :: post') = Ok p' -> p <> p'.
Proof.
  intros F1 F2 K. apply first_diff; try assumption. intros x1 x2 b1 b2 r1 r2 B1 B2 X1 X2 Y.
  assert (E1 : x1 = VTuple [VBool false; VNone]). { unfold ser_slot, ser_slot_with in B1. rewrite K in B1. destruct an; [apply Ok_inj in B1; congruence|discriminate B1]. }
  assert (E2 : exists s, x2 = VTuple [VBool false; VTuple [VTuple [ty; ts; enc0]; sig; s]]).
  { unfold ser_slot, ser_slot_with in B2. rewrite K in B2. unfold ser_single in B2. rewrite mcls_eqb_refl, wire_msg in B2.
    apply bind_ok in B2 as (x & B2 & B3). apply bind_ok in B2 as (s & _ & B2). apply Ok_inj in B2, B3. subst. eauto. }
  subst x1. destruct E2 as (s & ->). apply Some_inj in X1. subst b1.
  cbn [enc fold_right List.length] in X2. change (Z.of_nat 2) with 2 in *. change (Z.of_nat 3) with 3 in *. change (enc_head 4 2) with (Some [z2b 130]) in *. change (enc_head 4 3) with (Some [z2b 131]) in *.
  destruct (Cbor.enc ty) as [y1|]; [|discriminate X2]. destruct (Cbor.enc ts) as [y2|]; [|discriminate X2]. destruct (Cbor.enc enc0) as [y3|]; [|discriminate X2].
  destruct (Cbor.enc sig) as [y4|]; [|discriminate X2]. destruct (Cbor.enc s) as [y5|]; [|discriminate X2]. cbn [oapp] in X2. apply Some_inj in X2. subst b2.
  cbn [app] in Y. discriminate Y.
Qed.
Lemma hash_differs E c t e g a t' e' g' a' h : crypto_ok (cr E) ->
  (forall p p', payload_of c a = Ok p -> payload_of c a' = Ok p' -> p <> p') ->
  short_hash E (VMsg c (VInt (type_of c)) (VInt t) e g a) = Ok h -> short_hash E (VMsg c (VInt (type_of c)) (VInt t') e' g' a') = Ok h ->
  sha1_collision E (VMsg c (VInt (type_of c)) (VInt t) e g a) (VMsg c (VInt (type_of c)) (VInt t') e' g' a').
Proof.
  intros HC P H1 H2. destruct (hash_binds _ _ _ _ _ _ _ _ _ _ _ _ HC H1 H2) as (d1 & d2 & p1 & p2 & s1 & s2 & D1 & S1 & P1 & D2 & S2 & P2 & Hh & [X|X]).
  - exists (d1 ++ p1), (d2 ++ p2). repeat split; try assumption.
    + exists c, (VInt (type_of c)), (VInt t), e, g, a, d1, p1. unfold payload_of. rewrite S1. auto.
    + exists c, (VInt (type_of c)), (VInt t'), e', g', a', d2, p2. unfold payload_of. rewrite S2. auto.
  - exfalso. destruct X as (_ & _ & X & _). apply (P p1 p2); [| |exact X]; unfold payload_of; [rewrite S1|rewrite S2]; assumption.
Qed.

(** ** The factories whose hooks assign parts.  [part_of d p]: no part, or a message of
    class [d] *)
Definition part_of (d : mcls) (p : option pyval) : Prop := p = None \/ exists ty ts enc sig b, p = Some (VMsg d ty ts enc sig b).
Definition or_none (p : option pyval) : pyval := match p with Some x => x | None => VNone end.
(** what the signature of [m] is good for: the message [m0], which only shares its hash with
    [m] if SHA-1 collides *)
Definition signed_for (E : env) (k : bytes) (m0 m : pyval) : Prop :=
  (exists s pub, secret_of (cr E) k = Some s /\ pub_of (cr E) s = Some pub /\ verify_signature E m0 (VBytes pub) = Ok tt) /\
  forall h, short_hash E m0 = Ok h -> short_hash E m = Ok h -> sha1_collision E m0 m.
Lemma signed_before E now c kw k a0 m1 : crypto_ok (cr E) -> k <> [] -> reply E now c kw (Some k) = Ok m1 ->
  msg_init E now c None VNone (VList []) kw = Ok (VMsg c (VInt (type_of c)) (VInt now) (VBool false) VNone a0) ->
  exists sg, m1 = VMsg c (VInt (type_of c)) (VInt now) (VBool false) sg a0 /\
    exists s pub, secret_of (cr E) k = Some s /\ pub_of (cr E) s = Some pub /\ verify_signature E m1 (VBytes pub) = Ok tt.
Proof.
  intros HC Hk H I. pose proof (reply_verifies _ _ _ _ _ _ HC Hk H) as V. unfold reply in H. rewrite I in H. cbn [bind] in H.
  apply sign_hook_attrs in H as [sg ->]. eauto.
Qed.
Lemma reject_unsigned E now reason t f c k m : crypto_ok (cr E) -> k <> [] -> reject_factory E now reason t f c (Some k) = Ok m ->
  part_of MTaskToCompute t -> part_of MTaskFailure f -> part_of MCannotComputeTask c -> (t, f, c) <> (None, None, None) ->
  exists sg, let msg t f c := VMsg MRejectReportComputedTask (VInt (type_of MRejectReportComputedTask)) (VInt now) (VBool false) sg
       [("attached_task_to_compute", t); ("task_failure", f); ("cannot_compute_task", c); ("reason", VEnum EnRejectRCT reason)]%string in
    m = msg (or_none t) (or_none f) (or_none c) /\ signed_for E k (msg VNone VNone VNone) m.
Proof.
  intros HC Hk H Pt Pf Pc N. unfold reject_factory in H. apply bind_ok in H as (m1 & H1 & H).
  destruct (signed_before _ _ _ _ _ _ _ HC Hk H1 eq_refl) as (sg & -> & V). cbv [assign_part set_attr bind] in H. apply Ok_inj in H. exists sg. cbv zeta.
  assert (Em : m = VMsg MRejectReportComputedTask (VInt (type_of MRejectReportComputedTask)) (VInt now) (VBool false) sg
       [("attached_task_to_compute", or_none t); ("task_failure", or_none f); ("cannot_compute_task", or_none c); ("reason", VEnum EnRejectRCT reason)]%string) by (rewrite <- H; reflexivity).
  clear H. split; [exact Em|]. rewrite Em. split; [exact V|]. intros h. apply hash_differs; [exact HC|].
  destruct Pt as [->|(y1 & y2 & y3 & y4 & y5 & ->)]; cbn [or_none].
  2: { intros p p'. apply (part_bytes MRejectReportComputedTask [] "attached_task_to_compute") with (an := true); reflexivity. }
  destruct Pf as [->|(y1 & y2 & y3 & y4 & y5 & ->)]; cbn [or_none].
  2: { intros p p'. apply (part_bytes MRejectReportComputedTask [("attached_task_to_compute", VNone)]%string "task_failure") with (an := true); reflexivity. }
  destruct Pc as [->|(y1 & y2 & y3 & y4 & y5 & ->)]; cbn [or_none]; [congruence|].
  intros p p'. apply (part_bytes MRejectReportComputedTask [("attached_task_to_compute", VNone); ("task_failure", VNone)]%string "cannot_compute_task") with (an := true); reflexivity.
Qed.
Lemma response_unsigned E now reason a r k m : crypto_ok (cr E) -> k <> [] -> response_factory E now reason a r (Some k) = Ok m ->
  part_of MAckReportComputedTask a -> part_of MRejectReportComputedTask r -> (a, r) <> (None, None) ->
  exists sg, let msg a r := VMsg MForceReportComputedTaskResponse (VInt (type_of MForceReportComputedTaskResponse)) (VInt now) (VBool false) sg
       [("reason", VEnum EnFRCTResponse reason); ("ack_report_computed_task", a); ("reject_report_computed_task", r)]%string in
    m = msg (or_none a) (or_none r) /\ signed_for E k (msg VNone VNone) m.
Proof.
  intros HC Hk H Pa Pr N. unfold response_factory in H. apply bind_ok in H as (m1 & H1 & H).
  destruct (signed_before _ _ _ _ _ _ _ HC Hk H1 eq_refl) as (sg & -> & V). cbv [assign_part set_attr bind] in H. apply Ok_inj in H. exists sg. cbv zeta.
  assert (Em : m = VMsg MForceReportComputedTaskResponse (VInt (type_of MForceReportComputedTaskResponse)) (VInt now) (VBool false) sg
       [("reason", VEnum EnFRCTResponse reason); ("ack_report_computed_task", or_none a); ("reject_report_computed_task", or_none r)]%string) by (rewrite <- H; reflexivity).
  clear H. split; [exact Em|]. rewrite Em. split; [exact V|]. intros h. apply hash_differs; [exact HC|].
  destruct Pa as [->|(y1 & y2 & y3 & y4 & y5 & ->)]; cbn [or_none].
  2: { intros p p'. apply (part_bytes MForceReportComputedTaskResponse [("reason", VEnum EnFRCTResponse reason)]%string "ack_report_computed_task") with (an := true); reflexivity. }
  destruct Pr as [->|(y1 & y2 & y3 & y4 & y5 & ->)]; cbn [or_none]; [congruence|].
  intros p p'. apply (part_bytes MForceReportComputedTaskResponse [("reason", VEnum EnFRCTResponse reason); ("ack_report_computed_task", VNone)]%string "reject_report_computed_task") with (an := true); reflexivity.
Qed.
Lemma results_response_unsigned E now a r k m : crypto_ok (cr E) -> k <> [] -> results_response_factory E now a r (Some k) = Ok m ->
  part_of MSubtaskResultsAccepted a -> part_of MSubtaskResultsRejected r -> (a, r) <> (None, None) ->
  exists sg, let msg a r := VMsg MForceSubtaskResultsResponse (VInt (type_of MForceSubtaskResultsResponse)) (VInt now) (VBool false) sg
       [("subtask_results_accepted", a); ("subtask_results_rejected", r)]%string in
    m = msg (or_none a) (or_none r) /\ signed_for E k (msg VNone VNone) m.
Proof.
  intros HC Hk H Pa Pr N. unfold results_response_factory in H. apply bind_ok in H as (m1 & H1 & H).
  destruct (signed_before _ _ _ _ _ _ _ HC Hk H1 eq_refl) as (sg & -> & V). exists sg. cbv zeta.
  assert (Em : m = VMsg MForceSubtaskResultsResponse (VInt (type_of MForceSubtaskResultsResponse)) (VInt now) (VBool false) sg
       [("subtask_results_accepted", or_none a); ("subtask_results_rejected", or_none r)]%string).
  { destruct a, r; cbv [set_attr bind] in H; apply Ok_inj in H; rewrite <- H; reflexivity. }
  clear H. split; [exact Em|]. rewrite Em. split; [exact V|]. intros h. apply hash_differs; [exact HC|].
  destruct Pa as [->|(y1 & y2 & y3 & y4 & y5 & ->)]; cbn [or_none].
  2: { intros p p'. apply (part_bytes MForceSubtaskResultsResponse [] "subtask_results_accepted") with (an := true); reflexivity. }
  destruct Pr as [->|(y1 & y2 & y3 & y4 & y5 & ->)]; cbn [or_none]; [congruence|].
  intros p p'. apply (part_bytes MForceSubtaskResultsResponse [("subtask_results_accepted", VNone)]%string "subtask_results_rejected") with (an := true); reflexivity.
Qed.
Definition token (now : Z) (sg : pyval) (id url : ustr) (client : bytes) (op : string) (files : list pyval) : pyval :=
  VMsg MFileTransferToken (VInt (type_of MFileTransferToken)) (VInt now) (VBool false) sg
    [("subtask_id", VStr id); ("token_expiration_deadline", VInt 1800); ("storage_cluster_address", VStr url);
     ("authorized_client_public_key", VBytes client); ("operation", VEnum EnFTTOperation op); ("files", VList files)]%string.
Lemma token_signed E now id url client files up down k m : crypto_ok (cr E) -> k <> [] -> token_factory E now id url client files up down (Some k) = Ok m ->
  exists sg, m = token now sg id url client (if down then "download" else "upload") files /\
    if down then signed_for E k (token now sg id url client "upload" files) m
    else exists s pub, secret_of (cr E) k = Some s /\ pub_of (cr E) s = Some pub /\ verify_signature E m (VBytes pub) = Ok tt.
Proof.
  intros HC Hk H. unfold token_factory in H. apply bind_ok in H as (m1 & H1 & H).
  destruct (signed_before _ _ _ _ _ _ _ HC Hk H1 eq_refl) as (sg & -> & V). exists sg.
  destruct up, down; cbv [set_attr bind] in H; apply Ok_inj in H; subst m; (split; [reflexivity|]); try exact V.
  all: split; [exact V|]; intros h; apply hash_differs; [exact HC|]; intros p p';
    apply (first_diff MFileTransferToken [("subtask_id", VStr id); ("token_expiration_deadline", VInt 1800); ("storage_cluster_address", VStr url);
     ("authorized_client_public_key", VBytes client)]%string "operation" (VEnum EnFTTOperation "upload") (VEnum EnFTTOperation "download")); try reflexivity.
  all: intros x1 x2 b1 b2 r1 r2 B1 B2 X1 X2 Y; apply Ok_inj in B1, B2; subst x1 x2; apply Some_inj in X1, X2; subst b1 b2; discriminate Y.
Qed.

(** ** Named variants *)
Lemma named_variants E now given drawn x p m :
  (reject_with_task E now given drawn x p = Ok m -> getattr "attached_task_to_compute" m = Ok x /\
     getattr "reason" m = Ok (VEnum EnRejectRCT (match given with Some r => r | None => "SubtaskTimeLimitExceeded" end))) /\
  (reject_with_failure E now given drawn x p = Ok m -> getattr "task_failure" m = Ok x /\
     getattr "reason" m = Ok (VEnum EnRejectRCT (match given with Some r => r | None => "GotMessageTaskFailure" end))) /\
  (reject_with_cannot E now given drawn x p = Ok m -> getattr "cannot_compute_task" m = Ok x /\
     getattr "reason" m = Ok (VEnum EnRejectRCT (match given with Some r => r | None => "GotMessageCannotComputeTask" end))) /\
  (response_with_ack E now given drawn x p = Ok m -> getattr "ack_report_computed_task" m = Ok x /\
     getattr "reason" m = Ok (VEnum EnFRCTResponse (match given with Some r => r | None => "ack_from_requestor" end))).
Proof.
  repeat split; match goal with H : _ = Ok _ |- _ =>
    unfold reject_with_task, reject_with_failure, reject_with_cannot, response_with_ack, reject_factory, response_factory in H;
    apply bind_ok in H as (m1 & H1 & H); apply sign_hook_attrs in H1 as [sg ->]; cbv [assign_part set_attr bind] in H; apply Ok_inj in H; subst m end;
    rewrite getattr_slot by slots_in; reflexivity.
Qed.
Lemma rejecting_response E now given drawn x p m : response_with_reject E now given drawn x p = Ok m ->
  getattr "reject_report_computed_task" m = Ok x /\
  getattr "reason" m = Ok (VEnum EnFRCTResponse (match given with Some _ => "reject_from_requestor" | None => drawn end)).
Proof.
  intros H. unfold response_with_reject, response_factory in H. apply bind_ok in H as (m1 & H1 & H). apply sign_hook_attrs in H1 as [sg ->].
  cbv [assign_part set_attr bind] in H. apply Ok_inj in H. subst m. split; rewrite getattr_slot by slots_in; reflexivity.
Qed.
