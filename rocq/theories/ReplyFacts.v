(** * Replies built by the factories (C69) *)
From Verif Require Export FactoryTasks Replies.
Open Scope Z_scope.

(** text of at most a thousand characters, none a surrogate *)
Definition a_text (s : ustr) : Prop := (List.length s <= 1000)%nat /\ forallb scalar s = true.
Lemma bnd_text s : a_text s -> bnd 100000 (VStr s).
Proof.
  intros [S H]. split; [apply encw_iff; split; [exact H|split; reflexivity]|]. cbn [vsize].
  assert (L : (List.length (flat_map utf8_enc1 s) <= 4 * List.length s)%nat).
  { clear. induction s as [|c s IH]; [cbn; lia|]. cbn [flat_map List.length]. rewrite app_length.
    assert (List.length (utf8_enc1 c) <= 4)%nat; [|lia]. unfold utf8_enc1. repeat match goal with |- context [if ?b then _ else _] => destruct b end; cbn; lia. }
  lia.
Qed.

(** ** Messages small enough to be sent *)
Definition fits (n : Z) (c : mcls) (m : pyval) : Prop :=
  exists t sg a s, m = VMsg c (VInt (type_of c)) (VInt t) (VBool false) sg a /\ 0 <= t < 2 ^ 62 /\ a_sig sg /\ mok c a /\ kept c a /\
    slots c a = Ok s /\ bnd n s.
Definition good (E : env) (priv : owner -> bytes) (pk rk : bytes) (n : Z) (c : mcls) (m : pyval) : Prop :=
  fits n c m /\ (is_task_message c = true -> honest E priv pk rk m).
Lemma type_range c : 0 <= type_of c < 2 ^ 62.
Proof.
  assert (F : forallb (fun c => (0 <=? type_of c) && (type_of c <? 2 ^ 62)) all_classes = true) by (vm_compute; reflexivity).
  pose proof (for_all_classes _ F c) as H. cbv beta in H. apply andb_true_iff in H as [H1 H2]. apply Z.leb_le in H1. apply Z.ltb_lt in H2. auto.
Qed.
Lemma key_bnd c k : In k (slot_names c) -> bnd 1000 (skey k).
Proof.
  intros H. assert (F : forallb (fun c => forallb (fun k => encw (skey k) && (vsize (skey k) <=? 1000)) (slot_names c)) all_classes = true) by (vm_compute; reflexivity).
  pose proof (for_all_classes _ F c) as Q. cbv beta in Q. rewrite forallb_forall in Q. apply bnd_closed. exact (Q k H).
Qed.
Lemma names_few c : (List.length (slot_names c) <= 20)%nat.
Proof.
  assert (F : forallb (fun c => Nat.leb (List.length (slot_names c)) 20) all_classes = true) by (vm_compute; reflexivity).
  pose proof (for_all_classes _ F c) as Q. cbv beta in Q. apply Nat.leb_le in Q. exact Q.
Qed.
Lemma sig_bnd sg : a_sig sg -> bnd 1000 sg.
Proof. intros [->|(b & -> & Hb)]; [apply bnd_closed; reflexivity|apply bnd_bytes; lia]. Qed.
Lemma nested_bnd n d c k an m : 0 <= n -> slot_kind d k = KMsg c an false -> fits n c m -> exists x, ser_slot d k m = Ok x /\ bnd (n + 50000) x.
Proof.
  intros Hn K (t & sg & a & s & -> & Ht & Hs & M & _ & S & Bs). unfold ser_slot, ser_slot_with. rewrite K. unfold ser_single. rewrite mcls_eqb_refl, wire_msg, S.
  cbn [bind]. eexists. split; [reflexivity|]. pose proof (type_range c) as Tr. assert (B1 : vsize (VInt (type_of c)) <= 100) by (apply bnd_int; lia).
  assert (B2 : vsize (VInt t) <= 100) by (apply bnd_int; lia). destruct (sig_bnd sg Hs) as [E3 B3]. destruct Bs as [E4 B4]. split.
  - repeat (first [rewrite encw_list|rewrite encw_tuple]; cbn [forallb]). rewrite E3, E4. reflexivity.
  - remember (VInt (type_of c)) as vt. remember (VInt t) as vn. cbn [vsize map]. unfold zsum. cbn [fold_right]. change (vsize (VBool false)) with 1. lia.
Qed.
(** every slot is small: all slots are *)
Lemma slots_bnd n c a : 100 <= n -> map fst a = slot_names c -> (forall k w, In (k, w) a -> exists x, ser_slot c k w = Ok x /\ bnd n x) ->
  exists s, slots c a = Ok s /\ bnd (20 * n + 50000) s.
Proof.
  intros Hn F H. pose proof (names_few c) as L. rewrite <- F, map_length in L.
  assert (G : exists l, Forall2 (fun kw kx => fst kx = fst kw /\ ser_slot c (fst kw) (snd kw) = Ok (snd kx)) a l /\
     Forall (fun kx => bnd (n + 1100) (VList [skey (fst kx); snd kx])) l /\ List.length l = List.length a).
  { assert (N : forall k, In k (map fst a) -> In k (slot_names c)) by (rewrite F; auto). clear F L. induction a as [|[k w] a IH].
    - exists []. repeat constructor.
    - destruct IH as (l & I1 & I2 & I3); [intros; apply H; right; assumption|intros; apply N; right; assumption|].
      destruct (H k w (or_introl eq_refl)) as (x & Hx & [B1 B2]). exists ((k, x) :: l). split; [constructor; auto|]. split; [|cbn; lia].
      constructor; [|exact I2]. cbn [fst snd]. destruct (key_bnd c k (N k (or_introl eq_refl))) as [C1 C2]. split.
      + rewrite encw_list. cbn [forallb]. rewrite C1, B1. reflexivity.
      + remember (skey k) as vk. cbn [vsize map]. unfold zsum. cbn [fold_right]. lia. }
  destruct G as (l & G1 & G2 & G3). exists (pairs l). split; [apply slots_inv; [exact F|]; exists l; auto|].
  unfold pairs. eapply bnd_weak; [apply bnd_list with (n := n + 1100)|].
  - rewrite Forall_forall in *. intros x Hx. apply in_map_iff in Hx as (kx & <- & Hk). exact (G2 _ Hk).
  - rewrite map_length, G3. nia.
Qed.

(** ** Signing a reply *)
(** what a slot of a reply may hold: a small value, or a message of the right class *)
Definition part (E : env) (priv : owner -> bytes) (pk rk : bytes) (n : Z) (c : mcls) (k : string) (w : pyval) : Prop :=
  (is_task_msg w = false /\ (exists x, ser_slot c k w = Ok x /\ bnd 100000 x) /\ init_ok c k w /\ val_ok (slot_kind c k) w /\ val_kept (slot_kind c k) w /\
   forall d an il, slot_kind c k = KMsg d an il -> w = VNone /\ an = true) \/
  (exists d an, slot_kind c k = KMsg d an false /\ good E priv pk rk n d w).
Lemma message_kinds c k d an il w : slot_kind c k = KMsg d an il -> w <> VNone -> init_ok c k w.
Proof.
  assert (F : forallb (fun c => forallb (fun k => match slot_kind c k with KMsg _ _ _ =>
     match c with MResourcePeers | MGossip | MStartSessionResponse => false | MWantToComputeTask | MTaskToCompute => negb (k =? "concent_enabled")%string
     | MTaskFailure => true | _ => true end | _ => true end) (slot_names c)) all_classes = true) by (vm_compute; reflexivity).
  intros K W. pose proof (for_all_classes _ F c) as Q. cbv beta in Q. rewrite forallb_forall in Q.
  assert (Hin : In k (slot_names c)).
  { destruct (slot_kind_cases c k) as [H|H]; [rewrite K in H; apply (in_map fst) in H; exact H|rewrite (slot_kind_default _ _ H) in K; discriminate]. }
  specialize (Q k Hin). rewrite K in Q. destruct c; try exact I; try discriminate Q; cbn; try (intros _; exact W).
  all: intros ->; discriminate Q.
Qed.
Lemma make_reply E priv pk rk ck n c a o now : crypto_ok (cr E) -> key_pairs (cr E) priv pk rk ck -> (forall o, priv o <> []) ->
  2 ^ 40 <= n <= 2 ^ 58 -> 0 <= now < 2 ^ 62 -> is_task_message c = true -> c <> MTaskToCompute -> map fst a = slot_names c -> In o (expected_owners c) ->
  (forall k w, In (k, w) a -> part E priv pk rk n c k w) ->
  (exists k w, In k (task_id_providers c) /\ In (k, w) a /\ w <> VNone) ->
  exists m, sign_hook E (VMsg c (VInt (type_of c)) (VInt now) (VBool false) VNone a) (Some (priv o)) = Ok m /\
    good E priv pk rk (32 * n) c m.
Proof.
  intros HC KP NE Hn Hnow T N F Ho P (kp & wp & Hkp & Hwp & Nwp).
  assert (ND : NoDup (map fst a)) by (rewrite F; apply slot_names_NoDup).
  assert (M : mok c a).
  { constructor.
    - exact F.
    - intros k w Hin. destruct (P k w Hin) as [(_ & _ & I1 & V1 & _ & _)|(d & an & K & Hg)]; [auto|].
      destruct Hg as [(t & sg & b & s & -> & _) _]. split; [eapply message_kinds; [exact K|discriminate]|]. rewrite K. exact I.
    - intros k w d an il Hin K. destruct (P k w Hin) as [(_ & _ & _ & _ & _ & V1)|(d' & an' & K' & Hg)].
      + left. exact (V1 _ _ _ K).
      + assert (d' = d /\ an' = an /\ il = false) as (-> & -> & ->) by (repeat split; congruence).
        destruct Hg as [(t & sg & b & s & -> & _ & _ & Mb & _) _]. right. left. split; [reflexivity|]. do 5 eexists. split; [reflexivity|exact Mb]. }
  assert (Kp : kept c a).
  { constructor.
    - intros k w Hin. destruct (P k w Hin) as [(_ & _ & _ & _ & V1 & _)|(d & an & K & _)]; [exact V1|]. rewrite K. exact I.
    - intros k w d an il ty ts enc sig b Hin K Hm. destruct (P k w Hin) as [(_ & _ & _ & _ & _ & V1)|(d' & an' & K' & Hg)].
      + destruct (V1 _ _ _ K) as [-> _]. destruct Hm as [Hm|[]]. discriminate Hm.
      + destruct Hg as [(t & sg & b' & s & -> & _ & _ & _ & Kb & _) _]. destruct Hm as [Hm|[]].
        assert (d' = d /\ b' = b) as (-> & ->) by (split; congruence). exact Kb. }
  destruct (slots_bnd (n + 50000) c a) as (s & Hs & Bs); [lia|exact F| |].
  { intros k w Hin. destruct (P k w Hin) as [(_ & (x & Hx & Bx) & _)|(d & an & K & [Hf _])].
    - exists x. split; [exact Hx|]. eapply bnd_weak; [exact Bx|lia].
    - eapply nested_bnd; [lia|exact K|exact Hf]. }
  assert (Hh : exists h, short_hash E (VMsg c (VInt (type_of c)) (VInt now) (VBool false) VNone a) = Ok h).
  { cbn [short_hash]. unfold payload_of. rewrite Hs. cbn [bind]. destruct (bnd_dumps _ _ Bs) as [p Hp]; [lia|]. rewrite Hp. cbn [bind].
    pose proof (type_range c) as Tr. destruct (bnd_dumps (1 + 1000 * 2) (VList [VInt (type_of c); VInt now])) as [q Hq]; [apply bnd_list; bnds|reflexivity|].
    unfold hash_payload. rewrite Hq. cbn [bind]. destruct c; try discriminate T; eauto. }
  destruct Hh as [h Hh]. destruct (KP o) as (sk & K1 & K2). destruct (ecdsa_sign_total (cr E) (priv o) h sk HC K1) as [sg Hsg].
  assert (Sm : sign_message E (VMsg c (VInt (type_of c)) (VInt now) (VBool false) VNone a) (priv o) = Ok (VMsg c (VInt (type_of c)) (VInt now) (VBool false) (VBytes sg) a)).
  { cbn [sign_message]. rewrite Hh. cbn [bind]. rewrite Hsg. reflexivity. }
  assert (L : List.length sg = 65%nat) by (destruct (ecdsa_sign_ok _ _ _ _ HC Hsg) as (? & ? & _ & _ & L & _); exact L).
  eexists. split.
  { unfold sign_hook. specialize (NE o). destruct (priv o) as [|x y]; [congruence|]. exact Sm. }
  split.
  - exists now, (VBytes sg), a, s. split; [reflexivity|]. split; [exact Hnow|]. split; [right; eauto|]. split; [exact M|]. split; [exact Kp|]. split; [exact Hs|]. eapply bnd_weak; [exact Bs|lia].
  - intros _. eapply (honest_reply E priv pk rk c) with (o := o); try eassumption.
    + intros k w Hw Tw. apply attr_get_In in Hw. destruct (P k w Hw) as [(Q & _)|(d & an & K & [Hf Hh'])]; [congruence|].
      apply Hh'. destruct Hf as (t & sg' & b & s' & -> & _). exact Tw.
    + exists kp, wp. split; [exact Hkp|]. split; [|exact Nwp]. apply attr_get_nodup; assumption.
Qed.

(** ** The factories *)
Section Factories.
Variables (E : env) (priv : owner -> bytes) (pk rk ck : bytes).
Hypothesis HC : crypto_ok (cr E).
Hypothesis KP : key_pairs (cr E) priv pk rk ck.
Hypothesis NE : forall o, priv o <> [].
Notation good := (good E priv pk rk).

Lemma good_message n c m : good n c m -> exists ty ts enc sg a, m = VMsg c ty ts enc sg a.
Proof. intros [(t & sg & a & s & -> & _) _]. do 5 eexists. reflexivity. Qed.
Lemma enum_bnd e s : In s (members e) -> bnd 100000 (VStr (u s)).
Proof.
  intros H. assert (F : forallb (fun s => encw (VStr (u s)) && (vsize (VStr (u s)) <=? 100000)) (members e) = true) by (destruct e; vm_compute; reflexivity).
  rewrite forallb_forall in F. apply bnd_closed. exact (F s H).
Qed.
Ltac small := first
  [ apply bnd_text; assumption
  | (eapply bnd_weak; [apply bnd_str; assumption|lia])
  | (eapply bnd_weak; [apply bnd_bytes; lia|lia])
  | (eapply bnd_weak; [apply bnd_int; lia|lia])
  | (eapply enum_bnd; eassumption)
  | (eapply bnd_weak; [apply bnd_closed with (n := 1000); reflexivity|lia]) ].
Ltac part_tac :=
  first
  [ right; do 2 eexists; split; [reflexivity|eassumption]
  | left; split; [reflexivity|split; [eexists; split; [reflexivity|try small]|split; [first [exact I|intros Q; discriminate Q|intros _; discriminate]|split;
      [first [exact I|left; reflexivity|right; eexists; split; [reflexivity|try solve [assumption|cbn; tauto]]]|split; [first [exact I|reflexivity]|first [intros ? ? ? Q; discriminate Q|intros ? ? ? Q; split; [reflexivity|vm_compute in Q; congruence]]]]]]] ].
Ltac reply_tac att :=
  match goal with |- exists m, reply ?E ?now ?c ?kw ?p = Ok m /\ _ =>
    change (reply E now c kw p) with (sign_hook E (VMsg c (VInt (type_of c)) (VInt now) (VBool false) VNone att) p);
    apply (make_reply E priv pk rk ck) with (a := att); try assumption; try reflexivity; try discriminate; try solve [cbn; tauto]
  end;
  [ intros k w Hin; cbn [In] in Hin; repeat (destruct Hin as [Hin|Hin]; [injection Hin as <- <-; part_tac|]); try contradiction
  | do 2 eexists; split; [left; reflexivity|split; [cbn [In]; eauto 20|discriminate]] ].
Ltac opened H := pose proof (good_message _ _ _ H) as (? & ? & ? & ? & ? & ->).

Lemma report_good n t d now : 2 ^ 40 <= n <= 2 ^ 58 -> 0 <= now < 2 ^ 62 -> good n MTaskToCompute t ->
  a_text (d_address d) -> 0 <= d_port d < 2 ^ 62 -> (List.length (d_key_id d) <= 200)%nat -> a_text (u "sha1:" ++ d_rsha1 d) -> 0 <= d_rsize d < 2 ^ 62 ->
  a_text (d_multihash d) -> a_text (d_secret d) ->
  exists m, report_factory E now d t (Some (priv OProvider)) = Ok m /\ good (32 * n) MReportComputedTask m.
Proof.
  intros Hn Hnow G Ta Tp Tk Th Ts Tm Tc. opened G. unfold report_factory. revert Th. generalize (u "sha1:" ++ d_rsha1 d)%list. intros hash Th.
  reply_tac [("address", VStr (d_address d)); ("node_info", VNone); ("port", VInt (d_port d)); ("key_id", VBytes (d_key_id d)); ("extra_data", VNone);
   ("task_to_compute", VMsg MTaskToCompute x x0 x1 x2 x3); ("size", VInt (d_rsize d)); ("package_hash", VStr hash); ("multihash", VStr (d_multihash d));
   ("secret", VStr (d_secret d)); ("options", VNone); ("stats", VNone)]%string.
Qed.
Lemma cannot_good n now o t reason : 2 ^ 40 <= n <= 2 ^ 58 -> 0 <= now < 2 ^ 62 -> In o (expected_owners MCannotComputeTask) -> good n MTaskToCompute t -> In reason (members EnCannotCompute) ->
  exists m, cannot_factory E now reason t (Some (priv o)) = Ok m /\ good (32 * n) MCannotComputeTask m.
Proof.
  intros Hn Hnow Ho G0 H0. opened G0. unfold cannot_factory.
  reply_tac [("task_to_compute", VMsg MTaskToCompute x x0 x1 x2 x3); ("reason", VEnum EnCannotCompute reason)]%string.
Qed.

Lemma failure_good n now o t err : 2 ^ 40 <= n <= 2 ^ 58 -> 0 <= now < 2 ^ 62 -> In o (expected_owners MTaskFailure) -> good n MTaskToCompute t -> a_text err ->
  exists m, failure_factory E now err t (Some (priv o)) = Ok m /\ good (32 * n) MTaskFailure m.
Proof.
  intros Hn Hnow Ho G0 H0. opened G0. unfold failure_factory.
  reply_tac [("task_to_compute", VMsg MTaskToCompute x x0 x1 x2 x3); ("err", VStr err); ("reason", VEnum EnTaskFailure "ComputationError")]%string.
Qed.

Lemma ack_good n now o r  : 2 ^ 40 <= n <= 2 ^ 58 -> 0 <= now < 2 ^ 62 -> In o (expected_owners MAckReportComputedTask) -> good n MReportComputedTask r ->
  exists m, ack_factory E now r (Some (priv o)) = Ok m /\ good (32 * n) MAckReportComputedTask m.
Proof.
  intros Hn Hnow Ho G0 . opened G0. unfold ack_factory.
  reply_tac [("report_computed_task", VMsg MReportComputedTask x x0 x1 x2 x3)]%string.
Qed.

Lemma accepted_good n now o r drawn : 2 ^ 40 <= n <= 2 ^ 58 -> 0 <= now < 2 ^ 62 -> In o (expected_owners MSubtaskResultsAccepted) -> good n MReportComputedTask r -> 0 <= drawn < 2 ^ 62 ->
  exists m, accepted_factory E drawn now r (Some (priv o)) = Ok m /\ good (32 * n) MSubtaskResultsAccepted m.
Proof.
  intros Hn Hnow Ho G0 H0. opened G0. unfold accepted_factory.
  reply_tac [("payment_ts", VInt drawn); ("report_computed_task", VMsg MReportComputedTask x x0 x1 x2 x3)]%string.
Qed.

Lemma rejected_good n now o r  : 2 ^ 40 <= n <= 2 ^ 58 -> 0 <= now < 2 ^ 62 -> In o (expected_owners MSubtaskResultsRejected) -> good n MReportComputedTask r ->
  exists m, rejected_factory E now r (Some (priv o)) = Ok m /\ good (32 * n) MSubtaskResultsRejected m.
Proof.
  intros Hn Hnow Ho G0 . opened G0. unfold rejected_factory.
  reply_tac [("report_computed_task", VMsg MReportComputedTask x x0 x1 x2 x3); ("force_get_task_result_failed", VNone); ("reason", VEnum EnSRR "Results verification negative")]%string.
Qed.

Lemma force_report_good n now o r hash : 2 ^ 40 <= n <= 2 ^ 58 -> 0 <= now < 2 ^ 62 -> In o (expected_owners MForceReportComputedTask) -> good n MReportComputedTask r -> a_text hash ->
  exists m, force_report_factory E now hash r (Some (priv o)) = Ok m /\ good (32 * n) MForceReportComputedTask m.
Proof.
  intros Hn Hnow Ho G0 H0. opened G0. unfold force_report_factory.
  reply_tac [("report_computed_task", VMsg MReportComputedTask x x0 x1 x2 x3); ("result_hash", VStr hash)]%string.
Qed.

Lemma verify_good n now o r  : 2 ^ 40 <= n <= 2 ^ 58 -> 0 <= now < 2 ^ 62 -> In o (expected_owners MSubtaskResultsVerify) -> good n MSubtaskResultsRejected r ->
  exists m, verify_factory E now r (Some (priv o)) = Ok m /\ good (32 * n) MSubtaskResultsVerify m.
Proof.
  intros Hn Hnow Ho G0 . opened G0. unfold verify_factory.
  reply_tac [("subtask_results_rejected", VMsg MSubtaskResultsRejected x x0 x1 x2 x3); ("concent_promissory_note_sig", VNone)]%string.
Qed.

Lemma settled_good n now o t (rejected : bool) : 2 ^ 40 <= n <= 2 ^ 58 -> 0 <= now < 2 ^ 62 -> In o (expected_owners MSubtaskResultsSettled) -> good n MTaskToCompute t ->
  exists m, settled_factory E now rejected t (Some (priv o)) = Ok m /\ good (32 * n) MSubtaskResultsSettled m.
Proof.
  intros Hn Hnow Ho G0 . opened G0. unfold settled_factory. destruct rejected.
  - reply_tac [("origin", VEnum EnSettledOrigin "results_rejected"); ("task_to_compute", VMsg MTaskToCompute x x0 x1 x2 x3)]%string.
  - reply_tac [("origin", VEnum EnSettledOrigin "results_accepted_timeout"); ("task_to_compute", VMsg MTaskToCompute x x0 x1 x2 x3)]%string.
Qed.

Lemma get_result_good n now o r  : 2 ^ 40 <= n <= 2 ^ 58 -> 0 <= now < 2 ^ 62 -> In o (expected_owners MForceGetTaskResult) -> good n MReportComputedTask r ->
  exists m, get_result_factory E now r (Some (priv o)) = Ok m /\ good (32 * n) MForceGetTaskResult m.
Proof.
  intros Hn Hnow Ho G0 . opened G0. unfold get_result_factory.
  reply_tac [("report_computed_task", VMsg MReportComputedTask x x0 x1 x2 x3)]%string.
Qed.

Lemma ack_get_good n now o r  : 2 ^ 40 <= n <= 2 ^ 58 -> 0 <= now < 2 ^ 62 -> In o (expected_owners MAckForceGetTaskResult) -> good n MForceGetTaskResult r ->
  exists m, ack_get_factory E now r (Some (priv o)) = Ok m /\ good (32 * n) MAckForceGetTaskResult m.
Proof.
  intros Hn Hnow Ho G0 . opened G0. unfold ack_get_factory.
  reply_tac [("force_get_task_result", VMsg MForceGetTaskResult x x0 x1 x2 x3)]%string.
Qed.

Lemma get_failed_good n now o t  : 2 ^ 40 <= n <= 2 ^ 58 -> 0 <= now < 2 ^ 62 -> In o (expected_owners MForceGetTaskResultFailed) -> good n MTaskToCompute t ->
  exists m, get_failed_factory E now t (Some (priv o)) = Ok m /\ good (32 * n) MForceGetTaskResultFailed m.
Proof.
  intros Hn Hnow Ho G0 . opened G0. unfold get_failed_factory.
  reply_tac [("task_to_compute", VMsg MTaskToCompute x x0 x1 x2 x3)]%string.
Qed.

Lemma get_rejected_good n now o r  : 2 ^ 40 <= n <= 2 ^ 58 -> 0 <= now < 2 ^ 62 -> In o (expected_owners MForceGetTaskResultRejected) -> good n MForceGetTaskResult r ->
  exists m, get_rejected_factory E now r (Some (priv o)) = Ok m /\ good (32 * n) MForceGetTaskResultRejected m.
Proof.
  intros Hn Hnow Ho G0 . opened G0. unfold get_rejected_factory.
  reply_tac [("force_get_task_result", VMsg MForceGetTaskResult x x0 x1 x2 x3); ("reason", VNone)]%string.
Qed.

Lemma force_results_good n now o r  : 2 ^ 40 <= n <= 2 ^ 58 -> 0 <= now < 2 ^ 62 -> In o (expected_owners MForceSubtaskResults) -> good n MAckReportComputedTask r ->
  exists m, force_results_factory E now r (Some (priv o)) = Ok m /\ good (32 * n) MForceSubtaskResults m.
Proof.
  intros Hn Hnow Ho G0 . opened G0. unfold force_results_factory.
  reply_tac [("ack_report_computed_task", VMsg MAckReportComputedTask x x0 x1 x2 x3)]%string.
Qed.

Lemma results_rejected_good n now o r (late : bool) : 2 ^ 40 <= n <= 2 ^ 58 -> 0 <= now < 2 ^ 62 -> In o (expected_owners MForceSubtaskResultsRejected) -> good n MForceSubtaskResults r ->
  exists m, results_rejected_factory E now late r (Some (priv o)) = Ok m /\ good (32 * n) MForceSubtaskResultsRejected m.
Proof.
  intros Hn Hnow Ho G0 . opened G0. unfold results_rejected_factory. destruct late.
  - reply_tac [("force_subtask_results", VMsg MForceSubtaskResults x x0 x1 x2 x3); ("reason", VEnum EnFSRRejected "too late: past the forced communication timeout")]%string.
  - reply_tac [("force_subtask_results", VMsg MForceSubtaskResults x x0 x1 x2 x3); ("reason", VEnum EnFSRRejected "premature: still within the verification timeout")]%string.
Qed.

Lemma refused_good n now o t reason : 2 ^ 40 <= n <= 2 ^ 58 -> 0 <= now < 2 ^ 62 -> In o (expected_owners MServiceRefused) -> good n MTaskToCompute t -> In reason (members EnServiceRefused) ->
  exists m, refused_factory E now reason t (Some (priv o)) = Ok m /\ good (32 * n) MServiceRefused m.
Proof.
  intros Hn Hnow Ho G0 H0. opened G0. unfold refused_factory.
  reply_tac [("task_to_compute", VMsg MTaskToCompute x x0 x1 x2 x3); ("reason", VEnum EnServiceRefused reason)]%string.
Qed.

End Factories.

(** ** What the factories make of each other's messages, up to Concent's answers; every
    message is signed with the key of a role that may sign it *)
Definition clock (t : Z) : Prop := 0 <= t < 2 ^ 62.
(** the ranges of the draws of a report *)
Definition report_ok (d : report_draws) : Prop :=
  a_text (d_address d) /\ 0 <= d_port d < 2 ^ 62 /\ (List.length (d_key_id d) <= 200)%nat /\ a_text (u "sha1:" ++ d_rsha1 d) /\
  0 <= d_rsize d < 2 ^ 62 /\ a_text (d_multihash d) /\ a_text (d_secret d).
Inductive made_up (E : env) (priv : owner -> bytes) (pk rk : bytes) : mcls -> pyval -> Prop :=
| mu_task d m : task_ok d -> pair_keys (cr E) (fst (d_eth d)) (snd (d_eth d)) ->
    signed_task E d (Some (priv ORequestor, rk)) (Some (priv OProvider, pk)) = Ok m -> made_up E priv pk rk MTaskToCompute m
| mu_report now o t d m : clock now -> In o (expected_owners MReportComputedTask) -> made_up E priv pk rk MTaskToCompute t -> report_ok d ->
    report_factory E now d t (Some (priv o)) = Ok m -> made_up E priv pk rk MReportComputedTask m
| mu_cannot now o t reason m : clock now -> In o (expected_owners MCannotComputeTask) -> made_up E priv pk rk MTaskToCompute t -> In reason (members EnCannotCompute) ->
    cannot_factory E now reason t (Some (priv o)) = Ok m -> made_up E priv pk rk MCannotComputeTask m
| mu_failure now o t err m : clock now -> In o (expected_owners MTaskFailure) -> made_up E priv pk rk MTaskToCompute t -> a_text err ->
    failure_factory E now err t (Some (priv o)) = Ok m -> made_up E priv pk rk MTaskFailure m
| mu_settled now o t b m : clock now -> In o (expected_owners MSubtaskResultsSettled) -> made_up E priv pk rk MTaskToCompute t ->
    settled_factory E now b t (Some (priv o)) = Ok m -> made_up E priv pk rk MSubtaskResultsSettled m
| mu_get_failed now o t m : clock now -> In o (expected_owners MForceGetTaskResultFailed) -> made_up E priv pk rk MTaskToCompute t ->
    get_failed_factory E now t (Some (priv o)) = Ok m -> made_up E priv pk rk MForceGetTaskResultFailed m
| mu_refused now o t reason m : clock now -> In o (expected_owners MServiceRefused) -> made_up E priv pk rk MTaskToCompute t -> In reason (members EnServiceRefused) ->
    refused_factory E now reason t (Some (priv o)) = Ok m -> made_up E priv pk rk MServiceRefused m
| mu_ack now o r m : clock now -> In o (expected_owners MAckReportComputedTask) -> made_up E priv pk rk MReportComputedTask r ->
    ack_factory E now r (Some (priv o)) = Ok m -> made_up E priv pk rk MAckReportComputedTask m
| mu_accepted now o r drawn m : clock now -> In o (expected_owners MSubtaskResultsAccepted) -> made_up E priv pk rk MReportComputedTask r -> clock drawn ->
    accepted_factory E drawn now r (Some (priv o)) = Ok m -> made_up E priv pk rk MSubtaskResultsAccepted m
| mu_rejected now o r m : clock now -> In o (expected_owners MSubtaskResultsRejected) -> made_up E priv pk rk MReportComputedTask r ->
    rejected_factory E now r (Some (priv o)) = Ok m -> made_up E priv pk rk MSubtaskResultsRejected m
| mu_force_report now o r hash m : clock now -> In o (expected_owners MForceReportComputedTask) -> made_up E priv pk rk MReportComputedTask r -> a_text hash ->
    force_report_factory E now hash r (Some (priv o)) = Ok m -> made_up E priv pk rk MForceReportComputedTask m
| mu_get_result now o r m : clock now -> In o (expected_owners MForceGetTaskResult) -> made_up E priv pk rk MReportComputedTask r ->
    get_result_factory E now r (Some (priv o)) = Ok m -> made_up E priv pk rk MForceGetTaskResult m
| mu_verify now o s m : clock now -> In o (expected_owners MSubtaskResultsVerify) -> made_up E priv pk rk MSubtaskResultsRejected s ->
    verify_factory E now s (Some (priv o)) = Ok m -> made_up E priv pk rk MSubtaskResultsVerify m
| mu_ack_get now o g m : clock now -> In o (expected_owners MAckForceGetTaskResult) -> made_up E priv pk rk MForceGetTaskResult g ->
    ack_get_factory E now g (Some (priv o)) = Ok m -> made_up E priv pk rk MAckForceGetTaskResult m
| mu_get_rejected now o g m : clock now -> In o (expected_owners MForceGetTaskResultRejected) -> made_up E priv pk rk MForceGetTaskResult g ->
    get_rejected_factory E now g (Some (priv o)) = Ok m -> made_up E priv pk rk MForceGetTaskResultRejected m
| mu_force_results now o a m : clock now -> In o (expected_owners MForceSubtaskResults) -> made_up E priv pk rk MAckReportComputedTask a ->
    force_results_factory E now a (Some (priv o)) = Ok m -> made_up E priv pk rk MForceSubtaskResults m
| mu_results_rejected now o f b m : clock now -> In o (expected_owners MForceSubtaskResultsRejected) -> made_up E priv pk rk MForceSubtaskResults f ->
    results_rejected_factory E now b f (Some (priv o)) = Ok m -> made_up E priv pk rk MForceSubtaskResultsRejected m
| mu_verdict now1 now2 now3 o1 o2 r hash f a m : clock now1 -> clock now2 -> clock now3 -> In o1 (expected_owners MForceReportComputedTask) ->
    In o2 (expected_owners MAckReportComputedTask) -> made_up E priv pk rk MReportComputedTask r -> a_text hash ->
    force_report_factory E now1 hash r (Some (priv o1)) = Ok f -> ack_factory E now2 r (Some (priv o2)) = Ok a ->
    verdict_factory E now3 f a (Some (priv OConcent)) = Ok m -> made_up E priv pk rk MVerdictReportComputedTask m.

Definition lim (c : mcls) : Z :=
  match c with
  | MTaskToCompute => 2 ^ 40
  | MReportComputedTask | MCannotComputeTask | MTaskFailure | MSubtaskResultsSettled | MForceGetTaskResultFailed | MServiceRefused => 2 ^ 45
  | MAckReportComputedTask | MSubtaskResultsAccepted | MSubtaskResultsRejected | MForceReportComputedTask | MForceGetTaskResult => 2 ^ 50
  | MSubtaskResultsVerify | MAckForceGetTaskResult | MForceGetTaskResultRejected | MForceSubtaskResults | MVerdictReportComputedTask => 2 ^ 55
  | _ => 2 ^ 60
  end.
Lemma task_good E priv pk rk ck d m : crypto_ok (cr E) -> key_pairs (cr E) priv pk rk ck -> (forall o, priv o <> []) ->
  pair_keys (cr E) (fst (d_eth d)) (snd (d_eth d)) -> task_ok d -> signed_task E d (Some (priv ORequestor, rk)) (Some (priv OProvider, pk)) = Ok m ->
  good E priv pk rk (2 ^ 40) MTaskToCompute m.
Proof.
  intros HC KP NE Ke Hd Hm. destruct (signed_task_good E priv pk rk ck d HC KP NE Ke Hd) as (m' & w0 & h0 & i0 & Hm' & Hon & _).
  assert (m' = m) by congruence. subst m'. split; [|intros _; exact Hon].
  assert (PK : forall o, exists p, pair_keys (cr E) (priv o) p /\ p = match o with OProvider => pk | ORequestor => rk | OConcent => ck end).
  { intros o. destruct (KP o) as (s & K & P). eexists. split; [|reflexivity]. specialize (NE o). destruct (priv o) as [|x k] eqn:Q; [congruence|]. exists x, k, s. auto. }
  destruct (PK ORequestor) as (? & Kr & ->). destruct (PK OProvider) as (? & Kp & ->).
  destruct (signed_task_built E d _ rk _ pk HC Hd Kr Kp Ke) as (id & sid & hs & ws & es & ts & _ & _ & _ & _ & _ & _ & _ & L & (x & Hx & Bx) & HB). cbv zeta in *.
  rewrite Hm in HB. apply Ok_inj in HB. subst m. destruct (honest_msg _ _ _ _ _ Hon) as (c & ty & t & enc & sg & a & Q & _ & M).
  assert (c = MTaskToCompute) by congruence. subst c.
  match type of Hx with slots _ ?b = _ => assert (a = b) by congruence end. subst a.
  eexists _, _, _, x. split; [reflexivity|]. split; [destruct Hd as (_ & _ & _ & _ & _ & _ & T & _); exact T|]. split; [right; eauto|]. split; [exact M|].
  split; [|split; [exact Hx|exact Bx]]. clear. constructor.
  - intros k w H. cbn [ttc_attrs In] in H. repeat (destruct H as [H|H]; [injection H as <- <-; first [reflexivity|exact I]|]). destruct H.
  - intros k w d0 an il ty ts0 enc sig b H K Hm. cbn [ttc_attrs In] in H.
    repeat (destruct H as [H|H]; [injection H as <- <-; first [discriminate K|destruct Hm as [Hm|[]]; injection Hm as <- <- <- <- <- <-]|]); try contradiction.
    constructor.
    + intros k w H. cbn [wtct_attrs In] in H. repeat (destruct H as [H|H]; [injection H as <- <-; first [reflexivity|exact I|idtac]|]); try contradiction.
      intros k w H. unfold header_attrs in H. cbn [attr_set String.eqb Ascii.eqb Bool.eqb In] in H.
      repeat (destruct H as [H|H]; [injection H as <- <-; first [exact I|split; reflexivity|idtac]|]); try contradiction.
      intros k w H. cbn [node_attrs In] in H. repeat (destruct H as [H|H]; [injection H as <- <-; split; reflexivity|]). destruct H.
    + intros k w d0 an0 il0 ty ts1 enc sig b H K0 Hm. cbn [wtct_attrs In] in H. repeat (destruct H as [H|H]; [injection H as <- <-; discriminate K0|]). destruct H.
Qed.

(** ** The verdict *)
Lemma sign_hook_attrs E c ty ts enc a p m : sign_hook E (VMsg c ty ts enc VNone a) p = Ok m -> exists sg, m = VMsg c ty ts enc sg a.
Proof.
  intros H. destruct p as [[|x k]|]; cbn [sign_hook] in H; try (apply Ok_inj in H; subst m; eauto).
  cbn [sign_message] in H. apply bind_ok in H as (h & _ & H). apply bind_ok in H as (sg & _ & H). apply Ok_inj in H. subst m. eauto.
Qed.
Lemma clone_good E priv pk rk n c m now : good E priv pk rk n c m -> c <> MHello -> clone_message E now m None None = Ok m.
Proof.
  intros [(t & sg & a & s & -> & _ & _ & M & K & _) _] N. pose proof (clone_mok E now c (VInt (type_of c)) (VInt t) (VBool false) sg (our_version E) a M K) as Q.
  unfold full in Q. destruct c; try exact Q; congruence.
Qed.
Section Verdict.
Variables (E : env) (priv : owner -> bytes) (pk rk ck : bytes).
Hypothesis HC : crypto_ok (cr E).
Hypothesis KP : key_pairs (cr E) priv pk rk ck.
Hypothesis NE : forall o, priv o <> [].
Notation good := (good E priv pk rk).
Lemma verdict_good n now1 now2 now3 o1 o2 r hash f a : 2 ^ 40 <= n -> n <= 2 ^ 50 -> 0 <= now1 < 2 ^ 62 -> 0 <= now2 < 2 ^ 62 -> 0 <= now3 < 2 ^ 62 ->
  In o1 (expected_owners MForceReportComputedTask) -> In o2 (expected_owners MAckReportComputedTask) -> good n MReportComputedTask r -> a_text hash ->
  force_report_factory E now1 hash r (Some (priv o1)) = Ok f -> ack_factory E now2 r (Some (priv o2)) = Ok a ->
  exists m, verdict_factory E now3 f a (Some (priv OConcent)) = Ok m /\ good (32 * (32 * n)) MVerdictReportComputedTask m.
Proof.
  intros N1 N2 T1 T2 T3 O1 O2 Gr Th Hf Ha.
  destruct (force_report_good E priv pk rk ck HC KP NE n now1 o1 r hash) as (f' & Hf' & Gf); try assumption; [lia|]. assert (f' = f) by congruence. subst f'.
  destruct (ack_good E priv pk rk ck HC KP NE n now2 o2 r) as (a' & Ha' & Ga); try assumption; [lia|]. assert (a' = a) by congruence. subst a'.
  pose proof (clone_good E priv pk rk n _ r now3 Gr ltac:(discriminate)) as Cl.
  destruct (good_message E priv pk rk _ _ _ Gr) as (x & x0 & x1 & x2 & x3 & Er). 
  assert (Ef : exists sg, f = VMsg MForceReportComputedTask (VInt (type_of MForceReportComputedTask)) (VInt now1) (VBool false) sg [("report_computed_task", r); ("result_hash", VStr hash)]%string).
  { rewrite Er in *. eapply sign_hook_attrs. exact Hf. }
  assert (Ea : exists sg, a = VMsg MAckReportComputedTask (VInt (type_of MAckReportComputedTask)) (VInt now2) (VBool false) sg [("report_computed_task", r)]%string).
  { rewrite Er in *. eapply sign_hook_attrs. exact Ha. }
  destruct Ef as [sf Ef]. destruct Ea as [sa Ea].
  assert (G : exists m, reply E now3 MVerdictReportComputedTask [("force_report_computed_task", f); ("ack_report_computed_task", a)]%string (Some (priv OConcent)) = Ok m /\
     good (32 * (32 * n)) MVerdictReportComputedTask m /\ exists sg, m = VMsg MVerdictReportComputedTask (VInt (type_of MVerdictReportComputedTask)) (VInt now3) (VBool false) sg
       [("force_report_computed_task", f); ("ack_report_computed_task", a)]%string).
  { set (at0 := [("force_report_computed_task", f); ("ack_report_computed_task", a)]%string).
    destruct (make_reply E priv pk rk ck (32 * n) MVerdictReportComputedTask at0 OConcent now3 HC KP NE) as (m & Hm & Gm); [clear - N1 N2; lia|exact T3|reflexivity|discriminate|reflexivity|left; reflexivity| | |].
    - intros k w [H|[H|[]]]; injection H as <- <-; right; do 2 eexists; (split; [reflexivity|assumption]).
    - exists "force_report_computed_task"%string, f. split; [left; reflexivity|]. split; [left; reflexivity|]. rewrite Ef. discriminate.
    - assert (R : reply E now3 MVerdictReportComputedTask at0 (Some (priv OConcent)) = sign_hook E (VMsg MVerdictReportComputedTask (VInt (type_of MVerdictReportComputedTask)) (VInt now3) (VBool false) VNone at0) (Some (priv OConcent))).
      { unfold at0. rewrite Ef, Ea. reflexivity. }
      exists m. rewrite R. split; [exact Hm|]. split; [exact Gm|]. eapply sign_hook_attrs; exact Hm. }
  destruct G as (m & Hm & Gm & sg & Em). exists m. split; [|exact Gm]. unfold verdict_factory. rewrite Hm. cbn [bind]. rewrite Em.
  rewrite !getattr_slot by slots_in. cbn [bind]. 
  change (attr_get_or_none "force_report_computed_task" [("force_report_computed_task"%string, f); ("ack_report_computed_task"%string, a)]) with f.
  change (attr_get_or_none "ack_report_computed_task" [("force_report_computed_task"%string, f); ("ack_report_computed_task"%string, a)]) with a.
  rewrite Ef at 1. rewrite getattr_slot by slots_in. change (attr_get_or_none "report_computed_task" _) with r. cbn [bind]. rewrite Cl. cbn [bind].
  rewrite Ea at 1. cbn [set_attr attr_set String.eqb Ascii.eqb Bool.eqb bind]. rewrite <- Ea. reflexivity.
Qed.
End Verdict.

(** ** Every message made up this way *)
Lemma made_up_good E priv pk rk ck c m : crypto_ok (cr E) -> key_pairs (cr E) priv pk rk ck -> (forall o, priv o <> []) ->
  made_up E priv pk rk c m -> good E priv pk rk (lim c) c m.
Proof.
  intros HC KP NE H. unfold clock in *.
  induction H as [d m Hd Ke Hm|now o t d m Hc Ho Ht IH Hd Hm|now o t reason m Hc Ho Ht IH Hr Hm|now o t err m Hc Ho Ht IH Hr Hm|now o t b m Hc Ho Ht IH Hm|now o t m Hc Ho Ht IH Hm|
    now o t reason m Hc Ho Ht IH Hr Hm|now o r m Hc Ho Ht IH Hm|now o r drawn m Hc Ho Ht IH Hr Hm|now o r m Hc Ho Ht IH Hm|now o r hash m Hc Ho Ht IH Hr Hm|now o r m Hc Ho Ht IH Hm|
    now o s m Hc Ho Ht IH Hm|now o g m Hc Ho Ht IH Hm|now o g m Hc Ho Ht IH Hm|now o a m Hc Ho Ht IH Hm|now o f b m Hc Ho Ht IH Hm|now1 now2 now3 o1 o2 r hash f a m Hc1 Hc2 Hc3 Ho1 Ho2 Ht IH Hr Hf Ha Hm].
  - eapply task_good; eassumption.
  - destruct Ho as [<-|[]]. destruct Hd as (D1 & D2 & D3 & D4 & D5 & D6 & D7).
    destruct (report_good E priv pk rk ck HC KP NE (2 ^ 40) t d now) as (m' & Hm' & G); try assumption; [lia|]. assert (m' = m) by congruence. subst m'. exact G.
  - destruct (cannot_good E priv pk rk ck HC KP NE (2 ^ 40) now o t reason) as (m' & Hm' & G); try assumption; [lia|]. assert (m' = m) by congruence. subst m'. exact G.
  - destruct (failure_good E priv pk rk ck HC KP NE (2 ^ 40) now o t err) as (m' & Hm' & G); try assumption; [lia|]. assert (m' = m) by congruence. subst m'. exact G.
  - destruct (settled_good E priv pk rk ck HC KP NE (2 ^ 40) now o t b) as (m' & Hm' & G); try assumption; [lia|]. assert (m' = m) by congruence. subst m'. exact G.
  - destruct (get_failed_good E priv pk rk ck HC KP NE (2 ^ 40) now o t) as (m' & Hm' & G); try assumption; [lia|]. assert (m' = m) by congruence. subst m'. exact G.
  - destruct (refused_good E priv pk rk ck HC KP NE (2 ^ 40) now o t reason) as (m' & Hm' & G); try assumption; [lia|]. assert (m' = m) by congruence. subst m'. exact G.
  - destruct (ack_good E priv pk rk ck HC KP NE (2 ^ 45) now o r) as (m' & Hm' & G); try assumption; [lia|]. assert (m' = m) by congruence. subst m'. exact G.
  - destruct (accepted_good E priv pk rk ck HC KP NE (2 ^ 45) now o r drawn) as (m' & Hm' & G); try assumption; [lia|]. assert (m' = m) by congruence. subst m'. exact G.
  - destruct (rejected_good E priv pk rk ck HC KP NE (2 ^ 45) now o r) as (m' & Hm' & G); try assumption; [lia|]. assert (m' = m) by congruence. subst m'. exact G.
  - destruct (force_report_good E priv pk rk ck HC KP NE (2 ^ 45) now o r hash) as (m' & Hm' & G); try assumption; [lia|]. assert (m' = m) by congruence. subst m'. exact G.
  - destruct (get_result_good E priv pk rk ck HC KP NE (2 ^ 45) now o r) as (m' & Hm' & G); try assumption; [lia|]. assert (m' = m) by congruence. subst m'. exact G.
  - destruct (verify_good E priv pk rk ck HC KP NE (2 ^ 50) now o s) as (m' & Hm' & G); try assumption; [lia|]. assert (m' = m) by congruence. subst m'. exact G.
  - destruct (ack_get_good E priv pk rk ck HC KP NE (2 ^ 50) now o g) as (m' & Hm' & G); try assumption; [lia|]. assert (m' = m) by congruence. subst m'. exact G.
  - destruct (get_rejected_good E priv pk rk ck HC KP NE (2 ^ 50) now o g) as (m' & Hm' & G); try assumption; [lia|]. assert (m' = m) by congruence. subst m'. exact G.
  - destruct (force_results_good E priv pk rk ck HC KP NE (2 ^ 50) now o a) as (m' & Hm' & G); try assumption; [lia|]. assert (m' = m) by congruence. subst m'. exact G.
  - destruct (results_rejected_good E priv pk rk ck HC KP NE (2 ^ 55) now o f b) as (m' & Hm' & G); try assumption; [lia|]. assert (m' = m) by congruence. subst m'. exact G.
  - destruct (verdict_good E priv pk rk ck HC KP NE (2 ^ 45) now1 now2 now3 o1 o2 r hash f a) as (m' & Hm' & G); try assumption; try lia. assert (m' = m) by congruence. subst m'. exact G.
Qed.
Lemma made_up_task c : is_task_message c = true -> c <> MHello. Proof. destruct c; discriminate. Qed.
Lemma made_up_class E priv pk rk c m : made_up E priv pk rk c m -> is_task_message c = true.
Proof. intros H. destruct H; reflexivity. Qed.
(** accepted, and cloned exactly *)
Lemma made_up_accepted E priv pk rk ck c m now : crypto_ok (cr E) -> key_pairs (cr E) priv pk rk ck -> (forall o, priv o <> []) ->
  made_up E priv pk rk c m ->
  verify_owners E m (VBytes pk) (VBytes rk) (VBytes ck) = Ok tt /\ clone_message E now m None None = Ok m.
Proof.
  intros HC KP NE H. pose proof (made_up_good E priv pk rk ck c m HC KP NE H) as G. pose proof (made_up_class _ _ _ _ _ _ H) as T. split.
  - eapply honest_accepted; try eassumption. apply G. exact T.
  - eapply clone_good; [exact G|apply made_up_task; exact T].
Qed.

(** ** The factories return *)
Lemma made_up_total E priv pk rk ck : crypto_ok (cr E) -> key_pairs (cr E) priv pk rk ck -> (forall o, priv o <> []) ->
  (forall d, task_ok d -> pair_keys (cr E) (fst (d_eth d)) (snd (d_eth d)) ->
     exists m, signed_task E d (Some (priv ORequestor, rk)) (Some (priv OProvider, pk)) = Ok m) /\
  (forall t now, made_up E priv pk rk MTaskToCompute t -> clock now ->
     (forall d, report_ok d -> exists m, report_factory E now d t (Some (priv OProvider)) = Ok m) /\
     (forall reason, In reason (members EnCannotCompute) -> exists m, cannot_factory E now reason t (Some (priv OProvider)) = Ok m) /\
     (forall err, a_text err -> exists m, failure_factory E now err t (Some (priv OProvider)) = Ok m) /\
     (forall b, exists m, settled_factory E now b t (Some (priv OConcent)) = Ok m) /\
     (exists m, get_failed_factory E now t (Some (priv OConcent)) = Ok m) /\
     (forall reason, In reason (members EnServiceRefused) -> exists m, refused_factory E now reason t (Some (priv OConcent)) = Ok m)) /\
  (forall r now, made_up E priv pk rk MReportComputedTask r -> clock now ->
     (forall o, In o (expected_owners MAckReportComputedTask) -> exists m, ack_factory E now r (Some (priv o)) = Ok m) /\
     (forall drawn, clock drawn -> exists m, accepted_factory E drawn now r (Some (priv ORequestor)) = Ok m) /\
     (forall o, In o (expected_owners MSubtaskResultsRejected) -> exists m, rejected_factory E now r (Some (priv o)) = Ok m) /\
     (forall hash o, a_text hash -> In o (expected_owners MForceReportComputedTask) -> exists m, force_report_factory E now hash r (Some (priv o)) = Ok m) /\
     (exists m, get_result_factory E now r (Some (priv ORequestor)) = Ok m) /\
     (forall now1 now2 hash o1 o2 f a, clock now1 -> clock now2 -> In o1 (expected_owners MForceReportComputedTask) ->
        In o2 (expected_owners MAckReportComputedTask) -> a_text hash -> force_report_factory E now1 hash r (Some (priv o1)) = Ok f ->
        ack_factory E now2 r (Some (priv o2)) = Ok a -> exists m, verdict_factory E now f a (Some (priv OConcent)) = Ok m)) /\
  (forall s now, made_up E priv pk rk MSubtaskResultsRejected s -> clock now -> exists m, verify_factory E now s (Some (priv OProvider)) = Ok m) /\
  (forall g now, made_up E priv pk rk MForceGetTaskResult g -> clock now ->
     (exists m, ack_get_factory E now g (Some (priv OConcent)) = Ok m) /\ (exists m, get_rejected_factory E now g (Some (priv OConcent)) = Ok m)) /\
  (forall a now o, made_up E priv pk rk MAckReportComputedTask a -> clock now -> In o (expected_owners MForceSubtaskResults) ->
     exists m, force_results_factory E now a (Some (priv o)) = Ok m) /\
  (forall f now b, made_up E priv pk rk MForceSubtaskResults f -> clock now ->
     exists m, results_rejected_factory E now b f (Some (priv OConcent)) = Ok m).
Proof.
  intros HC KP NE.
  assert (G : forall c m, made_up E priv pk rk c m -> good E priv pk rk (lim c) c m) by (intros; eapply made_up_good; eassumption).
  assert (X : forall n c (P : result pyval), (exists m, P = Ok m /\ good E priv pk rk n c m) -> exists m, P = Ok m) by (intros n c P (m & H & _); eauto).
  unfold clock in *. split.
  { intros d Hd Ke. destruct (signed_task_good E priv pk rk ck d HC KP NE Ke Hd) as (m & _ & _ & _ & H & _). eauto. }
  split.
  { intros t now H Hc. apply G in H. repeat split; intros; eapply X.
    - destruct H0 as (D1 & D2 & D3 & D4 & D5 & D6 & D7). eapply report_good; try eassumption. vm_compute; split; discriminate.
    - eapply cannot_good; try eassumption; [vm_compute; split; discriminate|left; reflexivity].
    - eapply failure_good; try eassumption; [vm_compute; split; discriminate|left; reflexivity].
    - eapply settled_good; try eassumption; [vm_compute; split; discriminate|left; reflexivity].
    - eapply get_failed_good; try eassumption; [vm_compute; split; discriminate|left; reflexivity].
    - eapply refused_good; try eassumption; [vm_compute; split; discriminate|left; reflexivity]. }
  split.
  { intros r now H Hc. apply G in H. repeat split; intros; eapply X.
    - eapply ack_good; try eassumption. vm_compute; split; discriminate.
    - eapply accepted_good; try eassumption; [vm_compute; split; discriminate|left; reflexivity].
    - eapply rejected_good; try eassumption. vm_compute; split; discriminate.
    - eapply force_report_good; try eassumption. vm_compute; split; discriminate.
    - eapply get_result_good; try eassumption; [vm_compute; split; discriminate|left; reflexivity].
    - apply (verdict_good E priv pk rk ck HC KP NE (2 ^ 45) now1 now2 now o1 o2 r hash f a); try assumption; lia. }
  split.
  { intros s now H Hc. apply G in H. eapply X. eapply verify_good; try eassumption; [vm_compute; split; discriminate|left; reflexivity]. }
  split.
  { intros g now H Hc. apply G in H. split; eapply X; [eapply ack_get_good|eapply get_rejected_good]; try eassumption; try (vm_compute; split; discriminate); left; reflexivity. }
  split.
  { intros a now o H Hc Ho. apply G in H. eapply X. eapply force_results_good; try eassumption. vm_compute; split; discriminate. }
  { intros f now b H Hc. apply G in H. eapply X. eapply results_rejected_good; try eassumption; [vm_compute; split; discriminate|left; reflexivity]. }
Qed.
(** an acceptance is valid when the clock moved by at most a quarter of an hour *)
Lemma accepted_valid E drawn now r p m : 0 <= now < 2 ^ 52 -> accepted_factory E drawn now r p = Ok m -> r <> VNone ->
  is_valid m = Ok tt <-> now - 900 <= drawn <= now.
Proof.
  intros Hn Hm Nr.
  assert (Q : exists sg, m = VMsg MSubtaskResultsAccepted (VInt (type_of MSubtaskResultsAccepted)) (VInt now) (VBool false) sg [("payment_ts", VInt drawn); ("report_computed_task", r)]%string).
  { destruct r; try congruence; eapply sign_hook_attrs; exact Hm. }
  destruct Q as [sg ->]. apply sra_iff; [exact Hn|reflexivity].
Qed.

(** ** What is signed *)
Lemma reply_verifies E now c kw k m : crypto_ok (cr E) -> k <> [] -> reply E now c kw (Some k) = Ok m ->
  exists s pub, secret_of (cr E) k = Some s /\ pub_of (cr E) s = Some pub /\ verify_signature E m (VBytes pub) = Ok tt.
Proof.
  intros HC Hk H. unfold reply in H. apply bind_ok in H as (m0 & H0 & H). destruct k as [|x k]; [congruence|]. cbn [sign_hook] in H.
  destruct (sign_verifies _ _ _ _ HC H) as (sk & q & c1 & t1 & t2 & t3 & t4 & t5 & t6 & K1 & K2 & _ & _ & _ & _ & V). eauto.
Qed.

(** ** Sending replies *)
Lemma rejected_shape E now r p m : r <> VNone -> rejected_factory E now r p = Ok m ->
  exists sg, m = VMsg MSubtaskResultsRejected (VInt (type_of MSubtaskResultsRejected)) (VInt now) (VBool false) sg
    [("report_computed_task", r); ("force_get_task_result_failed", VNone); ("reason", VEnum EnSRR "Results verification negative")]%string.
Proof. intros N H. destruct r; try congruence; eapply sign_hook_attrs; exact H. Qed.
Lemma fits_selfeq n c m : c <> MHello -> fits n c m -> val_eq m m = Ok true.
Proof.
  intros N (t & sg & a & s & -> & _ & Hs & _ & _ & S & [B _]). apply encw_iff in B as (_ & _ & B). cbn [val_eq].
  assert (Q : selfeq sg = true) by (destruct Hs as [->|(b & -> & _)]; reflexivity).
  cbn [msg_eq]. rewrite (proj2 (mcls_eqb_eq c c) eq_refl), !(py_eq_refl (VInt _)), (py_eq_refl sg), S by (try reflexivity; exact Q).
  cbn [andb bind]. rewrite (py_eq_refl s) by exact B. destruct c; try reflexivity. congruence.
Qed.
Lemma report_task E priv pk rk r : made_up E priv pk rk MReportComputedTask r -> exists t, made_up E priv pk rk MTaskToCompute t /\
  (t <> VNone -> getattr "task_to_compute" r = Ok t).
Proof.
  intros H. inversion H; subst. exists t. split; [assumption|]. intros N.
  match goal with H : report_factory _ _ _ _ _ = Ok _ |- _ => rename H into Hr end.
  assert (Q : exists sg, r = VMsg MReportComputedTask (VInt (type_of MReportComputedTask)) (VInt now) (VBool false) sg
    [("address", VStr (d_address d)); ("node_info", VNone); ("port", VInt (d_port d)); ("key_id", VBytes (d_key_id d)); ("extra_data", VNone);
     ("task_to_compute", t); ("size", VInt (d_rsize d)); ("package_hash", VStr (u "sha1:" ++ d_rsha1 d)%list); ("multihash", VStr (d_multihash d));
     ("secret", VStr (d_secret d)); ("options", VNone); ("stats", VNone)]%string).
  { destruct t; try congruence; eapply sign_hook_attrs; exact Hr. }
  destruct Q as [sg ->]. reflexivity.
Qed.
Lemma made_up_vetted E priv pk rk ck c m : crypto_ok (cr E) -> key_pairs (cr E) priv pk rk ck -> (forall o, priv o <> []) ->
  made_up E priv pk rk c m -> (c = MSubtaskResultsAccepted -> is_valid m = Ok tt) -> vet E c m = Ok tt.
Proof.
  intros HC KP NE H V. pose proof (made_up_good _ _ _ _ _ _ _ HC KP NE H) as G. destruct (good_message _ _ _ _ _ _ _ G) as (ty & ts & enc & sg & a & Em).
  destruct H; try (rewrite Em; reflexivity).
  - destruct (signed_task_good E priv pk rk ck d HC KP NE ltac:(assumption) ltac:(assumption)) as (m' & ? & ? & ? & Q & _ & _ & W & _). congruence.
  - unfold vet. cbn [is_task_message]. rewrite (V eq_refl). reflexivity.
  - match goal with H : made_up _ _ _ _ MReportComputedTask r |- _ => pose proof (made_up_good _ _ _ _ _ _ _ HC KP NE H) as Gr end.
    destruct (good_message _ _ _ _ _ _ _ Gr) as (y1 & y2 & y3 & y4 & y5 & Er).
    match goal with H : rejected_factory _ _ _ _ = Ok _ |- _ => apply rejected_shape in H as (sg' & Q); [|rewrite Er; discriminate] end. clear Em. subst m. reflexivity.
  - clear Em ty ts enc sg a.
    match goal with H : made_up _ _ _ _ MReportComputedTask r |- _ => pose proof (made_up_good _ _ _ _ _ _ _ HC KP NE H) as Gr; pose proof (clone_good E priv pk rk _ _ r now3 Gr ltac:(discriminate)) as Cl; rename H into Hr end.
    destruct (good_message _ _ _ _ _ _ _ Gr) as (y1 & y2 & y3 & y4 & y5 & Er).
    match goal with H : verdict_factory _ _ _ _ _ = Ok _ |- _ => rename H into Hv end.
    match goal with H : force_report_factory _ _ _ _ _ = Ok _ |- _ => rename H into Hf end.
    match goal with H : ack_factory _ _ _ _ = Ok _ |- _ => rename H into Ha end.
    assert (Ef : exists sg, f = VMsg MForceReportComputedTask (VInt (type_of MForceReportComputedTask)) (VInt now1) (VBool false) sg [("report_computed_task", r); ("result_hash", VStr hash)]%string).
    { rewrite Er in *. eapply sign_hook_attrs. exact Hf. }
    assert (Ea : exists sg, a0 = VMsg MAckReportComputedTask (VInt (type_of MAckReportComputedTask)) (VInt now2) (VBool false) sg [("report_computed_task", r)]%string).
    { rewrite Er in *. eapply sign_hook_attrs. exact Ha. }
    destruct Ef as [sf Ef]. destruct Ea as [sa Ea]. destruct (report_task _ _ _ _ _ Hr) as (t & Ht & Hg).
    pose proof (made_up_good _ _ _ _ _ _ _ HC KP NE Ht) as Gt. destruct (good_message _ _ _ _ _ _ _ Gt) as (z1 & z2 & z3 & z4 & z5 & Et).
    specialize (Hg ltac:(rewrite Et; discriminate)). pose proof (fits_selfeq _ MTaskToCompute _ ltac:(discriminate) (proj1 Gt)) as Eq. clear Er Et Hr Ht Gt Gr Hf Ha.
    unfold verdict_factory in Hv. apply bind_ok in Hv as (m1 & Hm & Hv).
    assert (Em : exists sg, m1 = VMsg MVerdictReportComputedTask (VInt (type_of MVerdictReportComputedTask)) (VInt now3) (VBool false) sg
       [("force_report_computed_task", f); ("ack_report_computed_task", a0)]%string).
    { rewrite Ef, Ea in *. eapply sign_hook_attrs. exact Hm. }
    destruct Em as [sg ->]. clear Hm. rewrite !getattr_slot in Hv by slots_in. cbn [bind] in Hv.
    change (attr_get_or_none "force_report_computed_task" [("force_report_computed_task"%string, f); ("ack_report_computed_task"%string, a0)]) with f in Hv.
    change (attr_get_or_none "ack_report_computed_task" [("force_report_computed_task"%string, f); ("ack_report_computed_task"%string, a0)]) with a0 in Hv.
    rewrite Ef in Hv at 1. rewrite getattr_slot in Hv by slots_in. change (attr_get_or_none "report_computed_task" _) with r in Hv. cbn [bind] in Hv. rewrite Cl in Hv. cbn [bind] in Hv.
    rewrite Ea in Hv at 1. cbn [set_attr attr_set String.eqb Ascii.eqb Bool.eqb bind] in Hv. apply Ok_inj in Hv. subst m.
    unfold vet. cbn [is_task_message is_valid]. unfold verdict_valid. rewrite !getattr_slot by slots_in. cbn [bind].
    repeat match goal with |- context [attr_get_or_none "ack_report_computed_task" ?l] =>
      change (attr_get_or_none "ack_report_computed_task" l) with (VMsg MAckReportComputedTask (VInt (type_of MAckReportComputedTask)) (VInt now2) (VBool false) sa [("report_computed_task", r)]%string) end.
    repeat match goal with |- context [attr_get_or_none "force_report_computed_task" ?l] => change (attr_get_or_none "force_report_computed_task" l) with f end.
    rewrite getattr_slot by slots_in. change (attr_get_or_none "report_computed_task" [("report_computed_task"%string, r)]) with r. cbn [bind]. rewrite Hg. cbn [bind].
    rewrite Ef, getattr_slot by slots_in. change (attr_get_or_none "report_computed_task" _) with r. cbn [bind]. rewrite Hg. cbn [bind]. rewrite Eq. reflexivity.
Qed.
Lemma type_fits c : (0 <=? type_of c) && (type_of c <? 2 ^ 16) = true.
Proof.
  assert (F : forallb (fun c => (0 <=? type_of c) && (type_of c <? 2 ^ 16)) all_classes = true) by (vm_compute; reflexivity).
  exact (for_all_classes _ F c).
Qed.
Lemma made_up_delivered E E' now priv pk rk ck c ty t enc sig a key ct pub : let m := VMsg c ty (VInt t) enc sig a in cr E' = cr E -> crypto_ok (cr E) -> key_pairs (cr E) priv pk rk ck -> (forall o, priv o <> []) ->
  made_up E priv pk rk c m -> (c = MSubtaskResultsAccepted -> is_valid m = Ok tt) ->
  1262304000 < t < 32819212800 -> (ct = true -> now - 600000000 <= t * 1000000 <= now + 300000000) ->
  (forall s, slots c a = Ok s -> (vdepth s < cdepth E')%nat) ->
  (forall k, pub = Some k -> k <> [] -> verify_signature E m (VBytes k) = Ok tt) -> key_given key = false ->
  exists bs m2, serialize E m key None = (m, Ok bs) /\ deserialize E' now bs (fun b => Ok b) ct pub = Ok m2 /\ verify_owners E' m2 (VBytes pk) (VBytes rk) (VBytes ck) = Ok tt.
Proof.
  intros m HE HC KP NE H V HT HN W P K. destruct (made_up_good _ _ _ _ _ _ _ HC KP NE H) as [(t' & sg & a' & s & Em & _ & Hs & M & Kp & S & B) Hon].
  specialize (Hon (made_up_class _ _ _ _ _ _ H)). pose proof (made_up_vetted _ _ _ _ _ _ _ HC KP NE H V) as Hv. unfold m in *. clear m.
  assert (ty = VInt (type_of c) /\ t' = t /\ enc = VBool false /\ sg = sig /\ a' = a) as (-> & -> & -> & -> & ->) by (repeat split; congruence). clear Em.
  destruct (honest_signature _ _ _ _ _ _ _ _ _ _ HC Hon) as (g & -> & L).
  destruct (bnd_dumps _ _ B) as [p Hp]; [clear; destruct c; reflexivity|].
  assert (Sz : exists bs, serialize E (VMsg c (VInt (type_of c)) (VInt t) (VBool false) (VBytes g) a) key None = (VMsg c (VInt (type_of c)) (VInt t) (VBool false) (VBytes g) a, Ok bs)).
  { unfold serialize. rewrite K. unfold payload_of. rewrite S. cbn [bind]. rewrite Hp. cbn [andb is_none bind]. rewrite andb_false_r.
    unfold pack_header. rewrite (type_fits c). unfold pack_u64. replace ((0 <=? t) && (t <? 2 ^ 64)) with true by lia. cbn [bind].
    pose proof (made_up_class _ _ _ _ _ _ H) as T. destruct c; try discriminate T; eexists; reflexivity. }
  destruct Sz as [bs Sz]. exists bs.
  destruct (honest_delivered E E' now priv pk rk ck c t (VBool false) (VBytes g) a key None (VMsg c (VInt (type_of c)) (VInt t) (VBool false) (VBytes g) a) bs ct (fun b => Ok b) pub
    HE HC KP Hon HT HN) as (m2 & D & O).
  - intros s' Hs'. assert (s' = s) by congruence. subst s'. split; [destruct B as [B _]; apply encw_iff in B; tauto|]. exact (W _ S).
  - intros q _ f x Q. discriminate Q.
  - exact Sz.
  - intros k Hk Nk _. exact (P k Hk Nk).
  - exact Hv.
  - exists m2. auto.
Qed.
