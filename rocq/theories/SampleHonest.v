(** * The sample exchange is an honest one (for the Examples of C66) *)
From Verif Require Export SampleTrips HonestFacts.

(** the sample exchange, up to Concent's verdict *)
Definition ex_priv (o : owner) : bytes := match o with OProvider => prov_key | ORequestor => req_key | OConcent => conc_key end.
Definition ex_pk : bytes := Eval vm_compute in pub prov_key.
Definition ex_rk : bytes := Eval vm_compute in pub req_key.
Lemma ex_pairs : key_pairs (cr E0) ex_priv ex_pk ex_rk (pub conc_key).
Proof. intros []; eexists; split; vm_compute; reflexivity. Qed.
Lemma sample_mok c k m : good_sample c (got k m) = true -> attrs_of (got k m) = attrs_of m -> mok c (attrs_of m).
Proof. intros H Q. rewrite <- Q. exact (proj1 (sample_ok c k m H)). Qed.
Definition ex_header0 : attrs_t := Eval vm_compute in
  match cnew CTaskHeader
    [(u "task_id", ex_task_id); (u "task_owner", VDict DPlain (map (fun kv => (VStr (fst kv), snd kv)) ex_node_kw));
     (u "subtasks_count", VInt 3); (u "min_version", VStr (u "2.12.0")); (u "timestamp", VInt now0);
     (u "mask", VBytes (zeros 32)); (u "market_type", VStr (u "Brass"))] with Ok (VObj _ a) => a | _ => [] end.
Lemma ex_header0_made C : made C ex_header0.
Proof.
  eapply made_new with (kw := [(u "task_id", ex_task_id); (u "task_owner", VDict DPlain (map (fun kv => (VStr (fst kv), snd kv)) ex_node_kw));
     (u "subtasks_count", VInt 3); (u "min_version", VStr (u "2.12.0")); (u "timestamp", VInt now0);
     (u "mask", VBytes (zeros 32)); (u "market_type", VStr (u "Brass"))]); [|vm_compute; reflexivity].
  intros n H. vm_compute in H. discriminate H.
Qed.
Definition unsigned (m : pyval) : pyval := match m with VMsg c ty ts e _ a => VMsg c ty ts e VNone a | _ => VNone end.
(** the attributes of a message that are task messages, by name *)
Definition task_attrs (a : attrs_t) : list string := map fst (filter (fun kv => is_task_msg (snd kv)) a).
Lemma task_attr a k w : attr_get k a = Some w -> is_task_msg w = true -> In k (task_attrs a).
Proof. intros H T. apply attr_get_In in H. apply (in_map fst (filter (fun kv => is_task_msg (snd kv)) a) (k, w)). apply filter_In. auto. Qed.
Lemma ex_ttc_honest : mok MTaskToCompute (attrs_of ex_ttc) -> honest E0 ex_priv ex_pk ex_rk ex_ttc.
Proof.
  intros M.
  assert (Et : exists ty ts e sg, ex_ttc = VMsg MTaskToCompute ty ts e sg (attrs_of ex_ttc)) by (do 4 eexists; reflexivity).
  assert (Ew : exists ty ts e sg, ex_wtct = VMsg MWantToComputeTask ty ts e sg (attrs_of ex_wtct)) by (do 4 eexists; reflexivity).
  destruct Et as (ty & ts & e & sg & Et). destruct Ew as (y1 & y2 & y3 & y4 & Ew).
  apply (honest_task E0 ex_priv ex_pk ex_rk ty ts e sg (attrs_of ex_ttc) y1 y2 y3 y4 (attrs_of ex_wtct) (hex (pub req_key)) (hex (pub prov_key)) ex_header0
    (match ex_header_obj with VObj _ a => a | _ => [] end)).
  - exact M.
  - intros k w H. destruct (is_task_msg w) eqn:T; [|reflexivity]. pose proof (task_attr _ _ _ H T) as Q. vm_compute in Q. destruct Q.
  - reflexivity.
  - vm_compute. reflexivity.
  - rewrite <- Ew. reflexivity.
  - reflexivity.
  - vm_compute. reflexivity.
  - reflexivity.
  - apply ex_header0_made.
  - vm_compute. reflexivity.
  - rewrite <- Et. vm_compute. reflexivity.
Qed.
Lemma ex_step c m o : is_task_message c = true -> c <> MTaskToCompute -> (exists ty ts e sg, m = VMsg c ty ts e sg (attrs_of m)) -> mok c (attrs_of m) ->
  In o (expected_owners c) -> sign_message E0 m (ex_priv o) = Ok m ->
  existsb (fun k => match attr_get k (attrs_of m) with Some (VMsg _ _ _ _ _ _) => true | _ => false end) (task_id_providers c) = true ->
  (forall k w, In k (task_attrs (attrs_of m)) -> attr_get k (attrs_of m) = Some w -> honest E0 ex_priv ex_pk ex_rk w) ->
  honest E0 ex_priv ex_pk ex_rk m.
Proof.
  intros T N (ty & ts & e & sg & Em) M Ho S P H.
  apply (honest_reply E0 ex_priv ex_pk ex_rk c ty ts e sg (attrs_of m) o m T N M); [| |exact Ho|rewrite <- Em; exact S].
  - intros k w Hw Tw. apply (H k w); [|exact Hw]. eapply task_attr; eassumption.
  - apply existsb_exists in P as (k & Hk & P). destruct (attr_get k (attrs_of m)) as [[]|] eqn:Q; try discriminate P. do 2 eexists. split; [exact Hk|]. split; [exact Q|discriminate].
Qed.
Lemma mok_nested c a k d an w : mok c a -> slot_kind c k = KMsg d an false -> attr_get k a = Some w ->
  (match w with VNone => false | _ => true end) = true -> mok d (attrs_of w).
Proof. intros M K Hw N. destruct (mok_msg_slot _ _ _ _ _ _ M Hw K) as [->|(y1 & y2 & y3 & y4 & b & -> & Mb)]; [discriminate N|exact Mb]. Qed.
Lemma ex_verdict_honest : honest E0 ex_priv ex_pk ex_rk ex_verdict.
Proof.
  assert (M4 : mok MVerdictReportComputedTask (attrs_of ex_verdict)).
  { apply (sample_mok MVerdictReportComputedTask conc_key ex_verdict); vm_compute; reflexivity. }
  assert (M3 : mok MForceReportComputedTask (attrs_of ex_force)).
  { eapply (mok_nested _ _ "force_report_computed_task"); [exact M4|reflexivity|reflexivity|reflexivity]. }
  assert (M3' : mok MAckReportComputedTask (attrs_of ex_ack)).
  { eapply (mok_nested _ _ "ack_report_computed_task"); [exact M4|reflexivity|reflexivity|reflexivity]. }
  assert (M2 : mok MReportComputedTask (attrs_of ex_rct)).
  { eapply (mok_nested _ _ "report_computed_task"); [exact M3|reflexivity|reflexivity|reflexivity]. }
  assert (M1 : mok MTaskToCompute (attrs_of ex_ttc)).
  { eapply (mok_nested _ _ "task_to_compute"); [exact M2|reflexivity|reflexivity|reflexivity]. }
  pose proof (ex_ttc_honest M1) as H1.
  assert (H2 : honest E0 ex_priv ex_pk ex_rk ex_rct).
  { apply (ex_step MReportComputedTask ex_rct OProvider); [reflexivity|discriminate|do 4 eexists; reflexivity|exact M2|vm_compute; auto|vm_compute; reflexivity|vm_compute; reflexivity|].
    intros k w Hk Hw. change (task_attrs (attrs_of ex_rct)) with ["task_to_compute"%string] in Hk. destruct Hk as [<-|[]].
    assert (w = ex_ttc) by (apply Some_inj; rewrite <- Hw; reflexivity). subst w. exact H1. }
  assert (H3 : honest E0 ex_priv ex_pk ex_rk ex_force).
  { apply (ex_step MForceReportComputedTask ex_force OProvider); [reflexivity|discriminate|do 4 eexists; reflexivity|exact M3|vm_compute; auto|vm_compute; reflexivity|vm_compute; reflexivity|].
    intros k w Hk Hw. change (task_attrs (attrs_of ex_force)) with ["report_computed_task"%string] in Hk. destruct Hk as [<-|[]].
    assert (w = ex_rct) by (apply Some_inj; rewrite <- Hw; reflexivity). subst w. exact H2. }
  assert (H3' : honest E0 ex_priv ex_pk ex_rk ex_ack).
  { apply (ex_step MAckReportComputedTask ex_ack ORequestor); [reflexivity|discriminate|do 4 eexists; reflexivity|exact M3'|vm_compute; auto|vm_compute; reflexivity|vm_compute; reflexivity|].
    intros k w Hk Hw. change (task_attrs (attrs_of ex_ack)) with ["report_computed_task"%string] in Hk. destruct Hk as [<-|[]].
    assert (w = ex_rct) by (apply Some_inj; rewrite <- Hw; reflexivity). subst w. exact H2. }
  apply (ex_step MVerdictReportComputedTask ex_verdict OConcent); [reflexivity|discriminate|do 4 eexists; reflexivity|exact M4|vm_compute; auto|vm_compute; reflexivity|vm_compute; reflexivity|].
  intros k w Hk Hw. change (task_attrs (attrs_of ex_verdict)) with ["force_report_computed_task"; "ack_report_computed_task"]%string in Hk. destruct Hk as [<-|[<-|[]]].
  - assert (w = ex_force) by (apply Some_inj; rewrite <- Hw; reflexivity). subst w. exact H3.
  - assert (w = ex_ack) by (apply Some_inj; rewrite <- Hw; reflexivity). subst w. exact H3'.
Qed.
