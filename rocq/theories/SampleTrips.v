(** * Received sample messages: well-formed contents for the Examples *)
From Verif Require Export TripFacts Samples.

Definition attrs_of (m : pyval) : attrs_t := match m with VMsg _ _ _ _ _ a => a | _ => [] end.
Definition slots_fit (E : env) (c : mcls) (a : attrs_t) : bool :=
  match slots c a with Ok s => wirewf s && Nat.ltb (vdepth s) (cdepth E) | Err _ => false end.
(** [got k m]: what a receiver who knows [k]'s public key gets of [m] *)
Definition got (k : bytes) (m : pyval) : pyval := get VNone (load0 (Some (pub k)) (dump0 m)).
Definition good_sample (c : mcls) (m : pyval) : bool :=
  match m with
  | VMsg c' _ _ _ _ a => mcls_eqb c' c && negb (mcls_eqb c' MHello) && complete m && slots_fit E0 c a
  | _ => false
  end.
Lemma sample_ok c k m : good_sample c (got k m) = true ->
  mok c (attrs_of (got k m)) /\ mwire c (attrs_of (got k m)) /\
  forall s, slots c (attrs_of (got k m)) = Ok s -> wirewf s = true /\ (vdepth s < cdepth E0)%nat.
Proof.
  unfold got. destruct (load0 (Some (pub k)) (dump0 m)) as [g|e] eqn:L; cbn [get]; [|discriminate].
  destruct g; cbn [good_sample]; try discriminate. intros H. apply andb_true_iff in H as [H HS]. apply andb_true_iff in H as [H HC].
  apply andb_true_iff in H as [H NH]. apply mcls_eqb_eq in H. subst c0. cbn [attrs_of].
  assert (N : c <> MHello) by (intros ->; discriminate NH).
  destruct (received_ok _ _ _ _ _ _ _ _ _ _ _ _ L HC) as (t & e' & s' & v & a & _ & _ & _ & _ & -> & M & MW & _).
  rewrite full_not_hello in * by exact N. split; [exact M|]. split; [exact MW|]. intros s Hs. unfold slots_fit in HS. rewrite Hs in HS.
  apply andb_true_iff in HS as [H1 H2]. apply Nat.ltb_lt in H2. auto.
Qed.
Example samples_good :
  map (fun x => good_sample (fst x) (snd x))
    [(MTaskToCompute, got req_key ex_ttc); (MReportComputedTask, got prov_key ex_rct); (MVerdictReportComputedTask, got conc_key ex_verdict);
     (MSubtaskResultsAccepted, got req_key ex_sra); (MSubtaskResultsRejected, got req_key ex_srr); (MForcePayment, got prov_key ex_payment);
     (MWantToComputeTask, got prov_key ex_wtct)] = repeat true 7.
Proof. vm_compute. reflexivity. Qed.
