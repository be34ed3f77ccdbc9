(** * What checking promissory notes can raise, for any message and any signature (C39, C58) *)
From Verif Require Export AddressFacts.

(** the exceptions there are: none of the library's own *)
Definition note_exn (e : exn) : Prop := e = ETypeError \/ e = EAttributeError \/ e = EValueError \/ e = EBinasciiError \/ e = EOverflowError.
Lemma strip_err v e : strip2 v = Err e -> note_exn e.
Proof. unfold strip2, note_exn. destruct (str_of v); [discriminate|]. intros H. left. congruence. Qed.
Lemma bytes32_err v e : to_bytes32 v = Err e -> note_exn e.
Proof. unfold to_bytes32, note_exn. cbv zeta. destruct v; repeat (match goal with |- context [if ?b then _ else _] => destruct b end); intros H; try discriminate H; assert (Q := H); injection Q as <-; auto 6. Qed.
Lemma uuid_err v e : py_uuid v = Err e -> note_exn e.
Proof. unfold py_uuid, note_exn. cbv zeta. intros H. repeat (match type of H with context [match ?x with _ => _ end] => destruct x end); try discriminate H; assert (Q := H); injection Q as <-; auto 6. Qed.
Lemma hash_err C n e : note_hash C n = Err e -> note_exn e.
Proof.
  unfold note_hash, signed_bytes, hexmsg, subtask_id_bytes. intros H.
  destruct (strip2 (n_contract n)) eqn:X; cbn [bind] in H; [|apply strip_err in X; congruence]. clear X.
  destruct (strip2 (n_from n)) eqn:X; cbn [bind] in H; [|apply strip_err in X; congruence]. clear X.
  destruct (strip2 (n_to n)) eqn:X; cbn [bind] in H; [|apply strip_err in X; congruence]. clear X.
  destruct (to_bytes32 (n_amount n)) eqn:X; cbn [bind] in H; [|apply bytes32_err in X; congruence]. clear X.
  destruct (py_uuid (n_subtask n)) eqn:X; cbn [bind] in H; [|apply uuid_err in X; congruence]. clear X.
  destruct (hexstr_to_bytes _) eqn:X in H; cbn [bind] in H; [discriminate H|]. apply hexstr_err in X. unfold note_exn. assert (Q := H). injection Q as <-. tauto.
Qed.
Lemma sig_raises C n sig e : sig_valid C n sig = Err e -> truthy sig = true /\ note_exn e.
Proof.
  unfold sig_valid. destruct (truthy sig); [|discriminate]. cbn [negb]. intros H. split; [reflexivity|].
  destruct (py_iter sig) as [[|x [|y [|w [|? ?]]]]|]; try (left; congruence).
  destruct (note_hash C n) as [h|e'] eqn:N; cbn [bind] in H; [|apply hash_err in N; congruence].
  destruct x; try (left; congruence). destruct y; try (left; congruence). destruct w; try (left; congruence).
  destruct (eth_recover C h (z, b, b0)); [discriminate H|]. right. right. left. congruence.
Qed.
Lemma getattr_err k m e : getattr k m = Err e -> e = EAttributeError.
Proof. unfold getattr. destruct (acc k m); [discriminate|congruence]. Qed.
Lemma address_err C m e : requestor_address C m = Err e -> note_exn e.
Proof.
  unfold requestor_address, note_exn. intros H. destruct (getattr _ m) eqn:G; cbn [bind] in H; [|apply getattr_err in G; right; left; congruence].
  unfold pubkey_to_address in H. destruct a; cbn [str_of] in H; repeat (match type of H with context [match ?x with _ => _ end] => destruct x end); cbn [bind] in H; try discriminate H; assert (Q := H); injection Q as <-; auto 6.
Qed.
Ltac attr_step H := match type of H with
  | context [getattr ?k ?m] => let G := fresh "G" in destruct (getattr k m) eqn:G; cbn [bind] in H; [clear G|apply getattr_err in G; right; left; congruence]
  end.
Lemma ttc_note_err C m k e : ttc_note C m k = Err e -> note_exn e.
Proof.
  unfold ttc_note. intros H. destruct (requestor_address C m) eqn:A; cbn [bind] in H; [clear A|apply address_err in A; congruence].
  do 3 attr_step H. discriminate H.
Qed.
Lemma concent_note_err C m k e : concent_note C m k = Err e -> note_exn e.
Proof.
  intros H. destruct m; try (right; left; cbn in H; congruence). destruct c; try (right; left; cbn in H; congruence); cbn [concent_note] in H.
  - destruct (requestor_address C _) eqn:A in H; cbn [bind] in H; [clear A|apply address_err in A; congruence]. do 2 attr_step H. discriminate H.
  - do 5 attr_step H. discriminate H.
Qed.
Lemma concent_note_raises C m k e : verify_concent_note C m k = Err e -> note_exn e.
Proof.
  unfold verify_concent_note. intros H. destruct (concent_note C m k) eqn:N; cbn [bind] in H; [clear N|apply concent_note_err in N; congruence].
  attr_step H. eapply sig_raises, H.
Qed.
Lemma all_notes_raise C m k e : verify_all_notes C m k = Err e -> note_exn e.
Proof.
  unfold verify_all_notes. intros H. destruct (verify_concent_note C m k) as [b|] eqn:V; cbn [bind] in H; [clear V|apply concent_note_raises in V; congruence].
  destruct b; [|discriminate H]. unfold verify_note in H. destruct (ttc_note C m k) eqn:N; cbn [bind] in H; [clear N|apply ttc_note_err in N; congruence].
  attr_step H. eapply sig_raises, H.
Qed.
