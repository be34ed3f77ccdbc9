(** * What is raised for frames and slots that are refused *)
From Verif Require Import RefuseFacts CborSpec ErrFacts SampleLoads Samples.

(** ** C81 *)
(** [Message.deserialize] raises exactly what the rules of [refused] say: they follow the
    order of the checks, and each requires that the checks before it were passed *)
Theorem C81_raised :
  forall E now bs decf ct pub e, (exists o, spells_version (our_version E) o) ->
  deserialize E now bs decf ct pub = Err e -> refused E now decf ct pub bs e.
Proof. exact raised. Qed.
Print Assumptions C81_raised.
Theorem C81_raises :
  forall E now bs decf ct pub e, (exists o, spells_version (our_version E) o) ->
  refused E now decf ct pub bs e -> deserialize E now bs decf ct pub = Err e.
Proof. exact raises. Qed.
Print Assumptions C81_raises.
(** every frame is accepted by C77's rules or refused by these, none is both, and the
    rules never name two exceptions for one frame *)
Theorem C81_one_fate :
  forall E now bs decf ct pub, (exists o, spells_version (our_version E) o) ->
  ((exists m, accepted E now decf ct pub bs m) \/ (exists e, refused E now decf ct pub bs e)) /\
  ~ ((exists m, accepted E now decf ct pub bs m) /\ (exists e, refused E now decf ct pub bs e)) /\
  forall e e', refused E now decf ct pub bs e -> refused E now decf ct pub bs e' -> e = e'.
Proof. exact one_fate. Qed.
Print Assumptions C81_one_fate.

Lemma E0_version : exists o, spells_version (our_version E0) o.
Proof.
  destruct (ver_parse (our_version E0)) as [o|] eqn:H; [exists o; apply ver_parse_iff; exact H|]. exfalso. vm_compute in H. discriminate H.
Qed.
(** a frame that is too old, of a class whose item is broken, with a key that is no key: the age is what is raised *)
Example C81_ex_first :
  refused E0 (now0 * 1000000) (fun b => Ok b) true (Some [x01]) (frame 1 (now0 - 601) x00 (repeat xaa 65 ++ [xff])) EMessageTooOldError.
Proof.
  change 1 with (type_of MRandVal). apply Rf_old; [unfold now0; lia|rewrite app_length, repeat_length; cbn [List.length]; lia|reflexivity|unfold now0; lia].
Qed.
Definition rnd_frame (c : mcls) (ts : Z) (flag : byte) (payload : bytes) : bytes := frame (type_of c) ts flag (repeat xaa 65 ++ payload).
(** {"rand_val": 5} *)
Definition rnd5 : bytes := [xa1; x68; x72; x61; x6e; x64; x5f; x76; x61; x6c; x05].
(** one frame for each rule, in their order; every frame also breaks some later rule *)
Example C81_ex_each :
  map (fun bk => deserialize E0 (now0 * 1000000) (fst bk) (fun b => if bytes_eqb b [xff] then Err EValueError else Ok b) true (snd bk))
    [(firstn 76 (rnd_frame MHello 0 x01 [xff]), Some [x01]);
     (frame 999 0 x01 (repeat xaa 65 ++ [xff]), Some [x01]);
     (frame 999 (now0 - 601) x01 (repeat xaa 65 ++ [xff]), Some [x01]);
     (rnd_frame MHello (now0 - 601) x01 [xff], Some [x01]);
     (rnd_frame MHello (now0 + 301) x01 [xff], Some [x01]);
     (rnd_frame MHello now0 x01 [xff], Some [x01]);
     (rnd_frame MRandVal now0 x01 [xff], Some [x01]);
     (rnd_frame MRandVal now0 x00 [xff], Some [x01]);
     (rnd_frame MReportComputedTask now0 x00 [xa1; x6f; x74; x61; x73; x6b; x5f; x74; x6f; x5f; x63; x6f; x6d; x70; x75; x74; x65; xf6], Some [x01]);
     (rnd_frame MRandVal now0 x00 rnd5, Some [x01]);
     (rnd_frame MRandVal now0 x00 rnd5, Some (repeat x01 64))] =
  [Err EMessageError; Err EHeaderError; Err EHeaderError; Err EMessageTooOldError; Err EMessageFromFutureError; Err EVersionMismatchError;
   Err EDecryptionError; Err ESerializationError; Err (EFieldError (u "task_to_compute")); Err EInvalidKeys; Err EInvalidSignature] /\
  load0 None bs_sra_none = Err ETypeError.
Proof. split; vm_compute; reflexivity. Qed.

(** ** C82 *)
(** if the slots of a message cannot be read, what is raised is the fault of the first
    slot, in the order of the class, that cannot be: the FieldError or MessageError that
    C83 gives its value; what was raised inside for nested messages, under the outer name
    only if that names no field *)
Theorem C82_blame :
  forall c s e, pure s = true -> (load_attrs FUEL c s = Err e <-> blame c s e).
Proof. exact blame_exact. Qed.
Print Assumptions C82_blame.
(** slots are read or blamed, never both, and blamed for one thing *)
Theorem C82_read_or_blame :
  forall c s, pure s = true ->
  ((exists a, read c s a) \/ exists e, blame c s e) /\ ~ ((exists a, read c s a) /\ exists e, blame c s e) /\
  (forall e e', blame c s e -> blame c s e' -> e = e').
Proof. exact read_or_blame. Qed.
Print Assumptions C82_read_or_blame.
(** what is wrong inside a nested message is always reported as a FieldError *)
Theorem C82_nested_field_error :
  forall c s k v d an il e, pure s = true -> stuck c s k v -> slot_kind c k = KMsg d an il -> load_attrs FUEL c s = Err e ->
  exists f, e = EFieldError f.
Proof. exact nested_field_error. Qed.
Print Assumptions C82_nested_field_error.
(** the number of subtasks is 0 in the WantToComputeTask inside a TaskToCompute *)
Definition bad_wtct : pyval := VDict DPlain [(skey "num_subtasks", VInt 0)].
Definition bad_ttc : pyval :=
  VDict DPlain [(skey "price", VStr (u "five")); (skey "want_to_compute_task", VList [VBool false; VList [VList [VInt 0; VInt 0; VBool false]; VBytes []; bad_wtct]])].
Lemma given_stuck c s k : pure s = true -> c <> MStartSessionResponse -> forall v, dict_get (skey k) (sent_slots s) = Some v ->
  (forall w, ~ slot_as (slot_kind c k) v w) -> (exists pre post, slot_names c = pre ++ k :: post /\ forallb (absent (sent_slots s)) pre = true) -> stuck c s k v.
Proof.
  intros P N v G No (pre & post & Q & F). split; [exact N|]. split; [apply given_exact; assumption|]. split; [exact No|].
  exists pre, post. split; [exact Q|]. rewrite forallb_forall in F. apply Forall_forall. intros x Hx. left. intros v' H. apply given_exact in H; [|exact P].
  specialize (F x Hx). unfold absent in F. rewrite H in F. discriminate F.
Qed.
Lemma wtct_stuck : stuck MWantToComputeTask bad_wtct "num_subtasks" (VInt 0).
Proof.
  apply given_stuck; [reflexivity|discriminate|reflexivity| |].
  - intros w H. change (slot_kind MWantToComputeTask "num_subtasks") with KNum in H. inversion H as [kd v0 w0 P| | |]; subst. inversion P; subst; lia.
  - eexists (firstn 5 (slot_names MWantToComputeTask)), _. split; [vm_compute; reflexivity|vm_compute; reflexivity].
Qed.
Example C82_ex_value : blame MWantToComputeTask bad_wtct (EFieldError (u "num_subtasks")).
Proof. 
  apply (Bl_slot _ _ _ _ (Some (u "num_subtasks")) wtct_stuck). apply SX_value; [right; cbn; auto|].
  intros w P. change (slot_kind MWantToComputeTask "num_subtasks") with KNum in P. inversion P; subst; lia.
Qed.
(** it is blamed two levels further out, though a later slot of the TaskToCompute is broken too *)
Example C82_ex_nested :
  blame MTaskToCompute bad_ttc (EFieldError (u "num_subtasks")) /\
  load_attrs FUEL MReportComputedTask
    (VDict DPlain [(skey "task_to_compute", VList [VBool false; VList [VList [VInt 0; VInt 0; VBool false]; VBytes []; bad_ttc]])]) =
  Err (EFieldError (u "num_subtasks")).
Proof.
  split; [|vm_compute; reflexivity].
  set (x := VList [VList [VInt 0; VInt 0; VBool false]; VBytes []; bad_wtct]).
  assert (No : forall a, ~ read MWantToComputeTask bad_wtct a).
  { intros a R. apply (proj1 (proj2 (read_or_blame MWantToComputeTask bad_wtct eq_refl))). split; [eauto|]. eexists. exact C82_ex_value. }
  change (EFieldError (u "num_subtasks")) with (of_slot "want_to_compute_task" (EFieldError (u "num_subtasks"))).
  eapply (Bl_inner MTaskToCompute bad_ttc "want_to_compute_task" (VList [VBool false; x]) MWantToComputeTask false false bad_wtct).
  - apply given_stuck; [reflexivity|discriminate|reflexivity| |].
    + intros w H. change (slot_kind MTaskToCompute "want_to_compute_task") with (KMsg MWantToComputeTask false false) in H.
      inversion H as [kd v0 w0 P| |d0 an0 v0 i v' w0 I Q Ne|]; subst.
      * inversion P as [| ? [[? ?]|[?|[?|?]]] | | | | | | | | | | | | ]; discriminate.
      * cbn [py_iter] in I. assert (v' = x) by congruence. subst v'. inversion Ne as [d0 v0 h sig s ty ts enc a J1 J2 R]; subst.
        unfold x in J1. cbn [py_iter] in J1. assert (s = bad_wtct) by congruence. subst s. exact (No a R).
    + eexists (firstn 5 (slot_names MTaskToCompute)), _. split; [vm_compute; reflexivity|vm_compute; reflexivity].
  - reflexivity.
  - eapply Part_one; reflexivity.
  - exact C82_ex_value.
Qed.
