(** * Which slot the refusal of a message is blamed on *)
From Verif Require Export ReadExact FaultFacts FaultProofs.
From Verif Require Import ErrFacts.

Definition readable (c : mcls) (s : pyval) (k : string) : Prop :=
  (forall v, ~ supplied s k v) \/ exists v w, supplied s k v /\ slot_as (slot_kind c k) v w.
(** [k], given as [v], is the first slot of the class that cannot be read *)
Definition stuck (c : mcls) (s : pyval) (k : string) (v : pyval) : Prop :=
  c <> MStartSessionResponse /\ supplied s k v /\ (forall w, ~ slot_as (slot_kind c k) v w) /\
  exists pre post, slot_names c = pre ++ k :: post /\ Forall (readable c s) pre.
(** not [[header, sig, slots]] with a header of three items *)
Definition not_message (x : pyval) : Prop :=
  (forall h sig s, py_iter x <> Some [h; sig; s]) \/
  exists h sig s, py_iter x = Some [h; sig; s] /\ forall ty ts enc, py_iter h <> Some [ty; ts; enc].
(** a message slot whose value is not of the form that is expected *)
Inductive misshapen (d : mcls) (an : bool) : bool -> pyval -> Prop :=
| Mi_pair il v : (forall i v', py_iter v <> Some [i; v']) -> misshapen d an il v
| Mi_flag il v i v' : py_iter v = Some [i; v'] -> truthy v' = true -> py_eq i (VBool il) = false -> misshapen d an il v
| Mi_list v i v' : py_iter v = Some [i; v'] -> truthy v' = true -> (forall l, v' <> VList l) -> misshapen d an true v
| Mi_empty il v i v' : py_iter v = Some [i; v'] -> truthy v' = false -> (v' = VNone -> an = false) -> misshapen d an il v
| Mi_one v i v' : py_iter v = Some [i; v'] -> truthy v' = true -> not_message v' -> misshapen d an false v
| Mi_many v i l1 x l2 r : py_iter v = Some [i; VList (l1 ++ x :: l2)] -> py_eq i (VBool true) = true -> Forall2 (nested d) l1 r -> not_message x ->
    misshapen d an true v.
(** a message slot in which the slots [s] of an inner message come to be read *)
Inductive part (d : mcls) : bool -> pyval -> pyval -> Prop :=
| Part_one v i v' h sig s ty ts enc : py_iter v = Some [i; v'] -> py_eq i (VBool false) = true ->
    py_iter v' = Some [h; sig; s] -> py_iter h = Some [ty; ts; enc] -> part d false v s
| Part_many v i l1 x l2 r h sig s ty ts enc : py_iter v = Some [i; VList (l1 ++ x :: l2)] -> py_eq i (VBool true) = true -> Forall2 (nested d) l1 r ->
    py_iter x = Some [h; sig; s] -> py_iter h = Some [ty; ts; enc] -> part d true v s.
Definition of_slot (k : string) (e : exn) : exn := match e with EFieldError _ => e | _ => EFieldError (u k) end.
(** a FieldError for the field, or a bare MessageError *)
Definition raised_as (o : option ustr) : exn := match o with Some f => EFieldError f | None => EMessageError end.
(** [blame c s e]: the slots [s] of a message of class [c] cannot be read, and [e] is raised *)
Inductive blame : mcls -> pyval -> exn -> Prop :=
| Bl_slot c s k v o : stuck c s k v -> slot_fault (slot_kind c k) k v o -> blame c s (raised_as o)
| Bl_shape c s k v d an il : stuck c s k v -> slot_kind c k = KMsg d an il -> misshapen d an il v -> blame c s (EFieldError (u k))
| Bl_inner c s k v d an il s' e : stuck c s k v -> slot_kind c k = KMsg d an il -> part d il v s' -> blame d s' e -> blame c s (of_slot k e).

(** ** Proofs *)
Lemma mapM_fails {A B} (f : A -> result B) l e : mapM f l = Err e <-> exists pre x post r, l = pre ++ x :: post /\ mapM f pre = Ok r /\ f x = Err e.
Proof.
  split.
  - induction l as [|x l IH]; cbn [mapM]; [discriminate|]. destruct (f x) as [y|e0] eqn:Hx; cbn [bind].
    + destruct (mapM f l) as [r|e0] eqn:Hl; cbn [bind]; [discriminate|]. intros H. assert (e0 = e) by congruence. subst e0.
      destruct (IH eq_refl) as (pre & x' & post & r & -> & Hp & H'). exists (x :: pre), x', post, (y :: r). split; [reflexivity|]. split; [|exact H'].
      cbn [mapM]. rewrite Hx. cbn [bind]. rewrite Hp. reflexivity.
    + intros H. exists [], x, l, []. split; [reflexivity|]. split; [reflexivity|]. congruence.
  - intros (pre & x & post & r & -> & Hp & Hx). revert r Hp. induction pre as [|y pre IH]; intros r Hp; cbn [app mapM].
    + rewrite Hx. reflexivity.
    + cbn [mapM] in Hp. apply bind_ok in Hp as (z & Hz & Hp). apply bind_ok in Hp as (r' & Hr & _). rewrite Hz. cbn [bind]. rewrite (IH r' Hr). reflexivity.
Qed.
Lemma triple_truthy v a b c : py_iter v = Some [a; b; c] -> truthy v = true.
Proof.
  intros H. destruct (truthy v) eqn:T; [reflexivity|]. destruct (is_none v) eqn:N; [destruct v; discriminate|].
  destruct (falsy_iter v T N); congruence.
Qed.
Lemma of_slot_wrap {A} k (e : exn) : e = EMessageError \/ (exists f, e = EFieldError f) -> @as_field_error A k (Err e) = Err (of_slot k e).
Proof. intros [->|[f ->]]; reflexivity. Qed.

Lemma tasks_slot c k : slot_kind c k = KTasks -> k = "tasks"%string.
Proof.
  intros K. assert (F : forallb (fun c => forallb (fun p => match snd p with KTasks => (fst p =? "tasks")%string | _ => true end) (slot_table c)) all_classes = true)
    by (vm_compute; reflexivity).
  pose proof (for_all_classes _ F c) as G. cbv beta in G. rewrite forallb_forall in G.
  destruct (slot_kind_cases c k) as [I|I]; [|rewrite (slot_kind_default _ _ I) in K; discriminate]. specialize (G _ I). cbn [fst snd] in G. rewrite K in G.
  apply String.eqb_eq. exact G.
Qed.
Lemma slot_kind_msg kd : (exists d an il, kd = KMsg d an il) \/ forall d an il, kd <> KMsg d an il.
Proof. destruct kd; try (right; intros; discriminate). left. eauto. Qed.
Lemma part_pure d il v s : pure v = true -> part d il v s -> pure s = true.
Proof.
  intros P H. inversion H as [v0 i v' h sig s0 ty ts enc I1 I2 I3 I4|v0 i l1 x l2 r h sig s0 ty ts enc I1 I2 F I3 I4]; subst.
  - apply (pure_iter v' [h; sig; s]); [apply (pure_iter _ _ P I1); cbn; auto|exact I3|cbn; auto].
  - apply (pure_iter x [h; sig; s]); [|exact I3|cbn; auto]. assert (Pl : forall y, In y (l1 ++ x :: l2) -> pure y = true) by (apply pure_list; apply (pure_iter _ _ P I1); cbn; auto).
    apply Pl, in_or_app. right. left. reflexivity.
Qed.

Section Blame.
  Variable n : nat.
  Lemma single_fails d an k x : (rank d < n)%nat ->
    (exists e, deser_single (load_attrs n) d an k x = Err e /\ (x <> VNone \/ an = false) /\ not_message x /\ e = EFieldError (u k)) \/
    (exists h sig s ty ts enc, py_iter x = Some [h; sig; s] /\ py_iter h = Some [ty; ts; enc] /\
       forall e, deser_single (load_attrs n) d an k x = Err e <-> exists e', load_attrs n d s = Err e' /\ e = of_slot k e') \/
    (x = VNone /\ an = true /\ deser_single (load_attrs n) d an k x = Ok VNone).
  Proof.
    intros Rd. unfold deser_single. destruct (is_none x) eqn:N.
    - destruct x; try discriminate N. destruct an; [right; right; auto|]. left. eexists. split; [reflexivity|]. split; [auto|]. split; [left; discriminate|reflexivity].
    - assert (NV : x <> VNone) by (intros ->; discriminate N).
      destruct (py_iter x) as [l|] eqn:I.
      2:{ left. eexists. split; [reflexivity|]. split; [auto|]. split; [left; congruence|reflexivity]. }
      destruct l as [|h [|sg [|s [|y l]]]]; try (left; eexists; split; [reflexivity|]; split; [auto|]; split; [left; congruence|reflexivity]).
      destruct (py_iter h) as [l|] eqn:J.
      2:{ left. eexists. split; [reflexivity|]. split; [auto|]. split; [right; exists h, sg, s; split; [exact I|congruence]|reflexivity]. }
      destruct l as [|ty [|ts [|enc [|y l]]]];
        try (left; eexists; split; [reflexivity|]; split; [auto|]; split; [right; exists h, sg, s; split; [exact I|congruence]|reflexivity]).
      right. left. exists h, sg, s, ty, ts, enc. split; [reflexivity|]. split; [exact J|]. intros e.
      destruct (load_attrs n d s) as [a|e0] eqn:L; cbn [bind].
      + split; [discriminate|]. intros (e' & Q & _). discriminate Q.
      + rewrite of_slot_wrap by exact (load_attrs_err n d s e0 Rd L). split.
        * intros H. exists e0. split; [reflexivity|congruence].
        * intros (e' & Q & ->). congruence.
  Qed.
  Lemma IHr c s a : (rank c < n)%nat -> pure s = true -> ((exists a0, load_attrs n c s = Ok a0 /\ a = post_init c a0) <-> read c s a).
  Proof. apply read_exact. Qed.
  Lemma singles_read d k l1 : (rank d < n)%nat -> (forall x, In x l1 -> pure x = true) -> forall r,
    mapM (deser_single (load_attrs n) d false k) l1 = Ok r <-> Forall2 (nested d) l1 r.
  Proof.
    intros Rd P. apply mapM_exact. intros x Hx y. rewrite (single_exact n IHr) by (first [exact Rd|exact (P x Hx)]).
    split; [intros [(_ & Q & _)|Q]; [discriminate Q|exact Q]|auto].
  Qed.
  Lemma part_fails d an il k v s e : (rank d < n)%nat -> (il = true -> an = false) -> pure v = true -> part d il v s ->
    load_attrs n d s = Err e -> deser_message (load_attrs n) d an il k v = Err (of_slot k e).
  Proof.
    intros Rd Hil P Hp L. unfold deser_message. inversion Hp as [v0 i v' h sig s0 ty ts enc I1 I2 I3 I4|v0 i l1 x l2 r h sig s0 ty ts enc I1 I2 F I3 I4]; subst.
    - rewrite I1, I2, (triple_truthy _ _ _ _ I3), (eq_bool_truthy _ _ I2). cbn [andb negb].
      destruct (single_fails d an k v' Rd) as [(e0 & _ & _ & [N|(h0 & sg0 & s1 & Q & N)] & _)|[(h0 & sg0 & s1 & ty0 & ts0 & enc0 & Q1 & Q2 & H)|(-> & _)]].
      + exfalso. exact (N _ _ _ I3).
      + exfalso. rewrite I3 in Q. assert (h0 = h) by congruence. subst. exact (N _ _ _ I4).
      + apply H. rewrite I3 in Q1. assert (s1 = s) by congruence. subst. eauto.
      + discriminate I3.
    - rewrite (Hil eq_refl) in *. rewrite I1, I2, (eq_bool_truthy _ _ I2).
      assert (T : truthy (VList (l1 ++ x :: l2)) = true) by (destruct l1; reflexivity). rewrite T. cbn [andb negb].
      assert (Pl : forall y, In y (l1 ++ x :: l2) -> pure y = true) by (apply pure_list; apply (pure_iter _ _ P I1); cbn; auto).
      assert (M : mapM (deser_single (load_attrs n) d false k) (l1 ++ x :: l2) = Err (of_slot k e)).
      { apply mapM_fails. exists l1, x, l2, r. split; [reflexivity|]. split; [apply singles_read; [exact Rd|intros y Hy; apply Pl, in_or_app; auto|exact F]|].
        destruct (single_fails d false k x Rd) as [(e0 & _ & _ & [N|(h0 & sg0 & s1 & Q & N)] & _)|[(h0 & sg0 & s1 & ty0 & ts0 & enc0 & Q1 & Q2 & H)|(-> & Q & _)]].
        - exfalso. exact (N _ _ _ I3).
        - exfalso. rewrite I3 in Q. assert (h0 = h) by congruence. subst. exact (N _ _ _ I4).
        - apply H. rewrite I3 in Q1. assert (s1 = s) by congruence. subst. eauto.
        - discriminate Q. }
      rewrite M. reflexivity.
  Qed.
  Lemma no_message_fails d an k x : (rank d < n)%nat -> not_message x -> (x = VNone -> an = false) -> deser_single (load_attrs n) d an k x = Err (EFieldError (u k)).
  Proof.
    intros Rd N Hn. destruct (single_fails d an k x Rd) as [(e0 & H & _ & _ & ->)|[(h & sg & s & ty & ts & enc & Q1 & Q2 & _)|(-> & -> & _)]]; [exact H| |].
    - exfalso. destruct N as [N|(h0 & sg0 & s0 & Q & N)]; [exact (N _ _ _ Q1)|]. assert (h0 = h) by congruence. subst. exact (N _ _ _ Q2).
    - discriminate (Hn eq_refl).
  Qed.
  Lemma misshapen_fails d an il k v : (rank d < n)%nat -> (il = true -> an = false) -> pure v = true -> misshapen d an il v ->
    deser_message (load_attrs n) d an il k v = Err (EFieldError (u k)).
  Proof.
    intros Rd Hil P Hm. unfold deser_message.
    inversion Hm as [il0 v0 N|il0 v0 i v' I T N|v0 i v' I T N|il0 v0 i v' I T N|v0 i v' I T N|v0 i l1 x l2 r I Q F N]; subst.
    - destruct (py_iter v) as [[|a [|b [|c l]]]|]; try reflexivity. exfalso. exact (N a b eq_refl).
    - rewrite I, T, N. reflexivity.
    - rewrite I, T. cbn [andb]. destruct (py_eq i (VBool true)) eqn:Q; cbn [negb]; [|reflexivity]. rewrite (eq_bool_truthy _ _ Q).
      destruct v'; try reflexivity. exfalso. exact (N _ eq_refl).
    - rewrite I, T. cbn [andb]. apply no_message_fails; [exact Rd| |exact N]. destruct (is_none v') eqn:Z.
      + destruct v'; try discriminate Z. left. discriminate.
      + left. destruct (falsy_iter v' T Z); congruence.
    - rewrite I, T. cbn [andb]. destruct (py_eq i (VBool false)) eqn:Q; cbn [negb]; [|reflexivity]. rewrite (eq_bool_truthy _ _ Q).
      apply no_message_fails; [exact Rd|exact N|intros ->; discriminate T].
    - rewrite (Hil eq_refl) in *. rewrite I, Q, (eq_bool_truthy _ _ Q).
      assert (T : truthy (VList (l1 ++ x :: l2)) = true) by (destruct l1; reflexivity). rewrite T. cbn [andb negb].
      assert (Pl : forall y, In y (l1 ++ x :: l2) -> pure y = true) by (apply pure_list; apply (pure_iter _ _ P I); cbn; auto).
      assert (M : mapM (deser_single (load_attrs n) d false k) (l1 ++ x :: l2) = Err (EFieldError (u k))).
      { apply mapM_fails. exists l1, x, l2, r. split; [reflexivity|]. split; [apply singles_read; [exact Rd|intros y Hy; apply Pl, in_or_app; auto|exact F]|].
        apply no_message_fails; auto. }
      rewrite M. reflexivity.
  Qed.
  Lemma message_fails d an il k v e : (rank d < n)%nat -> (il = true -> an = false) -> pure v = true ->
    deser_message (load_attrs n) d an il k v = Err e ->
    (misshapen d an il v /\ e = EFieldError (u k)) \/ exists s e', part d il v s /\ load_attrs n d s = Err e' /\ e = of_slot k e'.
  Proof.
    intros Rd Hil P H. unfold deser_message in H.
    destruct (py_iter v) as [l|] eqn:I; [|left; split; [apply Mi_pair; congruence|congruence]].
    destruct l as [|i [|v' [|y l]]]; try (left; split; [apply Mi_pair; congruence|congruence]).
    destruct (truthy v') eqn:T; cbn [andb] in H.
    - destruct (py_eq i (VBool il)) eqn:Q; cbn [negb] in H; [|left; split; [eapply Mi_flag; eassumption|congruence]].
      rewrite (eq_bool_truthy _ _ Q) in H. destruct il.
      + rewrite (Hil eq_refl) in *. destruct v' as [| | | | | |l| | | | | | |]; try (left; split; [eapply Mi_list; [eassumption|exact T|discriminate]|congruence]).
        destruct (mapM _ l) as [r|e0] eqn:M; cbn [bind] in H; [discriminate H|]. assert (e0 = e) by congruence. subst e0.
        apply mapM_fails in M as (l1 & x & l2 & r & -> & M & Hx).
        assert (Pl : forall y, In y (l1 ++ x :: l2) -> pure y = true) by (apply pure_list; apply (pure_iter _ _ P I); cbn; auto).
        apply singles_read in M; [|exact Rd|intros y Hy; apply Pl, in_or_app; auto].
        destruct (single_fails d false k x Rd) as [(e0 & H1 & _ & N & ->)|[(h & sg & s & ty & ts & enc & Q1 & Q2 & H1)|(-> & Q1 & _)]].
        * left. split; [eapply Mi_many; eassumption|congruence].
        * right. apply H1 in Hx as (e' & L & ->). exists s, e'. split; [eapply Part_many; eassumption|auto].
        * discriminate Q1.
      + destruct (single_fails d an k v' Rd) as [(e0 & H1 & _ & N & ->)|[(h & sg & s & ty & ts & enc & Q1 & Q2 & H1)|(-> & Q1 & _)]].
        * left. split; [eapply Mi_one; eassumption|congruence].
        * right. apply H1 in H as (e' & L & ->). exists s, e'. split; [eapply Part_one; eassumption|auto].
        * discriminate T.
    - destruct (single_fails d an k v' Rd) as [(e0 & H1 & Z & N & ->)|[(h & sg & s & ty & ts & enc & Q1 & Q2 & H1)|(-> & Q1 & Q2)]].
      + left. split; [eapply Mi_empty; [exact I|exact T|]|congruence]. intros ->. destruct Z; [congruence|assumption].
      + rewrite (triple_truthy _ _ _ _ Q1) in T. discriminate T.
      + rewrite H in Q2. discriminate Q2.
  Qed.
  Lemma supplied_pure s k v : pure s = true -> supplied s k v -> pure v = true.
  Proof.
    intros P H. apply given_exact in H; [|exact P]. apply dict_get_in in H as (k0 & G). unfold sent_slots in G.
    destruct (py_dict_of s) as [kvs|] eqn:D; [|destruct G]. exact (proj2 (proj1 (pures_dict_of _ _ P D) _ _ G)).
  Qed.
  (** the error of a slot that is not a message, as [load_slots] passes it on *)
  Definition passed (e : exn) : exn := if is_field_error e then e else EMessageError.
  Lemma passed_as e : e <> EFuel -> passed e = raised_as (field_of e).
  Proof. intros _. destruct e; reflexivity. Qed.
  Lemma slots_result c s : c <> MStartSessionResponse -> load_attrs (S n) c s =
    match mapM (load_slot (load_attrs n) c (sent_slots s)) (slot_names c) with
    | Err EFuel => Err EFuel
    | Err e => if is_field_error e then Err e else Err EMessageError
    | Ok a => Ok a
    end.
  Proof. intros N. cbn [load_attrs]. unfold load_slots. cbv zeta. fold (sent_slots s). destruct c; try reflexivity. congruence. Qed.
  Lemma readable_loads c s k : (rank c < S n)%nat -> pure s = true -> (readable c s k <-> exists y, load_slot (load_attrs n) c (sent_slots s) k = Ok y).
  Proof.
    intros Rc P. unfold readable. split.
    - intros [N|(v & w & S1 & S2)].
      + exists (k, VNone). apply (load_slot_exact n IHr); [exact Rc|exact P|]. split; [reflexivity|left; auto].
      + exists (k, w). apply (load_slot_exact n IHr); [exact Rc|exact P|]. split; [reflexivity|right; eauto].
    - intros [[k' w] H]. apply (load_slot_exact n IHr) in H as [_ [[N _]|(v & S1 & S2)]]; [left; exact N|right; eauto|exact Rc|exact P].
  Qed.
  Lemma stuck_load c s k v e : (rank c < S n)%nat -> pure s = true -> stuck c s k v -> deser_slot (load_attrs n) c k v = Err e -> e <> EFuel ->
    load_attrs (S n) c s = Err (passed e).
  Proof.
    intros Rc P (N & S & _ & pre & post & Hn & F) D Ne. rewrite slots_result by exact N.
    assert (M : mapM (load_slot (load_attrs n) c (sent_slots s)) (slot_names c) = Err e).
    { apply mapM_fails. assert (R : exists r, mapM (load_slot (load_attrs n) c (sent_slots s)) pre = Ok r).
      { clear Hn. induction F as [|k0 pre H0 F IH]; [eexists; reflexivity|]. apply readable_loads in H0 as [y Hy]; [|exact Rc|exact P]. destruct IH as [r Hr].
        exists (y :: r). cbn [mapM]. rewrite Hy. cbn [bind]. rewrite Hr. reflexivity. }
      destruct R as [r Hr]. exists pre, k, post, r. split; [exact Hn|]. split; [exact Hr|]. unfold load_slot.
      apply given_exact in S; [|exact P]. rewrite S, D. reflexivity. }
    rewrite M. unfold passed. destruct e; try reflexivity. congruence.
  Qed.
  Lemma load_stuck c s e : (rank c < S n)%nat -> pure s = true -> load_attrs (S n) c s = Err e ->
    exists k v e0, stuck c s k v /\ deser_slot (load_attrs n) c k v = Err e0 /\ e = passed e0.
  Proof.
    intros Rc P H. assert (N : c <> MStartSessionResponse) by (intros ->; discriminate H). pose proof (load_attrs_err (S n) c s e Rc H) as He.
    rewrite slots_result in H by exact N.
    destruct (mapM _ (slot_names c)) as [a|e0] eqn:M; [discriminate H|]. pose proof M as M'. apply mapM_fails in M' as (pre & k & post & r & Hn & Hp & Hk).
    unfold load_slot in Hk. destruct (dict_get (skey k) (sent_slots s)) as [v|] eqn:G; [|discriminate Hk].
    destruct (deser_slot (load_attrs n) c k v) as [w|e1] eqn:D; cbn [bind] in Hk; [discriminate Hk|]. assert (e1 = e0) by congruence. subst e1.
    apply given_exact in G; [|exact P]. exists k, v, e0. split; [|split; [exact D|]].
    - split; [exact N|]. split; [exact G|]. split.
      + intros w W. apply (slot_exact n IHr) in W; [congruence|exact Rc|exact (supplied_pure _ _ _ P G)].
      + exists pre, post. split; [exact Hn|]. apply mapM_ok in Hp. clear - Hp Rc P. induction Hp as [|k y pre r H F IH]; constructor; [|exact IH].
        apply readable_loads; eauto.
    - unfold passed. destruct e0; cbn [is_field_error] in *; try congruence. destruct He as [->|[f ->]]; discriminate H.
  Qed.
End Blame.
Lemma passed_field k e : e = EMessageError \/ (exists f, e = EFieldError f) -> passed (of_slot k e) = of_slot k e.
Proof. intros [->|[f ->]]; reflexivity. Qed.
Lemma fault_plain kd k v o : slot_fault kd k v o -> forall d an il, kd <> KMsg d an il.
Proof. intros H d an il ->. inversion H as [kd k0 v0 Q| | |kd k0 v0 Q| | | | | | | | |]; subst; [destruct Q as [[x Q]|Q]; [discriminate Q|]|]; cbn in Q; intuition discriminate. Qed.
Theorem blamed n : forall c s e, (rank c < n)%nat -> pure s = true -> (load_attrs n c s = Err e <-> blame c s e).
Proof.
  induction n as [|n IH]; intros c s e Rc Ps; [lia|]. split.
  - intros H. pose proof (load_attrs_err (S n) c s e Rc H) as He. destruct (load_stuck n c s e Rc Ps H) as (k & v & e0 & St & D & ->).
    pose proof St as (N & Sp & No & _). pose proof (supplied_pure s k v Ps Sp) as Pv.
    destruct (slot_kind_msg (slot_kind c k)) as [(d & an & il & K)|K].
    + pose proof (rank_decreases c k d an il K) as Rd. unfold deser_slot in D. rewrite K in D.
      apply message_fails in D as [[Mi ->]|(s' & e' & Pa & L & ->)]; [| |lia|eapply list_slots_required; exact K|exact Pv].
      * exact (Bl_shape c s k v d an il St K Mi).
      * assert (Ps' : pure s' = true) by (eapply part_pure; eassumption).
        rewrite passed_field by (apply (load_attrs_err n d s' e'); [lia|exact L]).
        exact (Bl_inner c s k v d an il s' e' St K Pa (proj1 (IH d s' e' ltac:(lia) Ps') L)).
    + assert (D' : deser_plain (slot_kind c k) k v = Err e0) by (unfold deser_slot in D; destruct (slot_kind c k); try exact D; exfalso; eapply K; reflexivity).
      rewrite passed_as by (intros ->; exact (deser_plain_nofuel _ _ _ D')). apply (Bl_slot c s k v _ St). apply plain_failing; [exact K|apply tasks_slot|exact Pv|].
      exists e0. auto.
  - intros B. inversion B as [c0 s0 k v o St Hf|c0 s0 k v d an il St Hk Mi|c0 s0 k v d an il s' e' St Hk Pa B']; subst.
    + pose proof St as (_ & Sp & No & _). pose proof (supplied_pure s k v Ps Sp) as Pv. pose proof (fault_plain _ _ _ _ Hf) as K.
      apply plain_failing in Hf as (e0 & D & <-); [|exact K|apply tasks_slot|exact Pv].
      assert (Ne : e0 <> EFuel) by (intros ->; exact (deser_plain_nofuel _ _ _ D)). rewrite <- (passed_as e0 Ne). apply (stuck_load n c s k v e0 Rc Ps St); [|exact Ne].
      unfold deser_slot. destruct (slot_kind c k); try exact D. exfalso. eapply K. reflexivity.
    + pose proof St as (_ & Sp & No & _). pose proof (rank_decreases c k d an il Hk) as Rd.
      apply (stuck_load n c s k v (EFieldError (u k)) Rc Ps St); [|discriminate].
      unfold deser_slot. rewrite Hk. apply misshapen_fails; [lia|eapply list_slots_required; exact Hk|exact (supplied_pure s k v Ps Sp)|exact Mi].
    + pose proof St as (_ & Sp & No & _). pose proof (rank_decreases c k d an il Hk) as Rd. pose proof (supplied_pure s k v Ps Sp) as Pv.
      assert (Ps' : pure s' = true) by (eapply part_pure; eassumption).
      pose proof (proj2 (IH d s' e' ltac:(lia) Ps') B') as L.
      pose proof (load_attrs_err n d s' e' ltac:(lia) L) as He.
      rewrite <- (passed_field k e' He).
      apply (stuck_load n c s k v (of_slot k e') Rc Ps St); [|destruct He as [->|[f ->]]; discriminate].
      unfold deser_slot. rewrite Hk. apply (part_fails n d an il k v s' e'); [lia|eapply list_slots_required; exact Hk|exact Pv|exact Pa|exact L].
Qed.
Theorem blame_exact c s e : pure s = true -> (load_attrs FUEL c s = Err e <-> blame c s e).
Proof. intros P. apply blamed; [apply rank_bound|exact P]. Qed.
(** so slots are read or blamed, never both, and for one thing only *)
Corollary read_or_blame c s : pure s = true ->
  ((exists a, read c s a) \/ exists e, blame c s e) /\ ~ ((exists a, read c s a) /\ exists e, blame c s e) /\ (forall e e', blame c s e -> blame c s e' -> e = e').
Proof.
  intros Ps. pose proof (fun e => blame_exact c s e Ps) as H. split; [|split].
  - destruct (load_attrs FUEL c s) as [a|e] eqn:L.
    + left. exists (post_init c a). apply read_is_load; eauto.
    + right. exists e. apply H. reflexivity.
  - intros [[a R] [e B]]. apply read_is_load in R as (a0 & L & _); [|exact Ps]. apply H in B. congruence.
  - intros e e' B B'. apply H in B, B'. congruence.
Qed.
(** the stuck slot is one *)
Lemma stuck_unique c s k v k' v' : pure s = true -> stuck c s k v -> stuck c s k' v' -> k = k' /\ v = v'.
Proof.
  intros Ps (_ & S1 & N1 & pre & post & Q1 & F1) (_ & S2 & N2 & pre' & post' & Q2 & F2).
  assert (U : forall k0 v0 v1, supplied s k0 v0 -> supplied s k0 v1 -> v0 = v1).
  { intros k0 v0 v1 H0 H1. apply given_exact in H0, H1; try exact Ps. congruence. }
  assert (X : forall k0 v0, supplied s k0 v0 -> (forall w, ~ slot_as (slot_kind c k0) v0 w) -> ~ readable c s k0).
  { intros k0 v0 H0 N0 [N|(v1 & w & H1 & W)]; [exact (N _ H0)|]. rewrite (U _ _ _ H0 H1) in N0. exact (N0 _ W). }
  assert (K : k = k').
  { rewrite Q1 in Q2. clear Q1. revert pre' Q2 F2. induction pre as [|x pre IH]; intros [|y pre'] Q2 F2; cbn [app] in Q2.
    - congruence.
    - exfalso. assert (Z : y = k) by congruence. subst y. inversion F2; subst. exact (X _ _ S1 N1 H1).
    - exfalso. assert (Z : x = k') by congruence. subst x. inversion F1; subst. exact (X _ _ S2 N2 H1).
    - inversion F1; subst. inversion F2; subst. apply (IH H2 pre'); [congruence|assumption]. }
  subst k'. split; [reflexivity|exact (U _ _ _ S1 S2)].
Qed.
Lemma nested_field_error c s k v d an il e : pure s = true -> stuck c s k v -> slot_kind c k = KMsg d an il -> load_attrs FUEL c s = Err e ->
  exists f, e = EFieldError f.
Proof.
  intros Ps St K L. apply (blame_exact c s e Ps) in L.
  inversion L as [c0 s0 k' v' o St' Hf|c0 s0 k' v' d' an' il' St' Hk Mi|c0 s0 k' v' d' an' il' s' e' St' Hk Pa B']; subst;
    destruct (stuck_unique _ _ _ _ _ _ Ps St St') as [-> ->].
  - exfalso. exact (fault_plain _ _ _ _ Hf _ _ _ K).
  - eauto.
  - unfold of_slot. destruct e'; eauto.
Qed.
