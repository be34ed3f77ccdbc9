(** * Facts about schema dictionaries and containers *)
From Verif Require Export Data CborProofs.
From Coq Require Import Permutation.

Ltac inv H := inversion H; subst; clear H.

Lemma Some_inj {A} (a b : A) : Some a = Some b -> a = b.
Proof. congruence. Qed.
Lemma mapM_ok {A B} (f : A -> result B) l r :
  mapM f l = Ok r <-> Forall2 (fun a b => f a = Ok b) l r.
Proof.
  revert r; induction l as [|a l IH]; intros r; cbn [mapM].
  - split; intros H; [apply Ok_inj in H; subst; constructor | inv H; reflexivity].
  - split.
    + intros H. apply bind_ok in H as (b & Hb & H). apply bind_ok in H as (bs & Hbs & H).
      apply Ok_inj in H; subst. constructor; [exact Hb|]. apply IH; exact Hbs.
    + intros H. inv H. rewrite H2. cbn [bind]. apply IH in H4. rewrite H4. reflexivity.
Qed.
Lemma mapM_err {A B} (f : A -> result B) l e :
  mapM f l = Err e -> exists a, In a l /\ f a = Err e.
Proof.
  induction l as [|a l IH]; cbn [mapM]; [discriminate|].
  destruct (f a) as [b|e'] eqn:E; cbn [bind].
  - destruct (mapM f l) as [bs|e'']; cbn [bind]; [discriminate|]. intros H. injection H as ->.
    destruct (IH eq_refl) as (x & Hx & Hf). exists x; cbn [In]; auto.
  - intros H. injection H as ->. exists a; cbn [In]; auto.
Qed.
Lemma mapM_ext {A B} (f g : A -> result B) l : (forall a, In a l -> f a = g a) -> mapM f l = mapM g l.
Proof.
  induction l as [|a l IH]; intros H; cbn [mapM]; [reflexivity|].
  rewrite (H a) by (left; reflexivity). rewrite IH; [reflexivity|]. intros; apply H; right; assumption.
Qed.
Lemma mapM_map {A B C} (f : B -> result C) (g : A -> B) l : mapM f (map g l) = mapM (fun a => f (g a)) l.
Proof. induction l as [|a l IH]; cbn [mapM map]; [reflexivity|]. rewrite IH. reflexivity. Qed.
Lemma mapM_total {A B} (f : A -> result B) (g : A -> B) l :
  (forall a, In a l -> f a = Ok (g a)) -> mapM f l = Ok (map g l).
Proof.
  induction l as [|a l IH]; intros H; cbn [mapM map]; [reflexivity|].
  rewrite (H a) by (left; reflexivity). cbn [bind]. rewrite IH; [reflexivity|]. intros; apply H; right; assumption.
Qed.

(** ** Names *)
Fixpoint snodup (l : list string) : bool :=
  match l with [] => true | x :: r => negb (existsb (String.eqb x) r) && snodup r end.
Lemma snodup_NoDup l : snodup l = true -> NoDup l.
Proof.
  induction l as [|x l IH]; cbn [snodup]; [constructor|].
  rewrite andb_true_iff, negb_true_iff. intros [H1 H2]. constructor; [|auto].
  intros Hin. enough (existsb (String.eqb x) l = true) by congruence.
  apply existsb_exists. exists x. split; [exact Hin|apply String.eqb_refl].
Qed.
Lemma cslots_NoDup c : NoDup (cslots c).
Proof. apply snodup_NoDup. destruct c; vm_compute; reflexivity. Qed.

Lemma cknown_iff c k : cknown c k = true <-> exists s, In s (cslots c) /\ k = u s.
Proof.
  unfold cknown. rewrite existsb_exists. split.
  - intros (s & H1 & H2). apply ustr_eqb_eq in H2. exists s; auto.
  - intros (s & H1 & ->). exists s. split; [exact H1|apply ustr_eqb_refl].
Qed.

Lemma run_validators_ok l f v : run_validators l f v = Ok tt <-> Forall (fun g => g f v = Ok tt) l.
Proof.
  induction l as [|g l IH]; cbn [run_validators].
  - split; [constructor|reflexivity].
  - split.
    + intros H. apply bind_ok in H as ([] & H1 & H2). constructor; [exact H1|apply IH, H2].
    + intros H. inv H. rewrite H2. cbn [bind]. apply IH, H3.
Qed.

(** every declared validator only raises FieldError naming its slot *)
Lemma vcheck_ofe p : only_field_error (vcheck p).
Proof. intros f v. unfold vcheck, fail_unless. destruct (p v); auto. Qed.
Lemma anystr_ofe : only_field_error validate_anystr.
Proof. intros f v. unfold validate_anystr. destruct (str_of v); auto. Qed.
Lemma cvalidators_ofe c k : Forall only_field_error (cvalidators c k).
Proof.
  destruct validators_total as (V1 & V2 & V3 & V4 & V5 & V6 & V7 & V8).
  assert (W := vcheck_ofe). assert (W' := anystr_ofe).
  unfold cvalidators. destruct c;
    repeat match goal with |- context [if ?b then _ else _] => destruct b end;
    repeat match goal with |- Forall _ (_ :: _) => apply Forall_cons | |- Forall _ [] => apply Forall_nil end;
    first [apply W | apply W' | exact V2 | exact V4 | exact V5 | exact V6 | exact V7 | exact V8 | apply V1].
Qed.
Lemma run_validators_ofe l f v : Forall only_field_error l ->
  run_validators l f v = Ok tt \/ run_validators l f v = Err (EFieldError f).
Proof.
  induction 1 as [|g l Hg Hl IH]; cbn [run_validators]; [auto|].
  destruct (Hg f v) as [H|H]; rewrite H; cbn [bind]; auto.
Qed.

(** ** Hooks never raise AttributeError *)
Lemma kwargs_of_err kvs e : kwargs_of kvs = Err e -> e = ETypeError.
Proof.
  induction kvs as [|[k v] r IH]; cbn [kwargs_of]; [discriminate|].
  destruct (str_of k) as [s|]; [|congruence].
  destruct (ustr_eqb s (u "self")); [congruence|].
  destruct (kwargs_of r); cbn [bind]; [discriminate|]. intros H; apply IH; congruence.
Qed.
Lemma star_star_err v e : star_star v = Err e -> e = ETypeError.
Proof. destruct v; cbn [star_star]; try congruence. apply kwargs_of_err. Qed.
Lemma cinit_err hook c kw e : cinit hook c kw = Err e -> (exists f, e = EFieldError f) \/ e = EMessageError.
Proof.
  unfold cinit. destruct (cload_slots hook c kw) as [a|e']; [discriminate|].
  destruct (is_field_error e') eqn:E; intros H; injection H as <-; [|auto].
  left. destruct e'; try discriminate. eauto.
Qed.

Lemma dset_err d kvs k v e : dset d kvs k v = Err e ->
  (exists f, e = EFieldError f) \/ e = EMessageError \/ e = ETypeError \/ e = EKeyError.
Proof.
  unfold dset.
  assert (V : forall (o : option ustr) (w : pyval) e0,
    (match o with Some s => match dvalidator d s with Some f => f w | None => Ok tt end | None => Ok tt end) = Err e0 ->
    exists f, e0 = EFieldError f).
  { intros [s|] w e0; [|discriminate]. destruct (dvalidator d s) as [f|] eqn:E; [|discriminate].
    unfold dvalidator in E.
    destruct validators_total as (V1 & V2 & V3 & V4 & V5 & V6 & V7 & V8).
    destruct d; try discriminate;
      repeat match type of E with context [if ?b then _ else _] => destruct b end; try discriminate;
      apply Some_inj in E; subst f; intros H; cbv beta in H.
    - destruct (V1 128 (u "task_id") w); [congruence|]. exists (u "task_id"); congruence.
    - destruct (V1 128 (u "subtask_id") w); [congruence|]. exists (u "subtask_id"); congruence.
    - repeat match type of H with context [match ?x with _ => _ end] => destruct x end; try discriminate; injection H as <-; eauto.
    - destruct (V5 (u "address") w); [congruence|]. exists (u "address"); congruence.
    - destruct (V4 (u "port") w); [congruence|]. exists (u "port"); congruence.
    - repeat match type of H with context [match ?x with _ => _ end] => destruct x end; try discriminate; injection H as <-; eauto. }
  assert (G : forall w, (do _ <- (match str_of k with
               | Some s => match dvalidator d s with Some f => f w | None => Ok tt end
               | None => Ok tt end);
      if negb (hashable k) then Err ETypeError
      else if existsb (fun it => py_eq (skey (fst it)) k) (items d) then Ok (dict_set k w kvs)
      else Err EKeyError) = Err e ->
      (exists f, e = EFieldError f) \/ e = EMessageError \/ e = ETypeError \/ e = EKeyError).
  { intros w. specialize (V (str_of k) w).
    destruct (match str_of k with Some s => _ | None => _ end) as [[]|e0]; cbn [bind].
    - destruct (negb (hashable k)); [intros H; injection H as <-; auto|].
      destruct (existsb _ _); [discriminate|]. intros H; injection H as <-; auto.
    - intros H; injection H as <-. left; apply V; reflexivity. }
  destruct d; try exact (G v).
  - destruct (hashable k); [discriminate|]. intros H; injection H as <-; auto.
  - destruct v; try (cbn [bind]; apply G).
    destruct (py_eq k (skey "node")); [|cbn [bind]; apply G].
    destruct (kwargs_of kvs0) as [kw|e1] eqn:E; cbn [bind].
    + destruct (node_new kw) as [n|e2] eqn:En; cbn [bind]; [apply G|]. intros H; injection H as <-.
      unfold node_new in En. apply cinit_err in En as [H|H]; auto.
    + intros H; injection H as <-. apply kwargs_of_err in E. auto.
Qed.

Definition dict_exn (e : exn) : Prop :=
  (exists f, e = EFieldError f) \/ e = EMessageError \/ e = ETypeError \/ e = EKeyError \/ e = EValueError.
Lemma dset_all_err d l : forall kvs e, dset_all d kvs l = Err e -> dict_exn e.
Proof.
  induction l as [|[k v] l IH]; intros kvs e; cbn [dset_all]; [discriminate|].
  destruct (dset d kvs k v) as [kvs'|e'] eqn:E; cbn [bind]; [apply IH|].
  intros H; injection H as <-. apply dset_err in E. unfold dict_exn. tauto.
Qed.
Lemma dset_iter_err d l : forall kvs e, dset_iter d kvs l = Err e -> dict_exn e.
Proof.
  induction l as [|x l IH]; intros kvs e; cbn [dset_iter]; [discriminate|]. unfold dict_exn in *.
  destruct (py_iter x) as [[|k [|v [|]]]|]; try (intros H; injection H as <-; tauto).
  destruct (dset d kvs k v) as [kvs'|e'] eqn:E; cbn [bind]; [apply IH|].
  intros H; injection H as <-. apply dset_err in E. tauto.
Qed.
Lemma dset_defaults_err d its : forall kvs e, dset_defaults d kvs its = Err e -> dict_exn e.
Proof.
  induction its as [|[k v] l IH]; intros kvs e; cbn [dset_defaults]; [discriminate|].
  destruct (dict_get (skey k) kvs); [apply IH|].
  destruct (dset d kvs (skey k) v) as [kvs'|e'] eqn:E; cbn [bind]; [apply IH|].
  intros H; injection H as <-. apply dset_err in E. unfold dict_exn. tauto.
Qed.
Lemma dict_new_err d arg e : dict_new d arg = Err e -> dict_exn e.
Proof.
  unfold dict_new.
  assert (G : forall r, (forall e0, r = Err e0 -> dict_exn e0) ->
     (do kvs <- r; do kvs' <- dset_defaults d kvs (items d); Ok (VDict d kvs')) = Err e -> dict_exn e).
  { intros [kvs|e0] Hr; cbn [bind]; [|intros H; injection H as <-; apply Hr; reflexivity].
    destruct (dset_defaults d kvs (items d)) as [|e1] eqn:E; cbn [bind]; [discriminate|].
    intros H; injection H as <-. eapply dset_defaults_err; exact E. }
  assert (T : forall e0, Err (A := list (pyval * pyval)) ETypeError = Err e0 -> dict_exn e0).
  { intros e0 H; injection H as <-. unfold dict_exn; tauto. }
  apply G. destruct arg; cbn [py_iter]; auto; try (intros; eapply dset_iter_err; eassumption).
  - intros; eapply dset_all_err; eassumption.
  - destruct (is_string_enum e0); auto. intros; eapply dset_iter_err; eassumption.
Qed.

Lemma chook_no_attr c k h v : chook c k = Some h -> h v <> Err EAttributeError.
Proof.
  assert (N : forall e, dict_exn e -> e <> EAttributeError).
  { intros e [[f H]|[H|[H|[H|H]]]]; congruence. }
  assert (I : forall hook c kw, cinit hook c kw <> Err EAttributeError).
  { intros hook c' kw H. apply cinit_err in H as [[f H]|H]; discriminate. }
  destruct c; cbn [chook]; try discriminate.
  - unfold header_hook. intros H.
    repeat match type of H with context [if ?b then _ else _] => destruct b end; try discriminate; apply Some_inj in H; subst h; cbv beta.
    + assert (S : bind (star_star v) (fun kw => node_new kw) <> Err EAttributeError).
      { destruct (star_star v) as [kw|e] eqn:E; cbn [bind]; [apply I|]. apply star_star_err in E. congruence. }
      destruct v; try exact S. destruct c; try exact S. discriminate.
    + destruct v; discriminate.
    + destruct (enum_call EnMarketType v); discriminate.
  - unfold cpu_hook. intros H.
    repeat match type of H with context [if ?b then _ else _] => destruct b end; try discriminate; apply Some_inj in H; subst h;
      (destruct (truthy v); [|discriminate]);
      (destruct (star_star v) as [kw|e] eqn:E; cbn [bind]; [|apply star_star_err in E; congruence]);
      unfold dict_new_kw; intros H; apply dict_new_err in H; apply N in H; congruence.
  - unfold provider_hook. intros H.
    repeat match type of H with context [if ?b then _ else _] => destruct b end; try discriminate; apply Some_inj in H; subst h;
      (destruct (truthy v); [|discriminate]);
      (destruct (star_star v) as [kw|e] eqn:E; cbn [bind]; [|apply star_star_err in E; congruence]);
      apply I.
Qed.

(** the class's conversion of an accepted value *)
Definition converted (c : ccls) (k : string) (v w : pyval) : Prop :=
  match chook c k with None => w = v | Some h => h v = Ok w end.

Lemma cdeser_slot_ok c k v w :
  cdeser_slot (chook c) c k v = Ok w <->
  (v = VNone /\ crequired c k = false /\ w = VNone) \/
  ((v <> VNone \/ crequired c k = true) /\ Forall (fun f => f (u k) v = Ok tt) (cvalidators c k) /\ converted c k v w).
Proof.
  unfold cdeser_slot, converted. destruct (is_none v && negb (crequired c k)) eqn:E.
  - apply andb_true_iff in E as [E1 E2]. apply is_none_true in E1. apply negb_true_iff in E2. subst.
    split; [intros H; apply Ok_inj in H; auto|]. intros [(_ & _ & ->)|([H|H] & _)]; congruence.
  - assert (P : v <> VNone \/ crequired c k = true).
    { apply andb_false_iff in E as [E|E]; [left; intros ->; discriminate|right; destruct (crequired c k); auto]. }
    split.
    + intros H. apply bind_ok in H as ([] & H1 & H2). right. split; [exact P|].
      split; [apply run_validators_ok, H1|]. destruct (chook c k) as [h|] eqn:Eh; [|apply Ok_inj in H2; auto].
      pose proof (chook_no_attr _ _ _ v Eh). destruct (h v) as [|[]]; congruence.
    + intros [(-> & H & _)|(_ & H1 & H2)]; [destruct P; congruence|].
      apply run_validators_ok in H1. rewrite H1. cbn [bind].
      destruct (chook c k) as [h|] eqn:Eh; [|congruence]. rewrite H2. reflexivity.
Qed.

Definition slot_outcome (c : ccls) (kw : list (ustr * pyval)) (k : string) (w : pyval) : Prop :=
  match kw_get (u k) kw with
  | None => crequired c k = false /\ w = cdefault c k
  | Some v =>
      (v = VNone /\ crequired c k = false /\ w = VNone) \/
      ((v <> VNone \/ crequired c k = true) /\
       Forall (fun f => f (u k) v = Ok tt) (cvalidators c k) /\ converted c k v w)
  end.

Lemma cload_slot_ok c kw k kw' : cload_slot (chook c) c kw k = Ok kw' <-> exists w, kw' = (k, w) /\ slot_outcome c kw k w.
Proof.
  unfold cload_slot, slot_outcome. destruct (kw_get (u k) kw) as [v|].
  - split.
    + intros H. apply bind_ok in H as (w & Hw & H). apply Ok_inj in H. subst. exists w. split; [reflexivity|].
      apply cdeser_slot_ok, Hw.
    + intros (w & -> & H). apply cdeser_slot_ok in H. rewrite H. reflexivity.
  - destruct (crequired c k).
    + split; [discriminate|]. intros (w & _ & H & _). discriminate.
    + split; [intros H; apply Ok_inj in H; subst; eauto|]. intros (w & -> & _ & ->). reflexivity.
Qed.

Lemma Forall2_fst {B} (l : list string) (a : list (string * B)) (P : string -> B -> Prop) :
  Forall2 (fun k kw => exists w, kw = (k, w) /\ P k w) l a ->
  map fst a = l /\ forall k w, In (k, w) a -> P k w.
Proof.
  induction 1 as [|k [k' w'] l a (w & [= -> ->] & Hp) H IH]; [split; [reflexivity|easy]|].
  destruct IH as [IH1 IH2]. split; [cbn [map fst]; congruence|].
  intros k2 w2 [Hi|Hi]; [injection Hi as -> ->; exact Hp|auto].
Qed.
Lemma Forall2_fst_inv {B} (l : list string) (a : list (string * B)) (P : string -> B -> Prop) :
  map fst a = l -> (forall k w, In (k, w) a -> P k w) ->
  Forall2 (fun k kw => exists w, kw = (k, w) /\ P k w) l a.
Proof.
  intros <-. induction a as [|[k w] a IH]; intros H; cbn [map fst]; constructor.
  - exists w. split; [reflexivity|]. apply H. left; reflexivity.
  - apply IH. intros; apply H; right; assumption.
Qed.

Lemma cnew_iff c kw o :
  cnew c kw = Ok o <->
  (forall k v, In (k, v) kw -> exists s, In s (cslots c) /\ k = u s) /\
  exists a, o = VObj c a /\ map fst a = cslots c /\ forall k w, In (k, w) a -> slot_outcome c kw k w.
Proof.
  unfold cnew, cinit, cload_slots. split.
  - intros H.
    destruct (mapM (cload_slot (chook c) c kw) (cslots c)) as [a|e] eqn:E; cbn [bind] in H;
      [|destruct (is_field_error e); discriminate].
    destruct (find _ kw) as [[k v]|] eqn:Ef; [discriminate|]. apply Ok_inj in H.
    split.
    + intros k v Hin. pose proof (find_none _ _ Ef _ Hin) as Hf. cbn [fst] in Hf.
      apply negb_false_iff in Hf. apply cknown_iff, Hf.
    + exists a. split; [auto|]. apply mapM_ok in E. apply (Forall2_fst (cslots c) a (slot_outcome c kw)).
      clear -E. induction E as [|k kwv l a H E IH]; constructor; [apply cload_slot_ok, H|exact IH].
  - intros (Hk & a & -> & Ha & Hs).
    assert (E : mapM (cload_slot (chook c) c kw) (cslots c) = Ok a).
    { apply mapM_ok. pose proof (Forall2_fst_inv _ _ _ Ha Hs) as F.
      clear -F. induction F as [|k kwv l a H F IH]; constructor; [apply cload_slot_ok, H|exact IH]. }
    rewrite E. cbn [bind].
    destruct (find _ kw) as [[k v]|] eqn:Ef; [|reflexivity].
    apply find_some in Ef as [Hin Hf]. cbn [fst] in Hf. apply negb_true_iff in Hf.
    apply Hk in Hin. apply cknown_iff in Hin. congruence.
Qed.

(** a container of a class without nested conversions only raises FieldError *)
Lemma cdeser_slot_err c k v e :
  cdeser_slot (chook c) c k v = Err e ->
  e = EFieldError (u k) /\ (exists f, In f (cvalidators c k) /\ f (u k) v <> Ok tt)
  \/ exists h, chook c k = Some h /\ h v = Err e /\ Forall (fun f => f (u k) v = Ok tt) (cvalidators c k).
Proof.
  unfold cdeser_slot. destruct (is_none v && negb (crequired c k)); [discriminate|].
  destruct (run_validators_ofe _ (u k) v (cvalidators_ofe c k)) as [H|H]; rewrite H; cbn [bind].
  - destruct (chook c k) as [h|] eqn:Eh; [|discriminate]. intros E. right. exists h. split; [reflexivity|].
    split; [destruct (h v) as [|[]]; congruence|apply run_validators_ok, H].
  - intros E. injection E as <-. left. split; [reflexivity|].
    destruct (forallb (fun f => is_ok (f (u k) v)) (cvalidators c k)) eqn:F.
    + rewrite forallb_forall in F. exfalso.
      enough (run_validators (cvalidators c k) (u k) v = Ok tt) by congruence.
      apply run_validators_ok, Forall_forall. intros f Hf. apply F in Hf. destruct (f (u k) v) as [[]|]; [reflexivity|discriminate].
    + assert (X : existsb (fun f => negb (is_ok (f (u k) v))) (cvalidators c k) = true).
      { clear -F. induction (cvalidators c k) as [|f l IH]; cbn [forallb existsb] in *; [discriminate|].
        destruct (is_ok (f (u k) v)); cbn [negb andb orb] in *; auto. }
      apply existsb_exists in X as (f & Hf & Hx). exists f. split; [exact Hf|]. intros C. rewrite C in Hx. discriminate.
Qed.

(** how a construction can fail *)
Definition nested_failure (c : ccls) (kw : list (ustr * pyval)) (e : exn) : Prop :=
  exists k v h e', In k (cslots c) /\ kw_get (u k) kw = Some v /\ chook c k = Some h /\ h v = Err e' /\
    Forall (fun f => f (u k) v = Ok tt) (cvalidators c k) /\ e = if is_field_error e' then e' else EMessageError.
Definition declaration_failure (c : ccls) (kw : list (ustr * pyval)) (f : ustr) : Prop :=
  (exists k, f = u k /\ In k (cslots c) /\ crequired c k = true /\ kw_get f kw = None) \/
  (~ (exists k, f = u k /\ In k (cslots c)) /\ exists v, In (f, v) kw) \/
  (exists k v g, f = u k /\ In k (cslots c) /\ kw_get f kw = Some v /\ In g (cvalidators c k) /\ g f v <> Ok tt).
Lemma cnew_err c kw e :
  cnew c kw = Err e -> (exists f, e = EFieldError f /\ declaration_failure c kw f) \/ nested_failure c kw e.
Proof.
  unfold cnew, cinit, cload_slots.
  destruct (mapM (cload_slot (chook c) c kw) (cslots c)) as [a|e0] eqn:E; cbn [bind].
  - destruct (find _ kw) as [[k v]|] eqn:Ef; [|discriminate]. cbn [is_field_error]. intros H. injection H as <-.
    apply find_some in Ef as [Hin Hf]. cbn [fst] in Hf. apply negb_true_iff in Hf.
    left. exists k. split; [reflexivity|]. right; left. split; [|eauto].
    intros (s & -> & Hs). enough (cknown c (u s) = true) by congruence. apply cknown_iff. eauto.
  - apply mapM_err in E as (k & Hk & E). unfold cload_slot in E. intros He.
    destruct (kw_get (u k) kw) as [v|] eqn:Eg.
    + destruct (cdeser_slot (chook c) c k v) as [w|e1] eqn:Ed; cbn [bind] in E; [discriminate|]. injection E as <-.
      apply cdeser_slot_err in Ed as [(-> & g & Hg & Hv)|(h & Hh & Hv & Hval)].
      * cbn [is_field_error] in He. injection He as <-. left. exists (u k). split; [reflexivity|].
        right; right. exists k, v, g. auto.
      * right. exists k, v, h, e1. repeat (split; [assumption|]). destruct (is_field_error e1); congruence.
    + destruct (crequired c k) eqn:Er; [|discriminate]. injection E as <-. cbn [is_field_error] in He. injection He as <-.
      left. exists (u k). split; [reflexivity|]. left. exists k. auto.
Qed.

(** a declaration failure always makes construction fail *)
Lemma declaration_failure_err c kw f : declaration_failure c kw f ->
  (forall k, In k (cslots c) -> kw_get (u k) kw = Some VNone -> crequired c k = false ->
     f = u k -> False) ->
  exists e, cnew c kw = Err e.
Proof.
  intros D Hn. destruct (cnew c kw) as [o|e] eqn:E; [|eauto]. exfalso.
  apply cnew_iff in E as (Hk & a & -> & Ha & Hs).
  assert (G : forall k, In k (cslots c) -> exists w, In (k, w) a).
  { intros k Hin. rewrite <- Ha in Hin. apply in_map_iff in Hin as ([k' w] & <- & Hin). eauto. }
  destruct D as [(k & -> & Hin & Hr & Hg)|[(Hno & v & Hin)|(k & v & g & -> & Hin & Hg & Hv & Hx)]].
  - destruct (G k Hin) as (w & Hw). apply Hs in Hw. unfold slot_outcome in Hw. rewrite Hg in Hw. destruct Hw; congruence.
  - apply Hk in Hin as (s & H1 & H2). apply Hno. eauto.
  - destruct (G k Hin) as (w & Hw). apply Hs in Hw. unfold slot_outcome in Hw. rewrite Hg in Hw.
    destruct Hw as [(-> & Hr & _)|(_ & Hf & _)]; [eapply Hn; eauto|].
    rewrite Forall_forall in Hf. apply Hf in Hv. contradiction.
Qed.

(** ** Schema dictionaries *)
Lemma py_eq_str_l a b x : str_of a = Some x ->
  py_eq a b = match str_of b with Some y => ustr_eqb x y | None => false end.
Proof.
  intros H. assert (N : num_of a = None) by (destruct a; cbn in *; congruence).
  destruct a; cbn [str_of] in H; try discriminate; cbn [py_eq num_of str_of];
    rewrite ?H; destruct b; cbn [num_of str_of]; try reflexivity.
  all: try (injection H as ->); try reflexivity.
  all: try (destruct (is_string_enum e); [injection H as ->; reflexivity|discriminate]).
Qed.
Lemma py_eq_skey_l s k : py_eq (skey s) k = true <-> str_of k = Some (u s).
Proof.
  rewrite (py_eq_str_l _ _ (u s)) by reflexivity. destruct (str_of k) as [y|]; [|split; discriminate].
  rewrite ustr_eqb_eq. split; congruence.
Qed.
Lemma py_eq_both a b x y : str_of a = Some x -> str_of b = Some y -> py_eq a b = ustr_eqb x y.
Proof. intros H1 H2. rewrite (py_eq_str_l _ _ _ H1), H2. reflexivity. Qed.

Definition key_texts (kvs : list (pyval * pyval)) : list (option ustr) := map (fun kv => str_of (fst kv)) kvs.

Lemma dict_set_texts k v kvs x :
  str_of k = Some x -> Forall (fun kv => exists y, str_of (fst kv) = Some y) kvs ->
  (In (Some x) (key_texts kvs) -> key_texts (dict_set k v kvs) = key_texts kvs) /\
  (~ In (Some x) (key_texts kvs) -> dict_set k v kvs = kvs ++ [(k, v)]).
Proof.
  intros Hk. induction kvs as [|[k' v'] r IH]; intros HF.
  - cbn [key_texts map In dict_set app]. tauto.
  - inversion HF as [|? ? [y Hy] HF']; subst. cbn [fst] in Hy. destruct (IH HF') as [IH1 IH2].
    unfold key_texts in *. cbn [dict_set map In fst app]. rewrite (py_eq_both _ _ _ _ Hy Hk).
    destruct (ustr_eqb y x) eqn:E.
    + apply ustr_eqb_eq in E. subst. split; [cbn [map fst]; auto|]. intros H. exfalso. apply H. left. exact Hy.
    + assert (y <> x) by (intros ->; rewrite ustr_eqb_refl in E; discriminate).
      split; cbn [map fst].
      * intros [H1|H1]; [congruence|]. rewrite IH1 by exact H1. reflexivity.
      * intros H1. rewrite IH2 by tauto. reflexivity.
Qed.
Lemma dict_set_in k v kvs k0 v0 : In (k0, v0) (dict_set k v kvs) ->
  In (k0, v0) kvs \/ (v0 = v /\ (k0 = k \/ (py_eq k0 k = true /\ In k0 (map fst kvs)))).
Proof.
  induction kvs as [|[k' v'] r IH]; cbn [dict_set In map fst].
  - intros [H|[]]. injection H as <- <-. auto.
  - destruct (py_eq k' k) eqn:E; cbn [In].
    + intros [H|H]; [injection H as <- <-; auto 8|auto].
    + intros [H|H]; [auto|]. apply IH in H as [H|(-> & [H|(H1 & H2)])]; auto 6.
Qed.

Definition validated (d : dcls) (t : ustr) (w : pyval) : Prop :=
  match dvalidator d t with Some f => f w = Ok tt | None => True end.
Definition declared (d : dcls) (t : ustr) : Prop := exists s, In s (map fst (items d)) /\ t = u s.

(** what holds of the contents of a schema dict under construction *)
Definition dinv (d : dcls) (kvs : list (pyval * pyval)) : Prop :=
  NoDup (key_texts kvs) /\
  forall k v, In (k, v) kvs -> exists t, str_of k = Some t /\ declared d t /\ validated d t v.

Lemma dset_spec d kvs k v kvs' : d <> DPlain -> dset d kvs k v = Ok kvs' ->
  exists t w, str_of k = Some t /\ declared d t /\ validated d t w /\ kvs' = dict_set k w kvs /\
    (w = v \/ (d = DPeer /\ t = u "node" /\ exists c n kw, v = VDict c n /\ kwargs_of n = Ok kw /\ node_new kw = Ok w)).
Proof.
  intros Hd. unfold dset.
  assert (G : forall w, (do _ <- (match str_of k with
               | Some s => match dvalidator d s with Some f => f w | None => Ok tt end
               | None => Ok tt end);
      if negb (hashable k) then Err ETypeError
      else if existsb (fun it => py_eq (skey (fst it)) k) (items d) then Ok (dict_set k w kvs)
      else Err EKeyError) = Ok kvs' ->
      exists t, str_of k = Some t /\ declared d t /\ validated d t w /\ kvs' = dict_set k w kvs).
  { intros w H. apply bind_ok in H as ([] & H1 & H2). destruct (negb (hashable k)); [discriminate|].
    destruct (existsb _ _) eqn:E; [|discriminate]. apply Ok_inj in H2.
    apply existsb_exists in E as ([s v0] & Hin & E). cbn [fst] in E. apply py_eq_skey_l in E.
    exists (u s). split; [exact E|]. split; [exists s; split; [apply (in_map fst) in Hin; exact Hin|reflexivity]|].
    split; [|auto]. rewrite E in H1. unfold validated. destruct (dvalidator d (u s)); auto. }
  assert (G' : (do _ <- (match str_of k with
               | Some s => match dvalidator d s with Some f => f v | None => Ok tt end
               | None => Ok tt end);
      if negb (hashable k) then Err ETypeError
      else if existsb (fun it => py_eq (skey (fst it)) k) (items d) then Ok (dict_set k v kvs)
      else Err EKeyError) = Ok kvs' ->
      exists t w, str_of k = Some t /\ declared d t /\ validated d t w /\ kvs' = dict_set k w kvs /\
       (w = v \/ (d = DPeer /\ t = u "node" /\ exists c n kw, v = VDict c n /\ kwargs_of n = Ok kw /\ node_new kw = Ok w))).
  { intros H. destruct (G v H) as (t & H1 & H2 & H3 & H4). exists t, v. auto 8. }
  destruct d; try congruence; try exact G'.
  destruct v; try (cbn [bind]; exact G').
  destruct (py_eq k (skey "node")) eqn:E; [|cbn [bind]; exact G'].
  intros H. apply bind_ok in H as (w & Hw & H). apply bind_ok in Hw as (kw & Hkw & Hw).
  destruct (G w H) as (t & H1 & H2 & H3 & H4). exists t, w. repeat (split; [assumption|]). right.
  split; [reflexivity|]. split; [|eauto 8].
  rewrite (py_eq_str_l _ _ _ H1) in E. cbn [str_of skey] in E. apply ustr_eqb_eq in E. exact E.
Qed.

Lemma dinv_keys d kvs : dinv d kvs -> Forall (fun kv => exists y, str_of (fst kv) = Some y) kvs.
Proof. intros [_ H]. apply Forall_forall. intros [k v] Hin. destruct (H _ _ Hin) as (t & Ht & _). eauto. Qed.

Lemma dset_dinv d kvs k v kvs' : d <> DPlain -> dinv d kvs -> dset d kvs k v = Ok kvs' ->
  dinv d kvs' /\ forall t, In (Some t) (key_texts kvs) \/ str_of k = Some t <-> In (Some t) (key_texts kvs').
Proof.
  intros Hd HI H. apply dset_spec in H as (t & w & Ht & Hdecl & Hval & -> & _); [|exact Hd].
  pose proof (dinv_keys _ _ HI) as HF. destruct HI as [HN HE].
  destruct (dict_set_texts k w kvs t Ht HF) as [T1 T2].
  assert (D : In (Some t) (key_texts kvs) \/ ~ In (Some t) (key_texts kvs)).
  { destruct (in_dec (fun a b : option ustr => ltac:(decide equality; apply list_eq_dec; apply Z.eq_dec)) (Some t) (key_texts kvs)); auto. }
  split.
  - split.
    + destruct D as [D|D]; [rewrite T1 by exact D; exact HN|]. rewrite T2 by exact D.
      unfold key_texts. rewrite map_app. cbn [map fst]. rewrite Ht. apply NoDup_Add with (a := Some t) (l := key_texts kvs).
      * rewrite <- (app_nil_r (key_texts kvs)) at 1. apply Add_app.
      * auto.
    + intros k0 v0 Hin. apply dict_set_in in Hin as [Hin|(-> & [->|(He & Hin)])]; [eauto|eauto|].
      apply in_map_iff in Hin as ([k1 v1] & Hk1 & Hin). cbn [fst] in Hk1. subst k1.
      destruct (HE _ _ Hin) as (t0 & Ht0 & Hd0 & _). exists t0.
      rewrite (py_eq_both _ _ _ _ Ht0 Ht) in He. apply ustr_eqb_eq in He. subst. auto.
  - intros t0. destruct D as [D|D].
    + rewrite T1 by exact D. split; [|auto]. intros [H|H]; [exact H|]. congruence.
    + rewrite T2 by exact D. unfold key_texts. rewrite map_app, in_app_iff. cbn [map fst In]. rewrite Ht.
      split; [intros [H|H]; [auto|right; left; congruence]|]. intros [H|[H|[]]]; [auto|right; congruence].
Qed.

Lemma dset_all_dinv d l : forall kvs kvs', d <> DPlain -> dinv d kvs -> dset_all d kvs l = Ok kvs' ->
  dinv d kvs' /\ forall t, In (Some t) (key_texts kvs) -> In (Some t) (key_texts kvs').
Proof.
  induction l as [|[k v] l IH]; intros kvs kvs' Hd HI; cbn [dset_all]; intros H.
  - apply Ok_inj in H; subst. auto.
  - apply bind_ok in H as (kvs1 & H1 & H2). destruct (dset_dinv _ _ _ _ _ Hd HI H1) as [HI1 T1].
    destruct (IH _ _ Hd HI1 H2) as [HI2 T2]. split; [exact HI2|]. intros t Ht. apply T2, T1. auto.
Qed.
Lemma dset_iter_dinv d l : forall kvs kvs', d <> DPlain -> dinv d kvs -> dset_iter d kvs l = Ok kvs' ->
  dinv d kvs'.
Proof.
  induction l as [|x l IH]; intros kvs kvs' Hd HI; cbn [dset_iter]; intros H.
  - apply Ok_inj in H; subst. auto.
  - destruct (py_iter x) as [[|k [|v [|]]]|]; try discriminate.
    apply bind_ok in H as (kvs1 & H1 & H2). destruct (dset_dinv _ _ _ _ _ Hd HI H1) as [HI1 _]. eauto.
Qed.
Lemma dict_get_texts s kvs : Forall (fun kv => exists y, str_of (fst kv) = Some y) kvs ->
  (exists v, dict_get (skey s) kvs = Some v) <-> In (Some (u s)) (key_texts kvs).
Proof.
  induction 1 as [|[k v] r [y Hy] HF IH]; cbn [dict_get key_texts map In fst] in *.
  - split; [intros [v H]; discriminate|easy].
  - rewrite (py_eq_str_l _ _ _ Hy). cbn [str_of skey].
    destruct (ustr_eqb y (u s)) eqn:E.
    + apply ustr_eqb_eq in E; subst. split; [intros _; left; exact Hy|eauto].
    + unfold key_texts in IH. rewrite IH. split; [auto|]. intros [H|H]; [|exact H]. exfalso.
      assert (y = u s) by congruence. subst. rewrite ustr_eqb_refl in E. discriminate.
Qed.
Lemma dset_defaults_dinv d its : forall kvs kvs', d <> DPlain -> dinv d kvs -> dset_defaults d kvs its = Ok kvs' ->
  dinv d kvs' /\ (forall t, In (Some t) (key_texts kvs) -> In (Some t) (key_texts kvs')) /\
  forall s w, In (s, w) its -> In (Some (u s)) (key_texts kvs').
Proof.
  induction its as [|[s w] its IH]; intros kvs kvs' Hd HI; cbn [dset_defaults]; intros H.
  - apply Ok_inj in H; subst. split; [exact HI|]. split; [auto|easy].
  - destruct (dict_get (skey s) kvs) as [w0|] eqn:E.
    + destruct (IH _ _ Hd HI H) as (A & B & C). split; [exact A|]. split; [exact B|].
      intros s1 w1 [Hi|Hi]; [injection Hi as <- <-|eauto]. apply B. apply dict_get_texts; [eapply dinv_keys; eauto|eauto].
    + apply bind_ok in H as (kvs1 & H1 & H2). destruct (dset_dinv _ _ _ _ _ Hd HI H1) as [HI1 T1].
      destruct (IH _ _ Hd HI1 H2) as (A & B & C). split; [exact A|]. split.
      * intros t Ht. apply B, T1. auto.
      * intros s1 w1 [Hi|Hi]; [injection Hi as <- <-|eauto]. apply B, T1. right. reflexivity.
Qed.

(** the full schema: exactly the declared keys, all values validated *)
Definition schema (d : dcls) (kvs : list (pyval * pyval)) : Prop :=
  Permutation (key_texts kvs) (map (fun it => Some (u (fst it))) (items d)) /\
  forall k v t, In (k, v) kvs -> str_of k = Some t -> validated d t v.

Lemma items_NoDup d : NoDup (map (fun it => Some (u (fst it))) (items d)).
Proof.
  assert (N : NoDup (map fst (items d))) by (apply snodup_NoDup; destruct d; vm_compute; reflexivity).
  induction (items d) as [|[s w] l IH]; cbn [map fst] in *; [constructor|]. inv N. constructor; [|auto].
  intros H. apply H1. apply in_map_iff in H as ([s' w'] & H & Hin). cbn [fst] in H.
  apply Some_inj, u_inj in H. subst. apply (in_map fst) in Hin. exact Hin.
Qed.
Lemma dinv_schema d kvs : dinv d kvs -> (forall s w, In (s, w) (items d) -> In (Some (u s)) (key_texts kvs)) -> schema d kvs.
Proof.
  intros [HN HE] HC. split.
  - apply NoDup_Permutation; [exact HN|apply items_NoDup|]. intros o. split.
    + intros H. unfold key_texts in H. apply in_map_iff in H as ([k v] & <- & Hin). cbn [fst].
      destruct (HE _ _ Hin) as (t & -> & (s & Hs & ->) & _). apply in_map_iff in Hs as ([s' w] & Hs & Hi). cbn [fst] in Hs. subst.
      apply in_map_iff. exists (s, w). auto.
    + intros H. apply in_map_iff in H as ([s w] & <- & Hin). cbn [fst]. eauto.
  - intros k v t Hin Ht. destruct (HE _ _ Hin) as (t' & Ht' & _ & Hv). congruence.
Qed.
Lemma schema_dinv d kvs : schema d kvs -> dinv d kvs.
Proof.
  intros [HP HV]. split.
  - eapply Permutation_NoDup; [apply Permutation_sym; exact HP|apply items_NoDup].
  - intros k v Hin.
    assert (Hk : In (str_of k) (key_texts kvs)) by (apply in_map_iff; exists (k, v); auto).
    apply (Permutation_in _ HP) in Hk. apply in_map_iff in Hk as ([s w] & He & Hi). cbn [fst] in He.
    exists (u s). split; [auto|]. split; [exists s; split; [apply (in_map fst) in Hi; exact Hi|reflexivity]|].
    eapply HV; eauto.
Qed.
Lemma dset_schema d kvs k v kvs' : d <> DPlain -> schema d kvs -> dset d kvs k v = Ok kvs' -> schema d kvs'.
Proof.
  intros Hd HS H. destruct (dset_dinv _ _ _ _ _ Hd (schema_dinv _ _ HS) H) as [HI T].
  apply dinv_schema; [exact HI|]. intros s w Hin. apply T. left. destruct HS as [HP _].
  apply (Permutation_in _ (Permutation_sym HP)). apply in_map_iff. exists (s, w). auto.
Qed.
Lemma dict_new_schema d arg o : d <> DPlain -> dict_new d arg = Ok o -> exists kvs, o = VDict d kvs /\ schema d kvs.
Proof.
  intros Hd H. unfold dict_new in H. apply bind_ok in H as (kvs & H1 & H). apply bind_ok in H as (kvs' & H2 & H).
  apply Ok_inj in H. subst. exists kvs'. split; [reflexivity|].
  assert (N : dinv d []) by (split; [constructor|easy]).
  assert (I : dinv d kvs).
  { destruct arg; try discriminate H1; cbn [py_iter] in H1; try (eapply dset_iter_dinv; eassumption).
    - eapply dset_all_dinv; eassumption.
    - destruct (is_string_enum e); [eapply dset_iter_dinv; eassumption|discriminate]. }
  destruct (dset_defaults_dinv _ _ _ _ Hd I H2) as (A & B & C). apply dinv_schema; assumption.
Qed.

(** any sequence of item assignments, successful or not *)
Definition assign (d : dcls) (kvs : list (pyval * pyval)) (op : pyval * pyval) : list (pyval * pyval) :=
  match dset d kvs (fst op) (snd op) with Ok kvs' => kvs' | Err _ => kvs end.
Lemma assigns_schema d ops : forall kvs, d <> DPlain -> schema d kvs -> schema d (fold_left (assign d) ops kvs).
Proof.
  induction ops as [|[k v] ops IH]; intros kvs Hd HS; cbn [fold_left]; [exact HS|]. apply IH; [exact Hd|].
  unfold assign. cbn [fst snd]. destruct (dset d kvs k v) eqn:E; [|exact HS]. eapply dset_schema; eauto.
Qed.

(** rebuilding a schema dict from its own contents gives it back *)
Definition plain_node (d : dcls) (v : pyval) : Prop := d = DPeer -> is_dict v = false.
Lemma dset_fresh d kvs k v : d <> DPlain ->
  (exists t, str_of k = Some t /\ declared d t /\ validated d t v) -> hashable k = true ->
  (d = DPeer -> str_of k = Some (u "node") -> is_dict v = false) ->
  dset d kvs k v = Ok (dict_set k v kvs).
Proof.
  intros Hd (t & Ht & (s & Hs & ->) & Hv) Hh Hp. unfold dset.
  assert (G : (do _ <- (match str_of k with
               | Some s => match dvalidator d s with Some f => f v | None => Ok tt end
               | None => Ok tt end);
      if negb (hashable k) then Err ETypeError
      else if existsb (fun it => py_eq (skey (fst it)) k) (items d) then Ok (dict_set k v kvs)
      else Err EKeyError) = Ok (dict_set k v kvs)).
  { rewrite Ht. unfold validated in Hv.
    assert (X : match dvalidator d (u s) with Some f => f v | None => Ok tt end = Ok tt) by (destruct (dvalidator d (u s)); auto).
    rewrite X. cbn [bind]. rewrite Hh. cbn [negb].
    replace (existsb _ _) with true; [reflexivity|]. symmetry. apply existsb_exists.
    apply in_map_iff in Hs as ([s' w] & Hs & Hi). cbn [fst] in Hs. subst. exists (s, w). split; [exact Hi|].
    apply py_eq_skey_l, Ht. }
  destruct d; try congruence; try exact G. destruct v; try (cbn [bind]; exact G).
  destruct (py_eq k (skey "node")) eqn:E; [|cbn [bind]; exact G].
  rewrite (py_eq_str_l _ _ _ Ht) in E. cbn [str_of skey] in E. apply ustr_eqb_eq in E.
  specialize (Hp eq_refl). rewrite Ht, E in Hp. specialize (Hp eq_refl). discriminate.
Qed.
Lemma hashable_str k t : str_of k = Some t -> hashable k = true.
Proof. destruct k; cbn; try discriminate; reflexivity. Qed.
Lemma dset_all_fresh d l : forall acc, d <> DPlain ->
  dinv d (acc ++ l) -> (d = DPeer -> forall k v, In (k, v) l -> str_of k = Some (u "node") -> is_dict v = false) ->
  dset_all d acc l = Ok (acc ++ l).
Proof.
  induction l as [|[k v] l IH]; intros acc Hd HI Hp; cbn [dset_all].
  - rewrite app_nil_r. reflexivity.
  - destruct HI as [HN HE]. destruct (HE k v) as (t & Ht & Hx); [apply in_or_app; right; left; reflexivity|].
    rewrite (dset_fresh d acc k v); [|exact Hd|eauto|eapply hashable_str; eauto|intros Hpe; apply Hp; [exact Hpe|left; reflexivity]].
    cbn [bind].
    assert (E : dict_set k v acc = acc ++ [(k, v)]).
    { apply (dict_set_texts k v acc t Ht).
      - apply Forall_forall. intros [k0 v0] Hin. destruct (HE k0 v0) as (t0 & Ht0 & _); [apply in_or_app; auto|]. eauto.
      - intros Hin. unfold key_texts in HN. rewrite map_app in HN. cbn [map fst] in HN. rewrite Ht in HN.
        apply NoDup_remove_2 in HN. apply HN, in_or_app. left. exact Hin. }
    rewrite E. rewrite (IH (acc ++ [(k, v)])).
    + rewrite <- app_assoc. reflexivity.
    + exact Hd.
    + rewrite <- app_assoc. split; [exact HN|exact HE].
    + intros Hpe k0 v0 Hin. apply Hp; [exact Hpe|right; exact Hin].
Qed.
Lemma dset_defaults_full d kvs its : Forall (fun kv => exists y, str_of (fst kv) = Some y) kvs ->
  (forall s w, In (s, w) its -> In (Some (u s)) (key_texts kvs)) -> dset_defaults d kvs its = Ok kvs.
Proof.
  intros HF. induction its as [|[s w] its IH]; intros H; cbn [dset_defaults]; [reflexivity|].
  destruct (proj2 (dict_get_texts s kvs HF)) as (v & Hv); [apply (H s w); left; reflexivity|]. rewrite Hv.
  apply IH. intros; eapply H; right; eassumption.
Qed.
Lemma dict_new_again d d' kvs : d <> DPlain -> schema d kvs ->
  (d = DPeer -> forall k v, In (k, v) kvs -> str_of k = Some (u "node") -> is_dict v = false) ->
  dict_new d (VDict d' kvs) = Ok (VDict d kvs).
Proof.
  intros Hd HS Hp. pose proof (schema_dinv _ _ HS) as HI. unfold dict_new.
  rewrite (dset_all_fresh d kvs [] Hd HI Hp). cbn [bind app].
  rewrite dset_defaults_full; [reflexivity|eapply dinv_keys; eauto|].
  intros s w Hin. destruct HS as [HP _]. apply (Permutation_in _ (Permutation_sym HP)). apply in_map_iff. exists (s, w). auto.
Qed.
