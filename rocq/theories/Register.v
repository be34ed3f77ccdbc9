(** * The message register (register.py 6-38). Classes are an arbitrary type with
    decidable equality (identity of class objects); type numbers are integers. *)
From Verif Require Export Py.

Section Register.
Context {C : Type} (ceqb : C -> C -> bool).

(** the two private dicts of a MessageRegister (register.py 8-12) *)
Record register := { types : list (Z * C); reversed : list (C * Z) }.
Definition empty_register : register := {| types := []; reversed := [] |}.

Fixpoint zget (k : Z) (d : list (Z * C)) : option C :=
  match d with
  | [] => None
  | (k', v) :: r => if k' =? k then Some v else zget k r
  end.
Fixpoint cget (k : C) (d : list (C * Z)) : option Z :=
  match d with
  | [] => None
  | (k', v) :: r => if ceqb k' k then Some v else cget k r
  end.
Fixpoint cset (k : C) (v : Z) (d : list (C * Z)) : list (C * Z) :=
  match d with
  | [] => [(k, v)]
  | (k', v') :: r => if ceqb k' k then (k', v) :: r else (k', v') :: cset k v r
  end.

(** register.py 14-25: [register(type_)(message_class)] *)
Definition do_register (t : Z) (c : C) (r : register) : result C * register :=
  match zget t (types r) with
  | Some _ => (Err ERuntimeError, r)
  | None => (Ok c, {| types := types r ++ [(t, c)]; reversed := cset c t (reversed r) |})
  end.
(** register.py 27-28 *)
Definition getitem (r : register) (t : Z) : result C :=
  match zget t (types r) with Some c => Ok c | None => Err EKeyError end.
(** register.py 30-31 *)
Definition contains (r : register) (t : Z) : bool :=
  match zget t (types r) with Some _ => true | None => false end.
(** register.py 33-34 *)
Definition get_type (r : register) (c : C) : result Z :=
  match cget c (reversed r) with Some t => Ok t | None => Err EKeyError end.

(** a history of registrations *)
Fixpoint run_register (l : list (Z * C)) (r : register) : register :=
  match l with
  | [] => r
  | (t, c) :: l' => run_register l' (snd (do_register t c r))
  end.


Lemma zget_app k d1 d2 :
  zget k (d1 ++ d2) = match zget k d1 with Some v => Some v | None => zget k d2 end.
Proof.
  induction d1 as [|[x y] d1 IH]; cbn; [reflexivity|]. destruct (x =? k); auto.
Qed.
Context (ceqb_eq : forall a b, ceqb a b = true <-> a = b).
Lemma cget_cset k v d k' : cget k' (cset k v d) = if ceqb k k' then Some v else cget k' d.
Proof.
  induction d as [|[x y] d IH]; cbn; [reflexivity|].
  destruct (ceqb x k) eqn:E.
  - apply ceqb_eq in E. subst. cbn. destruct (ceqb k k'); reflexivity.
  - cbn. rewrite IH. destruct (ceqb x k') eqn:E2; [|reflexivity].
    apply ceqb_eq in E2. subst. destruct (ceqb k k') eqn:E3; [|reflexivity].
    apply ceqb_eq in E3. subst. rewrite (proj2 (ceqb_eq k' k') eq_refl) in E. discriminate.
Qed.

(** invariant: the reverse map points back *)
Definition reg_inv (r : register) : Prop :=
  (forall c t, cget c (reversed r) = Some t -> zget t (types r) = Some c) /\
  (forall c t, zget t (types r) = Some c -> exists t', cget c (reversed r) = Some t').

Lemma reg_inv_empty : reg_inv empty_register.
Proof. split; cbn; discriminate. Qed.

Lemma reg_inv_step t c r : reg_inv r -> reg_inv (snd (do_register t c r)).
Proof.
  unfold do_register. destruct (zget t (types r)) as [x|] eqn:E; [auto|].
  intros [H1 H2]. split; cbn [snd types reversed].
  - intros c' t' H. rewrite cget_cset in H. rewrite zget_app.
    destruct (ceqb c c') eqn:Ec.
    + apply ceqb_eq in Ec. inversion H; subst. rewrite E. cbn. rewrite Z.eqb_refl. reflexivity.
    + apply H1 in H. rewrite H. reflexivity.
  - intros c' t' H. rewrite cget_cset. destruct (ceqb c c') eqn:Ec; [eauto|].
    rewrite zget_app in H. destruct (zget t' (types r)) as [y|] eqn:E2.
    + inversion H; subst. eauto.
    + cbn in H. destruct (t =? t'); [|discriminate]. inversion H; subst.
      rewrite (proj2 (ceqb_eq c' c') eq_refl) in Ec. discriminate.
Qed.
Lemma reg_inv_run l : forall r, reg_inv r -> reg_inv (run_register l r).
Proof. induction l as [|[t c] l IH]; cbn; intros r H; [exact H|]. apply IH, reg_inv_step, H. Qed.

Lemma do_register_keeps t c r t' c' : getitem r t' = Ok c' -> getitem (snd (do_register t c r)) t' = Ok c'.
Proof.
  unfold getitem, do_register. destruct (zget t (types r)); [auto|]. cbn.
  rewrite zget_app. destruct (zget t' (types r)); [auto|discriminate].
Qed.
Lemma run_register_keeps l : forall r t c, getitem r t = Ok c -> getitem (run_register l r) t = Ok c.
Proof.
  induction l as [|[t' c'] l IH]; cbn; intros r t c H; [exact H|].
  apply IH, do_register_keeps, H.
Qed.
Lemma register_fails_iff t c r :
  (exists e, fst (do_register t c r) = Err e) <-> contains r t = true.
Proof.
  unfold do_register, contains. destruct (zget t (types r)); cbn; split; eauto; [|discriminate].
  intros [e H]; discriminate.
Qed.
Lemma register_fail_unchanged t c r e :
  fst (do_register t c r) = Err e -> e = ERuntimeError /\ snd (do_register t c r) = r.
Proof. unfold do_register. destruct (zget t (types r)); cbn; [intros [= <-]; auto|discriminate]. Qed.
Lemma register_ok_effect t c r x :
  fst (do_register t c r) = Ok x ->
  x = c /\ getitem (snd (do_register t c r)) t = Ok c /\ get_type (snd (do_register t c r)) c = Ok t.
Proof.
  unfold do_register, getitem, get_type. destruct (zget t (types r)) eqn:E; cbn; [discriminate|].
  intros [= <-]. rewrite zget_app, E, cget_cset. cbn. rewrite Z.eqb_refl.
  rewrite (proj2 (ceqb_eq c c) eq_refl). auto.
Qed.
Lemma reverse_lookup l c t :
  get_type (run_register l empty_register) c = Ok t -> getitem (run_register l empty_register) t = Ok c.
Proof.
  pose proof (reg_inv_run l _ reg_inv_empty) as [H _]. unfold get_type, getitem.
  specialize (H c t). destruct (cget c _); [|discriminate]. intros [= ->]. rewrite (H eq_refl). reflexivity.
Qed.
Lemma registered_has_type l t c :
  getitem (run_register l empty_register) t = Ok c ->
  exists t', get_type (run_register l empty_register) c = Ok t'.
Proof.
  pose proof (reg_inv_run l _ reg_inv_empty) as [_ H]. unfold get_type, getitem.
  specialize (H c t). destruct (zget t _); [|discriminate]. intros [= ->].
  destruct (H eq_refl) as [t' ->]. eauto.
Qed.
(** which binding wins: the first registration of each number *)
Lemma run_register_first l : forall r t,
  getitem (run_register l r) t =
  match getitem r t with Ok c => Ok c | Err _ => match zget t l with Some c => Ok c | None => Err EKeyError end end.
Proof.
  induction l as [|[t0 c0] l IH]; intros r t.
  - cbn. unfold getitem. destruct (zget t (types r)); reflexivity.
  - cbn [run_register zget]. rewrite IH. unfold do_register, getitem.
    destruct (zget t0 (types r)) as [x|] eqn:E; cbn [snd types].
    + destruct (zget t (types r)) eqn:E2; [reflexivity|].
      destruct (t0 =? t) eqn:E3; [|reflexivity]. apply Z.eqb_eq in E3. subst. congruence.
    + rewrite zget_app. destruct (zget t (types r)) eqn:E2; [reflexivity|].
      cbn. destruct (t0 =? t) eqn:E3; reflexivity.
Qed.

Lemma zget_find k (d : list (Z * C)) :
  zget k d = match find (fun p => fst p =? k) d with Some p => Some (snd p) | None => None end.
Proof. induction d as [|[x y] d IH]; cbn; [reflexivity|]. destruct (x =? k); auto. Qed.
Lemma register_first_wins (l : list (Z * C)) t :
  getitem (run_register l empty_register) t
  = match find (fun p => fst p =? t) l with Some p => Ok (snd p) | None => Err EKeyError end.
Proof. rewrite run_register_first, zget_find. cbn. destruct (find _ l); reflexivity. Qed.
Lemma register_refuse t c (r : register) :
  ((exists e, fst (do_register t c r) = Err e) <-> contains r t = true) /\
  (forall e, fst (do_register t c r) = Err e -> e = ERuntimeError /\ snd (do_register t c r) = r).
Proof. split; [apply register_fails_iff|apply register_fail_unchanged]. Qed.

Lemma register_inverse (l : list (Z * C)) :
  let r := run_register l empty_register in
  (forall c t, get_type r c = Ok t -> getitem r t = Ok c) /\
  (forall c t, getitem r t = Ok c -> exists t', get_type r c = Ok t').
Proof. split; intros c t; [apply reverse_lookup|apply registered_has_type]. Qed.
End Register.
Arguments register : clear implicits.
