(** * Messages as objects that refer to each other.
    Everywhere else messages are values.  Here an object has a place and holds the
    places of other objects, as in Python, so that what two objects share can be told.
    Modelled are messages, dicts and lists; the header is a namedtuple and everything
    else a slot may hold is immutable or treated so. *)
From Verif Require Export Message.

Definition loc := nat.
(** what a slot, an item or an element is: an immutable value or another object *)
Inductive held := Val (v : pyval) | At (l : loc).
Inductive object :=
| OMsg (c : mcls) (ty ts enc sig : pyval) (slots : list (string * held))
| ODict (d : dcls) (items : list (pyval * held))
| OList (elements : list held).
Definition heap := list object.
Definition parts (o : object) : list held :=
  match o with OMsg _ _ _ _ _ s => map snd s | ODict _ s => map snd s | OList s => s end.

(** the value an object stands for at the moment; [None] if it is nested deeper than
    [n], as a cycle is *)
Section each.
  Context {A : Type} (f : held -> option pyval).
  Fixpoint each (l : list (A * held)) : option (list (A * pyval)) :=
    match l with
    | [] => Some []
    | (k, x) :: r => match f x, each r with Some v, Some r' => Some ((k, v) :: r') | _, _ => None end
    end.
End each.
Fixpoint view (n : nat) (h : heap) (x : held) : option pyval :=
  match x, n with
  | Val v, _ => Some v
  | At _, O => None
  | At l, S n =>
      match nth_error h l with
      | Some (OMsg c ty ts enc sig s) => option_map (VMsg c ty ts enc sig) (each (view n h) s)
      | Some (ODict d s) => option_map (VDict d) (each (view n h) s)
      | Some (OList s) => option_map (fun l => VList (map snd l)) (each (view n h) (map (fun y => (tt, y)) s))
      | None => None
      end
  end.

(** [o] takes the place [l] *)
Fixpoint put (h : heap) (l : loc) (o : object) : heap :=
  match h, l with
  | [], _ => []
  | _ :: r, O => o :: r
  | x :: r, S l => x :: put r l o
  end.

(** [self.sig = self._get_signature(private_key)], message/base.py 576-588 *)
Definition sign_at (E : env) (n : nat) (h : heap) (l : loc) (priv : bytes) : option (result heap) :=
  match nth_error h l, view n h (At l) with
  | Some (OMsg c ty ts enc _ s), Some m =>
      Some (do d <- short_hash E m; do sg <- ecdsa_sign (cr E) priv d; Ok (put h l (OMsg c ty ts enc (VBytes sg) s)))
  | _, _ => None
  end.
(** utils.py 43-53; [copy.copy] makes a new object with the same slots *)
Definition copy_and_sign_at (E : env) (n : nat) (h : heap) (l : loc) (priv : bytes) : option (result (loc * heap)) :=
  match nth_error h l with
  | Some (OMsg c ty ts enc VNone s) =>
      match sign_at E n (h ++ [OMsg c ty ts enc VNone s]) (List.length h) priv with
      | Some (Ok h') => Some (Ok (List.length h, h'))
      | Some (Err e) => Some (Err e)
      | None => None
      end
  | Some (OMsg _ _ _ _ _ _) => Some (Ok (l, h))
  | _ => None
  end.

(** what may happen afterwards: objects come into being and objects are changed, in
    any way whatever *)
Inductive change := New (o : object) | Put (l : loc) (o : object).
Definition changed (h : heap) (c : change) : heap := match c with New o => h ++ [o] | Put l o => put h l o end.
Definition later (h : heap) (cs : list change) : heap := fold_left changed cs h.

(** [copy.deepcopy] of a default in ITEMS: dicts and lists become new objects
    (simplification: what is in them is immutable; all those shipped are empty) *)
Definition deepcopy (h : heap) (v : pyval) : heap * held :=
  match v with
  | VDict d kvs => (h ++ [ODict d (map (fun kv => (fst kv, Val (snd kv))) kvs)], At (List.length h))
  | VList l => (h ++ [OList (map Val l)], At (List.length h))
  | _ => (h, Val v)
  end.
(** FrozenDict._set_defaults, datastructures/__init__.py 44-47, of a dict that has
    [kvs] so far *)
Fixpoint set_defaults (h : heap) (kvs : list (pyval * held)) (its : list (string * pyval)) : heap * list (pyval * held) :=
  match its with
  | [] => (h, kvs)
  | (k, v) :: r =>
      if existsb (fun kv => py_eq (fst kv) (skey k)) kvs then set_defaults h kvs r
      else let '(h', x) := deepcopy h v in set_defaults h' (kvs ++ [(skey k, x)]) r
  end.

(** ** What can be reached from where *)
Inductive reach (h : heap) : held -> loc -> Prop :=
| R_here l : reach h (At l) l
| R_part l o y l' : nth_error h l = Some o -> In y (parts o) -> reach h y l' -> reach h (At l) l'.
(** no object refers to a place where there is none *)
Definition sound (h : heap) : Prop := forall l o y, nth_error h l = Some o -> In (At y) (parts o) -> (y < List.length h)%nat.

Lemma each_ext {A} (f g : held -> option pyval) (l : list (A * held)) : (forall y, In y (map snd l) -> f y = g y) -> each f l = each g l.
Proof.
  induction l as [|[k x] l IH]; intros H; [reflexivity|]. cbn [each]. rewrite (H x) by (left; reflexivity).
  rewrite IH by (intros y I; apply H; right; exact I). reflexivity.
Qed.
Lemma view_agree n : forall h h' x, (forall l, reach h x l -> nth_error h' l = nth_error h l) -> view n h' x = view n h x.
Proof.
  induction n as [|n IH]; intros h h' x H; destruct x as [v|l]; try reflexivity. cbn [view].
  rewrite (H l (R_here h l)). destruct (nth_error h l) as [o|] eqn:N; [|reflexivity].
  assert (G : forall y, In y (parts o) -> view n h' y = view n h y).
  { intros y I. apply IH. intros l' R. apply H. exact (R_part h l o y l' N I R). }
  destruct o as [c ty ts enc sig s|d s|s]; cbn [parts] in G; f_equal; apply each_ext; intros y I; apply G; try exact I.
  rewrite map_map in I. cbn [snd] in I. rewrite map_id in I. exact I.
Qed.
Lemma reach_agree h h' x : (forall l, reach h x l -> nth_error h' l = nth_error h l) -> forall l, reach h x l <-> reach h' x l.
Proof.
  intros H l. split; intros R.
  - induction R as [l|l o y l' N I R IH]; [apply R_here|]. apply (R_part h' l o y l').
    + rewrite (H l (R_here h l)). exact N.
    + exact I.
    + apply IH. intros l0 R0. apply H. exact (R_part h l o y l0 N I R0).
  - revert H. induction R as [l|l o y l' N I R IH]; intros H; [apply R_here|].
    assert (N' : nth_error h l = Some o) by (rewrite <- (H l (R_here h l)); exact N).
    apply (R_part h l o y l' N' I). apply IH. intros l0 R0. apply H. exact (R_part h l o y l0 N' I R0).
Qed.
Lemma put_length (h : heap) : forall l o, List.length (put h l o) = List.length h.
Proof. induction h as [|x h IH]; intros [|l] o; cbn [put List.length]; [reflexivity..|]. rewrite IH. reflexivity. Qed.
Lemma put_same (h : heap) : forall l o, (l < List.length h)%nat -> nth_error (put h l o) l = Some o.
Proof. induction h as [|x h IH]; intros [|l] o L; simpl in *; [lia|lia|reflexivity|]. apply IH. lia. Qed.
Lemma put_other (h : heap) : forall l l' o, l <> l' -> nth_error (put h l o) l' = nth_error h l'.
Proof. induction h as [|x h IH]; intros [|l] [|l'] o N; simpl; try reflexivity; try congruence. apply IH. congruence. Qed.
Lemma new_old (h : heap) o l : (l < List.length h)%nat -> nth_error (h ++ [o]) l = nth_error h l.
Proof. intros L. apply nth_error_app1. exact L. Qed.
Lemma new_there (h : heap) o : nth_error (h ++ [o]) (List.length h) = Some o.
Proof. rewrite nth_error_app2 by lia. rewrite Nat.sub_diag. reflexivity. Qed.
Lemma reach_bound h x l : sound h -> (forall y, x = At y -> (y < List.length h)%nat) -> reach h x l -> (l < List.length h)%nat.
Proof.
  intros S B R. induction R as [l|l o y l' N I R IH]; [apply B; reflexivity|]. apply IH. intros z ->. exact (S l o z N I).
Qed.
Lemma each_snd {A} f (l : list (A * held)) r : each f l = Some r -> forall y, In y (map snd l) -> exists v, f y = Some v.
Proof.
  revert r. induction l as [|[k x] l IH]; intros r H y I; [destruct I|]. cbn [each] in H.
  destruct (f x) as [v|] eqn:F; [|discriminate]. destruct (each f l) as [r'|] eqn:Q; [|discriminate].
  destruct I as [<-|I]; [cbn [snd]; eauto|]. exact (IH r' eq_refl y I).
Qed.
