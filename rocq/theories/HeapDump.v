(** * Dumping a message that other messages contain *)
From Verif Require Export HeapFacts.

(** [m.serialize(sign_as, encrypt_func)] of the message at [l], message/base.py 212-245
    (and 679-685): the flag in the header and the signature are what it assigns *)
Definition dump_at (E : env) (n : nat) (h : heap) (l : loc) (sign_as : option bytes) (encf : option (bytes -> result bytes)) : option (heap * result bytes) :=
  match nth_error h l, view n h (At l) with
  | Some (OMsg c ty ts _ _ s), Some m =>
      match serialize E m sign_as encf with
      | (VMsg _ _ _ enc' sig' _, r) => Some (put h l (OMsg c ty ts enc' sig' s), r)
      | _ => None
      end
  | _, _ => None
  end.

(** ** What can be shown does not contain itself *)
Lemma each_mono {A} (f g : held -> option pyval) (l : list (A * held)) r : (forall y v, In y (map snd l) -> f y = Some v -> g y = Some v) -> each f l = Some r -> each g l = Some r.
Proof.
  intros H E. rewrite <- E. symmetry. apply each_ext. intros y I. destruct (each_snd f l r E y I) as [v Q]. rewrite Q. symmetry. exact (H y v I Q).
Qed.
Lemma view_more n : forall h x v, view n h x = Some v -> view (S n) h x = Some v.
Proof.
  induction n as [|n IH]; intros h x v V; destruct x as [w|l]; try (rewrite view_val in *; exact V); [discriminate V|].
  cbn [view] in V. change (view (S (S n)) h (At l)) with
    (match nth_error h l with
     | Some (OMsg c ty ts enc sig s) => option_map (VMsg c ty ts enc sig) (each (view (S n) h) s)
     | Some (ODict d s) => option_map (VDict d) (each (view (S n) h) s)
     | Some (OList s) => option_map (fun l => VList (map snd l)) (each (view (S n) h) (map (fun y => (tt, y)) s))
     | None => None
     end).
  destruct (nth_error h l) as [[c ty ts enc sig s|d s|s]|]; [| | |discriminate V];
    match type of V with option_map _ ?e = _ => destruct e as [r|] eqn:Q; [|discriminate V] end;
    rewrite (each_mono (view n h) (view (S n) h) _ r (fun y v _ => IH h y v) Q); exact V.
Qed.
Lemma view_le n m h x v : (n <= m)%nat -> view n h x = Some v -> view m h x = Some v.
Proof. intros L. induction L as [|m L IH]; intros V; [exact V|]. apply view_more, IH, V. Qed.
Lemma part_shown n h l o y v : nth_error h l = Some o -> In y (parts o) -> view (S n) h (At l) = Some v -> exists w, view n h y = Some w.
Proof.
  intros N I V. cbn [view] in V. rewrite N in V. destruct o as [c ty ts enc sig s|d s|s]; cbn [parts] in I;
    match type of V with option_map _ ?e = _ => destruct e as [r|] eqn:Q; [|discriminate V] end; refine (each_snd _ _ _ Q y _); try exact I.
  rewrite map_map. cbn [snd]. rewrite map_id. exact I.
Qed.
Lemma reached_shown h x l : reach h x l -> forall n v, view n h x = Some v -> exists w, view n h (At l) = Some w.
Proof.
  induction 1 as [l|l o y l' N I R IH]; intros n v V; [eauto|]. destruct n as [|n]; [discriminate V|].
  destruct (part_shown n h l o y v N I V) as [w W]. destruct (IH n w W) as [u U]. exists u. exact (view_more n h _ _ U).
Qed.
Lemma shown_acyclic n : forall h l o y v, view n h (At l) = Some v -> nth_error h l = Some o -> In y (parts o) -> ~ reach h y l.
Proof.
  induction n as [|n IH]; intros h l o y v V N I R; [discriminate V|]. destruct (part_shown n h l o y v N I V) as [w W].
  destruct (reached_shown h y l R n w W) as [u U]. exact (IH h l o y u U N I R).
Qed.

(** ** Dumping *)
Lemma dumped E n h l key encf h' r : dump_at E n h l key encf = Some (h', r) ->
  exists c ty ts enc sig s a enc' sig', nth_error h l = Some (OMsg c ty ts enc sig s) /\ view n h (At l) = Some (VMsg c ty ts enc sig a) /\
  serialize E (VMsg c ty ts enc sig a) key encf = (VMsg c ty ts enc' sig' a, r) /\ h' = put h l (OMsg c ty ts enc' sig' s).
Proof.
  unfold dump_at. destruct (nth_error h l) as [[c ty ts enc sig s|d s|s]|] eqn:N; try discriminate.
  destruct (view n h (At l)) as [m|] eqn:V; [|discriminate]. destruct n as [|n]; [discriminate V|].
  rewrite (view_msg n h l c ty ts enc sig s N) in V. destruct (each (view n h) s) as [a|] eqn:W; [|discriminate V]. cbn [option_map] in V.
  assert (J : forall x y : pyval, Some x = Some y -> x = y) by (intros x y Q; injection Q as ->; reflexivity). apply J in V. subst m. intros H.
  assert (G : exists enc' sig' r', serialize E (VMsg c ty ts enc sig a) key encf = (VMsg c ty ts enc' sig' a, r')).
  { unfold serialize. destruct (key_given key && truthy sig); [eauto|]. cbv zeta. destruct (payload_of c a); [|eauto].
    match goal with |- context [match ?e with Ok _ => _ | Err _ => _ end] => destruct e end; eauto. }
  destruct G as (enc' & sig' & r' & G). rewrite G in H.
  assert (J' : forall a b (c d : result bytes), Some (a : heap, c) = Some (b, d) -> a = b /\ c = d) by (intros ? ? ? ? Q; injection Q as -> ->; auto).
  apply J' in H as [<- <-]. exists c, ty, ts, enc, sig, s, a, enc', sig'. auto.
Qed.
Lemma dump_exact E n h l key encf c ty ts enc sig a : sound h -> view n h (At l) = Some (VMsg c ty ts enc sig a) ->
  exists h', dump_at E n h l key encf = Some (h', snd (serialize E (VMsg c ty ts enc sig a) key encf)) /\
  view n h' (At l) = Some (fst (serialize E (VMsg c ty ts enc sig a) key encf)) /\
  (forall p, p <> l -> nth_error h' p = nth_error h p) /\
  forall k x, there h x -> ~ reach h x l -> view k h' x = view k h x.
Proof.
  intros Sd V. destruct (nth_error h l) as [o|] eqn:N; [|destruct n; [discriminate V|]; cbn [view] in V; rewrite N in V; discriminate V].
  assert (O : exists s, o = OMsg c ty ts enc sig s).
  { destruct n as [|n]; [discriminate V|]. cbn [view] in V. rewrite N in V. destruct o as [c' ty' ts' enc' sig' s|d s|s];
      match type of V with option_map _ ?e = _ => destruct e; [|discriminate V] end; cbn [option_map] in V; try discriminate V.
    injection V as -> -> -> -> -> _. eauto. }
  destruct O as [s ->].
  assert (G : exists enc' sig' r', serialize E (VMsg c ty ts enc sig a) key encf = (VMsg c ty ts enc' sig' a, r')).
  { unfold serialize. destruct (key_given key && truthy sig); [eauto|]. cbv zeta. destruct (payload_of c a); [|eauto].
    match goal with |- context [match ?e with Ok _ => _ | Err _ => _ end] => destruct e end; eauto. }
  destruct G as (enc' & sig' & r' & G). rewrite G. cbn [fst snd].
  assert (L : (l < List.length h)%nat) by (apply nth_error_Some; congruence).
  exists (put h l (OMsg c ty ts enc' sig' s)). split; [unfold dump_at; rewrite N, V, G; reflexivity|]. split; [|split].
  - destruct n as [|n]; [discriminate V|]. rewrite (view_msg n _ l c ty ts enc' sig' s (put_same h l _ L)).
    rewrite (each_ext (view n (put h l (OMsg c ty ts enc' sig' s))) (view n h)).
    + rewrite (view_msg n h l c ty ts enc sig s N) in V. destruct (each (view n h) s) as [r|]; [|discriminate V]. cbn [option_map] in V |- *.
      injection V as ->. reflexivity.
    + intros y I. apply view_agree. intros z R. apply put_other. intros <-. exact (shown_acyclic (S n) h l _ y _ V N I R).
  - intros p D. apply put_other. congruence.
  - intros k x B NR. apply view_agree. intros z R. apply put_other. intros <-. exact (NR R).
Qed.
Lemma put_back (h : heap) : forall l o, nth_error h l = Some o -> put h l o = h.
Proof. induction h as [|x h IH]; intros [|l] o N; simpl in *; try discriminate; [injection N as ->; reflexivity|]. rewrite IH by exact N. reflexivity. Qed.
(** a signed message that is dumped as it was before *)
Lemma again E n h l key encf h' r c ty ts enc sig a : dump_at E n h l key encf = Some (h', r) -> view n h (At l) = Some (VMsg c ty ts enc sig a) ->
  sig <> VNone -> enc = VBool (encrypts c && match encf with Some _ => true | None => false end) -> h' = h.
Proof.
  intros H V Hs He. destruct (dumped _ _ _ _ _ _ _ _ H) as (c0 & ty0 & ts0 & enc0 & sig0 & s & a0 & enc' & sig' & N & V0 & S & ->).
  rewrite V in V0. injection V0 as <- <- <- <- <- <-. apply put_back. rewrite N.
  assert (Q : enc' = enc /\ sig' = sig).
  { assert (J : forall e e' g g' (x y : result bytes), (VMsg c ty ts e g a, x) = (VMsg c ty ts e' g' a, y) -> e' = e /\ g' = g) by (intros ? ? ? ? ? ? Q; injection Q as -> -> _; auto).
    unfold serialize in S. destruct (key_given key && truthy sig); [apply J in S; exact S|]. cbv zeta in S. rewrite <- He in S.
    destruct (payload_of c a); [|apply J in S; exact S].
    assert (is_none sig = false) as Z by (destruct sig; [congruence|reflexivity..]). rewrite Z in S. apply J in S. exact S. }
  destruct Q as [-> ->]. reflexivity.
Qed.
(** dumps one after the other, of whichever messages *)
Fixpoint dump_all (E : env) (n : nat) (h : heap) (ops : list (loc * option bytes * option (bytes -> result bytes))) : heap :=
  match ops with
  | [] => h
  | (l, key, encf) :: r => dump_all E n (match dump_at E n h l key encf with Some (h', _) => h' | None => h end) r
  end.
Definition settled (n : nat) (h : heap) (l : loc) (encf : option (bytes -> result bytes)) : Prop :=
  exists c ty ts sig a, sig <> VNone /\
    view n h (At l) = Some (VMsg c ty ts (VBool (encrypts c && match encf with Some _ => true | None => false end)) sig a).
Lemma all_settled E n h ops : (forall l key encf, In (l, key, encf) ops -> settled n h l encf) -> dump_all E n h ops = h.
Proof.
  induction ops as [|[[l key] encf] ops IH]; intros H; [reflexivity|]. cbn [dump_all].
  assert (Q : match dump_at E n h l key encf with Some (h', _) => h' | None => h end = h).
  { destruct (dump_at E n h l key encf) as [[h' r]|] eqn:D; [|reflexivity]. destruct (H l key encf (or_introl eq_refl)) as (c & ty & ts & sig & a & Hs & V).
    exact (again _ _ _ _ _ _ _ _ _ _ _ _ _ _ D V Hs eq_refl). }
  rewrite Q. apply IH. intros l' key' encf' I. exact (H l' key' encf' (or_intror I)).
Qed.
