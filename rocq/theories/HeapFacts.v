(** * Proofs about objects that refer to each other *)
From Verif Require Import ReadProofs.
From Verif Require Export Heap.

Definition agree (h h' : heap) (x : held) : Prop := forall l, reach h x l -> nth_error h' l = nth_error h l.
Definition there (h : heap) (x : held) : Prop := forall y, x = At y -> (y < List.length h)%nat.

Lemma changed_agree h h0 x c : sound h -> there h x -> agree h h0 x -> (forall l o, c = Put l o -> ~ reach h x l) -> agree h (changed h0 c) x.
Proof.
  intros S B A N l R. pose proof (reach_bound h x l S B R) as L. specialize (A l R). destruct c as [o|p o]; cbn [changed].
  - rewrite new_old; [exact A|]. apply nth_error_Some. rewrite A. apply nth_error_Some. exact L.
  - rewrite put_other; [exact A|]. intros ->. exact (N l o eq_refl R).
Qed.
Lemma later_agree cs : forall h h0 x, sound h -> there h x -> agree h h0 x -> (forall l o, In (Put l o) cs -> ~ reach h x l) -> agree h (later h0 cs) x.
Proof.
  induction cs as [|c cs IH]; intros h h0 x S B A N; [exact A|]. apply IH; [exact S|exact B| |intros l o I; exact (N l o (or_intror I))].
  apply changed_agree; [assumption..|]. intros l o ->. exact (N l o (or_introl eq_refl)).
Qed.
(** what is not touched does not change *)
Lemma untouched n h x cs : sound h -> there h x -> (forall l o, In (Put l o) cs -> ~ reach h x l) -> view n (later h cs) x = view n h x.
Proof. intros S B N. apply view_agree. apply later_agree; try assumption. intros l _. reflexivity. Qed.

Lemma sound_new h o : sound h -> (forall y, In (At y) (parts o) -> (y <= List.length h)%nat) -> sound (h ++ [o]).
Proof.
  intros S B l o' y N I. rewrite app_length. cbn [List.length].
  destruct (Nat.lt_ge_cases l (List.length h)) as [L|L].
  - rewrite new_old in N by exact L. specialize (S l o' y N I). lia.
  - assert (l = List.length h) as ->.
    { assert (nth_error (h ++ [o]) l <> None) as Q by congruence. apply nth_error_Some in Q. rewrite app_length in Q. cbn [List.length] in Q. lia. }
    rewrite new_there in N. injection N as <-. specialize (B y I). lia.
Qed.
Lemma sound_put h l o : sound h -> (forall y, In (At y) (parts o) -> (y < List.length h)%nat) -> sound (put h l o).
Proof.
  intros S B l0 o' y N I. rewrite put_length. destruct (Nat.eq_dec l l0) as [<-|D].
  - assert (L : (l < List.length h)%nat) by (rewrite <- (put_length h l o); apply nth_error_Some; congruence).
    rewrite put_same in N by exact L. injection N as <-. exact (B y I).
  - rewrite put_other in N by exact D. exact (S l0 o' y N I).
Qed.

(** ** copy_and_sign *)
Lemma view_msg n h l c ty ts enc sig s : nth_error h l = Some (OMsg c ty ts enc sig s) ->
  view (S n) h (At l) = option_map (VMsg c ty ts enc sig) (each (view n h) s).
Proof. intros N. cbn [view]. rewrite N. reflexivity. Qed.
Lemma sign_value E c ty ts enc sig a priv : sign_message E (VMsg c ty ts enc sig a) priv =
  do d <- short_hash E (VMsg c ty ts enc sig a); do sg <- ecdsa_sign (cr E) priv d; Ok (VMsg c ty ts enc (VBytes sg) a).
Proof. reflexivity. Qed.
Lemma put_last (h : heap) o o' : put (h ++ [o]) (List.length h) o' = h ++ [o'].
Proof. induction h as [|x h IH]; [reflexivity|]. cbn [app List.length put]. rewrite IH. reflexivity. Qed.
Lemma slots_there h l c ty ts enc sig s y : sound h -> nth_error h l = Some (OMsg c ty ts enc sig s) -> In y (map snd s) -> there h y.
Proof. intros S N I z ->. exact (S l _ z N I). Qed.
Lemma part_same n h l c ty ts enc sig s o : sound h -> nth_error h l = Some (OMsg c ty ts enc sig s) ->
  each (view n (h ++ [o])) s = each (view n h) s.
Proof.
  intros S N. apply each_ext. intros y I. apply view_agree. intros z R. apply new_old.
  exact (reach_bound h y z S (slots_there h l c ty ts enc sig s y S N I) R).
Qed.
Lemma copied E n h l priv m : sound h -> view n h (At l) = Some m -> match m with VMsg _ _ _ _ _ _ => True | _ => False end ->
  exists r, copy_and_sign_at E n h l priv = Some r /\
  match copy_and_sign E m priv, r with
  | Ok m', Ok (l', h') => view n h' (At l') = Some m' /\ (forall x, (x < List.length h)%nat -> nth_error h' x = nth_error h x) /\ sound h'
  | Err e, Err e' => e = e'
  | _, _ => False
  end.
Proof.
  intros Sd V M. destruct n as [|n]; [discriminate V|].
  destruct (nth_error h l) as [[c ty ts enc sig s|d s|s]|] eqn:N.
  2-4: exfalso; cbn [view] in V; rewrite N in V; try discriminate V;
       match type of V with option_map _ ?e = _ => destruct e; [|discriminate V] end; injection V as <-; exact M.
  rewrite (view_msg n h l c ty ts enc sig s N) in V. destruct (each (view n h) s) as [a|] eqn:W; [|discriminate V]. cbn [option_map] in V.
  assert (J : forall x y : pyval, Some x = Some y -> x = y) by (intros x y Q; injection Q as ->; reflexivity). apply J in V. subst m. clear J M.
  unfold copy_and_sign_at. rewrite N.
  assert (Done : exists r, Some (Ok (l, h)) = Some r /\
      match Ok (VMsg c ty ts enc sig a), r with
      | Ok m', Ok (l', h') => view (S n) h' (At l') = Some m' /\ (forall x, (x < List.length h)%nat -> nth_error h' x = nth_error h x) /\ sound h'
      | Err e, Err e' => e = e' | _, _ => False end).
  { exists (Ok (l, h)). split; [reflexivity|]. split; [rewrite (view_msg n h l c ty ts enc sig s N), W; reflexivity|]. split; [reflexivity|exact Sd]. }
  destruct sig; try exact Done. clear Done. cbn [copy_and_sign]. unfold sign_at. rewrite new_there.
  rewrite (view_msg n _ _ c ty ts enc VNone s (new_there h _)), (part_same n h l c ty ts enc VNone s _ Sd N), W. cbn [option_map].
  rewrite sign_value. destruct (short_hash E (VMsg c ty ts enc VNone a)) as [d|e]; cbn [bind]; [|exists (Err e); split; reflexivity].
  destruct (ecdsa_sign (cr E) priv d) as [sg|e]; cbn [bind]; [|exists (Err e); split; reflexivity].
  rewrite put_last. eexists. split; [reflexivity|]. cbn beta iota. split; [|split].
  - rewrite (view_msg n _ _ c ty ts enc (VBytes sg) s (new_there h _)), (part_same n h l c ty ts enc VNone s _ Sd N), W. reflexivity.
  - intros x L. apply new_old. exact L.
  - apply sound_new; [exact Sd|]. intros y I. apply Nat.lt_le_incl. exact (Sd l _ y N I).
Qed.
(** which object it is, and what it refers to *)
Lemma copied_place E n h l priv l' h' : copy_and_sign_at E n h l priv = Some (Ok (l', h')) ->
  exists c ty ts enc sig s, nth_error h l = Some (OMsg c ty ts enc sig s) /\
  ((sig <> VNone /\ l' = l /\ h' = h) \/
   (sig = VNone /\ l' = List.length h /\ exists sg, h' = h ++ [OMsg c ty ts enc (VBytes sg) s])).
Proof.
  unfold copy_and_sign_at. destruct (nth_error h l) as [[c ty ts enc sig s|d s|s]|]; try discriminate. intros H. exists c, ty, ts, enc, sig, s. split; [reflexivity|].
  assert (J : forall x y : loc * heap, Some (Ok x) = Some (Ok y) -> x = y) by (intros x y Q; injection Q as ->; reflexivity).
  destruct sig; try (left; apply J in H; injection H as <- <-; split; [discriminate|split; reflexivity]).
  right. split; [reflexivity|]. unfold sign_at in H. rewrite new_there in H.
  destruct (view n _ _) as [m|]; [|discriminate H]. destruct (short_hash E m) as [d|]; [|discriminate H]. cbn [bind] in H.
  destruct (ecdsa_sign _ _ _) as [sg|]; [|discriminate H]. cbn [bind] in H. apply J in H. rewrite put_last in H. injection H as <- <-. split; [reflexivity|]. eauto.
Qed.
(** the copy follows the original in all but their own attributes *)
Lemma follows n h l l' c ty ts enc sig sig' s cs : nth_error h l = Some (OMsg c ty ts enc sig s) -> nth_error h l' = Some (OMsg c ty ts enc sig' s) ->
  (forall p o, In (Put p o) cs -> p <> l /\ p <> l') ->
  exists r, view (S n) (later h cs) (At l) = option_map (VMsg c ty ts enc sig) r /\ view (S n) (later h cs) (At l') = option_map (VMsg c ty ts enc sig') r.
Proof.
  intros N N' U.
  assert (G : forall cs h0 p o, nth_error h0 p = Some o -> (forall q o', In (Put q o') cs -> q <> p) -> nth_error (later h0 cs) p = Some o).
  { clear. induction cs as [|ch cs IH]; intros h0 p o H U; [exact H|]. apply IH; [|intros q o' I; exact (U q o' (or_intror I))].
    destruct ch as [x|q x]; cbn [changed].
    - rewrite new_old; [exact H|]. apply nth_error_Some. congruence.
    - rewrite put_other; [exact H|]. exact (U q x (or_introl eq_refl)). }
  exists (each (view n (later h cs)) s). split; apply view_msg; apply G; try assumption; intros q o' I; apply (U q o' I).
Qed.
(** changes of the original's own attributes are not seen by the copy *)
Lemma own_attributes E n h l priv l' h' cs : sound h -> copy_and_sign_at E n h l priv = Some (Ok (l', h')) -> l' <> l ->
  (forall o y, nth_error h l = Some o -> In y (parts o) -> ~ reach h y l) ->
  (forall p o, In (Put p o) cs -> p = l) -> forall k, view k (later h' cs) (At l') = view k h' (At l').
Proof.
  intros S H D Ac O k. destruct (copied_place _ _ _ _ _ _ _ H) as (c & ty & ts & enc & sig & s & N & [(_ & Q & _)|(_ & -> & sg & ->)]); [congruence|].
  assert (L : (l < List.length h)%nat) by (apply nth_error_Some; congruence).
  assert (S' : sound (h ++ [OMsg c ty ts enc (VBytes sg) s])) by (apply sound_new; [exact S|]; intros y I; apply Nat.lt_le_incl; exact (S l _ y N I)).
  apply untouched; [exact S'|intros y Q; injection Q as <-; rewrite app_length; cbn [List.length]; lia|].
  intros p o I R. apply O in I. subst p. inversion R as [z Q1 Q2|z o' y z' N' I' R' Q1 Q2]; subst; [lia|].
  rewrite new_there in N'. injection N' as <-. cbn [parts] in I'.
  apply (Ac _ y N I'). apply (reach_agree h (h ++ [OMsg c ty ts enc (VBytes sg) s]) y); [|exact R'].
  intros z Rz. apply new_old. exact (reach_bound h y z S (slots_there h l c ty ts enc sig s y S N I') Rz).
Qed.

(** ** Defaults *)
Definition places (kvs : list (pyval * held)) : list loc := flat_map (fun kv => match snd kv with At l => [l] | Val _ => [] end) kvs.
Lemma each_app {A} f (l l' : list (A * held)) : each f (l ++ l') = match each f l, each f l' with Some r, Some r' => Some (r ++ r') | _, _ => None end.
Proof.
  induction l as [|[k x] l IH]; cbn [app each]; [destruct (each f l'); reflexivity|]. rewrite IH. destruct (f x); [|reflexivity].
  destruct (each f l); [|reflexivity]. destruct (each f l'); reflexivity.
Qed.
Lemma view_val n h v : view n h (Val v) = Some v.
Proof. destruct n; reflexivity. Qed.
Lemma each_vals n h (kvs : list (pyval * pyval)) : each (view n h) (map (fun kv => (fst kv, Val (snd kv))) kvs) = Some kvs.
Proof. induction kvs as [|[k v] kvs IH]; [reflexivity|]. cbn [map each fst snd]. rewrite view_val, IH. reflexivity. Qed.
Lemma each_list n h l : each (view n h) (map (fun y => (tt, y)) (map Val l)) = Some (map (fun v => (tt, v)) l).
Proof. induction l as [|v l IH]; [reflexivity|]. cbn [map each]. rewrite view_val, IH. reflexivity. Qed.
Lemma each_get f kvs : forall vs k, each f kvs = Some vs -> existsb (fun kv => py_eq (fst kv) (skey k)) kvs = negb (absent vs k).
Proof.
  induction kvs as [|[k0 x] kvs IH]; intros vs k H; cbn [each] in H; [injection H as <-; reflexivity|].
  destruct (f x) as [v|]; [|discriminate]. destruct (each f kvs) as [r|] eqn:Q; [|discriminate]. injection H as <-. cbn [existsb fst]. unfold absent. cbn [dict_get].
  destruct (py_eq k0 (skey k)); [reflexivity|]. cbn [orb]. rewrite (IH r k eq_refl). reflexivity.
Qed.
(** what [deepcopy] makes is new, shows the default, and refers to nothing *)
Lemma deepcopied n h v h' x : deepcopy h v = (h', x) -> exists new, h' = h ++ new /\ view (S n) h' x = Some v /\
  (forall o y, In o new -> In y (parts o) -> exists w, y = Val w) /\
  ((x = Val v /\ new = []) \/ (x = At (List.length h) /\ exists o, new = [o])).
Proof.
  assert (J : forall a b (c d : held), (a : heap, c) = (b, d) -> a = b /\ c = d) by (intros a b c d Q; injection Q as -> ->; auto).
  unfold deepcopy. destruct v; intros H; apply J in H as [<- <-];
    try (exists []; rewrite app_nil_r; split; [reflexivity|]; split; [apply view_val|]; split; [intros o y []|left; auto]).
  - eexists. split; [reflexivity|]. split; [|split; [|right; split; [reflexivity|eauto]]].
    + cbn [view]. rewrite new_there, each_list. cbn [option_map]. rewrite map_map. cbn [snd]. rewrite map_id. reflexivity.
    + intros o y [<-|[]] I. cbn [parts] in I. apply in_map_iff in I as (w & <- & _). eauto.
  - eexists. split; [reflexivity|]. split; [|split; [|right; split; [reflexivity|eauto]]].
    + cbn [view]. rewrite new_there, each_vals. reflexivity.
    + intros o y [<-|[]] I. cbn [parts] in I. rewrite map_map in I. cbn [snd] in I. apply in_map_iff in I as (w & <- & _). eauto.
Qed.
Lemma grown_there h new y : there h y -> there (h ++ new) y.
Proof. intros B z ->. rewrite app_length. specialize (B z eq_refl). lia. Qed.
Lemma grown_view n h new y : sound h -> there h y -> view n (h ++ new) y = view n h y.
Proof. intros S B. apply view_agree. intros l R. apply nth_error_app1. exact (reach_bound h y l S B R). Qed.
Lemma grown_sound h new : sound h -> (forall o y, In o new -> In y (parts o) -> exists w, y = Val w) -> sound (h ++ new).
Proof.
  intros S F l o y N I. rewrite app_length. destruct (Nat.lt_ge_cases l (List.length h)) as [L|L].
  - rewrite nth_error_app1 in N by exact L. specialize (S l o y N I). lia.
  - rewrite nth_error_app2 in N by exact L. apply nth_error_In in N. destruct (F o (At y) N I) as [w Q]. discriminate Q.
Qed.
Lemma defaults_placed d n its : d <> DPlain -> d <> DPeer -> incl its (items d) -> forall h kvs vs h' kvs',
  sound h -> (forall y, In y (map snd kvs) -> there h y) -> each (view (S n) h) kvs = Some vs -> set_defaults h kvs its = (h', kvs') ->
  exists new dk vs', h' = h ++ new /\ kvs' = kvs ++ dk /\ dset_defaults d vs its = Ok vs' /\ each (view (S n) h') kvs' = Some vs' /\
  (forall o y, In o new -> In y (parts o) -> exists w, y = Val w) /\
  NoDup (places dk) /\ (forall l, In l (places dk) <-> (List.length h <= l < List.length h')%nat).
Proof.
  intros D1 D2. induction its as [|[k v] its IH]; intros I h kvs vs h' kvs' S B V H.
  - cbn [set_defaults] in H. injection H as <- <-. exists [], [], vs. rewrite !app_nil_r. repeat split; try assumption; try reflexivity; try constructor; cbn in *; try lia; contradiction.
  - cbn [set_defaults] in H. cbn [dset_defaults]. rewrite (each_get _ _ _ k V) in H. assert (I' : incl its (items d)) by (intros x Hx; apply I; right; exact Hx).
    assert (A : absent vs k = match dict_get (skey k) vs with Some _ => false | None => true end) by reflexivity.
    destruct (dict_get (skey k) vs) as [w|] eqn:G; rewrite A in H; cbn [negb] in H; [exact (IH I' _ _ _ _ _ S B V H)|].
    destruct (deepcopy h v) as [h1 x] eqn:Q. destruct (deepcopied n h v h1 x Q) as (new & -> & Vx & F & C).
    rewrite (default_stored d k v vs D1 D2) by (apply I; left; reflexivity). cbn [bind]. rewrite (set_absent k v vs A).
    assert (S1 : sound (h ++ new)) by exact (grown_sound h new S F).
    assert (V1 : each (view (Datatypes.S n) (h ++ new)) kvs = Some vs) by (rewrite <- V; apply each_ext; intros y Iy; apply grown_view; [exact S|exact (B y Iy)]).
    destruct (IH I' (h ++ new) (kvs ++ [(skey k, x)]) (vs ++ [(skey k, v)]) h' kvs' S1) as (new' & dk & vs' & E1 & E2 & E3 & E4 & F' & ND & P).
    + intros y Iy. rewrite map_app in Iy. apply in_app_iff in Iy as [Iy|[<-|[]]]; [exact (grown_there h new y (B y Iy))|]. cbn [snd].
      destruct C as [[-> ->]|[-> [o ->]]]; intros z Qz; [discriminate Qz|]. injection Qz as <-. rewrite app_length. cbn [List.length]. lia.
    + rewrite each_app, V1. cbn [each]. rewrite Vx. reflexivity.
    + exact H.
    + exists (new ++ new'), ((skey k, x) :: dk), vs'. rewrite <- app_assoc in E1, E2. cbn [app] in E2. split; [exact E1|]. split; [exact E2|]. split; [exact E3|]. split; [exact E4|].
      split; [intros o y Io; apply in_app_iff in Io as [Io|Io]; [exact (F o y Io)|exact (F' o y Io)]|].
      destruct C as [[-> ->]|[-> [o ->]]]; unfold places; cbn [flat_map snd app]; fold (places dk).
      * rewrite app_nil_r in P. split; [exact ND|exact P].
      * rewrite app_length in P. cbn [List.length] in P. assert (L : (List.length h' >= List.length h + 1)%nat) by (rewrite E1, !app_length; cbn [List.length]; lia).
        split; [constructor; [rewrite P; lia|exact ND]|]. intros l. cbn [In]. rewrite P. lia.
Qed.
Lemma copy_exact E n h l priv c ty ts enc sig a : sound h -> view n h (At l) = Some (VMsg c ty ts enc sig a) ->
  (forall m', copy_and_sign E (VMsg c ty ts enc sig a) priv = Ok m' ->
     exists l' h', copy_and_sign_at E n h l priv = Some (Ok (l', h')) /\ view n h' (At l') = Some m' /\ (l' = l <-> sig <> VNone) /\
     forall k x, there h x -> view k h' x = view k h x) /\
  (forall e, copy_and_sign E (VMsg c ty ts enc sig a) priv = Err e -> copy_and_sign_at E n h l priv = Some (Err e)).
Proof.
  intros Sd V. destruct (copied E n h l priv _ Sd V I) as (r & Hr & M).
  assert (J : forall o, nth_error h l = Some o -> exists s, o = OMsg c ty ts enc sig s).
  { intros o N. destruct n as [|n]; [discriminate V|]. cbn [view] in V. rewrite N in V.
    destruct o as [c' ty' ts' enc' sig' s|d s|s];
      match type of V with option_map _ ?e = _ => destruct e; [|discriminate V] end; cbn [option_map] in V; try discriminate V.
    injection V as -> -> -> -> -> _. eauto. }
  split.
  - intros m' Q. rewrite Q in M. destruct r as [[l' h']|]; [|contradiction]. destruct M as (Vm & Old & Sd'). exists l', h'. split; [exact Hr|]. split; [exact Vm|]. split.
    + destruct (copied_place _ _ _ _ _ _ _ Hr) as (c0 & ty0 & ts0 & enc0 & sig0 & s0 & N & C). destruct (J _ N) as [s Q']. injection Q' as -> -> -> -> -> ->.
      destruct C as [(C & -> & _)|(-> & -> & _)]; [split; auto|].
      assert (L : (l < List.length h)%nat) by (apply nth_error_Some; congruence). split; intros Z; [lia|congruence].
    + intros k x B. apply view_agree. intros z R. apply Old. exact (reach_bound h x z Sd B R).
  - intros e Q. rewrite Q in M. destruct r as [[]|e']; [contradiction|]. subst e'. exact Hr.
Qed.
Lemma defaults_apart d d' n h kvs vs h1 kvs1 kvs' vs' h2 kvs2 : d <> DPlain -> d <> DPeer -> d' <> DPlain -> d' <> DPeer -> sound h ->
  (forall y, In y (map snd kvs) -> there h y) -> each (view (S n) h) kvs = Some vs ->
  (forall y, In y (map snd kvs') -> there h y) -> each (view (S n) h) kvs' = Some vs' ->
  set_defaults h kvs (items d) = (h1, kvs1) -> set_defaults h1 kvs' (items d') = (h2, kvs2) ->
  forall l o, (List.length h <= l < List.length h1)%nat -> forall k y, In y (map snd kvs2) -> view k (put h2 l o) y = view k h2 y.
Proof.
  intros D1 D2 D3 D4 Sd B V B' V' H H' l o L k y Iy.
  destruct (defaults_placed d n (items d) D1 D2 (incl_refl _) _ _ _ _ _ Sd B V H) as (new & dk & vs1 & -> & -> & _ & _ & F & _ & _).
  assert (Sd1 : sound (h ++ new)) by exact (grown_sound h new Sd F).
  assert (B1 : forall y, In y (map snd kvs') -> there (h ++ new) y) by (intros z Iz; apply grown_there; exact (B' z Iz)).
  assert (V1 : each (view (S n) (h ++ new)) kvs' = Some vs') by (rewrite <- V'; apply each_ext; intros z Iz; apply grown_view; [exact Sd|exact (B' z Iz)]).
  destruct (defaults_placed d' n (items d') D3 D4 (incl_refl _) _ _ _ _ _ Sd1 B1 V1 H') as (new' & dk' & vs2 & -> & -> & _ & _ & F' & _ & P).
  assert (Sd2 : sound ((h ++ new) ++ new')) by exact (grown_sound _ _ Sd1 F').
  change (put ((h ++ new) ++ new') l o) with (later ((h ++ new) ++ new') [Put l o]).
  assert (T : there ((h ++ new) ++ new') y).
  { intros z ->. rewrite map_app in Iy. apply in_app_iff in Iy as [Iy|Iy]; [exact (grown_there _ new' _ (B1 _ Iy) z eq_refl)|].
    assert (Q : In z (places dk')) by (unfold places; apply in_flat_map; apply in_map_iff in Iy as (kv & Q & Ik); exists kv; split; [exact Ik|rewrite Q; left; reflexivity]).
    apply P in Q. lia. }
  apply untouched; [exact Sd2|exact T|]. intros p o' [Q|[]] R. injection Q as <- <-.
  rewrite map_app in Iy. apply in_app_iff in Iy as [Iy|Iy].
  - assert (R0 : reach h y l).
    { apply (reach_agree h ((h ++ new) ++ new') y); [|exact R]. intros z Rz. pose proof (reach_bound h y z Sd (B' y Iy) Rz) as Lz.
      rewrite nth_error_app1 by (rewrite app_length; lia). apply nth_error_app1. exact Lz. }
    pose proof (reach_bound h y l Sd (B' y Iy) R0). lia.
  - inversion R as [z Q1 Q2|z o1 w z' N I1 R1 Q1 Q2]; subst.
    + assert (Q : In l (places dk')) by (unfold places; apply in_flat_map; apply in_map_iff in Iy as (kv & Q & Ik); exists kv; split; [exact Ik|rewrite Q; left; reflexivity]).
      apply P in Q. lia.
    + assert (Q : In z (places dk')) by (unfold places; apply in_flat_map; apply in_map_iff in Iy as (kv & Q & Ik); exists kv; split; [exact Ik|rewrite Q; left; reflexivity]).
      apply P in Q. rewrite nth_error_app2 in N by lia. apply nth_error_In in N. destruct (F' o1 w N I1) as [v ->]. inversion R1.
Qed.
Lemma copy_follows E n h l priv l' h' cs : copy_and_sign_at E n h l priv = Some (Ok (l', h')) -> (forall p o, In (Put p o) cs -> p <> l /\ p <> l') ->
  exists c ty ts enc sig sig' r, forall k,
    view (S k) (later h' cs) (At l) = option_map (VMsg c ty ts enc sig) (r k) /\ view (S k) (later h' cs) (At l') = option_map (VMsg c ty ts enc sig') (r k).
Proof.
  intros H U. destruct (copied_place _ _ _ _ _ _ _ H) as (c & ty & ts & enc & sig & s & N & [(_ & -> & ->)|(-> & -> & sg & ->)]).
  - exists c, ty, ts, enc, sig, sig, (fun k => each (view k (later h cs)) s). intros k.
    assert (G : forall cs h0, nth_error h0 l = Some (OMsg c ty ts enc sig s) -> (forall q o', In (Put q o') cs -> q <> l) -> nth_error (later h0 cs) l = Some (OMsg c ty ts enc sig s)).
    { clear. induction cs as [|ch cs IH]; intros h0 H U; [exact H|]. apply IH; [|intros q o' I; exact (U q o' (or_intror I))]. destruct ch as [x|q x]; cbn [changed].
      - rewrite new_old; [exact H|]. apply nth_error_Some. congruence.
      - rewrite put_other; [exact H|]. exact (U q x (or_introl eq_refl)). }
    split; apply view_msg; apply G; try assumption; intros q o' I; apply (U q o' I).
  - exists c, ty, ts, enc, VNone, (VBytes sg), (fun k => each (view k (later (h ++ [OMsg c ty ts enc (VBytes sg) s]) cs)) s). intros k.
    assert (G : forall p o cs h0, nth_error h0 p = Some o -> (forall q o', In (Put q o') cs -> q <> p) -> nth_error (later h0 cs) p = Some o).
    { clear. intros p o. induction cs as [|ch cs IH]; intros h0 H U; [exact H|]. apply IH; [|intros q o' I; exact (U q o' (or_intror I))]. destruct ch as [x|q x]; cbn [changed].
      - rewrite new_old; [exact H|]. apply nth_error_Some. congruence.
      - rewrite put_other; [exact H|]. exact (U q x (or_introl eq_refl)). }
    assert (L : (l < List.length h)%nat) by (apply nth_error_Some; congruence).
    split; apply view_msg; apply G; [rewrite new_old by exact L; exact N|intros q o' I; apply (U q o' I)|apply new_there|intros q o' I; apply (U q o' I)].
Qed.
