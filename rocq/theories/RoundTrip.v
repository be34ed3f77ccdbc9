(** * What arrives: slots written by the sender and read by the receiver *)
From Verif Require Export SignFacts.
From Coq Require Import Permutation.

(** ** Well-formed slot contents *)

(** what a slot that holds no message may contain *)
Definition val_ok (kd : skind) (w : pyval) : Prop :=
  match kd with
  | KPlain | KMsg _ _ _ => True
  | KEnum e => w = VNone \/ exists s, w = VEnum e s /\ In s (members e)
  | KNode => w = VNone \/ exists a, w = VObj CNode a /\ cont_ok CNode a
  | KPeers => exists l, w = VList l /\
      Forall (fun p => exists kvs, p = VDict DPeer kvs /\ schema DPeer kvs /\
        forall k n, In (k, n) kvs -> str_of k = Some (u "node") -> exists a, n = VObj CNode a /\ cont_ok CNode a) l
  | KTasks => exists l, w = VList l /\ Forall (fun h => exists a, h = VObj CTaskHeader a /\ cont_ok CTaskHeader a) l
  | KHeader => w = VNone \/ exists a, w = VObj CTaskHeader a /\ cont_ok CTaskHeader a
  | KStats => w = VNone \/ exists a, w = VObj CProvider a /\ cont_ok CProvider a
  | KCpu => w = VNone \/ exists z, w = VInt z /\ 0 <= z
  | KNum => exists z, w = VInt z /\ 0 < z
  | KInt => exists z, w = VInt z
  | KCtd => exists kvs, w = VDict DCTD kvs /\ schema DCTD kvs
  | KFiles => exists l, w = VList l /\ Forall (fun f => exists kvs, f = VDict DFileInfo kvs /\ schema DFileInfo kvs /\
        forall k m, In (k, m) kvs -> str_of k = Some (u "category") -> exists s, m = VEnum EnFileCategory s /\ In s (members EnFileCategory)) l
  end.
(** what the subclasses' constructors leave in a slot; StartSessionResponse never
    receives its slot *)
Definition init_ok (c : mcls) (k : string) (w : pyval) : Prop :=
  match c with
  | MResourcePeers | MGossip => exists l, w = VList l
  | MWantToComputeTask | MTaskToCompute => k = "concent_enabled"%string -> exists b, w = VBool b
  | MTaskFailure => k = "reason"%string -> w <> VNone
  | MStartSessionResponse => w = VNone
  | _ => True
  end.
(** a message slot: None if allowed, one message, or a non-empty list *)
Definition nested_ok (P : mcls -> attrs_t -> Prop) (d : mcls) (an il : bool) (w : pyval) : Prop :=
  (w = VNone /\ an = true) \/
  (il = false /\ exists ty ts enc sig b, w = VMsg d ty ts enc sig b /\ P d b) \/
  (il = true /\ exists l, w = VList l /\ l <> [] /\ Forall (fun m => exists ty ts enc sig b, m = VMsg d ty ts enc sig b /\ P d b) l).
(** [mok c a]: [a] are well-formed attributes of a message of class [c] *)
Inductive mok (c : mcls) (a : attrs_t) : Prop :=
| mok_intro : map fst a = slot_names c ->
    (forall k w, In (k, w) a -> init_ok c k w /\ val_ok (slot_kind c k) w) ->
    (forall k w d an il, In (k, w) a -> slot_kind c k = KMsg d an il -> nested_ok mok d an il w) ->
    mok c a.

(** ** Contents that arrive unchanged: plain values in the form cbor decodes to,
    i.e. lists rather than tuples, no enum members or dict subclasses *)
Definition val_wire (kd : skind) (w : pyval) : Prop :=
  match kd with
  | KPlain => wire_plain w
  | KNode | KHeader | KStats => match w with VObj c a => cont_wire c a | _ => True end
  | KPeers => forall kvs k v, In (VDict DPeer kvs) (match w with VList l => l | _ => [] end) -> In (k, v) kvs ->
      (exists t, k = VStr t) /\ match v with VObj c a => cont_wire c a | _ => norm v = v end
  | KTasks => forall c a, In (VObj c a) (match w with VList l => l | _ => [] end) -> cont_wire c a
  | KCtd => forall k v, In (k, v) (match w with VDict _ kvs => kvs | _ => [] end) -> (exists t, k = VStr t) /\ norm v = v
  | KFiles => forall kvs k v, In (VDict DFileInfo kvs) (match w with VList l => l | _ => [] end) -> In (k, v) kvs ->
      (exists t, k = VStr t) /\ (k <> skey "category" -> norm v = v)
  | _ => True
  end.
Definition nested_wire (P : mcls -> attrs_t -> Prop) (d : mcls) (w : pyval) : Prop :=
  forall ty ts enc sig b, In (VMsg d ty ts enc sig b) (match w with VList l => l | _ => [w] end) ->
    norm ty = ty /\ norm ts = ts /\ norm enc = enc /\ norm sig = sig /\ P d b.
Inductive mwire (c : mcls) (a : attrs_t) : Prop :=
| mwire_intro :
    (forall k w, In (k, w) a -> val_wire (slot_kind c k) w) ->
    (forall k w d an il, In (k, w) a -> slot_kind c k = KMsg d an il -> nested_wire mwire d w) ->
    mwire c a.

(** ** What arrives, slot by slot *)
Definition nested_arr (P : mcls -> attrs_t -> attrs_t -> Prop) (d : mcls) (w w' : pyval) : Prop :=
  let one m m' := exists ty ts enc sig b b', m = VMsg d ty ts enc sig b /\
                    m' = VMsg d (norm ty) (norm ts) (norm enc) (norm sig) b' /\ P d b b' in
  (w = VNone /\ w' = VNone) \/ one w w' \/ exists l l', w = VList l /\ w' = VList l' /\ Forall2 one l l'.
(** plain slots and task definitions arrive as their wire form, enums and numbers
    as they are, messages recursively; and all slots serialize to the same wire form again *)
Inductive arrives (c : mcls) (a a' : attrs_t) : Prop :=
| arrives_intro : map fst a' = map fst a ->
    (forall k w w', In (k, w) a -> In (k, w') a' ->
       match slot_kind c k with
       | KPlain => w' = norm (deenum w)
       | KEnum _ | KCpu | KNum | KInt => w' = w
       | KCtd => forall kvs, w = VDict DCTD kvs -> w' = VDict DCTD (map (fun kv => (norm (fst kv), norm (snd kv))) kvs)
       | _ => True
       end) ->
    (forall k w w' d an il, In (k, w) a -> In (k, w') a' -> slot_kind c k = KMsg d an il -> nested_arr arrives d w w') ->
    (exists s s', slots c a = Ok s /\ slots c a' = Ok s' /\ norm s' = norm s) ->
    arrives c a a'.

(** ** Slots as a list of pairs *)
Definition pairs (l : list (string * pyval)) : pyval := VList (map (fun kx => VList [skey (fst kx); snd kx]) l).
Lemma Forall2_mono {A B} (P Q : A -> B -> Prop) l m : (forall x y, P x y -> Q x y) -> Forall2 P l m -> Forall2 Q l m.
Proof. intros H F. induction F; constructor; auto. Qed.
Lemma slots_own c a : map fst a = slot_names c ->
  slots c a = do l <- mapM (fun kw => do x <- ser_slot c (fst kw) (snd kw); Ok (fst kw, x)) a; Ok (pairs l).
Proof.
  intros Hf. unfold slots, slot_list. rewrite collect_map, <- Hf, mapM_map.
  pose proof (slot_names_NoDup c) as N. rewrite <- Hf in N.
  rewrite (mapM_ext _ (fun kw => do x <- ser_slot c (fst kw) (snd kw); Ok (VList [skey (fst kw); x]))).
  - clear Hf N. unfold pairs.
    induction a as [|[k w] a IH]; cbn [mapM bind]; [reflexivity|]. cbn [fst snd].
    destruct (ser_slot c k w) as [x|e]; cbn [bind]; [|reflexivity].
    destruct (mapM (fun kw => do x0 <- ser_slot c (fst kw) (snd kw); Ok (VList [skey (fst kw); x0])) a);
      destruct (mapM (fun kw => do x0 <- ser_slot c (fst kw) (snd kw); Ok (fst kw, x0)) a); cbn [bind] in *; try congruence.
    cbn [map fst snd]. congruence.
  - intros [k w] Hin. cbn [fst snd]. rewrite (assoc_or_nodup _ k (ser_slot c k w)).
    + reflexivity.
    + rewrite map_map. cbn [fst]. exact N.
    + apply in_map_iff. exists (k, w). auto.
Qed.
Lemma slots_inv c a s : map fst a = slot_names c ->
  slots c a = Ok s <->
  exists l, s = pairs l /\ Forall2 (fun kw kx => fst kx = fst kw /\ ser_slot c (fst kw) (snd kw) = Ok (snd kx)) a l.
Proof.
  intros Hf. rewrite slots_own by exact Hf. split.
  - intros H. apply bind_ok in H as (l & Hl & H). apply Ok_inj in H. subst s. exists l. split; [reflexivity|].
    apply mapM_ok in Hl. eapply Forall2_mono; [|exact Hl]. intros [k w] [k' x] H. cbn [fst snd] in *.
    apply bind_ok in H as (y & Hy & H). apply Ok_inj in H. assert (k = k' /\ y = x) as [-> ->] by (split; congruence). auto.
  - intros (l & -> & H). rewrite (proj2 (mapM_ok _ a l)); [reflexivity|].
    eapply Forall2_mono; [|exact H]. intros [k w] [k' x] [H1 H2]. cbn [fst snd] in *. subst k'. rewrite H2. reflexivity.
Qed.
Lemma Forall2_fsts {A B} (a : list (string * A)) (l : list (string * B)) (P : string * A -> string * B -> Prop) :
  Forall2 (fun kw kx => fst kx = fst kw /\ P kw kx) a l -> map fst l = map fst a.
Proof. induction 1 as [|x y a l [H _] _ IH]; cbn [map]; [reflexivity|]. rewrite H, IH. reflexivity. Qed.

Lemma dict_of_pairs_fresh l : forall acc, NoDup (map fst (acc ++ l)) ->
  dict_of_pairs (map (fun kx => VList [skey (fst kx); snd kx]) l) (kv_of_attrs acc) = Some (kv_of_attrs (acc ++ l)).
Proof.
  induction l as [|[k x] l IH]; intros acc N; cbn [map dict_of_pairs py_iter fst snd].
  - rewrite app_nil_r. reflexivity.
  - change (hashable (skey k)) with true. cbv iota.
    rewrite dict_set_fresh.
    + change (kv_of_attrs acc ++ [(skey k, x)]) with (kv_of_attrs acc ++ kv_of_attrs [(k, x)]).
      unfold kv_of_attrs at 1 2. rewrite <- map_app. fold (kv_of_attrs (acc ++ [(k, x)])).
      rewrite IH; rewrite <- app_assoc; [reflexivity|exact N].
    + apply forallb_forall. intros [k0 v0] Hin. unfold kv_of_attrs in Hin. apply in_map_iff in Hin as ([k1 v1] & E & Hin).
      assert (k0 = skey k1) by (cbn [fst snd] in E; congruence). subst k0. cbn [fst]. rewrite py_eq_skey.
      destruct (String.eqb_spec k1 k) as [->|]; [|reflexivity]. exfalso.
      rewrite map_app in N. cbn [map fst] in N. apply NoDup_remove_2 in N. apply N, in_or_app. left.
      apply (in_map fst) in Hin. exact Hin.
Qed.
Lemma dict_of_received l : NoDup (map fst l) -> py_dict_of (norm (pairs l)) = Some (kv_of_attrs (wirel l)).
Proof.
  intros N. unfold pairs. cbn [norm]. unfold py_dict_of. cbn [py_iter].
  replace (map norm (map (fun kx => VList [skey (fst kx); snd kx]) l))
    with (map (fun kx => VList [skey (fst kx); snd kx]) (wirel l)).
  - apply (dict_of_pairs_fresh (wirel l) []). cbn [app]. unfold wirel. rewrite map_map. cbn [fst]. exact N.
  - unfold wirel. rewrite !map_map. apply map_ext. intros [k x]. cbn [fst snd norm map]. reflexivity.
Qed.

(** ** Reading the slots *)
Lemma load_slots_own rec c l a : c <> MStartSessionResponse -> map fst l = slot_names c ->
  Forall2 (fun kx kw => fst kw = fst kx /\ deser_slot rec c (fst kx) (norm (snd kx)) = Ok (snd kw)) l a ->
  load_slots rec c (norm (pairs l)) = Ok a.
Proof.
  intros Hc Hf H. pose proof (slot_names_NoDup c) as N. rewrite <- Hf in N.
  assert (M : mapM (load_slot rec c (kv_of_attrs (wirel l))) (slot_names c) = Ok a).
  { rewrite <- Hf, mapM_map. apply mapM_ok.
    assert (G : forall l' a', (forall kx, In kx l' -> In kx l) ->
      Forall2 (fun kx kw => fst kw = fst kx /\ deser_slot rec c (fst kx) (norm (snd kx)) = Ok (snd kw)) l' a' ->
      Forall2 (fun kx kw => load_slot rec c (kv_of_attrs (wirel l)) (fst kx) = Ok kw) l' a').
    { intros l' a' Hin F. induction F as [|[k x] [k' w] l' a' [H1 H2] F IH]; constructor.
      - cbn [fst snd] in *. subst k'. unfold load_slot. rewrite dict_get_kv, attr_get_wirel.
        rewrite (attr_get_nodup k x l N) by (apply Hin; left; reflexivity). cbn [option_map]. rewrite H2. reflexivity.
      - apply IH. intros kx Hkx. apply Hin. right. exact Hkx. }
    apply G; [auto|exact H]. }
  unfold load_slots. rewrite dict_of_received by exact N. rewrite M. destruct c; try reflexivity. congruence.
Qed.
Lemma attr_set_same k v (a : attrs_t) : attr_get k a = Some v -> attr_set k v a = a.
Proof.
  induction a as [|[k' w] a IH]; cbn [attr_get attr_set]; [discriminate|].
  destruct (String.eqb_spec k' k); [intros H; apply Some_inj in H; congruence|]. intros H. rewrite (IH H). reflexivity.
Qed.
Lemma upd_same k f a : (forall w, In (k, w) a -> f w = w) -> In k (map fst a) -> upd k f a = a.
Proof.
  intros Hf Hin. apply attr_get_some in Hin as (w & Hw & Hin). unfold upd, attr_get_or_none. rewrite Hw, Hf by exact Hin.
  apply attr_set_same, Hw.
Qed.
Lemma post_init_ok c a : map fst a = slot_names c ->
  (forall k w, In (k, w) a -> init_ok c k w /\ val_ok (slot_kind c k) w) -> post_init c a = a.
Proof.
  intros Hf H. destruct c; cbn [post_init]; try reflexivity.
  - apply upd_same; [|rewrite Hf; cbn; auto]. intros w Hin. apply H in Hin as [_ Hv]. change (slot_kind MPeers "peers") with KPeers in Hv.
    destruct Hv as (l & -> & _). destruct l; reflexivity.
  - apply upd_same; [|rewrite Hf; cbn; auto]. intros w Hin. apply H in Hin as [_ Hv]. change (slot_kind MTasks "tasks") with KTasks in Hv.
    destruct Hv as (l & -> & _). destruct l; reflexivity.
  - apply upd_same; [|rewrite Hf; cbn; auto]. intros w Hin. apply H in Hin as [Hi _]. destruct Hi as (l & ->). destruct l; reflexivity.
  - apply upd_same; [|rewrite Hf; cbn; auto]. intros w Hin. apply H in Hin as [Hi _]. destruct Hi as (l & ->). destruct l; reflexivity.
  - assert (X : upd "concent_enabled" is_true a = a).
    { apply upd_same; [|rewrite Hf; cbn; auto 20]. intros w Hin. apply H in Hin as [Hi _]. destruct (Hi eq_refl) as (b & ->). reflexivity. }
    rewrite X. apply upd_same; [|rewrite Hf; cbn; auto 20]. intros w Hin. apply H in Hin as [_ Hv].
    change (slot_kind MWantToComputeTask "num_subtasks") with KNum in Hv. destruct Hv as (z & -> & _). reflexivity.
  - apply upd_same; [|rewrite Hf; cbn; auto 20]. intros w Hin. apply H in Hin as [Hi _]. destruct (Hi eq_refl) as (b & ->). reflexivity.
  - apply upd_same; [|rewrite Hf; cbn; auto 20]. intros w Hin. apply H in Hin as [Hi _]. specialize (Hi eq_refl).
    destruct (is_none w) eqn:Q; [apply is_none_true in Q; contradiction|reflexivity].
Qed.

(** ** One slot that holds no message *)
Lemma enum_call_str e s : In s (members e) -> enum_call e (VStr (u s)) = Some (VEnum e s).
Proof.
  intros H. cbn [enum_call str_of]. replace (find (fun m => ustr_eqb (u m) (u s)) (members e)) with (Some s); [reflexivity|].
  induction (members e) as [|m l IH]; [easy|]. cbn [find]. destruct (ustr_eqb (u m) (u s)) eqn:Q.
  - apply ustr_eqb_eq, u_inj in Q. congruence.
  - destruct H as [->|H]; [rewrite ustr_eqb_refl in Q; discriminate|]. apply IH, H.
Qed.
Lemma cont_slot c a : cont_ok c a ->
  exists d a' d', to_dict (VObj c a) = Ok d /\ (exists kvs, norm d = VDict DPlain kvs /\ kvs <> [] /\ (exists kw, kwargs_of kvs = Ok kw /\ cnew c kw = Ok (VObj c a'))) /\
    cont_ok c a' /\ to_dict (VObj c a') = Ok d' /\ norm d' = norm d /\ (cont_wire c a -> a' = a).
Proof.
  intros H. destruct (container_rt norm c a view_norm H) as (l & a' & l' & H1 & H2 & H3 & H4 & H5 & H6 & H7).
  exists (VDict DPlain (kvl l)), a', (VDict DPlain (kvl l')). unfold to_dict. rewrite H1, H5. cbn [bind].
  split; [reflexivity|]. split.
  - exists (kvl (gl norm l)). split; [cbn [norm]; rewrite norm_kvl; reflexivity|]. split.
    + destruct l; [destruct c; discriminate|]. cbn. discriminate.
    + exists (kwl (gl norm l)). split; [|exact H3]. apply kwargs_of_kvl. rewrite gl_fst, H2. apply cslots_no_self.
  - split; [exact H4|]. split; [reflexivity|]. split; [apply norm_wirel, H6|exact H7].
Qed.

Definition text (k : pyval) : ustr := match str_of k with Some t => t | None => [] end.
Lemma norm_text k t : str_of k = Some t -> norm k = VStr t.
Proof. destruct k; cbn; try discriminate; [congruence|]. destruct (is_string_enum e); [congruence|discriminate]. Qed.
Lemma vstable_norm f k w : vstable f -> f k w = Ok tt -> f k (norm w) = Ok tt.
Proof.
  intros Hs H. pose proof (Hs norm k w view_norm H) as G. destruct w; try exact G.
  cbn [norm deenum] in *. destruct (is_string_enum e); [exact G|exact H].
Qed.
(** dict entries with their keys as plain text and values changed by [h] *)
Definition retext (h : ustr -> pyval -> pyval) (kvs : list (pyval * pyval)) : list (pyval * pyval) :=
  map (fun kv => (VStr (text (fst kv)), h (text (fst kv)) (snd kv))) kvs.
Lemma retext_texts h kvs : Forall (fun kv => exists t, str_of (fst kv) = Some t) kvs -> key_texts (retext h kvs) = key_texts kvs.
Proof.
  intros H. unfold key_texts, retext. rewrite map_map. apply map_ext_in. intros kv Hin. rewrite Forall_forall in H.
  destruct (H kv Hin) as [t Ht]. cbn [fst str_of]. unfold text. rewrite Ht. reflexivity.
Qed.
Lemma retext_in h kvs k w : In (k, w) (retext h kvs) -> exists k0 v, In (k0, v) kvs /\ k = VStr (text k0) /\ w = h (text k0) v.
Proof. intros H. apply in_map_iff in H as ([k0 v] & E & Hin). exists k0, v. cbn [fst snd] in E. split; [exact Hin|]. split; congruence. Qed.
Lemma schema_retext d kvs h : schema d kvs ->
  (forall k v t, In (k, v) kvs -> str_of k = Some t -> validated d t (h t v)) -> schema d (retext h kvs).
Proof.
  intros S H. pose proof (dinv_keys _ _ (schema_dinv _ _ S)) as Hk. split.
  - rewrite retext_texts by exact Hk. apply S.
  - intros k w t Hin Ht. apply retext_in in Hin as (k0 & v & Hin & -> & ->). cbn [str_of] in Ht. apply Some_inj in Ht. subst t.
    apply H with k0; [exact Hin|]. rewrite Forall_forall in Hk. destruct (Hk _ Hin) as [t Ht]. cbn [fst] in Ht. unfold text. rewrite Ht. reflexivity.
Qed.
Lemma norm_dict_retext d kvs : Forall (fun kv => exists t, str_of (fst kv) = Some t) kvs ->
  norm (VDict d kvs) = VDict DPlain (retext (fun _ v => norm v) kvs).
Proof.
  intros H. cbn [norm]. f_equal. apply map_ext_in. intros [k v] Hin. rewrite Forall_forall in H. destruct (H _ Hin) as [t Ht].
  cbn [fst snd] in *. rewrite (norm_text _ _ Ht). unfold text. rewrite Ht. reflexivity.
Qed.
Lemma retext_retext g h kvs : retext g (retext h kvs) = retext (fun t v => g t (h t v)) kvs.
Proof. unfold retext. rewrite map_map. reflexivity. Qed.
Lemma retext_keys h kvs : Forall (fun kv => exists t, str_of (fst kv) = Some t) (retext h kvs).
Proof. apply Forall_forall. intros [k v] Hin. apply retext_in in Hin as (k0 & v0 & _ & -> & _). cbn. eauto. Qed.
Lemma retext_id h kvs : (forall k v, In (k, v) kvs -> (exists t, k = VStr t) /\ h (text k) v = v) -> retext h kvs = kvs.
Proof.
  intros H. unfold retext. rewrite <- (map_id kvs) at 2. apply map_ext_in. intros [k v] Hin. destruct (H _ _ Hin) as [[t ->] Hv].
  cbn [fst snd text str_of] in *. rewrite Hv. reflexivity.
Qed.
Lemma retext_ext g h kvs : (forall k v, In (k, v) kvs -> g (text k) v = h (text k) v) -> retext g kvs = retext h kvs.
Proof. intros H. apply map_ext_in. intros [k v] Hin. cbn [fst snd]. rewrite (H _ _ Hin). reflexivity. Qed.

(** [d[k] = v] for a key that is present *)
Lemma dict_set_present t v kvs : NoDup (key_texts kvs) -> Forall (fun kv => exists t, str_of (fst kv) = Some t) kvs ->
  In (Some t) (key_texts kvs) ->
  dict_set (VStr t) v kvs = map (fun kv => (fst kv, if ustr_eqb (text (fst kv)) t then v else snd kv)) kvs.
Proof.
  induction kvs as [|[k w] kvs IH]; intros N F Hin; [easy|]. inversion F as [|? ? [t0 Ht0] F']; subst. cbn [fst] in Ht0.
  unfold key_texts in N. cbn [map fst] in N. inversion N as [|? ? Hn N']; subst. cbn [dict_set map fst snd].
  rewrite (py_eq_both k (VStr t) t0 t Ht0 eq_refl). unfold text at 1. rewrite Ht0.
  destruct (ustr_eqb t0 t) eqn:Q.
  - apply ustr_eqb_eq in Q. subst t0. f_equal. rewrite <- (map_id kvs) at 1. apply map_ext_in. intros [k1 w1] H1. cbn [fst snd].
    destruct (ustr_eqb (text k1) t) eqn:Q1; [|reflexivity]. exfalso. apply ustr_eqb_eq in Q1. apply Hn. rewrite Ht0.
    rewrite Forall_forall in F'. destruct (F' _ H1) as [t1 Ht1]. cbn [fst] in Ht1. unfold text in Q1. rewrite Ht1 in Q1. subst t1.
    apply in_map_iff. exists (k1, w1). auto.
  - f_equal. apply IH; [exact N'|exact F'|]. destruct Hin as [H|H]; [|exact H]. cbn [fst] in H. rewrite Ht0 in H. apply Some_inj in H. subst.
    rewrite ustr_eqb_refl in Q. discriminate.
Qed.
Lemma dict_get_text s kvs v : Forall (fun kv => exists t, str_of (fst kv) = Some t) kvs ->
  dict_get (skey s) kvs = Some v -> exists k, In (k, v) kvs /\ str_of k = Some (u s).
Proof.
  intros F. induction F as [|[k w] kvs [t Ht] F IH]; cbn [dict_get]; [discriminate|]. cbn [fst] in Ht.
  rewrite (py_eq_both k (skey s) t (u s) Ht eq_refl). destruct (ustr_eqb t (u s)) eqn:Q.
  - apply ustr_eqb_eq in Q. intros H. apply Some_inj in H. subst. exists k. split; [left; reflexivity|exact Ht].
  - intros H. destruct (IH H) as (k0 & H1 & H2). exists k0. split; [right; exact H1|exact H2].
Qed.
Lemma schema_has d kvs s : schema d kvs -> In s (map fst (items d)) -> In (Some (u s)) (key_texts kvs).
Proof.
  intros [P _] H. apply (Permutation_in _ (Permutation_sym P)). apply in_map_iff in H as (it & <- & H).
  apply in_map_iff. exists it. auto.
Qed.
Lemma schema_get d kvs s : schema d kvs -> In s (map fst (items d)) ->
  exists k v, dict_get (skey s) kvs = Some v /\ In (k, v) kvs /\ str_of k = Some (u s).
Proof.
  intros S H. pose proof (dinv_keys _ _ (schema_dinv _ _ S)) as Hk.
  destruct (proj2 (dict_get_texts s kvs Hk) (schema_has _ _ _ S H)) as [v Hv].
  destruct (dict_get_text _ _ _ Hk Hv) as (k & H1 & H2). exists k, v. auto.
Qed.
Lemma text_of k t : str_of k = Some t -> text k = t.
Proof. intros H. unfold text. rewrite H. reflexivity. Qed.
(** two entries with the same text are the same *)
Lemma schema_unique d kvs k v k' v' t : schema d kvs -> In (k, v) kvs -> In (k', v') kvs -> str_of k = Some t -> str_of k' = Some t ->
  v = v'.
Proof.
  intros S H H' Ht Ht'. destruct (schema_dinv _ _ S) as [N _]. clear S. induction kvs as [|[k0 v0] kvs IH]; [easy|].
  unfold key_texts in N. cbn [map fst] in N. inversion N as [|? ? Hn N']; subst. cbn [In] in H, H'.
  assert (X : forall k1 v1, str_of k1 = Some t -> In (k1, v1) kvs -> str_of k0 = Some t -> False).
  { intros k1 v1 E1 E2 E3. apply Hn. rewrite E3. apply in_map_iff. exists (k1, v1). auto. }
  destruct H as [H|H], H' as [H'|H'].
  - congruence.
  - exfalso. apply (X _ _ Ht' H'). congruence.
  - exfalso. apply (X _ _ Ht H). congruence.
  - apply IH; assumption.
Qed.

Lemma ctd_rt kvs : schema DCTD kvs ->
  let kvs' := retext (fun _ v => norm v) kvs in
  dict_new DCTD (norm (VDict DCTD kvs)) = Ok (VDict DCTD kvs') /\ schema DCTD kvs' /\ norm (VDict DCTD kvs') = norm (VDict DCTD kvs) /\
  ((forall k v, In (k, v) kvs -> (exists t, k = VStr t) /\ norm v = v) -> kvs' = kvs).
Proof.
  intros S kvs'. pose proof (dinv_keys _ _ (schema_dinv _ _ S)) as Hk.
  assert (S' : schema DCTD kvs').
  { apply schema_retext; [exact S|]. intros k v t Hin Ht. destruct S as [_ S]. specialize (S _ _ _ Hin Ht). unfold validated in *.
    destruct (dvalidator DCTD t) as [f|] eqn:D; [|exact I]. unfold dvalidator in D.
    destruct (ustr_eqb t (u "task_id")); [apply Some_inj in D; subst f; apply vstable_norm; [apply vstable_varchar|exact S]|].
    destruct (ustr_eqb t (u "subtask_id")); [apply Some_inj in D; subst f; apply vstable_norm; [apply vstable_varchar|exact S]|discriminate]. }
  split; [|split; [exact S'|split]].
  - rewrite (norm_dict_retext _ _ Hk). apply dict_new_again; [discriminate|exact S'|discriminate].
  - unfold kvs'. rewrite (norm_dict_retext _ _ Hk), (norm_dict_retext _ _ (retext_keys _ _)), retext_retext. f_equal.
    apply retext_ext. intros. apply norm_idem.
  - intros H. apply retext_id. exact H.
Qed.

Definition file_ok (kvs : list (pyval * pyval)) : Prop :=
  schema DFileInfo kvs /\
  forall k m, In (k, m) kvs -> str_of k = Some (u "category") -> exists s, m = VEnum EnFileCategory s /\ In s (members EnFileCategory).
Lemma file_rt kvs : file_ok kvs ->
  let kvs' := retext (fun t v => if ustr_eqb t (u "category") then v else norm v) kvs in
  deser_file (norm (VDict DFileInfo kvs)) = Ok (VDict DFileInfo kvs') /\ file_ok kvs' /\
  norm (VDict DFileInfo kvs') = norm (VDict DFileInfo kvs) /\
  ((forall k v, In (k, v) kvs -> (exists t, k = VStr t) /\ (k <> skey "category" -> norm v = v)) -> kvs' = kvs).
Proof.
  intros [S C] kvs'. pose proof (dinv_keys _ _ (schema_dinv _ _ S)) as Hk. pose proof (schema_dinv _ _ S) as [N _].
  assert (S' : schema DFileInfo kvs').
  { apply schema_retext; [exact S|]. intros k v t Hin Ht. destruct S as [_ S]. specialize (S _ _ _ Hin Ht). unfold validated in *.
    unfold dvalidator in *. destruct (ustr_eqb t (u "category")); [exact S|exact I]. }
  assert (Ok' : file_ok kvs').
  { split; [exact S'|]. intros k m Hin Ht. apply retext_in in Hin as (k0 & v & Hin & -> & ->). cbn [str_of] in Ht. apply Some_inj in Ht.
    rewrite Ht, ustr_eqb_refl. apply (C k0); [exact Hin|]. rewrite Forall_forall in Hk. destruct (Hk _ Hin) as [t Ht']. cbn [fst] in Ht'.
    rewrite (text_of _ _ Ht') in Ht. congruence. }
  split; [|split; [exact Ok'|split]].
  - rewrite (norm_dict_retext _ _ Hk). set (r := retext (fun _ v => norm v) kvs).
    destruct (schema_get _ _ "category" S) as (k & v & Hg & Hin & Ht); [cbn; auto|].
    destruct (C _ _ Hin Ht) as (s & -> & Hs).
    assert (Hr : In (VStr (u "category"), VStr (u s)) r).
    { apply in_map_iff. exists (k, VEnum EnFileCategory s). cbn [fst snd]. rewrite (text_of _ _ Ht). auto. }
    assert (Nr : NoDup (key_texts r)) by (unfold r; rewrite retext_texts by exact Hk; exact N).
    assert (Hd : dict_get (skey "category") r = Some (VStr (u s))).
    { destruct (proj2 (dict_get_texts "category" r (retext_keys _ _))) as [v Hv].
      - unfold r. rewrite retext_texts by exact Hk. apply (schema_has _ _ _ S). cbn; auto.
      - rewrite Hv. f_equal. destruct (dict_get_text _ _ _ (retext_keys _ _) Hv) as (k1 & Hi1 & Ht1).
        apply retext_in in Hi1 as (k2 & v2 & Hi2 & -> & ->). cbn [str_of] in Ht1. apply Some_inj in Ht1.
        rewrite Forall_forall in Hk. destruct (Hk _ Hi2) as [t2 Ht2]. cbn [fst] in Ht2. rewrite (text_of _ _ Ht2) in Ht1. subst t2.
        rewrite (schema_unique _ _ _ _ _ _ _ S Hi2 Hin Ht2 Ht). reflexivity. }
    unfold deser_file. rewrite Hd. rewrite (enum_call_str _ _ Hs).
    replace (dict_set (skey "category") (VEnum EnFileCategory s) r) with kvs'.
    + apply dict_new_again; [discriminate|exact S'|discriminate].
    + unfold skey. rewrite dict_set_present; [|exact Nr|apply retext_keys|unfold r; rewrite retext_texts by exact Hk; apply (schema_has _ _ _ S); cbn; auto].
      unfold r, kvs', retext. rewrite map_map. apply map_ext_in. intros [k1 v1] Hi1. cbn [fst snd]. f_equal.
      change (text (VStr (text k1))) with (text k1). destruct (ustr_eqb (text k1) (u "category")) eqn:Q; [|reflexivity].
      apply ustr_eqb_eq in Q. rewrite Forall_forall in Hk. destruct (Hk _ Hi1) as [t1 Ht1]. cbn [fst] in Ht1. rewrite (text_of _ _ Ht1) in Q. subst t1.
      apply (schema_unique _ _ _ _ _ _ _ S Hi1 Hin Ht1 Ht).
  - unfold kvs'. rewrite (norm_dict_retext _ _ Hk), (norm_dict_retext _ _ (retext_keys _ _)), retext_retext. f_equal.
    apply retext_ext. intros k v _. destruct (ustr_eqb (text k) (u "category")); [reflexivity|apply norm_idem].
  - intros H. apply retext_id. intros k v Hin. destruct (H _ _ Hin) as [[t ->] Hv]. split; [eauto|]. cbn [text str_of].
    destruct (ustr_eqb t (u "category")) eqn:Q; [reflexivity|]. apply Hv. intros E. unfold skey in E.
    assert (t = u "category") by congruence. subst. rewrite ustr_eqb_refl in Q. discriminate.
Qed.

Definition peer_ok (kvs : list (pyval * pyval)) : Prop :=
  schema DPeer kvs /\
  forall k n, In (k, n) kvs -> str_of k = Some (u "node") -> exists a, n = VObj CNode a /\ cont_ok CNode a.
Lemma dset_all_ext d l l' : forall acc,
  Forall2 (fun kv kw => forall s, dset d s (fst kv) (snd kv) = dset d s (fst kw) (snd kw)) l l' -> dset_all d acc l = dset_all d acc l'.
Proof.
  intros acc F. revert acc. induction F as [|[k v] [k' v'] l l' H F IH]; intros acc; cbn [dset_all]; [reflexivity|].
  cbn [fst snd] in H. rewrite H. destruct (dset d acc k' v'); cbn [bind]; [apply IH|reflexivity].
Qed.
Lemma peer_rt kvs x : peer_ok kvs -> peer_serialize (VDict DPeer kvs) = Ok x ->
  exists kvs' x', dict_new DPeer (norm x) = Ok (VDict DPeer kvs') /\ peer_ok kvs' /\
    peer_serialize (VDict DPeer kvs') = Ok x' /\ norm x' = norm x /\
    ((forall k v, In (k, v) kvs -> (exists t, k = VStr t) /\ match v with VObj c a => cont_wire c a | _ => norm v = v end) -> kvs' = kvs).
Proof.
  intros [S C] Hx. pose proof (dinv_keys _ _ (schema_dinv _ _ S)) as Hk. pose proof (schema_dinv _ _ S) as [N _].
  destruct (schema_get _ _ "node" S) as (kn & n & Hg & Hin & Ht); [cbn; auto|].
  destruct (C _ _ Hin Ht) as (a & -> & Ha).
  destruct (cont_slot _ _ Ha) as (d & a' & d' & D1 & (nk & D2 & D3 & kw & D4 & D5) & D6 & D7 & D8 & D9).
  unfold peer_serialize in Hx. rewrite Hg, D1 in Hx. cbn [bind] in Hx. apply Ok_inj in Hx.
  assert (Hset : forall v, dict_set (skey "node") v kvs = map (fun kv => (fst kv, if ustr_eqb (text (fst kv)) (u "node") then v else snd kv)) kvs).
  { intros v. apply dict_set_present; [exact N|exact Hk|apply (schema_has _ _ _ S); cbn; auto]. }
  rewrite Hset in Hx.
  set (kvs' := retext (fun t v => if ustr_eqb t (u "node") then VObj CNode a' else norm v) kvs).
  set (kvsx := retext (fun t v => if ustr_eqb t (u "node") then norm d else norm v) kvs).
  assert (Hnx : norm x = VDict DPlain kvsx).
  { subst x. rewrite norm_dict_retext.
    - f_equal. unfold kvsx, retext. rewrite map_map. apply map_ext. intros [k v]. cbn [fst snd].
      destruct (ustr_eqb (text k) (u "node")); reflexivity.
    - apply Forall_forall. intros kv Hkv. apply in_map_iff in Hkv as ([k v] & <- & Hkv). rewrite Forall_forall in Hk. apply (Hk _ Hkv). }
  assert (S' : schema DPeer kvs').
  { apply schema_retext; [exact S|]. intros k v t Hi Htk. destruct S as [_ S]. specialize (S _ _ _ Hi Htk). unfold validated in *.
    unfold dvalidator in *. destruct (ustr_eqb t (u "node")) eqn:Q.
    - apply ustr_eqb_eq in Q. subst t. exact eq_refl.
    - destruct (ustr_eqb t (u "address")); [apply vstable_norm; [apply vstable_ip|exact S]|].
      destruct (ustr_eqb t (u "port")); [apply vstable_norm; [apply vstable_port|exact S]|]. exact I. }
  assert (Ok' : peer_ok kvs').
  { split; [exact S'|]. intros k m Hi Htk. apply retext_in in Hi as (k0 & v & Hi & -> & ->). cbn [str_of] in Htk. apply Some_inj in Htk.
    rewrite Htk, ustr_eqb_refl. eauto. }
  destruct (schema_get _ _ "node" S') as (kn' & n' & Hg' & Hin' & Ht'); [cbn; auto|].
  assert (n' = VObj CNode a').
  { apply retext_in in Hin' as (k0 & v & Hi & -> & ->). cbn [str_of] in Ht'. apply Some_inj in Ht'. rewrite Ht', ustr_eqb_refl. reflexivity. }
  subst n'. exists kvs', (VDict DPlain (dict_set (skey "node") d' kvs')).
  split; [|split; [exact Ok'|split; [|split]]].
  - rewrite Hnx. unfold dict_new. rewrite (dset_all_ext DPeer kvsx kvs').
    + change (do kvs0 <- dset_all DPeer [] kvs'; do kvs'0 <- dset_defaults DPeer kvs0 (items DPeer); Ok (VDict DPeer kvs'0))
        with (dict_new DPeer (VDict DPlain kvs')).
      apply dict_new_again; [discriminate|exact S'|]. intros _ k v Hi Htk. destruct Ok' as [_ Ok']. destruct (Ok' _ _ Hi Htk) as (? & -> & _). reflexivity.
    + unfold kvsx, kvs'. clear Hnx S' Ok' Hg' Hin' Ht' kvsx kvs'. unfold retext.
      assert (F : forall l, Forall2 (fun kv kw0 : pyval * pyval => forall s, dset DPeer s (fst kv) (snd kv) = dset DPeer s (fst kw0) (snd kw0))
         (map (fun kv => (VStr (text (fst kv)), if ustr_eqb (text (fst kv)) (u "node") then norm d else norm (snd kv))) l)
         (map (fun kv => (VStr (text (fst kv)), if ustr_eqb (text (fst kv)) (u "node") then VObj CNode a' else norm (snd kv))) l)); [|apply F].
      intros l. induction l as [|[k v] l IH]; cbn [map]; constructor; [|exact IH]. intros s. cbn [fst snd].
      destruct (ustr_eqb (text k) (u "node")) eqn:Q; [|reflexivity]. apply ustr_eqb_eq in Q. rewrite Q, D2. unfold dset.
      change (py_eq (VStr (u "node")) (skey "node")) with true. cbv iota. rewrite D4. cbn [bind].
      change (node_new kw) with (cnew CNode kw). rewrite D5. reflexivity.
  - unfold peer_serialize. rewrite Hg', D7. reflexivity.
  - rewrite Hnx. pose proof (schema_dinv _ _ S') as [N' _].
    unfold skey. rewrite dict_set_present; [|exact N'|apply retext_keys|apply (schema_has _ _ _ S'); cbn; auto].
    rewrite norm_dict_retext.
    + f_equal. unfold kvsx, kvs', retext. rewrite !map_map. apply map_ext. intros [k v]. cbn [fst snd].
      change (text (VStr (text k))) with (text k). destruct (ustr_eqb (text k) (u "node")); [rewrite D8; reflexivity|rewrite norm_idem; reflexivity].
    + apply Forall_forall. intros kv Hkv. apply in_map_iff in Hkv as ([k v] & <- & Hkv).
      apply retext_in in Hkv as (k0 & v0 & _ & -> & _). cbn. eauto.
  - intros H. apply retext_id. intros k v Hi. destruct (H _ _ Hi) as [[t ->] Hv]. split; [eauto|]. cbn [text str_of].
    destruct (ustr_eqb t (u "node")) eqn:Q.
    + apply ustr_eqb_eq in Q. subst t. rewrite (schema_unique _ _ _ _ _ _ _ S Hi Hin eq_refl Ht) in *. rewrite D9; [reflexivity|exact Hv].
    + destruct v; try exact Hv. reflexivity.
Qed.

Definition same_or_wire (kd : skind) (w w' : pyval) : Prop :=
  match kd with
  | KPlain => w' = norm (deenum w)
  | KEnum _ | KCpu | KNum | KInt => w' = w
  | KCtd => forall kvs, w = VDict DCTD kvs -> w' = VDict DCTD (map (fun kv => (norm (fst kv), norm (snd kv))) kvs)
  | _ => True
  end.
(** a list handled element by element *)
Lemma list_rt (P W : pyval -> Prop) (ser deser : pyval -> result pyval) l r :
  (forall w x, P w -> ser w = Ok x ->
     exists w' x', deser (norm x) = Ok w' /\ P w' /\ ser w' = Ok x' /\ norm x' = norm x /\ (W w -> w' = w)) ->
  Forall P l -> mapM ser l = Ok r ->
  exists l' r', mapM deser (map norm r) = Ok l' /\ Forall P l' /\ mapM ser l' = Ok r' /\ map norm r' = map norm r /\
    (Forall W l -> l' = l).
Proof.
  intros H F. revert r. induction F as [|w l Hw F IH]; intros r M; cbn [mapM] in M.
  - apply Ok_inj in M. subst. exists [], []. cbn. auto.
  - apply bind_ok in M as (x & Hx & M). apply bind_ok in M as (r0 & Hr & M). apply Ok_inj in M. subst r.
    destruct (H _ _ Hw Hx) as (w' & x' & H1 & H2 & H3 & H4 & H5). destruct (IH _ Hr) as (l' & r' & I1 & I2 & I3 & I4 & I5).
    exists (w' :: l'), (x' :: r'). cbn [mapM map]. rewrite H1, H3. cbn [bind]. rewrite I1, I3. cbn [bind].
    split; [reflexivity|]. split; [constructor; assumption|]. split; [reflexivity|]. split; [rewrite H4, I4; reflexivity|].
    intros G. inversion G; subst. rewrite H5, I5; auto.
Qed.
Lemma plain_rt kd k w x : (forall d an il, kd <> KMsg d an il) -> val_ok kd w -> ser_plain kd k w = Ok x ->
  exists w' x', deser_plain kd k (norm x) = Ok w' /\ val_ok kd w' /\ ser_plain kd k w' = Ok x' /\ norm x' = norm x /\
    (val_wire kd w -> w' = w) /\ same_or_wire kd w w'.
Proof.
  intros Hkd Hok Hx. destruct kd; cbn [val_ok ser_plain deser_plain val_wire same_or_wire] in *.
  - (* plain *) apply Ok_inj in Hx. subst x. change (enum_value w) with (deenum w). exists (norm (deenum w)), (norm (deenum w)).
    change (enum_value (norm (deenum w))) with (deenum (norm (deenum w))). rewrite (view_deenum norm w view_norm), norm_idem.
    repeat split. intros [W1 W2]. congruence.
  - (* enum *) apply Ok_inj in Hx. subst x. destruct Hok as [->|(s & -> & Hs)].
    + exists VNone, VNone. cbn. auto 10.
    + exists (VEnum e s), (VStr (u s)). cbn [enum_value norm is_none]. rewrite (enum_call_str _ _ Hs). repeat split; eauto.
  - exfalso. eapply Hkd; reflexivity.
  - (* node *) destruct Hok as [->|(a & -> & Ha)].
    + cbn in Hx. apply Ok_inj in Hx. subst. exists VNone, VNone. cbn. auto 10.
    + destruct (cont_slot _ _ Ha) as (d & a' & d' & D1 & (nk & D2 & D3 & kw & D4 & D5) & D6 & D7 & D8 & D9).
      cbn [truthy] in Hx. rewrite D1 in Hx. apply Ok_inj in Hx. subst x. exists (VObj CNode a'), d'. rewrite D2.
      assert (T : truthy (VDict DPlain nk) = true) by (destruct nk; [congruence|reflexivity]). rewrite T. cbn [truthy].
      change (validate_dict (u k) (VDict DPlain nk)) with (Ok tt). cbn [bind]. unfold cnew_star, star_star. rewrite D4. cbn [bind].
      rewrite D5, D7. repeat split; [right; eauto|congruence|]. intros W. rewrite D9; auto.
  - (* peers *) destruct Hok as (l & -> & Hl). cbn [py_iter] in Hx. rewrite collect_map in Hx. apply bind_ok in Hx as (r & Hr & Hx).
    apply Ok_inj in Hx. subst x.
    destruct (list_rt (fun p => exists kvs, p = VDict DPeer kvs /\ peer_ok kvs)
       (fun p => forall kvs k v, p = VDict DPeer kvs -> In (k, v) kvs -> (exists t, k = VStr t) /\ match v with VObj c a => cont_wire c a | _ => norm v = v end)
       peer_serialize (dict_new DPeer) l r) as (l' & r' & H1 & H2 & H3 & H4 & H5); [|exact Hl|exact Hr|].
    { intros p y (kvs & -> & Hp) Hy. destruct (peer_rt _ _ Hp Hy) as (kvs' & y' & Q1 & Q2 & Q3 & Q4 & Q5).
      exists (VDict DPeer kvs'), y'. split; [exact Q1|]. split; [eauto|]. split; [exact Q3|]. split; [exact Q4|].
      intros W. rewrite Q5; [reflexivity|]. intros k0 v0 Hin. apply (W kvs); auto. }
    exists (VList l'), (VList r'). cbn [norm py_iter]. rewrite collect_map, H1, H3. cbn [bind]. rewrite H4.
    repeat split; [eauto|]. intros W. f_equal. apply H5. apply Forall_forall. intros p Hp kvs k0 v0 -> Hin. apply (W kvs); auto.
  - (* tasks *) destruct Hok as (l & -> & Hl). rewrite collect_map in Hx. apply bind_ok in Hx as (r & Hr & Hx).
    apply Ok_inj in Hx. subst x.
    destruct (list_rt (fun h => exists a, h = VObj CTaskHeader a /\ cont_ok CTaskHeader a)
       (fun h => forall c a, h = VObj c a -> cont_wire c a)
       to_dict (fun h => do _ <- validate_dict (u "tasks") h; cnew_star CTaskHeader h) l r) as (l' & r' & H1 & H2 & H3 & H4 & H5); [|exact Hl|exact Hr|].
    { intros p y (a & -> & Ha) Hy. destruct (cont_slot _ _ Ha) as (d & a' & d' & D1 & (nk & D2 & D3 & kw & D4 & D5) & D6 & D7 & D8 & D9).
      rewrite D1 in Hy. apply Ok_inj in Hy. subst y. exists (VObj CTaskHeader a'), d'. rewrite D2.
      change (validate_dict (u "tasks") (VDict DPlain nk)) with (Ok tt). cbn [bind]. unfold cnew_star, star_star. rewrite D4. cbn [bind].
      split; [exact D5|]. split; [eauto|]. split; [exact D7|]. split; [congruence|]. intros W. rewrite D9; [reflexivity|]. apply W. reflexivity. }
    exists (VList l'), (VList r'). cbn [norm]. rewrite collect_map, H1, H3. cbn [bind]. rewrite H4.
    repeat split; [eauto|]. intros W. f_equal. apply H5. apply Forall_forall. intros p Hp c a ->. apply W. exact Hp.
  - (* header *) destruct Hok as [->|(a & -> & Ha)].
    + cbn in Hx. apply Ok_inj in Hx. subst. exists VNone, VNone. cbn. auto 10.
    + destruct (cont_slot _ _ Ha) as (d & a' & d' & D1 & (nk & D2 & D3 & kw & D4 & D5) & D6 & D7 & D8 & D9).
      rewrite D1 in Hx. apply Ok_inj in Hx. subst x. exists (VObj CTaskHeader a'), d'. rewrite D2. cbn [is_none].
      unfold cnew_star, star_star. rewrite D4. cbn [bind]. rewrite D5, D7. repeat split; [right; eauto|congruence|]. intros W. rewrite D9; auto.
  - (* cpu *) apply Ok_inj in Hx. subst x. destruct Hok as [->|(z & -> & Hz)].
    + exists VNone, VNone. cbn. auto 10.
    + exists (VInt z), (VInt z). cbn [norm enum_value is_none]. change (validate_integer (u k) (VInt z)) with (Ok tt). cbn [bind].
      replace (z <? 0) with false by (symmetry; apply Z.ltb_ge; lia). repeat split. right; eauto.
  - (* num *) apply Ok_inj in Hx. subst x. destruct Hok as (z & -> & Hz). exists (VInt z), (VInt z). cbn [norm enum_value].
    assert (V : validate_positive_integer (u k) (VInt z) = Ok tt).
    { unfold validate_positive_integer. cbn. replace (z <? 1) with false by (symmetry; apply Z.ltb_ge; lia). reflexivity. }
    rewrite V. repeat split. eauto.
  - (* ctd *) apply Ok_inj in Hx. subst x. destruct Hok as (kvs & -> & S). destruct (ctd_rt _ S) as (H1 & H2 & H3 & H4).
    cbn [enum_value]. exists (VDict DCTD (retext (fun _ v => norm v) kvs)), (VDict DCTD (retext (fun _ v => norm v) kvs)).
    split; [exact H1|]. split; [eauto|]. split; [reflexivity|]. split; [exact H3|]. split; [intros W; rewrite H4; auto|].
    intros kvs0 E0. assert (kvs0 = kvs) by congruence. subst kvs0. f_equal. pose proof (dinv_keys _ _ (schema_dinv _ _ S)) as Hk.
    unfold retext. apply map_ext_in. intros kv Hin. rewrite Forall_forall in Hk. destruct (Hk _ Hin) as [t Ht].
    rewrite (text_of _ _ Ht), (norm_text _ _ Ht). reflexivity.
  - (* int *) apply Ok_inj in Hx. subst x. destruct Hok as (z & ->). exists (VInt z), (VInt z). cbn. repeat split. eauto.
  - (* stats *) destruct Hok as [->|(a & -> & Ha)].
    + cbn in Hx. apply Ok_inj in Hx. subst. exists VNone, VNone. cbn. auto 10.
    + destruct (cont_slot _ _ Ha) as (d & a' & d' & D1 & (nk & D2 & D3 & kw & D4 & D5) & D6 & D7 & D8 & D9).
      rewrite D1 in Hx. apply Ok_inj in Hx. subst x. exists (VObj CProvider a'), d'. rewrite D2. cbn [is_none].
      unfold cnew_star, star_star. rewrite D4. cbn [bind]. rewrite D5, D7. repeat split; [right; eauto|congruence|]. intros W. rewrite D9; auto.
  - (* files *) apply Ok_inj in Hx. subst x. destruct Hok as (l & -> & Hl). cbn [enum_value].
    destruct (list_rt (fun f => exists kvs, f = VDict DFileInfo kvs /\ file_ok kvs)
       (fun f => forall kvs k v, f = VDict DFileInfo kvs -> In (k, v) kvs -> (exists t, k = VStr t) /\ (k <> skey "category" -> norm v = v))
       (fun f => Ok f) deser_file l l) as (l' & r' & H1 & H2 & H3 & H4 & H5); [|exact Hl|clear; induction l as [|a l IH]; cbn [mapM bind]; [reflexivity|rewrite IH; reflexivity]|].
    { intros f y (kvs & -> & Hf) Hy. apply Ok_inj in Hy. subst y. destruct (file_rt _ Hf) as (Q1 & Q2 & Q3 & Q4).
      eexists _, _. split; [exact Q1|]. split; [eauto|]. split; [reflexivity|]. split; [exact Q3|].
      intros W. rewrite Q4; [reflexivity|]. intros k0 v0 Hin. apply (W kvs); auto. }
    assert (r' = l') as ->.
    { clear -H3. revert r' H3. induction l' as [|a l' IH]; intros r' H3; cbn [mapM bind] in H3; [apply Ok_inj in H3; auto|].
      apply bind_ok in H3 as (r0 & Hr & H3). apply Ok_inj in H3. subst. rewrite (IH _ Hr). reflexivity. }
    exists (VList l'), (VList l'). cbn [norm py_iter]. rewrite H1. cbn [bind]. rewrite H4.
    repeat split; [eauto|]. intros W. f_equal. apply H5. apply Forall_forall. intros p Hp kvs k0 v0 -> Hin. apply (W kvs); auto.
Qed.

(** ** One message slot, given that nested messages arrive *)
Definition arrives_n (n : nat) (c : mcls) (a : attrs_t) : Prop :=
  forall s, slots c a = Ok s ->
  exists a', load_attrs n c (norm s) = Ok a' /\ post_init c a' = a' /\ mok c a' /\ arrives c a a' /\ (mwire c a -> a' = a).
Lemma single_rt n d an k m x ty ts enc sig b : arrives_n n d b -> m = VMsg d ty ts enc sig b -> ser_single wire d k m = Ok x ->
  exists b' x', deser_single (load_attrs n) d an k (norm x) = Ok (VMsg d (norm ty) (norm ts) (norm enc) (norm sig) b') /\
    mok d b' /\ arrives d b b' /\ (mwire d b -> b' = b) /\
    ser_single wire d k (VMsg d (norm ty) (norm ts) (norm enc) (norm sig) b') = Ok x' /\ norm x' = norm x /\
    exists l, norm x = VList l /\ l <> [].
Proof.
  intros Hn -> Hx. unfold ser_single in *. rewrite mcls_eqb_refl in *. rewrite wire_msg in Hx. apply bind_ok in Hx as (s & Hs & Hx).
  apply Ok_inj in Hx. subst x. destruct (Hn _ Hs) as (b' & L & PI & M & A & W).
  pose proof A as [_ _ _ (s0 & s' & S0 & S1 & S2)]. assert (s0 = s) by congruence. subst s0.
  eexists b', _. cbn [norm map]. split.
  - unfold deser_single. cbn [is_none py_iter]. rewrite L. cbn [bind as_field_error]. rewrite PI. reflexivity.
  - split; [exact M|]. split; [exact A|]. split; [exact W|]. rewrite wire_msg, S1. cbn [bind]. split; [reflexivity|].
    cbn [norm map]. rewrite !norm_idem, S2. split; [reflexivity|]. eexists. split; [reflexivity|discriminate].
Qed.
Definition one_arr (d : mcls) (m m' : pyval) : Prop :=
  exists ty ts enc sig b b', m = VMsg d ty ts enc sig b /\
    m' = VMsg d (norm ty) (norm ts) (norm enc) (norm sig) b' /\ arrives d b b'.
Definition one_ok (d : mcls) (m : pyval) : Prop := exists ty ts enc sig b, m = VMsg d ty ts enc sig b /\ mok d b.
Definition one_wire (d : mcls) (m : pyval) : Prop :=
  forall ty ts enc sig b, m = VMsg d ty ts enc sig b -> norm ty = ty /\ norm ts = ts /\ norm enc = enc /\ norm sig = sig /\ mwire d b.
Lemma singles_rt n d an k l : forall r, (forall b, mok d b -> arrives_n n d b) -> Forall (one_ok d) l -> mapM (ser_single wire d k) l = Ok r ->
  exists l' r', mapM (deser_single (load_attrs n) d an k) (map norm r) = Ok l' /\ Forall (one_ok d) l' /\
    Forall2 (one_arr d) l l' /\ mapM (ser_single wire d k) l' = Ok r' /\ map norm r' = map norm r /\ (Forall (one_wire d) l -> l' = l).
Proof.
  intros r H F. revert r. induction F as [|w l (ty & ts & enc & sig & b & Hw & Hb) F IH]; intros r M; cbn [mapM] in M.
  - apply Ok_inj in M. subst. exists [], []. cbn. auto 10.
  - apply bind_ok in M as (x & Hx & M). apply bind_ok in M as (r0 & Hr & M). apply Ok_inj in M. subst r.
    destruct (single_rt n d an k w x ty ts enc sig b (H _ Hb) Hw Hx) as (b' & x' & H1 & H2 & H3 & H4 & H5 & H6 & _).
    destruct (IH _ Hr) as (l' & r' & I1 & I2 & I3 & I4 & I5 & I6).
    eexists (_ :: l'), (x' :: r'). cbn [mapM map]. rewrite H1. cbn [bind]. rewrite I1. cbn [bind].
    split; [reflexivity|]. split; [constructor; [|assumption]; exists (norm ty), (norm ts), (norm enc), (norm sig), b'; auto|].
    split; [constructor; [|assumption]; exists ty, ts, enc, sig, b, b'; auto|].
    rewrite H5. cbn [bind]. rewrite I4. cbn [bind].
    split; [reflexivity|]. split; [rewrite H6, I5; reflexivity|].
    intros G. inversion G as [|? ? G1 G2]; subst. destruct (G1 _ _ _ _ _ eq_refl) as (-> & -> & -> & -> & W). rewrite H4, I6; auto.
Qed.
Lemma nested_rt n c k d an il w x : slot_kind c k = KMsg d an il -> (forall b, mok d b -> arrives_n n d b) ->
  nested_ok mok d an il w -> ser_slot c k w = Ok x ->
  exists w' x', deser_slot (load_attrs n) c k (norm x) = Ok w' /\ nested_ok mok d an il w' /\ nested_arr arrives d w w' /\
    ser_slot c k w' = Ok x' /\ norm x' = norm x /\ (nested_wire mwire d w -> w' = w).
Proof.
  intros Hk H Hw Hx. unfold ser_slot, ser_slot_with, deser_slot in *. rewrite Hk in *.
  destruct Hw as [[-> ->]|[(-> & ty & ts & enc & sig & b & -> & Hb)|(-> & l & -> & Hne & Hl)]].
  - apply Ok_inj in Hx. subst x. exists VNone, (VTuple [VBool false; VNone]). cbn. split; [reflexivity|].
    split; [left; auto|]. split; [left; auto|]. auto.
  - apply bind_ok in Hx as (r & Hr & Hx). apply Ok_inj in Hx. subst x.
    destruct (single_rt n d an k _ r ty ts enc sig b (H _ Hb) eq_refl Hr) as (b' & x' & H1 & H2 & H3 & H4 & H5 & H6 & lx & H7 & H8).
    eexists (VMsg d (norm ty) (norm ts) (norm enc) (norm sig) b'), (VTuple [VBool false; x']). rewrite H5. cbn [bind].
    split; [|split; [|split; [|split; [|split]]]].
    + cbn [norm map]. unfold deser_message. cbn [py_iter].
      change (py_eq (VBool false) (VBool false)) with true. cbn [negb]. rewrite andb_false_r. cbn [truthy]. rewrite andb_false_r. exact H1.
    + right; left. split; [reflexivity|]. exists (norm ty), (norm ts), (norm enc), (norm sig), b'. auto.
    + right; left. exists ty, ts, enc, sig, b, b'. auto.
    + reflexivity.
    + cbn [norm map]. rewrite H6. reflexivity.
    + intros W. destruct (W ty ts enc sig b (or_introl eq_refl)) as (-> & -> & -> & -> & W'). rewrite H4; auto.
  - rewrite collect_map in Hx. apply bind_ok in Hx as (r & Hr & Hx). apply Ok_inj in Hx. subst x.
    destruct (singles_rt n d an k l r H Hl Hr) as (l' & r' & H1 & H2 & H3 & H4 & H5 & H6).
    assert (r <> []). { intros ->. apply mapM_ok in Hr. inversion Hr. congruence. }
    assert (l' <> []). { intros ->. inversion H3. congruence. }
    exists (VList l'), (VTuple [VBool true; VList r']). rewrite collect_map, H4. cbn [bind].
    split; [|split; [|split; [|split; [|split]]]].
    + cbn [norm map]. unfold deser_message. cbn [py_iter]. destruct r as [|x0 r]; [congruence|]. cbn [map truthy].
      change (py_eq (VBool true) (VBool true)) with true. cbn [negb andb]. change (norm x0 :: map norm r) with (map norm (x0 :: r)). rewrite H1. reflexivity.
    + right; right. split; [reflexivity|]. exists l'. auto.
    + right; right. exists l, l'. auto.
    + reflexivity.
    + cbn [norm map]. rewrite H5. reflexivity.
    + intros W. rewrite H6; [reflexivity|]. apply Forall_forall. intros m Hm ty ts enc sig b ->. apply W. exact Hm.
Qed.

(** ** All slots *)
Lemma init_ok_arr c k w w' : init_ok c k w -> In k (slot_names c) -> same_or_wire (slot_kind c k) w w' -> init_ok c k w'.
Proof.
  intros H Hin R. destruct c; try exact I; unfold init_ok in *.
  - destruct Hin as [<-|[]]. change (slot_kind MResourcePeers "resource_peers") with KPlain in R. destruct H as [l ->]. cbn in R. subst. eauto.
  - destruct Hin as [<-|[]]. change (slot_kind MGossip "gossip") with KPlain in R. destruct H as [l ->]. cbn in R. subst. eauto.
  - intros ->. change (slot_kind MWantToComputeTask "concent_enabled") with KPlain in R. destruct (H eq_refl) as [b ->]. cbn in R. subst. eauto.
  - intros ->. change (slot_kind MTaskToCompute "concent_enabled") with KPlain in R. destruct (H eq_refl) as [b ->]. cbn in R. subst. eauto.
  - intros ->. change (slot_kind MTaskFailure "reason") with (KEnum EnTaskFailure) in R. cbn in R. subst. apply H. reflexivity.
  - destruct Hin as [<-|[]]. subst w. cbn in R. exact R.
Qed.
Definition slot_good (c : mcls) (k : string) (w : pyval) : Prop :=
  (init_ok c k w /\ val_ok (slot_kind c k) w) /\ forall d an il, slot_kind c k = KMsg d an il -> nested_ok mok d an il w.
Definition slot_wire (c : mcls) (k : string) (w : pyval) : Prop :=
  val_wire (slot_kind c k) w /\ forall d an il, slot_kind c k = KMsg d an il -> nested_wire mwire d w.
Lemma slot_rt_any n c k w x : In k (slot_names c) ->
  (forall d an il b, slot_kind c k = KMsg d an il -> mok d b -> arrives_n n d b) ->
  slot_good c k w -> ser_slot c k w = Ok x ->
  exists w' x', deser_slot (load_attrs n) c k (norm x) = Ok w' /\ slot_good c k w' /\
    same_or_wire (slot_kind c k) w w' /\ (forall d an il, slot_kind c k = KMsg d an il -> nested_arr arrives d w w') /\
    ser_slot c k w' = Ok x' /\ norm x' = norm x /\ (slot_wire c k w -> w' = w).
Proof.
  intros Hin H [[Hi Hv] Hm] Hx. unfold slot_wire. destruct (slot_kind c k) as [|e|d an il| | | | | | | | | |] eqn:Hk.
  3:{ destruct (nested_rt n c k d an il w x Hk (fun b => H d an il b eq_refl) (Hm _ _ _ eq_refl) Hx) as (w' & x' & H1 & H2 & H3 & H4 & H5 & H6).
      exists w', x'. split; [exact H1|]. split.
      { split; [split|].
        - apply (init_ok_arr c k w w' Hi Hin). rewrite Hk. exact I.
        - rewrite Hk. exact I.
        - intros d' an' il' E. rewrite Hk in E. assert (d' = d /\ an' = an /\ il' = il) as (-> & -> & ->) by (repeat split; congruence). exact H2. }
      split; [exact I|]. split; [intros d' an' il' E; assert (d' = d) by congruence; subst; exact H3|].
      split; [exact H4|]. split; [exact H5|]. intros [_ W]. apply H6, (W _ _ _ eq_refl). }
  all: rewrite <- Hk in Hv; assert (Hnk : forall d an il, slot_kind c k <> KMsg d an il) by (intros; rewrite Hk; discriminate);
    assert (Hser : forall v, ser_slot c k v = ser_plain (slot_kind c k) k v) by (intros v; unfold ser_slot, ser_slot_with; rewrite Hk; reflexivity);
    assert (Hdes : forall v, deser_slot (load_attrs n) c k v = deser_plain (slot_kind c k) k v) by (intros v; unfold deser_slot; rewrite Hk; reflexivity);
    rewrite Hser in Hx; destruct (plain_rt _ k w x Hnk Hv Hx) as (w' & x' & H1 & H2 & H3 & H4 & H5 & H6);
    exists w', x'; rewrite Hdes, Hser; split; [exact H1|]; split;
    [split; [split; [apply (init_ok_arr c k w w' Hi Hin H6)|exact H2]|intros d an il E; exfalso; exact (Hnk _ _ _ E)]|];
    rewrite <- Hk; split; [exact H6|]; split; [intros d an il E; exfalso; exact (Hnk _ _ _ E)|]; split; [exact H3|]; split; [exact H4|];
    intros [W _]; apply H5, W.
Qed.
Lemma mok_good c a : mok c a <-> map fst a = slot_names c /\ forall k w, In (k, w) a -> slot_good c k w.
Proof.
  split.
  - intros [H1 H2 H3]. split; [exact H1|]. intros k w Hin. split; [apply H2, Hin|]. intros. eapply H3; eauto.
  - intros [H1 H2]. constructor; [exact H1| |]; intros; eapply H2; eauto.
Qed.
Lemma mwire_slots c a : mwire c a -> forall k w, In (k, w) a -> slot_wire c k w.
Proof. intros [H1 H2] k w Hin. split; [apply H1, Hin|]. intros. eapply H2; eauto. Qed.

Lemma Forall2_in_l {A B} (P : A -> B -> Prop) l m x : Forall2 P l m -> In x l -> exists y, In y m /\ P x y.
Proof. induction 1; cbn; [easy|]. intros [<-|H1]; [eauto|]. destruct (IHForall2 H1) as (z & ? & ?). eauto. Qed.
Lemma nodup_fst_unique (a : attrs_t) k w w' : NoDup (map fst a) -> In (k, w) a -> In (k, w') a -> w = w'.
Proof. intros N H H'. apply Some_inj. rewrite <- (attr_get_nodup k w a N H). apply attr_get_nodup; assumption. Qed.

Theorem slots_rt n : forall c a, (rank c < n)%nat -> mok c a -> arrives_n n c a.
Proof.
  induction n as [|n IH]; intros c a Hr Hm s Hs; [lia|].
  pose proof (proj1 (mok_good c a) Hm) as [Hf Hg]. pose proof (slot_names_NoDup c) as N.
  apply (slots_inv c a s Hf) in Hs as (l & -> & Hl). pose proof (Forall2_fsts _ _ _ Hl) as Hfl.
  assert (R : forall k d an il b, slot_kind c k = KMsg d an il -> mok d b -> arrives_n n d b).
  { intros k d an il b Hk Hb. apply IH; [|exact Hb]. apply rank_decreases in Hk. lia. }
  assert (X : exists a' l',
     Forall2 (fun kw kx => fst kx = fst kw /\ deser_slot (load_attrs n) c (fst kw) (norm (snd kw)) = Ok (snd kx)) l a' /\
     Forall2 (fun kw kw' => fst kw' = fst kw /\ slot_good c (fst kw) (snd kw') /\ same_or_wire (slot_kind c (fst kw)) (snd kw) (snd kw') /\
        forall d an il, slot_kind c (fst kw) = KMsg d an il -> nested_arr arrives d (snd kw) (snd kw')) a a' /\
     Forall2 (fun kw kx => fst kx = fst kw /\ ser_slot c (fst kw) (snd kw) = Ok (snd kx)) a' l' /\ wirel l' = wirel l /\
     ((forall k w, In (k, w) a -> slot_wire c k w) -> a' = a)).
  { assert (Hin : forall k w, In (k, w) a -> In k (slot_names c)) by (intros k w H; rewrite <- Hf; apply (in_map fst) in H; exact H).
    clear Hm Hf Hfl N IH. induction Hl as [|[k w] [k' x] a l [H1 H2] Hl IHl].
    - exists [], []. repeat split; constructor.
    - cbn [fst snd] in *. subst k'.
      destruct IHl as (a' & l' & I1 & I2 & I3 & I4 & I5); [intros; apply Hg; right; assumption|intros; eapply Hin; right; eassumption|].
      destruct (slot_rt_any n c k w x) as (w' & x' & S1 & S2 & S3 & S4 & S5 & S6 & S7);
        [apply (Hin k w); left; reflexivity|intros; eapply R; eassumption|apply Hg; left; reflexivity|exact H2|].
      exists ((k, w') :: a'), ((k, x') :: l'). split; [constructor; auto|]. split; [constructor; cbn [fst snd]; auto|].
      split; [constructor; cbn [fst snd]; auto|]. split; [unfold wirel in *; cbn [map fst snd]; rewrite S6, I4; reflexivity|].
      intros W. rewrite S7, I5; [reflexivity| |]; intros; apply W; [right; assumption|left; reflexivity]. }
  destruct X as (a' & l' & X1 & X2 & X3 & X4 & X5).
  assert (Hf' : map fst a' = slot_names c) by (rewrite <- Hf; apply (Forall2_fsts _ _ _ X2)).
  assert (Hg' : forall k w, In (k, w) a' -> slot_good c k w).
  { intros k w' Hin. clear -X2 Hin. induction X2 as [|[k0 w0] [k1 w1] a a' (H1 & H2 & _) X2 IH]; [easy|]. cbn [fst snd] in *. subst.
    destruct Hin as [E|Hin]; [|apply IH, Hin]. assert (k0 = k /\ w1 = w') as [-> ->] by (split; congruence). exact H2. }
  assert (Hm' : mok c a') by (apply mok_good; auto).
  exists a'. split; [|split; [|split; [exact Hm'|split]]].
  - cbn [load_attrs]. destruct (mcls_eq_dec c MStartSessionResponse) as [->|Hc].
    + cbn. f_equal. destruct a' as [|[k w] [|]]; try discriminate. cbn in Hf'. assert (k = "conn_id"%string) as -> by congruence.
      destruct (Hg' "conn_id"%string w) as [[Hi _] _]; [left; reflexivity|]. cbn in Hi. subst. reflexivity.
    + apply load_slots_own; [exact Hc|congruence|exact X1].
  - apply post_init_ok; [exact Hf'|]. intros k w Hin. apply (Hg' k w Hin).
  - assert (U : forall k w w', In (k, w) a -> In (k, w') a' -> same_or_wire (slot_kind c k) w w' /\
        forall d an il, slot_kind c k = KMsg d an il -> nested_arr arrives d w w').
    { intros k w w' H H'. destruct (Forall2_in_l _ _ _ _ X2 H) as ([k1 w1] & Hi & E & _ & Q1 & Q2). cbn [fst snd] in *. subst k1.
      rewrite <- Hf' in N. rewrite (nodup_fst_unique _ _ _ _ N H' Hi). auto. }
    constructor.
    + congruence.
    + intros k w w' H H'. exact (proj1 (U k w w' H H')).
    + intros k w w' d an il H H' Hk. eapply (proj2 (U k w w' H H')); exact Hk.
    + exists (pairs l), (pairs l'). split; [apply slots_inv; eauto|]. split; [apply slots_inv; eauto|].
      unfold pairs. cbn [norm]. f_equal. rewrite !map_map. cbn [norm map].
      assert (Y : forall l0 : list (string * pyval), map (fun x => VList [norm (skey (fst x)); norm (snd x)]) l0 =
        map (fun kx => VList [skey (fst kx); snd kx]) (wirel l0)) by (intros; unfold wirel; rewrite map_map; reflexivity).
      rewrite !Y, X4. reflexivity.
  - intros W. apply X5, mwire_slots, W.
Qed.
