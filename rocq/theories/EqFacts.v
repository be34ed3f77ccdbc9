(** * Equality of messages survives the wire: two equal TaskToCompute messages of a
    verdict are still equal when they arrive *)
From Verif Require Export LoadFacts.

(** ** [==] on lists and dicts, spelled out *)
Fixpoint eqs (l1 l2 : list pyval) : bool :=
  match l1, l2 with
  | [], [] => true
  | x :: r1, y :: r2 => py_eq x y && eqs r1 r2
  | _, _ => false
  end.
Fixpoint dfind (k v : pyval) (d : list (pyval * pyval)) : bool :=
  match d with
  | [] => false
  | (k2, v2) :: r => if py_eq k k2 then py_eq v v2 else dfind k v r
  end.
Fixpoint dsub (d1 d2 : list (pyval * pyval)) : bool :=
  match d1 with [] => true | (k, v) :: r => dfind k v d2 && dsub r d2 end.
Lemma py_eq_list l1 l2 : py_eq (VList l1) (VList l2) = eqs l1 l2.
Proof. reflexivity. Qed.
Lemma py_eq_tuple l1 l2 : py_eq (VTuple l1) (VTuple l2) = eqs l1 l2.
Proof. reflexivity. Qed.
Lemma py_eq_dict c1 c2 d1 d2 : py_eq (VDict c1 d1) (VDict c2 d2) = Nat.eqb (List.length d1) (List.length d2) && dsub d1 d2.
Proof.
  cbn [py_eq num_of str_of]. f_equal. induction d1 as [|[k v] d1 IH]; [reflexivity|]. cbn [dsub]. rewrite <- IH. f_equal.
  clear IH. induction d2 as [|[k2 v2] d2 IH]; [reflexivity|]. cbn [dfind]. destruct (py_eq k k2); [reflexivity|exact IH].
Qed.
Lemma py_eq_tag n m x y : py_eq (VTag n x) (VTag m y) = (n =? m) && py_eq x y.
Proof. reflexivity. Qed.

(** ** On values that are no containers [==] is symmetric and transitive *)
Lemma fl_eqb_fin m1 e1 m2 e2 e : e <= e1 -> e <= e2 -> fl_eqb (FFin m1 e1) (FFin m2 e2) = (m1 * 2 ^ (e1 - e) =? m2 * 2 ^ (e2 - e)).
Proof.
  intros H1 H2. cbn [fl_eqb]. set (k := Z.min e1 e2 - e). assert (0 <= k) by lia.
  replace (e1 - e) with (e1 - Z.min e1 e2 + k) by lia. replace (e2 - e) with (e2 - Z.min e1 e2 + k) by lia.
  rewrite !Z.pow_add_r, !Z.mul_assoc by lia. pose proof (Z.pow_pos_nonneg 2 k eq_refl ltac:(lia)) as P.
  destruct (Z.eqb_spec (m1 * 2 ^ (e1 - Z.min e1 e2)) (m2 * 2 ^ (e2 - Z.min e1 e2))) as [->|N]; symmetry; [apply Z.eqb_refl|].
  apply Z.eqb_neq. intros Q. apply N. apply Z.mul_cancel_r in Q; [exact Q|lia].
Qed.
Lemma fl_eqb_eucl a b c : fl_eqb a b = true -> fl_eqb a c = true -> fl_eqb b c = true.
Proof.
  destruct a as [|s|m1 e1], b as [|t|m2 e2]; try discriminate; destruct c as [|r|m3 e3]; try discriminate.
  - cbn [fl_eqb]. destruct s, t, r; cbn; congruence.
  - set (e := Z.min e1 (Z.min e2 e3)). rewrite !(fl_eqb_fin _ _ _ _ e) by lia. rewrite !Z.eqb_eq. congruence.
Qed.
Lemma norm_not_tuple v l : norm v <> VTuple l.
Proof. destruct v; cbn [norm]; try discriminate. destruct (is_string_enum e); discriminate. Qed.
Lemma py_eq_num a b x : num_of a = Some x -> py_eq a b = match num_of b with Some y => fl_eqb x y | None => false end.
Proof. intros H. destruct a; cbn [num_of] in H; try discriminate; injection H as <-; cbn [py_eq num_of]; destruct (num_of b); reflexivity. Qed.
Lemma py_eq_eucl a b c : (forall l, a <> VTuple l) -> hashable a = true -> py_eq a b = true -> py_eq a c = true -> py_eq b c = true.
Proof.
  intros NT HH. destruct (num_of a) as [x|] eqn:Na.
  - rewrite !(py_eq_num a _ x Na). destruct (num_of b) as [y|] eqn:Nb; [|discriminate]. destruct (num_of c) as [z|] eqn:Nc; [|discriminate].
    rewrite (py_eq_num b c y Nb), Nc. apply fl_eqb_eucl.
  - destruct (str_of a) as [x|] eqn:Sa.
    + rewrite !(py_eq_str_l a _ x Sa). destruct (str_of b) as [y|] eqn:Sb; [|discriminate]. destruct (str_of c) as [z|] eqn:Sc; [|discriminate].
      rewrite (py_eq_str_l b c y Sb), Sc, !ustr_eqb_eq. congruence.
    + destruct a as [| | | | |ab| |l| |e s| | | |]; cbn [num_of str_of hashable] in *; try discriminate.
      * destruct b; cbn [py_eq num_of str_of]; try discriminate; [|destruct (is_string_enum e); discriminate]. exact (fun _ H => H).
      * destruct b as [| | | | |bb| | | |e s| | | |]; cbn [py_eq num_of str_of]; try discriminate; [|destruct (is_string_enum e); discriminate].
        intros H. apply bytes_eqb_eq in H. subst. exact (fun H => H).
      * exfalso. eapply NT; reflexivity.
      * destruct (is_string_enum e) eqn:Q; [discriminate|].
        destruct b as [| | | | |bb| | | |e2 s2| | | |]; cbn [py_eq num_of str_of]; rewrite ?Q; try discriminate.
        destruct (is_string_enum e2) eqn:Q2; [discriminate|]. intros H. apply andb_true_iff in H as [H1 H2]. apply String.eqb_eq in H2.
        assert (e2 = e) by (destruct e, e2; try discriminate; reflexivity). subst. exact (fun H => H).
      * destruct b; cbn [py_eq num_of str_of]; try discriminate; destruct (is_string_enum e); discriminate.
      * destruct b; cbn [py_eq num_of str_of]; try discriminate; destruct (is_string_enum e); discriminate.
Qed.

(** ** What the wire keeps: equal values are equal in wire form *)
Lemma num_norm v : num_of (norm v) = num_of v.
Proof. destruct v; try reflexivity. cbn [norm]. destruct (is_string_enum e); reflexivity. Qed.
Lemma str_norm v : str_of (norm v) = str_of v.
Proof. destruct v; try reflexivity. cbn [norm str_of]. destruct (is_string_enum e) eqn:Q; cbn [str_of]; rewrite ?Q; reflexivity. Qed.
Definition nkv (kv : pyval * pyval) : pyval * pyval := (norm (fst kv), norm (snd kv)).
Lemma norm_dict c kvs : norm (VDict c kvs) = VDict DPlain (map nkv kvs).
Proof. reflexivity. Qed.
Lemma dfind_norm k v d2 : hashable (norm k) = true ->
  (forall y, wirewf y = true -> py_eq k y = true -> py_eq (norm k) (norm y) = true) ->
  (forall y, wirewf y = true -> py_eq v y = true -> py_eq (norm v) (norm y) = true) ->
  nodup_keys (map (fun kv => norm (fst kv)) d2) = true -> forallb (fun kv => wirewf (fst kv) && wirewf (snd kv)) d2 = true ->
  dfind k v d2 = true -> dfind (norm k) (norm v) (map nkv d2) = true.
Proof.
  intros HK IK IV. induction d2 as [|[k2 v2] d2 IH]; cbn [dfind map forallb nodup_keys fst snd]; [discriminate|]. intros N W.
  apply andb_true_iff in N as [N1 N2]. apply andb_true_iff in W as [W1 W2]. apply andb_true_iff in W1 as [Wk Wv].
  unfold nkv at 1. cbn [dfind fst snd]. destruct (py_eq k k2) eqn:Q.
  - intros H. rewrite (IK k2 Wk Q). apply IV; assumption.
  - intros H. destruct (py_eq (norm k) (norm k2)) eqn:Q2; [|apply IH; assumption]. exfalso. clear IH.
    assert (exists k3 v3, In (k3, v3) d2 /\ py_eq k k3 = true) as (k3 & v3 & Hin & Q3).
    { clear - H. induction d2 as [|[k3 v3] d2 IH]; cbn [dfind] in H; [discriminate|]. destruct (py_eq k k3) eqn:Q; [exists k3, v3; split; [left; reflexivity|exact Q]|].
      destruct (IH H) as (k4 & v4 & ? & ?). exists k4, v4. split; [right; assumption|assumption]. }
    rewrite forallb_forall in N1, W2. specialize (W2 _ Hin). cbn [fst snd] in W2. apply andb_true_iff in W2 as [W2 _].
    specialize (N1 (norm k3)). rewrite (py_eq_eucl (norm k) (norm k2) (norm k3)) in N1; try discriminate.
    + discriminate N1. apply in_map_iff. exists (k3, v3). auto.
    + intros l. apply norm_not_tuple.
    + exact HK.
    + exact Q2.
    + apply IK; assumption.
Qed.
Lemma eqs_norm l1 : Forall (fun x => forall y, wirewf x = true -> wirewf y = true -> py_eq x y = true -> py_eq (norm x) (norm y) = true) l1 ->
  forall l2, forallb wirewf l1 = true -> forallb wirewf l2 = true -> eqs l1 l2 = true -> eqs (map norm l1) (map norm l2) = true.
Proof.
  induction 1 as [|x l1 Hx _ IH]; intros [|y l2]; cbn [eqs map forallb]; try discriminate; [reflexivity|].
  intros W1 W2 H. apply andb_true_iff in W1, W2, H. rewrite (Hx y), (IH l2) by tauto. reflexivity.
Qed.
Lemma py_eq_norm x : forall y, wirewf x = true -> wirewf y = true -> py_eq x y = true -> py_eq (norm x) (norm y) = true.
Proof.
  induction x as [ |b|z|fb|s|b|l IH|l IH|c kvs IH|e s|c a IH|b|c ty ts en sg a _ _ _ _ IH|n v IH] using pyval_ind'; intros y Wx Wy H.
  - destruct y; try discriminate H; try reflexivity. cbn in H. destruct (is_string_enum e); discriminate H.
  - cbn [norm]. rewrite (py_eq_num (VBool b) _ _ eq_refl) in H. rewrite (py_eq_num (VBool b) _ _ eq_refl). rewrite num_norm. exact H.
  - cbn [norm]. rewrite (py_eq_num (VInt z) _ _ eq_refl) in H. rewrite (py_eq_num (VInt z) _ _ eq_refl). rewrite num_norm. exact H.
  - cbn [norm]. rewrite (py_eq_num (VFloat fb) _ _ eq_refl) in H. rewrite (py_eq_num (VFloat fb) _ _ eq_refl). rewrite num_norm. exact H.
  - cbn [norm]. rewrite (py_eq_str_l (VStr s) _ _ eq_refl) in H. rewrite (py_eq_str_l (VStr s) _ _ eq_refl). rewrite str_norm. exact H.
  - destruct y; try discriminate H; try exact H. cbn in H. destruct (is_string_enum e); discriminate H.
  - destruct y as [| | | | | |l2| | |e s| | | |]; try discriminate H; [|cbn in H; destruct (is_string_enum e); discriminate H].
    rewrite py_eq_list in H. cbn [norm wirewf] in *. rewrite py_eq_list. apply eqs_norm; assumption.
  - destruct y as [| | | | | | |l2| |e s| | | |]; try discriminate H; [|cbn in H; destruct (is_string_enum e); discriminate H].
    rewrite py_eq_tuple in H. cbn [norm wirewf] in *. rewrite py_eq_list. apply eqs_norm; assumption.
  - destruct y as [| | | | | | | |c2 kvs2|e s| | | |]; try discriminate H; [|cbn in H; destruct (is_string_enum e); discriminate H].
    rewrite py_eq_dict in H. rewrite !norm_dict, py_eq_dict, !map_length. apply andb_true_iff in H as [-> H]. cbn [andb].
    cbn [wirewf] in Wx, Wy. apply andb_true_iff in Wx as [Wx Wx3]. apply andb_true_iff in Wx as [Wx1 Wx2].
    apply andb_true_iff in Wy as [Wy Wy3]. apply andb_true_iff in Wy as [Wy1 Wy2]. clear Wx2.
    induction IH as [|[k v] kvs [IK IV] _ IHl]; [reflexivity|]. cbn [dsub forallb fst snd map] in *.
    apply andb_true_iff in Wx1 as [K1 Wx1]. apply andb_true_iff in Wx3 as [V1 Wx3]. apply andb_true_iff in V1 as [V1 V2].
    apply andb_true_iff in H as [H1 H2]. unfold nkv at 1. cbn [dsub fst snd]. rewrite IHl by assumption. rewrite andb_true_r.
    apply dfind_norm; try assumption; intros y Wy0 Hy; auto.
  - assert (N : norm (VEnum e s) = if is_string_enum e then VStr (u s) else VEnum e s) by reflexivity. rewrite N. destruct (is_string_enum e) eqn:Q.
    + rewrite (py_eq_str_l (VEnum e s) _ (u s)) in H by (cbn; rewrite Q; reflexivity). rewrite (py_eq_str_l (VStr (u s)) _ _ eq_refl), str_norm. exact H.
    + destruct y as [| | | | | | | | |e2 s2| | | |]; cbn [py_eq num_of str_of] in H; rewrite ?Q in H; try discriminate H.
      cbn [norm]. destruct (is_string_enum e2) eqn:Q2; [discriminate H|]. cbn [py_eq num_of str_of]. rewrite Q, Q2. exact H.
  - destruct y; try discriminate H. cbn in H. destruct (is_string_enum e); discriminate H.
  - destruct y; try discriminate H. cbn in H. destruct (is_string_enum e); discriminate H.
  - destruct y; try discriminate H. cbn in H. destruct (is_string_enum e); discriminate H.
  - destruct y as [| | | | | | | | |e s| | | |m y]; try discriminate H; [cbn in H; destruct (is_string_enum e); discriminate H|].
    rewrite py_eq_tag in H. cbn [norm]. rewrite py_eq_tag. cbn [wirewf] in Wx, Wy. apply andb_true_iff in H as [-> H]. cbn [andb].
    apply andb_true_iff in Wx as [_ Wx]. apply andb_true_iff in Wy as [_ Wy]. apply IH; assumption.
Qed.

(** ** Values without tuples look the same in wire form *)
Fixpoint tuple_free (v : pyval) : bool :=
  match v with
  | VTuple _ => false
  | VList l => forallb tuple_free l
  | VDict _ kvs => forallb (fun kv => tuple_free (fst kv) && tuple_free (snd kv)) kvs
  | VTag _ x => tuple_free x
  | _ => true
  end.
Lemma map_fix {A} (f : A -> A) l x : map f l = l -> In x l -> f x = x.
Proof. induction l as [|y l IH]; cbn; [easy|]. intros H [->|Hin]; [congruence|]. apply IH; [congruence|exact Hin]. Qed.
Lemma norm_tuple_free v : norm v = v -> tuple_free v = true.
Proof.
  induction v as [ |b|z|fb|s|b|l IH|l IH|c kvs IH|e s|c a IH|b|c ty ts en sg a _ _ _ _ IH|n v IH] using pyval_ind'; try reflexivity; intros H.
  - cbn [tuple_free]. apply forallb_forall. intros x Hin. rewrite Forall_forall in IH. apply IH; [exact Hin|].
    assert (Q : map norm l = l) by (cbn [norm] in H; congruence). apply (map_fix _ _ _ Q Hin).
  - discriminate H.
  - cbn [tuple_free]. apply forallb_forall. intros [k x] Hin. rewrite Forall_forall in IH. destruct (IH _ Hin) as [I1 I2]. rewrite norm_dict in H.
    assert (Q0 : map nkv kvs = kvs) by congruence. pose proof (map_fix _ _ _ Q0 Hin) as Q. unfold nkv in Q. cbn [fst snd] in *.
    rewrite I1, I2 by congruence. reflexivity.
  - cbn [tuple_free]. apply IH. cbn [norm] in H. congruence.
Qed.
Lemma tf_norm x : forall y, tuple_free x = true -> tuple_free y = true -> py_eq (norm x) (norm y) = py_eq x y.
Proof.
  induction x as [ |b|z|fb|s|b|l IH|l IH|c kvs IH|e s|c a IH|b|c ty ts en sg a _ _ _ _ IH|n v IH] using pyval_ind'; intros y Tx Ty.
  - destruct y; try reflexivity; try discriminate Ty. cbn. destruct (is_string_enum e) eqn:Q; cbn; rewrite ?Q; reflexivity.
  - cbn [norm]. rewrite (py_eq_num (VBool b) (norm y) _ eq_refl), (py_eq_num (VBool b) y _ eq_refl), num_norm. reflexivity.
  - cbn [norm]. rewrite (py_eq_num (VInt z) (norm y) _ eq_refl), (py_eq_num (VInt z) y _ eq_refl), num_norm. reflexivity.
  - cbn [norm]. rewrite (py_eq_num (VFloat fb) (norm y) _ eq_refl), (py_eq_num (VFloat fb) y _ eq_refl), num_norm. reflexivity.
  - cbn [norm]. rewrite (py_eq_str_l (VStr s) (norm y) _ eq_refl), (py_eq_str_l (VStr s) y _ eq_refl), str_norm. reflexivity.
  - destruct y; try reflexivity; try discriminate Ty. cbn. destruct (is_string_enum e) eqn:Q; cbn; rewrite ?Q; reflexivity.
  - destruct y as [| | | | | |l2| | |e s| | | |]; try reflexivity; try discriminate Ty; [|cbn; destruct (is_string_enum e) eqn:Q; cbn; rewrite ?Q; reflexivity].
    cbn [norm]. rewrite !py_eq_list. cbn [tuple_free] in *. revert l2 Ty. induction IH as [|x l Hx _ IHl]; intros [|y l2] Ty; try reflexivity.
    cbn [map eqs forallb] in *. apply andb_true_iff in Tx, Ty. rewrite (Hx y), (IHl (proj2 Tx) l2) by tauto. reflexivity.
  - discriminate Tx.
  - destruct y as [| | | | | | | |c2 kvs2|e s| | | |]; try reflexivity; try discriminate Ty; [|cbn; destruct (is_string_enum e) eqn:Q; cbn; rewrite ?Q; reflexivity].
    rewrite !norm_dict, !py_eq_dict, !map_length. f_equal. cbn [tuple_free] in *. induction IH as [|[k v] kvs [IK IV] _ IHl]; [reflexivity|].
    cbn [map dsub forallb fst snd] in *. apply andb_true_iff in Tx as [T1 Tx]. apply andb_true_iff in T1 as [T1 T2]. unfold nkv at 1. cbn [dsub fst snd].
    rewrite (IHl Tx). f_equal. clear IHl. induction kvs2 as [|[k2 v2] kvs2 IH2]; [reflexivity|]. cbn [map dfind forallb fst snd] in *.
    apply andb_true_iff in Ty as [T3 Ty]. apply andb_true_iff in T3 as [T3 T4]. unfold nkv at 1. cbn [dfind fst snd]. rewrite IK, IV, IH2 by assumption. reflexivity.
  - cbn [norm]. destruct (is_string_enum e) eqn:Q.
    + rewrite (py_eq_str_l (VEnum e s) _ (u s)) by (cbn; rewrite Q; reflexivity). rewrite (py_eq_str_l (VStr (u s)) _ _ eq_refl), str_norm. reflexivity.
    + destruct y as [| | | | | | | | |e2 s2| | | |]; cbn [py_eq norm num_of str_of]; rewrite ?Q; try reflexivity; try discriminate Ty.
      destruct (is_string_enum e2) eqn:Q2; cbn [num_of str_of]; rewrite ?Q2; reflexivity.
  - destruct y; try reflexivity; try discriminate Ty. cbn. destruct (is_string_enum e) eqn:Q; cbn; rewrite ?Q; reflexivity.
  - destruct y; try reflexivity; try discriminate Ty. cbn. destruct (is_string_enum e) eqn:Q; cbn; rewrite ?Q; reflexivity.
  - destruct y; try reflexivity; try discriminate Ty. cbn. destruct (is_string_enum e) eqn:Q; cbn; rewrite ?Q; reflexivity.
  - destruct y as [| | | | | | | | |e s| | | |m y]; try reflexivity; try discriminate Ty; [cbn; destruct (is_string_enum e) eqn:Q; cbn; rewrite ?Q; reflexivity|].
    cbn [norm]. rewrite !py_eq_tag. cbn [tuple_free] in *. rewrite IH by assumption. reflexivity.
Qed.

(** ** What arrived serializes without tuples, apart from those around messages *)
Lemma texts_tf d kvs : (forall k v, In (k, v) kvs -> (exists t, k = VStr t) /\ tuple_free v = true) -> tuple_free (VDict d kvs) = true.
Proof.
  intros H. cbn [tuple_free]. apply forallb_forall. intros [k v] Hin. destruct (H k v Hin) as [[t ->] Hv]. cbn [fst snd tuple_free andb]. exact Hv.
Qed.
Lemma to_dict_tf c a kvs : (forall k w x, In (k, w) a -> ser_entry c k w = Ok x -> tuple_free x = true) -> to_dict_kvs c a = Ok kvs ->
  tuple_free (VDict DPlain kvs) = true.
Proof.
  intros H Hk. apply texts_tf. intros k x Hin. unfold to_dict_kvs in Hk. revert kvs Hk k x Hin. generalize (cslots c).
  induction l as [|k0 l IH]; intros kvs Hk k x Hin; cbn [mapM] in Hk; [apply Ok_inj in Hk; subst; destruct Hin|].
  apply bind_ok in Hk as ([k1 x1] & H1 & Hk). apply bind_ok in Hk as (r & Hr & Hk). apply Ok_inj in Hk. subst kvs.
  apply bind_ok in H1 as (x0 & H0 & H1). apply Ok_inj in H1.
  destruct Hin as [Hin|Hin]; [|eapply IH; eassumption]. assert (k = skey k0 /\ x = x0) as [-> ->] by (split; congruence). split; [eexists; reflexivity|].
  clear - H H0. induction a as [|[k w] a IH]; cbn [map assoc_or fst snd] in H0; [apply Ok_inj in H0; subst; reflexivity|].
  destruct (k =? k0)%string; [eapply H; [left; reflexivity|exact H0]|]. apply IH; [|exact H0]. intros k1 w1 x1 Hin. apply H. right. exact Hin.
Qed.
Lemma wire_plain_tf w : wire_plain w -> tuple_free w = true.
Proof. intros [_ H]. apply norm_tuple_free, H. Qed.
Lemma deenum_tf w : tuple_free w = true -> tuple_free (deenum w) = true.
Proof. destruct w; intros H; exact H || reflexivity. Qed.
Lemma leaf_tf c a k w x : is_leaf c = true -> leaf_wire c a -> In (k, w) a -> ser_entry c k w = Ok x -> tuple_free x = true.
Proof.
  intros L W Hin Hx. specialize (W k w Hin). unfold leaf_wire_attr in W.
  assert (T : tuple_free w = true).
  { destruct c; try discriminate L; try (apply wire_plain_tf; exact W). destruct W as [->|(d & kvs & -> & H)]; [reflexivity|].
    apply texts_tf. intros k0 v0 H0. destruct (H _ _ H0) as [H1 H2]. split; [exact H1|apply norm_tuple_free, H2]. }
  apply deenum_tf in T. change (match w with VEnum _ s => VStr (u s) | _ => w end) with (deenum w) in *.
  assert (S : cser_hook c k = SNone \/ cser_hook c k = STruthy) by (destruct c; try discriminate L; cbn [cser_hook]; auto; destruct (existsb _ _); auto).
  destruct w; cbn [ser_entry deenum] in Hx, T; destruct S as [S|S]; rewrite S in Hx; apply Ok_inj in Hx; subst x; try exact T; try reflexivity;
    match goal with |- tuple_free (if ?b then _ else _) = true => destruct b; [exact T|reflexivity] end.
Qed.
Lemma cont_tf c a x : cont_ok c a -> cont_wire c a -> to_dict (VObj c a) = Ok x -> tuple_free x = true.
Proof.
  intros [_ HO] W Hx. unfold to_dict in Hx. apply bind_ok in Hx as (kvs & Hk & Hx). apply Ok_inj in Hx. subst x.
  eapply to_dict_tf; [|exact Hk]. intros k w x Hin Hx. pose proof (HO k w Hin) as A. pose proof (W k w Hin) as B.
  assert (SUB : forall c' b y, is_leaf c' = true -> leaf_wire c' b -> (do kvs <- to_dict_kvs c' b; Ok (VDict DPlain kvs)) = Ok y -> tuple_free y = true).
  { intros c' b y L W' Hy. apply bind_ok in Hy as (kvs' & Hk' & Hy). apply Ok_inj in Hy. subst y. eapply to_dict_tf; [|exact Hk'].
    intros k1 w1 x1 H1 H2. eapply leaf_tf; eassumption. }
  assert (LEAF : is_leaf c = true -> tuple_free x = true).
  { intros L. eapply (leaf_tf c a); try eassumption. intros k1 w1 H1. specialize (W k1 w1 H1). destruct c; try discriminate L; exact W. }
  destruct c; try (apply LEAF; reflexivity); clear LEAF; cbn [attr_ok wire_attr] in A, B.
  - (* TaskHeader *) destruct (k =? "task_owner")%string eqn:K1.
    + destruct A as (n & -> & _). cbn [ser_entry cser_hook] in Hx. rewrite K1 in Hx. eapply (SUB CNode n); [reflexivity|exact B|exact Hx].
    + destruct (k =? "mask")%string eqn:K2.
      * destruct A as [->|(b & ->)]; cbn [ser_entry cser_hook] in Hx; rewrite K1, K2 in Hx; apply Ok_inj in Hx; subst; reflexivity.
      * assert (S : cser_hook CTaskHeader k = SNone) by (cbn [cser_hook]; rewrite K1, K2; reflexivity).
        assert (T : tuple_free (deenum w) = true).
        { destruct (k =? "market_type")%string; [destruct A as [->|(s & -> & _)]; reflexivity|]. apply deenum_tf, wire_plain_tf, B. }
        destruct w; cbn [ser_entry] in Hx; rewrite S in Hx; apply Ok_inj in Hx; subst x; exact T.
  - (* ProviderStats *) assert (S : cser_hook CProvider k = SToDictTruthy \/ cser_hook CProvider k = SNone) by (cbn [cser_hook]; destruct (existsb _ _); auto).
    destruct A as [->|(b & -> & _)].
    + cbn [ser_entry] in Hx. destruct S as [S|S]; rewrite S in Hx; apply Ok_inj in Hx; subst; reflexivity.
    + cbn [ser_entry] in Hx. destruct S as [S|S]; rewrite S in Hx; [|apply Ok_inj in Hx; subst; reflexivity].
      eapply (SUB (sub_of k) b); [|exact B|exact Hx]. unfold sub_of. repeat destruct (_ =? _)%string; reflexivity.
Qed.
Lemma Forall2_in_r {A B} (P : A -> B -> Prop) l m y : Forall2 P l m -> In y m -> exists x, In x l /\ P x y.
Proof. induction 1; cbn; [easy|]. intros [<-|H1]; [eauto|]. destruct (IHForall2 H1) as (z & ? & ?). eauto. Qed.
Lemma plain_tf kd k w x : (forall d an il, kd <> KMsg d an il) -> val_ok kd w -> val_wire kd w -> ser_plain kd k w = Ok x -> tuple_free x = true.
Proof.
  intros Hkd Hok W Hx. destruct kd; cbn [val_ok val_wire ser_plain] in *; change (@enum_value) with deenum in *;
    try (destruct Hok as [->|(a & -> & Ha)]; [cbn in Hx; apply Ok_inj in Hx; subst; reflexivity|]; cbn [truthy] in Hx).
  all: try (apply Ok_inj in Hx; subst x).
  - apply deenum_tf, wire_plain_tf, W.
  - reflexivity.
  - exfalso. eapply Hkd. reflexivity.
  - destruct (to_dict _) as [d|] eqn:D; [|discriminate]. apply Ok_inj in Hx. subst d. eapply cont_tf; eassumption.
  - destruct Hok as (l & -> & Hl). cbn [py_iter] in Hx. rewrite collect_map in Hx. apply bind_ok in Hx as (r & Hr & Hx). apply Ok_inj in Hx. subst x.
    cbn [tuple_free]. apply forallb_forall. intros y Hy. apply mapM_ok in Hr. destruct (Forall2_in_r _ _ _ _ Hr Hy) as (p & Hp & Hy').
    rewrite Forall_forall in Hl. destruct (Hl p Hp) as (kvs & -> & S & C). unfold peer_serialize in Hy'.
    destruct (schema_get _ _ "node" S) as (kn & n & G & Hn & Ht); [cbn; auto|]. rewrite G in Hy'. apply bind_ok in Hy' as (d & Hd & Hy'). apply Ok_inj in Hy'. subst y.
    apply texts_tf. intros k0 v0 Hin. 
    assert (T : tuple_free d = true) by (destruct (C _ _ Hn Ht) as (a & -> & Ha); eapply cont_tf; [exact Ha|exact (proj2 (W _ _ _ Hp Hn))|exact Hd]).
    apply in_dict_set in Hin as [Hin|[-> [->|[_ (v1 & Hin)]]]].
    + destruct (W _ _ _ Hp Hin) as [H1 H2]. split; [exact H1|]. destruct v0; try reflexivity; apply norm_tuple_free, H2.
    + split; [eexists; reflexivity|exact T].
    + split; [exact (proj1 (W _ _ _ Hp Hin))|exact T].
  - destruct Hok as (l & -> & Hl). rewrite collect_map in Hx. apply bind_ok in Hx as (r & Hr & Hx). apply Ok_inj in Hx. subst x.
    cbn [tuple_free]. apply forallb_forall. intros y Hy. apply mapM_ok in Hr. destruct (Forall2_in_r _ _ _ _ Hr Hy) as (p & Hp & Hy').
    rewrite Forall_forall in Hl. destruct (Hl p Hp) as (a & -> & Ha). eapply cont_tf; [exact Ha|apply W, Hp|exact Hy'].
  - eapply cont_tf; eassumption.
  - reflexivity.
  - destruct Hok as (z & -> & _). reflexivity.
  - destruct Hok as (kvs & -> & _). cbn [deenum]. apply texts_tf. intros k0 v0 Hin. destruct (W _ _ Hin) as [H1 H2]. split; [exact H1|apply norm_tuple_free, H2].
  - destruct Hok as (z & ->). reflexivity.
  - eapply cont_tf; eassumption.
  - destruct Hok as (l & -> & Hl). cbn [deenum tuple_free]. apply forallb_forall. intros f Hf. rewrite Forall_forall in Hl.
    destruct (Hl f Hf) as (kvs & -> & S & C). apply texts_tf. intros k0 v0 Hin. destruct (W _ _ _ Hf Hin) as [[t ->] H2]. split; [eauto|].
    destruct (ustr_eqb t (u "category")) eqn:Q.
    + apply ustr_eqb_eq in Q. subst t. destruct (C _ _ Hin eq_refl) as (s & -> & _). reflexivity.
    + apply norm_tuple_free, H2. intros H. unfold skey in H. assert (t = u "category") by congruence. subst t. rewrite ustr_eqb_refl in Q. discriminate.
Qed.

(** ** Equality in wire form is equality of what arrived *)
Definition eq_back (x y : pyval) : Prop := py_eq (norm x) (norm y) = true -> py_eq x y = true.
Lemma eq_back_tf x y : tuple_free x = true -> tuple_free y = true -> eq_back x y.
Proof. intros H1 H2. unfold eq_back. rewrite tf_norm by assumption. exact (fun H => H). Qed.
Lemma eqs_back l1 : forall l2, (forall x y, In x l1 -> In y l2 -> eq_back x y) -> eqs (map norm l1) (map norm l2) = true -> eqs l1 l2 = true.
Proof.
  induction l1 as [|x l1 IH]; intros [|y l2] H; cbn [map eqs]; try discriminate; [reflexivity|]. intros Q. apply andb_true_iff in Q as [Q1 Q2].
  rewrite (H x y) by (try (left; reflexivity); exact Q1). rewrite (IH l2); [reflexivity| |exact Q2]. intros; apply H; right; assumption.
Qed.
Lemma eqs_back2 l1 : forall l2, Forall2 eq_back l1 l2 -> eqs (map norm l1) (map norm l2) = true -> eqs l1 l2 = true.
Proof.
  induction 1 as [|x y l1 l2 Hx _ IH]; cbn [map eqs]; [reflexivity|]. intros Q. apply andb_true_iff in Q as [Q1 Q2]. rewrite (Hx Q1), (IH Q2). reflexivity.
Qed.
Definition eq_wire (c : mcls) (a b : attrs_t) : Prop := forall s t, slots c a = Ok s -> slots c b = Ok t -> eq_back s t.
Lemma single_back d k ty ts enc sig a ty' ts' enc' sig' b x y : mwire d a -> mwire d b -> eq_wire d a b ->
  norm ty = ty -> norm ts = ts -> norm enc = enc -> norm sig = sig -> norm ty' = ty' -> norm ts' = ts' -> norm enc' = enc' -> norm sig' = sig' ->
  ser_single wire d k (VMsg d ty ts enc sig a) = Ok x -> ser_single wire d k (VMsg d ty' ts' enc' sig' b) = Ok y -> eq_back x y.
Proof.
  intros W1 W2 IH N1 N2 N3 N4 N1' N2' N3' N4' Hx Hy. unfold ser_single in Hx, Hy. rewrite mcls_eqb_refl, wire_msg in Hx, Hy.
  apply bind_ok in Hx as (s & Hs & Hx). apply Ok_inj in Hx. subst x. apply bind_ok in Hy as (t & Ht & Hy). apply Ok_inj in Hy. subst y.
  intros Q. cbn [norm map] in Q. rewrite py_eq_list in Q. rewrite py_eq_tuple. cbn [eqs] in Q |- *. rewrite py_eq_list in Q. rewrite py_eq_tuple.
  cbn [eqs] in Q |- *. rewrite N1, N2, N3, N4, N1', N2', N3', N4' in Q. rewrite !andb_true_r in Q |- *.
  apply andb_true_iff in Q as [-> Q]. apply andb_true_iff in Q as [-> Q]. cbn [andb]. exact (IH s t Hs Ht Q).
Qed.
Lemma slot_back n c k w w' x x' : (rank c < S n)%nat -> (forall d a b, (rank d < n)%nat -> mok d a -> mok d b -> mwire d a -> mwire d b -> eq_wire d a b) ->
  slot_good c k w -> slot_good c k w' -> slot_wire c k w -> slot_wire c k w' -> ser_slot c k w = Ok x -> ser_slot c k w' = Ok x' -> eq_back x x'.
Proof.
  intros R IH [[_ V] M] [[_ V'] M'] [W N] [W' N'] Hx Hx'. unfold ser_slot, ser_slot_with in Hx, Hx'. destruct (slot_kind c k) as [|e|d an il| | | | | | | | | |] eqn:Hk.
  3:{ specialize (M _ _ _ eq_refl). specialize (M' _ _ _ eq_refl). specialize (N _ _ _ eq_refl). specialize (N' _ _ _ eq_refl).
      pose proof (rank_decreases _ _ _ _ _ Hk) as Rd.
      assert (ONE : forall m m' y y', In m (match w with VList l => l | _ => [w] end) -> In m' (match w' with VList l => l | _ => [w'] end) ->
         (exists ty ts enc sig b, m = VMsg d ty ts enc sig b /\ mok d b) -> (exists ty ts enc sig b, m' = VMsg d ty ts enc sig b /\ mok d b) ->
         ser_single wire d k m = Ok y -> ser_single wire d k m' = Ok y' -> eq_back y y').
      { intros m m' y y' I1 I2 (ty & ts & enc & sig & b & -> & Hb) (ty' & ts' & enc' & sig' & b' & -> & Hb') H1 H2.
        destruct (N _ _ _ _ _ I1) as (P1 & P2 & P3 & P4 & P5). destruct (N' _ _ _ _ _ I2) as (P1' & P2' & P3' & P4' & P5').
        eapply (single_back d k ty ts enc sig b ty' ts' enc' sig' b'); eauto. apply IH; auto. lia. }
      assert (F : forall y, py_eq (VTuple [VBool false; VNone]) (VTuple [VBool false; y]) = py_eq VNone y) by (intros y; rewrite py_eq_tuple; cbn [eqs]; rewrite andb_true_r; reflexivity).
      destruct M as [[-> ->]|[(-> & ty & ts & enc & sig & b & -> & Hb)|(-> & l & -> & Hne & Hl)]];
      destruct M' as [[-> A]|[(A & ty' & ts' & enc' & sig' & b' & -> & Hb')|(A & l' & -> & Hne' & Hl')]]; try discriminate A.
      - apply Ok_inj in Hx, Hx'. subst. exact (fun _ => eq_refl).
      - apply Ok_inj in Hx. apply bind_ok in Hx' as (r & Hr & Hx'). apply Ok_inj in Hx'. subst. unfold ser_single in Hr. rewrite mcls_eqb_refl, wire_msg in Hr.
        apply bind_ok in Hr as (s & Hs & Hr). apply Ok_inj in Hr. subst r. intros Q. discriminate Q.
      - subst il. rewrite collect_map in Hx'. apply Ok_inj in Hx. apply bind_ok in Hx' as (r & Hr & Hx'). apply Ok_inj in Hx'. subst. intros Q. discriminate Q.
      - subst an. apply Ok_inj in Hx'. apply bind_ok in Hx as (r & Hr & Hx). apply Ok_inj in Hx. subst. unfold ser_single in Hr. rewrite mcls_eqb_refl, wire_msg in Hr.
        apply bind_ok in Hr as (s & Hs & Hr). apply Ok_inj in Hr. subst r. intros Q. discriminate Q.
      - apply bind_ok in Hx as (r & Hr & Hx). apply Ok_inj in Hx. apply bind_ok in Hx' as (r' & Hr' & Hx'). apply Ok_inj in Hx'. subst.
        assert (B : eq_back r r'). { eapply ONE; [left; reflexivity|left; reflexivity| | |exact Hr|exact Hr']; do 5 eexists; (split; [reflexivity|assumption]). }
        intros Q. cbn [norm map] in Q. rewrite py_eq_list in Q. rewrite py_eq_tuple. apply eqs_back2; [|exact Q]. constructor; [exact (fun _ => eq_refl)|]. constructor; [exact B|constructor].
      - subst an. apply Ok_inj in Hx'. rewrite collect_map in Hx. apply bind_ok in Hx as (r & Hr & Hx). apply Ok_inj in Hx. subst. intros Q. discriminate Q.
      - rewrite collect_map in Hx, Hx'. apply bind_ok in Hx as (r & Hr & Hx). apply Ok_inj in Hx. apply bind_ok in Hx' as (r' & Hr' & Hx'). apply Ok_inj in Hx'. subst.
        assert (B : eq_back (VList r) (VList r')).
        { intros Q. cbn [norm] in Q. rewrite py_eq_list in Q |- *. apply eqs_back; [|exact Q]. intros y y' I1 I2. apply mapM_ok in Hr, Hr'.
          destruct (Forall2_in_r _ _ _ _ Hr I1) as (m & J1 & H1). destruct (Forall2_in_r _ _ _ _ Hr' I2) as (m' & J2 & H2).
          rewrite Forall_forall in Hl, Hl'. eapply ONE; [exact J1|exact J2|apply Hl, J1|apply Hl', J2|exact H1|exact H2]. }
        intros Q. cbn [norm map] in Q. rewrite py_eq_list in Q. rewrite py_eq_tuple. apply eqs_back2; [|exact Q]. constructor; [exact (fun _ => eq_refl)|]. constructor; [exact B|constructor]. }
  all: apply eq_back_tf; [eapply plain_tf; [|exact V|exact W|exact Hx]|eapply plain_tf; [|exact V'|exact W'|exact Hx']]; intros; discriminate.
Qed.
Lemma slots_back n : forall c a b, (rank c < n)%nat -> mok c a -> mok c b -> mwire c a -> mwire c b -> eq_wire c a b.
Proof.
  induction n as [|n IH]; intros c a b R Ma Mb Wa Wb s t Hs Ht; [lia|].
  apply mok_good in Ma as [Fa Ga]. apply mok_good in Mb as [Fb Gb]. pose proof (mwire_slots _ _ Wa) as Sa. pose proof (mwire_slots _ _ Wb) as Sb.
  rewrite slots_own in Hs, Ht by assumption. apply bind_ok in Hs as (la & Hla & Hs). apply bind_ok in Ht as (lb & Hlb & Ht).
  apply Ok_inj in Hs, Ht. subst s t. unfold pairs. intros Q. cbn [norm] in Q. rewrite py_eq_list in Q |- *. apply eqs_back2; [|exact Q]. clear Q Wa Wb.
  rewrite <- Fa in Fb. clear Fa. revert b Fb Gb Sb la lb Hla Hlb. induction a as [|[k w] a IHa]; intros [|[k' w'] b] Fb Gb Sb la lb Hla Hlb; try discriminate Fb;
    cbn [mapM fst snd] in Hla, Hlb; [apply Ok_inj in Hla, Hlb; subst; constructor|].
  cbn [map fst] in Fb. assert (k' = k) by congruence. subst k'. assert (Fb' : map fst b = map fst a) by congruence.
  apply bind_ok in Hla as (p & Hp & Hla). apply bind_ok in Hp as (x & Hx & Hp). apply Ok_inj in Hp. subst p. apply bind_ok in Hla as (ra & Hra & Hla). apply Ok_inj in Hla. subst la.
  apply bind_ok in Hlb as (p & Hp & Hlb). apply bind_ok in Hp as (x' & Hx' & Hp). apply Ok_inj in Hp. subst p. apply bind_ok in Hlb as (rb & Hrb & Hlb). apply Ok_inj in Hlb. subst lb.
  cbn [map fst snd]. constructor.
  - assert (B : eq_back x x').
    { eapply (slot_back n c k w w'); [exact R|exact IH|apply Ga|apply Gb|apply Sa|apply Sb|exact Hx|exact Hx']; left; reflexivity. }
    intros Q. cbn [norm map] in Q. rewrite py_eq_list in Q |- *. apply eqs_back2; [|exact Q]. constructor; [|constructor; [exact B|constructor]].
    intros _. unfold skey. rewrite (py_eq_str_l (VStr (u k)) _ (u k) eq_refl). cbn [str_of]. apply ustr_eqb_refl.
  - eapply IHa; try eassumption; intros; [apply Ga|apply Sa|apply Gb|apply Sb]; right; assumption.
Qed.

(** messages that were equal are equal when they arrive *)
Lemma eq_arrives c ty ts enc sig a ty2 ts2 enc2 sig2 b a' b' e1 e2 s t :
  c <> MHello -> mok c a' -> mok c b' -> mwire c a' -> mwire c b' -> arrives c a a' -> arrives c b b' ->
  slots c a = Ok s -> slots c b = Ok t -> wirewf s = true -> wirewf t = true ->
  wirewf ty = true -> wirewf ts = true -> wirewf sig = true -> wirewf ty2 = true -> wirewf ts2 = true -> wirewf sig2 = true ->
  msg_eq (VMsg c ty ts enc sig a) (VMsg c ty2 ts2 enc2 sig2 b) = Ok true ->
  msg_eq (VMsg c (norm ty) (norm ts) e1 (norm sig) a') (VMsg c (norm ty2) (norm ts2) e2 (norm sig2) b') = Ok true.
Proof.
  intros NH Ma Mb Wa Wb [_ _ _ (s0 & s' & Hs0 & Hs' & Qs)] [_ _ _ (t0 & t' & Ht0 & Ht' & Qt)] Hs Ht Ws Wt W1 W2 W3 W4 W5 W6 H.
  assert (s0 = s) by congruence. assert (t0 = t) by congruence. subst s0 t0. cbn [msg_eq] in H |- *. rewrite mcls_eqb_refl in H |- *. cbn [andb] in H |- *.
  rewrite Hs, Ht in H. rewrite Hs', Ht'. cbn [bind] in H |- *.
  assert (B : (if py_eq ty ty2 && py_eq ts ts2 && py_eq sig sig2 then Ok (py_eq s t) else Ok false) = Ok true) by (destruct c; congruence).
  assert (G : (if py_eq (norm ty) (norm ty2) && py_eq (norm ts) (norm ts2) && py_eq (norm sig) (norm sig2) then Ok (py_eq s' t') else Ok false) = Ok true);
    [|destruct c; exact G || congruence].
  destruct (py_eq ty ty2) eqn:E1; [|discriminate]. destruct (py_eq ts ts2) eqn:E2; [|discriminate]. destruct (py_eq sig sig2) eqn:E3; [|discriminate].
  cbn [andb] in B. rewrite !py_eq_norm by assumption. cbn [andb]. f_equal.
  apply (slots_back _ c a' b' (rank_bound c) Ma Mb Wa Wb s' t' Hs' Ht'). rewrite Qs, Qt. apply py_eq_norm; [exact Ws|exact Wt|congruence].
Qed.

(** ** A verdict: both ways to the TaskToCompute *)
Lemma nested_step c a a' k d s : mok c a -> mok c a' -> mwire c a' -> arrives c a a' -> slots c a = Ok s -> wirewf s = true ->
  slot_kind c k = KMsg d false false ->
  exists ty ts enc sig b b' t, attr_get_or_none k a = VMsg d ty ts enc sig b /\
    attr_get_or_none k a' = VMsg d (norm ty) (norm ts) (norm enc) (norm sig) b' /\ mok d b /\ mok d b' /\ mwire d b' /\ arrives d b b' /\
    slots d b = Ok t /\ wirewf t = true /\ wirewf ty = true /\ wirewf ts = true /\ wirewf sig = true.
Proof.
  intros M M' W' AR Hs Ws Hk. destruct (arr_nested c a a' k d M AR Hk) as (ty & ts & enc & sig & b & b' & E1 & E2 & Mb & Ab).
  assert (Hin : In k (slot_names c)).
  { destruct (slot_kind_cases c k) as [H|H]; [rewrite Hk in H; apply (in_map fst) in H; exact H|rewrite (slot_kind_default _ _ H) in Hk; discriminate]. }
  pose proof (mok_slot c a k M Hin) as Hi. pose proof (mok_slot c a' k M' Hin) as Hi'. rewrite E1 in Hi. rewrite E2 in Hi'.
  assert (Mb' : mok d b').
  { destruct M' as [_ _ N]. destruct (N _ _ _ _ _ Hi' Hk) as [[Q _]|[(_ & ty0 & ts0 & en0 & sg0 & b0 & Q & H)|(Q & _)]]; try discriminate Q. assert (b0 = b') by congruence. subst. exact H. }
  assert (Wb' : mwire d b').
  { destruct W' as [_ N]. eapply (N _ _ _ _ _ Hi' Hk). left. reflexivity. }
  rewrite slots_own in Hs by apply (mok_fst _ _ M). apply bind_ok in Hs as (l & Hl & Hs). apply Ok_inj in Hs. subst s. apply mapM_ok in Hl.
  destruct (Forall2_in_l _ _ _ _ Hl Hi) as ([k0 x] & Hx & Hy). cbn [fst snd] in Hy. apply bind_ok in Hy as (x0 & Hx0 & Hy). apply Ok_inj in Hy.
  assert (k0 = k /\ x0 = x) as [-> ->] by (split; congruence). clear Hy.
  unfold ser_slot, ser_slot_with, ser_single in Hx0. rewrite Hk, mcls_eqb_refl, wire_msg in Hx0. apply bind_ok in Hx0 as (r & Hr & Hx0).
  apply bind_ok in Hr as (t & Ht & Hr). apply Ok_inj in Hr, Hx0. subst r x.
  unfold pairs in Ws. cbn [wirewf] in Ws. rewrite forallb_forall in Ws.
  assert (Wx : wirewf (VList [skey k; VTuple [VBool false; VTuple [VTuple [ty; ts; enc]; sig; t]]]) = true).
  { apply Ws. apply in_map_iff. exists (k, VTuple [VBool false; VTuple [VTuple [ty; ts; enc]; sig; t]]). split; [reflexivity|exact Hx]. }
  cbn [wirewf forallb skey] in Wx. rewrite !andb_true_iff in Wx.
  exists ty, ts, enc, sig, b, b', t. repeat (split; [tauto|]). tauto.
Qed.
Lemma verdict_arrives ty ts enc sig a ty' ts' enc' sig' a' s : mok MVerdictReportComputedTask a -> mok MVerdictReportComputedTask a' ->
  mwire MVerdictReportComputedTask a' -> arrives MVerdictReportComputedTask a a' -> slots MVerdictReportComputedTask a = Ok s -> wirewf s = true ->
  verdict_valid (VMsg MVerdictReportComputedTask ty ts enc sig a) = Ok tt ->
  verdict_valid (VMsg MVerdictReportComputedTask ty' ts' enc' sig' a') = Ok tt.
Proof.
  intros M M' W AR Hs Ws. unfold verdict_valid. rewrite !(getattr_slot MVerdictReportComputedTask) by slots_in. cbn [bind].
  destruct (nested_step _ _ _ "ack_report_computed_task"%string MAckReportComputedTask s M M' W AR Hs Ws eq_refl) as (y1 & t1 & e1 & s1 & b1 & b1' & q1 & -> & -> & M1 & M1' & W1 & A1 & S1 & F1 & _).
  destruct (nested_step _ _ _ "force_report_computed_task"%string MForceReportComputedTask s M M' W AR Hs Ws eq_refl) as (y2 & t2 & e2 & s2 & b2 & b2' & q2 & -> & -> & M2 & M2' & W2 & A2 & S2 & F2 & _).
  rewrite !(getattr_slot MAckReportComputedTask) by slots_in. rewrite !(getattr_slot MForceReportComputedTask) by slots_in. cbn [bind].
  destruct (nested_step _ _ _ "report_computed_task"%string MReportComputedTask _ M1 M1' W1 A1 S1 F1 eq_refl) as (y3 & t3 & e3 & s3 & b3 & b3' & q3 & -> & -> & M3 & M3' & W3 & A3 & S3 & F3 & _).
  destruct (nested_step _ _ _ "report_computed_task"%string MReportComputedTask _ M2 M2' W2 A2 S2 F2 eq_refl) as (y4 & t4 & e4 & s4 & b4 & b4' & q4 & -> & -> & M4 & M4' & W4 & A4 & S4 & F4 & _).
  rewrite !(getattr_slot MReportComputedTask) by slots_in. cbn [bind].
  destruct (nested_step _ _ _ "task_to_compute"%string MTaskToCompute _ M3 M3' W3 A3 S3 F3 eq_refl) as (y5 & t5 & e5 & s5 & b5 & b5' & q5 & -> & -> & M5 & M5' & W5 & A5 & S5 & F5 & G5 & H5 & I5).
  destruct (nested_step _ _ _ "task_to_compute"%string MTaskToCompute _ M4 M4' W4 A4 S4 F4 eq_refl) as (y6 & t6 & e6 & s6 & b6 & b6' & q6 & -> & -> & M6 & M6' & W6 & A6 & S6 & F6 & G6 & H6 & I6).
  cbn [val_eq]. intros H. apply bind_ok in H as ([] & H & E); [clear E|apply bind_ok in E as (? & _ & E); discriminate E].
  rewrite (eq_arrives MTaskToCompute y6 t6 e6 s6 b6 y5 t5 e5 s5 b5 b6' b5' (norm e6) (norm e5) q6 q5); try assumption; try discriminate. reflexivity.
Qed.
