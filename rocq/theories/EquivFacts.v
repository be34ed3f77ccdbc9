(** * Equality of messages is symmetric and transitive *)
From Verif Require Export SignFacts EqFacts CleanFacts.

(** [proper]: no dict in the value holds one key twice.  Python's dicts never do *)
Fixpoint proper (v : pyval) : bool :=
  match v with
  | VList l | VTuple l => forallb proper l
  | VDict _ kvs => forallb (fun kv => proper (fst kv) && proper (snd kv)) kvs && nodup_keys (map fst kvs)
  | VTag _ x => proper x
  | _ => true
  end.

Lemma fl_eqb_sym a b : fl_eqb a b = true -> fl_eqb b a = true.
Proof.
  destruct a as [|s|m1 e1], b as [|t|m2 e2]; try discriminate.
  - cbn [fl_eqb]. destruct s, t; cbn; congruence.
  - set (e := Z.min e1 e2). rewrite !(fl_eqb_fin _ _ _ _ e) by lia. rewrite !Z.eqb_eq. congruence.
Qed.

(** ** Lists *)
Lemma eqs_sym l1 : forall l2, (forall x y, In x l1 -> In y l2 -> py_eq x y = true -> py_eq y x = true) -> eqs l1 l2 = true -> eqs l2 l1 = true.
Proof.
  induction l1 as [|x l1 IH]; intros [|y l2] S0 H; cbn [eqs] in *; try discriminate; [reflexivity|]. apply andb_true_iff in H as [H1 H2].
  rewrite (S0 x y), IH; try reflexivity; try assumption; try (left; reflexivity). intros; apply S0; try right; assumption.
Qed.
Lemma eqs_trans l1 : forall l2 l3, (forall x y z, In x l1 -> In y l2 -> In z l3 -> py_eq x y = true -> py_eq y z = true -> py_eq x z = true) ->
  eqs l1 l2 = true -> eqs l2 l3 = true -> eqs l1 l3 = true.
Proof.
  induction l1 as [|x l1 IH]; intros [|y l2] [|z l3] T H G; cbn [eqs] in *; try discriminate; [reflexivity|].
  apply andb_true_iff in H as [H1 H2]. apply andb_true_iff in G as [G1 G2].
  rewrite (T x y z), (IH l2 l3); try reflexivity; try assumption; try (left; reflexivity). intros ? y'; intros; apply (T _ y'); try right; assumption.
Qed.

(** ** Dicts *)
Definition pair_eq (p q : pyval * pyval) : Prop := py_eq (fst p) (fst q) = true /\ py_eq (snd p) (snd q) = true.
Lemma dsub_forall d1 d2 : dsub d1 d2 = true <-> forall p, In p d1 -> dfind (fst p) (snd p) d2 = true.
Proof.
  induction d1 as [|[k v] d1 IH]; cbn [dsub]; [split; [intros _ p []|reflexivity]|]. rewrite andb_true_iff, IH. split.
  - intros [H1 H2] p [<-|H]; [exact H1|exact (H2 p H)].
  - intros H. split; [exact (H (k, v) (or_introl eq_refl))|]. intros p Hp. apply H. right. exact Hp.
Qed.
Lemma dfind_in k v d : dfind k v d = true -> exists q, In q d /\ pair_eq (k, v) q.
Proof.
  induction d as [|[k2 v2] d IH]; cbn [dfind]; [discriminate|]. destruct (py_eq k k2) eqn:Q; intros H.
  - exists (k2, v2). split; [left; reflexivity|split; assumption].
  - destruct (IH H) as (q & Hq & ?). exists q. split; [right; exact Hq|assumption].
Qed.
Lemma in_dfind (Q : pyval -> Prop) k v d q :
  (forall x y, Q x -> Q y -> py_eq x y = true -> py_eq y x = true) ->
  (forall x y z, Q x -> Q y -> Q z -> py_eq x y = true -> py_eq y z = true -> py_eq x z = true) ->
  Q k -> (forall p, In p d -> Q (fst p)) -> nodup_keys (map fst d) = true -> In q d -> pair_eq (k, v) q -> dfind k v d = true.
Proof.
  intros S0 T Qk. induction d as [|[k3 v3] d IH]; intros Qd N Hin [E1 E2]; [destruct Hin|]. cbn [dfind]. cbn [map fst snd nodup_keys] in *.
  apply andb_true_iff in N as [N1 N2]. destruct Hin as [<-|Hin]; [cbn [fst snd] in *; rewrite E1; exact E2|]. destruct (py_eq k k3) eqn:E3.
  - exfalso. rewrite forallb_forall in N1. specialize (N1 (fst q) (in_map fst _ _ Hin)).
    pose proof (Qd _ (or_introl eq_refl)) as Q3. cbn [fst] in Q3. pose proof (Qd _ (or_intror Hin)) as Q4.
    rewrite (T k3 k (fst q)) in N1; try assumption; [discriminate N1|]. apply S0; assumption.
  - apply IH; try assumption; [|split; assumption]. intros p Hp. apply Qd. right. exact Hp.
Qed.
(** distinct keys on the left, as many pairs on the right: everything on the right is met *)
Lemma all_met (Q : pyval -> Prop) :
  (forall x y, Q x -> Q y -> py_eq x y = true -> py_eq y x = true) ->
  (forall x y z, Q x -> Q y -> Q z -> py_eq x y = true -> py_eq y z = true -> py_eq x z = true) ->
  forall d1 d2, List.length d1 = List.length d2 -> nodup_keys (map fst d1) = true -> (forall p, In p d1 -> Q (fst p)) -> (forall q, In q d2 -> Q (fst q)) ->
  (forall p, In p d1 -> exists q, In q d2 /\ pair_eq p q) -> forall q, In q d2 -> exists p, In p d1 /\ pair_eq p q.
Proof.
  intros S0 T. induction d1 as [|p d1 IH]; intros d2 L N Q1 Q2 M q Hq.
  - destruct d2; [destruct Hq|discriminate L].
  - cbn [map nodup_keys] in N. apply andb_true_iff in N as [N1 N2]. rewrite forallb_forall in N1.
    destruct (M p (or_introl eq_refl)) as (q0 & Hq0 & E0). destruct (in_split _ _ Hq0) as (l & r & ->).
    apply in_app_or in Hq. assert (C : q = q0 \/ In q (l ++ r)).
    { destruct Hq as [H|[H|H]]; [right; apply in_or_app; left; exact H|left; symmetry; exact H|right; apply in_or_app; right; exact H]. }
    destruct C as [-> | C]; [exists p; split; [left; reflexivity|exact E0]|].
    destruct (IH (l ++ r)) with (q := q) as (p' & Hp' & E'); try assumption.
    + rewrite app_length in *. cbn [List.length] in L. lia.
    + intros p' H. apply Q1. right. exact H.
    + intros q' H. apply Q2. apply in_app_or in H. apply in_or_app. destruct H; [left; assumption|right; right; assumption].
    + intros p' Hp'. destruct (M p' (or_intror Hp')) as (q' & Hq' & E'). exists q'. split; [|exact E'].
      apply in_app_or in Hq'. apply in_or_app. destruct Hq' as [H|[H|H]]; [left; exact H| |right; exact H]. subst q'. exfalso.
      specialize (N1 (fst p') (in_map fst _ _ Hp')). destruct E0 as [E0 _], E' as [E' _].
      pose proof (Q1 _ (or_introl eq_refl)) as A1. pose proof (Q1 _ (or_intror Hp')) as A2. pose proof (Q2 _ Hq0) as A3.
      rewrite (T (fst p) (fst q0) (fst p')) in N1; try assumption; [discriminate N1|]. apply S0; assumption.
    + exists p'. split; [right; exact Hp'|exact E'].
Qed.

(** ** Depths *)
Lemma depth_list l x n : In x l -> (max_list (map (fun x => S (vdepth x)) l) < S n)%nat -> (vdepth x < n)%nat.
Proof. intros H L. pose proof (max_list_le _ _ (in_map (fun x => S (vdepth x)) _ _ H)). cbn beta in *. lia. Qed.
Lemma depth_dict c kvs p n : In p kvs -> (vdepth (VDict c kvs) < S n)%nat -> (vdepth (fst p) < n)%nat /\ (vdepth (snd p) < n)%nat.
Proof.
  intros H L. cbn [vdepth] in L. pose proof (max_list_le _ _ (in_map (fun kv => S (Nat.max (vdepth (fst kv)) (vdepth (snd kv)))) _ _ H)). cbn beta in *. lia.
Qed.
Lemma proper_dict c kvs p : proper (VDict c kvs) = true -> In p kvs -> proper (fst p) = true /\ proper (snd p) = true.
Proof.
  cbn [proper]. intros H Hp. apply andb_true_iff in H as [H _]. rewrite forallb_forall in H. specialize (H _ Hp). apply andb_true_iff in H. exact H.
Qed.

(** ** Both at once, by the depth of the values *)
Lemma equiv n : forall a b, (vdepth a < n)%nat -> (vdepth b < n)%nat -> proper a = true -> proper b = true -> py_eq a b = true ->
  py_eq b a = true /\ forall c, (vdepth c < n)%nat -> proper c = true -> py_eq b c = true -> py_eq a c = true.
Proof.
  induction n as [|n IH]; intros a b Da Db Pa Pb H; [lia|].
  set (Q := fun v => (vdepth v < n)%nat /\ proper v = true).
  assert (S0 : forall x y, Q x -> Q y -> py_eq x y = true -> py_eq y x = true) by (intros x y [? ?] [? ?] ?; apply IH; assumption).
  assert (T : forall x y z, Q x -> Q y -> Q z -> py_eq x y = true -> py_eq y z = true -> py_eq x z = true).
  { intros x y z [? ?] [? ?] [? ?] ? ?. apply (IH x y); assumption. }
  clear IH. destruct (num_of a) as [x|] eqn:Na.
  - rewrite (py_eq_num a _ x Na) in H. destruct (num_of b) as [y|] eqn:Nb; [|discriminate]. rewrite (py_eq_num b a y Nb), Na. split; [apply fl_eqb_sym, H|].
    intros c _ _ G. rewrite (py_eq_num b c y Nb) in G. rewrite (py_eq_num a c x Na). destruct (num_of c) as [z|]; [|discriminate].
    apply (fl_eqb_eucl y); [apply fl_eqb_sym, H|exact G].
  - destruct (str_of a) as [x|] eqn:Sa.
    + rewrite (py_eq_str_l a _ x Sa) in H. destruct (str_of b) as [y|] eqn:Sb; [|discriminate]. rewrite (py_eq_str_l b a y Sb), Sa. apply ustr_eqb_eq in H. subst y.
      split; [apply ustr_eqb_eq; reflexivity|]. intros c _ _ G. rewrite (py_eq_str_l b c x Sb) in G. rewrite (py_eq_str_l a c x Sa). exact G.
    + destruct a as [| | | | |ab|l1|l1|c1 d1|e s| | | |t1 x1]; cbn [num_of str_of] in *; try discriminate;
        try (exfalso; destruct b as [| | | | | | | | |e2 s2| | | |]; cbn [py_eq num_of str_of] in H; try discriminate H; destruct (is_string_enum e2); discriminate H).
      * destruct b as [| | | | | | | | |e2 s2| | | |]; cbn [py_eq num_of str_of] in H; try discriminate H; [|destruct (is_string_enum e2); discriminate H].
        split; [reflexivity|]. intros c _ _ G. exact G.
      * destruct b as [| | | | |bb| | | |e2 s2| | | |]; cbn [py_eq num_of str_of] in H; try discriminate H; [|destruct (is_string_enum e2); discriminate H].
        apply bytes_eqb_eq in H. subst bb. split; [cbn [py_eq num_of str_of]; apply bytes_eqb_eq; reflexivity|]. intros c _ _ G. exact G.
      * destruct b as [| | | | | |l2| | |e2 s2| | | |]; try discriminate H; [|cbn in H; destruct (is_string_enum e2); discriminate H].
        rewrite py_eq_list in *. cbn [proper vdepth] in *. rewrite forallb_forall in Pa, Pb. split.
        -- apply eqs_sym; [|exact H]. intros x y Hx Hy. apply S0; (split; [eapply depth_list; eassumption|auto]).
        -- intros c Dc Pc G. destruct c as [| | | | | |l3| | |e2 s2| | | |]; try discriminate G; [|cbn in G; destruct (is_string_enum e2); discriminate G].
           rewrite py_eq_list in *. cbn [proper vdepth] in *. rewrite forallb_forall in Pc.
           apply (eqs_trans l1 l2 l3); try assumption. intros x y z Hx Hy Hz. apply T; (split; [eapply depth_list; eassumption|auto]).
      * destruct b as [| | | | | | |l2| |e2 s2| | | |]; try discriminate H; [|cbn in H; destruct (is_string_enum e2); discriminate H].
        rewrite py_eq_tuple in *. cbn [proper vdepth] in *. rewrite forallb_forall in Pa, Pb. split.
        -- apply eqs_sym; [|exact H]. intros x y Hx Hy. apply S0; (split; [eapply depth_list; eassumption|auto]).
        -- intros c Dc Pc G. destruct c as [| | | | | | |l3| |e2 s2| | | |]; try discriminate G; [|cbn in G; destruct (is_string_enum e2); discriminate G].
           rewrite py_eq_tuple in *. cbn [proper vdepth] in *. rewrite forallb_forall in Pc.
           apply (eqs_trans l1 l2 l3); try assumption. intros x y z Hx Hy Hz. apply T; (split; [eapply depth_list; eassumption|auto]).
      * destruct b as [| | | | | | | |c2 d2|e2 s2| | | |]; try discriminate H; [|cbn in H; destruct (is_string_enum e2); discriminate H].
        assert (K : forall c d, (vdepth (VDict c d) < S n)%nat -> proper (VDict c d) = true -> forall p, In p d -> Q (fst p) /\ Q (snd p)).
        { intros c d D P p Hp. destruct (depth_dict _ _ _ _ Hp D), (proper_dict _ _ _ P Hp). repeat split; assumption. }
        assert (N : forall c d, proper (VDict c d) = true -> nodup_keys (map fst d) = true) by (intros c d P; cbn [proper] in P; apply andb_true_iff in P; tauto).
        rewrite py_eq_dict in *. apply andb_true_iff in H as [L H]. apply Nat.eqb_eq in L. rewrite dsub_forall in H. split.
        -- rewrite L, Nat.eqb_refl. cbn [andb]. apply dsub_forall. intros q Hq.
           destruct (all_met Q S0 T d1 d2 L (N _ _ Pa)) with (q := q) as (p & Hp & E1 & E2); try assumption.
           ++ intros p Hp. apply (K _ _ Da Pa p Hp).
           ++ intros p Hp. apply (K _ _ Db Pb p Hp).
           ++ intros p Hp. specialize (H p Hp). destruct (dfind_in _ _ _ H) as (q' & Hq' & E'). exists q'. split; [exact Hq'|exact E'].
           ++ apply (in_dfind Q _ _ d1 p); try assumption.
              ** apply (K _ _ Db Pb q Hq).
              ** intros p' Hp'. apply (K _ _ Da Pa p' Hp').
              ** eapply N, Pa.
              ** split; cbn [fst snd]; (apply S0; [apply (K _ _ Da Pa p Hp)|apply (K _ _ Db Pb q Hq)|assumption]).
        -- intros c Dc Pc G. destruct c as [| | | | | | | |c3 d3|e2 s2| | | |]; try discriminate G; [|cbn in G; destruct (is_string_enum e2); discriminate G].
           rewrite py_eq_dict in *. apply andb_true_iff in G as [L3 G]. apply Nat.eqb_eq in L3. rewrite L, L3, Nat.eqb_refl. cbn [andb].
           rewrite dsub_forall in G. apply dsub_forall. intros p Hp. destruct (dfind_in _ _ _ (H p Hp)) as (q & Hq & E1 & E2).
           destruct (dfind_in _ _ _ (G q Hq)) as (r & Hr & F1 & F2). cbn [fst snd] in *.
           destruct (K _ _ Da Pa p Hp), (K _ _ Db Pb q Hq), (K _ _ Dc Pc r Hr).
           apply (in_dfind Q _ _ d3 r); try assumption.
           ++ intros p' Hp'. apply (K _ _ Dc Pc p' Hp').
           ++ eapply N, Pc.
           ++ split; cbn [fst snd]; [apply (T _ (fst q))|apply (T _ (snd q))]; assumption.
      * destruct (is_string_enum e) eqn:Qe; [discriminate|].
        destruct b as [| | | | | | | | |e2 s2| | | |]; cbn [py_eq num_of str_of] in H; rewrite ?Qe in H; try discriminate.
        destruct (is_string_enum e2) eqn:Q2; [discriminate|]. apply andb_true_iff in H as [H1 H2]. apply String.eqb_eq in H2.
        assert (e2 = e) by (destruct e, e2; try discriminate; reflexivity). subst. split; [|intros c _ _ G; exact G].
        cbn [py_eq num_of str_of]. rewrite Qe, H1. apply String.eqb_refl.
      * destruct b as [| | | | | | | | |e2 s2| | | |t2 x2]; try discriminate H; [cbn in H; destruct (is_string_enum e2); discriminate H|].
        rewrite py_eq_tag in *. apply andb_true_iff in H as [H1 H2]. cbn [vdepth proper] in *. apply Z.eqb_eq in H1. subst t2. rewrite Z.eqb_refl. cbn [andb].
        split; [apply S0; [split; [lia|assumption]|split; [lia|assumption]|assumption]|].
        intros c Dc Pc G. destruct c as [| | | | | | | | |e2 s2| | | |t3 x3]; try discriminate G; [cbn in G; destruct (is_string_enum e2); discriminate G|].
        rewrite py_eq_tag in *. cbn [vdepth proper] in *. apply andb_true_iff in G as [-> G]. cbn [andb].
        apply (T _ x2); try assumption; (split; [lia|assumption]).
Qed.
Lemma py_eq_symm a b : proper a = true -> proper b = true -> py_eq a b = py_eq b a.
Proof.
  intros Pa Pb. set (n := S (Nat.max (vdepth a) (vdepth b))). destruct (py_eq a b) eqn:H, (py_eq b a) eqn:G; try reflexivity; exfalso.
  - destruct (equiv n a b) as [K _]; try assumption; try (unfold n; lia). congruence.
  - destruct (equiv n b a) as [K _]; try assumption; try (unfold n; lia). congruence.
Qed.
Lemma py_eq_trans a b c : proper a = true -> proper b = true -> proper c = true -> py_eq a b = true -> py_eq b c = true -> py_eq a c = true.
Proof.
  intros Pa Pb Pc H. set (n := S (Nat.max (vdepth a) (Nat.max (vdepth b) (vdepth c)))).
  apply (equiv n a b); try assumption; unfold n; lia.
Qed.

(** ** Messages *)
Definition proper_msg (m : pyval) : Prop :=
  match m with
  | VMsg c ty ts _ sig a =>
      proper ty = true /\ proper ts = true /\ proper sig = true /\ (c = MHello -> proper (attr_get_or_none "_version" a) = true) /\
      forall s, slots c a = Ok s -> proper s = true
  | _ => False
  end.
Lemma msg_eq_symm m m' b : proper_msg m -> proper_msg m' -> msg_eq m m' = Ok b -> msg_eq m' m = Ok b.
Proof.
  destruct m as [| | | | | | | | | | | |c ty ts enc sig a|]; try contradiction. destruct m' as [| | | | | | | | | | | |c' ty' ts' enc' sig' a'|]; try contradiction.
  intros (P1 & P2 & P3 & P4 & P5) (R1 & R2 & R3 & R4 & R5).
  assert (M : mcls_eqb c c' = mcls_eqb c' c).
  { destruct (mcls_eqb c c') eqn:Q, (mcls_eqb c' c) eqn:R; try reflexivity; exfalso.
    - apply mcls_eqb_eq in Q. symmetry in Q. apply mcls_eqb_eq in Q. congruence.
    - apply mcls_eqb_eq in R. symmetry in R. apply mcls_eqb_eq in R. congruence. }
  set (B := fun c ty ts sig a c' ty' ts' sig' a' => if mcls_eqb c c' && py_eq ty ty' && py_eq ts ts' && py_eq sig sig' then
              do s <- slots c a; do s' <- slots c' a'; Ok (py_eq s s') else Ok false).
  assert (G : B c ty ts sig a c' ty' ts' sig' a' = Ok b -> B c' ty' ts' sig' a' c ty ts sig a = Ok b).
  { unfold B. rewrite <- M, (py_eq_symm ty' ty), (py_eq_symm ts' ts), (py_eq_symm sig' sig) by assumption.
    destruct (mcls_eqb c c' && py_eq ty ty' && py_eq ts ts' && py_eq sig sig'); [|exact (fun H => H)].
    intros H. apply bind_ok in H as (s & Hs & H). apply bind_ok in H as (s' & Hs' & H). apply Ok_inj in H.
    rewrite Hs'. cbn [bind]. rewrite Hs. cbn [bind]. rewrite (py_eq_symm s' s) by auto. f_equal. exact H. }
  destruct (mcls_eqb c c') eqn:Q.
  - apply mcls_eqb_eq in Q. subst c'. destruct (mcls_eqb c MHello) eqn:R.
    + apply mcls_eqb_eq in R. subst c. cbn [msg_eq version_of]. cbv iota. rewrite (py_eq_symm (attr_get_or_none "_version" a')) by auto.
      destruct (py_eq (attr_get_or_none "_version" a) (attr_get_or_none "_version" a')); [exact G|exact (fun H => H)].
    + assert (N : c <> MHello) by (intros ->; discriminate R).
      assert (F : forall ty ts enc sig a ty' ts' enc' sig' a', msg_eq (VMsg c ty ts enc sig a) (VMsg c ty' ts' enc' sig' a') = B c ty ts sig a c ty' ts' sig' a').
      { intros. destruct c; try reflexivity. congruence. }
      rewrite !F. exact G.
  - assert (F : forall c c' ty ts enc sig a ty' ts' enc' sig' a', mcls_eqb c c' = false -> msg_eq (VMsg c ty ts enc sig a) (VMsg c' ty' ts' enc' sig' a') = Ok false).
    { clear. intros c c' ty ts enc sig a ty' ts' enc' sig' a' Q. cbn [msg_eq]. rewrite Q. cbn [andb]. cbv iota. destruct c; try reflexivity. destruct (py_eq _ _); reflexivity. }
    rewrite !F by congruence. exact (fun H => H).
Qed.
Lemma msg_eq_true c ty ts enc sig a c' ty' ts' enc' sig' a' :
  msg_eq (VMsg c ty ts enc sig a) (VMsg c' ty' ts' enc' sig' a') = Ok true <->
  c = c' /\ py_eq ty ty' = true /\ py_eq ts ts' = true /\ py_eq sig sig' = true /\
  (exists s s', slots c a = Ok s /\ slots c' a' = Ok s' /\ py_eq s s' = true) /\
  (c = MHello -> py_eq (attr_get_or_none "_version" a) (attr_get_or_none "_version" a') = true).
Proof.
  set (B := mcls_eqb c c' && py_eq ty ty' && py_eq ts ts' && py_eq sig sig').
  assert (HB : B = true <-> c = c' /\ py_eq ty ty' = true /\ py_eq ts ts' = true /\ py_eq sig sig' = true).
  { unfold B. rewrite !andb_true_iff, mcls_eqb_eq. tauto. }
  assert (G : (if B then do s <- slots c a; do s' <- slots c' a'; Ok (py_eq s s') else Ok false) = Ok true <->
    B = true /\ exists s s', slots c a = Ok s /\ slots c' a' = Ok s' /\ py_eq s s' = true).
  { destruct B; [|split; [discriminate|intros [H _]; discriminate H]]. split.
    - intros H. apply bind_ok in H as (s & Hs & H). apply bind_ok in H as (s' & Hs' & H). apply Ok_inj in H. eauto 10.
    - intros (_ & s & s' & Hs & Hs' & H). rewrite Hs. cbn [bind]. rewrite Hs'. cbn [bind]. rewrite H. reflexivity. }
  cbn [msg_eq]. fold B. destruct (mcls_eqb c MHello) eqn:Q.
  - apply mcls_eqb_eq in Q. subst c. cbn [version_of]. cbv iota.
    destruct (py_eq (attr_get_or_none "_version" a) (attr_get_or_none "_version" a')); [rewrite G; tauto|].
    split; [discriminate|]. intros (_ & _ & _ & _ & _ & H). discriminate (H eq_refl).
  - assert (N : c <> MHello) by (intros ->; discriminate Q). transitivity ((if B then do s <- slots c a; do s' <- slots c' a'; Ok (py_eq s s') else Ok false) = Ok true).
    + destruct c; try reflexivity. congruence.
    + rewrite G. tauto.
Qed.
Lemma msg_eq_trans m1 m2 m3 : proper_msg m1 -> proper_msg m2 -> proper_msg m3 -> msg_eq m1 m2 = Ok true -> msg_eq m2 m3 = Ok true -> msg_eq m1 m3 = Ok true.
Proof.
  destruct m1 as [| | | | | | | | | | | |c1 ty1 ts1 enc1 sig1 a1|]; try contradiction. destruct m2 as [| | | | | | | | | | | |c2 ty2 ts2 enc2 sig2 a2|]; try contradiction.
  destruct m3 as [| | | | | | | | | | | |c3 ty3 ts3 enc3 sig3 a3|]; try contradiction.
  intros (P1 & P2 & P3 & P4 & P5) (Q1 & Q2 & Q3 & Q4 & Q5) (R1 & R2 & R3 & R4 & R5). rewrite !msg_eq_true.
  intros (-> & A1 & A2 & A3 & (s1 & s2 & S1 & S2 & A4) & A5) (-> & B1 & B2 & B3 & (s2' & s3 & S2' & S3 & B4) & B5).
  assert (s2' = s2) by congruence. subst s2'. split; [reflexivity|].
  split; [apply (py_eq_trans _ ty2); assumption|]. split; [apply (py_eq_trans _ ts2); assumption|]. split; [apply (py_eq_trans _ sig2); assumption|]. split.
  - exists s1, s3. split; [exact S1|split; [exact S3|]]. apply (py_eq_trans _ s2); auto.
  - intros H. apply (py_eq_trans _ (attr_get_or_none "_version" a2)); auto.
Qed.

(** ** Messages that were received *)
Lemma nodup_unnormed (kvs : list (pyval * pyval)) : (forall p, In p kvs -> wirewf (fst p) = true) -> nodup_keys (map (fun kv => norm (fst kv)) kvs) = true -> nodup_keys (map fst kvs) = true.
Proof.
  induction kvs as [|p kvs IH]; intros W N; [reflexivity|]. cbn [map nodup_keys] in *. apply andb_true_iff in N as [N1 N2]. apply andb_true_iff. split.
  - apply forallb_forall. intros k Hk. apply in_map_iff in Hk as (q & <- & Hq). rewrite forallb_forall in N1.
    specialize (N1 (norm (fst q)) (in_map (fun kv => norm (fst kv)) _ _ Hq)). destruct (py_eq (fst p) (fst q)) eqn:E; [|reflexivity].
    rewrite (py_eq_norm (fst p) (fst q)) in N1; [discriminate N1|apply W; left; reflexivity|apply W; right; exact Hq|exact E].
  - apply IH; [|exact N2]. intros q Hq. apply W. right. exact Hq.
Qed.
Lemma wirewf_proper v : wirewf v = true -> proper v = true.
Proof.
  induction v as [ |b|z|fb|s|b|l IH|l IH|c kvs IH|e s|c a IH|b|c ty ts en sg a _ _ _ _ IH|n v IH] using pyval_ind'; intros W; try reflexivity; cbn [wirewf proper] in *.
  - rewrite forallb_forall in *. rewrite Forall_forall in IH. auto.
  - rewrite forallb_forall in *. rewrite Forall_forall in IH. auto.
  - apply andb_true_iff in W as [W W3]. apply andb_true_iff in W as [_ W2]. rewrite forallb_forall in W3.
    assert (K : forall p, In p kvs -> wirewf (fst p) = true /\ wirewf (snd p) = true) by (intros p Hp; apply andb_true_iff, W3, Hp).
    apply andb_true_iff. split; [|apply nodup_unnormed; [intros p Hp; apply (K p Hp)|exact W2]].
    apply forallb_forall. intros p Hp. rewrite Forall_forall in IH. destruct (IH p Hp) as [I1 I2], (K p Hp) as [K1 K2]. rewrite I1, I2 by assumption. reflexivity.
  - apply andb_true_iff in W as [_ W]. auto.
Qed.
Lemma received_proper E now bs decf ct pub m : deserialize E now bs decf ct pub = Ok m -> proper_msg m.
Proof.
  intros H. pose proof H as D. apply deserialize_loaded in D as (c & t & enc & sig & v & a & -> & L & _). cbn [proper_msg proper].
  do 3 (split; [reflexivity|]). split.
  - intros ->. cbn [full]. assert (Hf : map fst a = slot_names MHello) by (destruct L; assumption).
    pose proof (version_not_slot MHello) as N. rewrite <- Hf in N. unfold attr_get_or_none. rewrite attr_get_last by exact N. reflexivity.
  - intros s Hs. apply wirewf_proper. eapply received_clean; eassumption.
Qed.
Definition received (m : pyval) : Prop := exists E now bs decf ct pub, deserialize E now bs decf ct pub = Ok m.
Lemma received_equiv m1 m2 m3 : received m1 -> received m2 -> received m3 ->
  (forall b, msg_eq m1 m2 = Ok b -> msg_eq m2 m1 = Ok b) /\ (msg_eq m1 m2 = Ok true -> msg_eq m2 m3 = Ok true -> msg_eq m1 m3 = Ok true).
Proof.
  intros (? & ? & ? & ? & ? & ? & R1) (? & ? & ? & ? & ? & ? & R2) (? & ? & ? & ? & ? & ? & R3).
  apply received_proper in R1, R2, R3. split; [intros b; apply msg_eq_symm; assumption|apply msg_eq_trans; assumption].
Qed.
