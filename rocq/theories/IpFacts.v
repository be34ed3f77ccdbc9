(** * The texts [ipaddress.ip_address] accepts (C35), as a grammar *)
From Verif Require Export Validators.

Section Split.
  Variable d : Z.
  Definition free (s : ustr) : Prop := ~ In d s.
  Lemma split_free s : free s -> split_on d s = [s].
  Proof.
    induction s as [|c s IH]; intros F; [reflexivity|]. cbn [split_on]. destruct (Z.eqb_spec c d) as [->|N]; [exfalso; apply F; left; reflexivity|].
    rewrite IH; [reflexivity|]. intros H. apply F. right. exact H.
  Qed.
  Lemma split_cons s r : free s -> split_on d (s ++ d :: r) = s :: split_on d r.
  Proof.
    induction s as [|c s IH]; intros F; cbn [app split_on]; [rewrite Z.eqb_refl; reflexivity|].
    destruct (Z.eqb_spec c d) as [->|N]; [exfalso; apply F; left; reflexivity|]. rewrite IH; [reflexivity|]. intros H. apply F. right. exact H.
  Qed.
  Lemma split_iff s l : split_on d s = l <-> l <> [] /\ Forall free l /\ s = join d l.
  Proof.
    split.
    - intros <-. induction s as [|c s (I1 & I2 & I3)]; [split; [discriminate|split; [constructor; [intros []|constructor]|reflexivity]]|].
      cbn [split_on]. destruct (Z.eqb_spec c d) as [->|N].
      + split; [discriminate|]. split; [constructor; [intros []|exact I2]|]. destruct (split_on d s); [congruence|]. cbn [join app]. f_equal. exact I3.
      + destruct (split_on d s) as [|h t]; [congruence|]. inversion I2; subst. split; [discriminate|]. split.
        * constructor; [|assumption]. intros [Q|Q]; [congruence|contradiction].
        * destruct t; reflexivity.
    - intros (N & F & ->). induction l as [|x l IH]; [congruence|]. inversion F as [|? ? F1 F2]; subst. destruct l as [|y l]; [apply split_free, F1|].
      change (join d (x :: y :: l)) with (x ++ d :: join d (y :: l)). rewrite split_cons by exact F1. f_equal. apply IH; [discriminate|exact F2].
  Qed.
  Lemma join_app a b : a <> [] -> b <> [] -> join d (a ++ b) = join d a ++ d :: join d b.
  Proof.
    intros Na Nb. induction a as [|x a IH]; [congruence|]. destruct a as [|y a].
    - cbn [app]. destruct b; [congruence|]. reflexivity.
    - change ((x :: y :: a) ++ b) with (x :: (y :: a) ++ b). change (join d (x :: (y :: a) ++ b)) with (x ++ d :: join d ((y :: a) ++ b)).
      rewrite IH by discriminate. change (join d (x :: y :: a)) with (x ++ d :: join d (y :: a)). rewrite <- app_assoc. reflexivity.
  Qed.
End Split.

(** ** The grammar *)
(** decimal value of a text of digits *)
Fixpoint digits_val (acc : Z) (s : ustr) : Z := match s with [] => acc | c :: r => digits_val (acc * 10 + (c - 48)) r end.
(** one to three digits, at most 255, no leading zero above seven (Python 3.6 takes
    such texts for octal) *)
Definition octet (s : ustr) : Prop :=
  (1 <= List.length s <= 3)%nat /\ (forall c, In c s -> 48 <= c <= 57) /\ digits_val 0 s <= 255 /\
  (7 < digits_val 0 s -> forall r, s <> 48 :: r).
Definition ipv4 (s : ustr) : Prop :=
  exists a b c e, octet a /\ octet b /\ octet c /\ octet e /\ s = a ++ 46 :: b ++ 46 :: c ++ 46 :: e.
(** one to four hexadecimal digits *)
Definition group (s : ustr) : Prop :=
  (1 <= List.length s <= 4)%nat /\ forall c, In c s -> 48 <= c <= 57 \/ 65 <= c <= 70 \/ 97 <= c <= 102.
(** [groups l n]: [l] are groups that stand for [n] groups; the last one may be a
    dotted quad, which stands for two *)
Definition groups (l : list ustr) (n : nat) : Prop :=
  (Forall group l /\ n = List.length l) \/ (exists r q, l = r ++ [q] /\ Forall group r /\ ipv4 q /\ n = (List.length r + 2)%nat).
Definition colons (l : list ustr) : ustr := join 58 l.
(** eight groups, or at most seven with one [::] *)
Definition ipv6 (s : ustr) : Prop :=
  (exists l, groups l 8 /\ s = colons l) \/
  (exists l r n, Forall group l /\ groups r n /\ (List.length l + n <= 7)%nat /\ s = colons l ++ [58; 58] ++ colons r).

(** ** IPv4 *)
Lemma dec_val_digits s : dec_val s = digits_val 0 s.
Proof. unfold dec_val. generalize 0. induction s as [|c s IH]; intros z; [reflexivity|]. cbn [fold_left digits_val]. apply IH. Qed.
Lemma octet_iff s : ipv4_octet s = true <-> octet s.
Proof.
  unfold octet. destruct s as [|c s]; [split; [discriminate|cbn; lia]|]. unfold ipv4_octet. rewrite !andb_true_iff, negb_true_iff, dec_val_digits.
  set (v := digits_val 0 (c :: s)). rewrite forallb_forall, Nat.leb_le. unfold is_digit. split.
  - intros (((H1 & H2) & H3) & H4). split; [cbn [List.length] in *; lia|]. split; [intros x Hx; specialize (H1 _ Hx); lia|]. split; [lia|].
    intros Hv r E. assert (c = 48) by congruence. subst c. lia.
  - intros (H1 & H2 & H3 & H4). split; [split; [split|]|]; [intros x Hx; specialize (H2 _ Hx); lia|lia| |lia].
    destruct (7 <? v) eqn:E; [|reflexivity]. destruct (Z.eqb_spec c 48) as [->|N]; [|reflexivity]. exfalso. apply (H4 ltac:(lia) s). reflexivity.
Qed.
Lemma octet_free s : octet s -> free 46 s.
Proof. intros (_ & H & _) Hin. specialize (H _ Hin). lia. Qed.
Lemma ipv4_iff s : ipv4_ok s = true <-> ipv4 s.
Proof.
  unfold ipv4_ok. cbv zeta. destruct (split_iff 46 s (split_on 46 s)) as [S _]. specialize (S eq_refl) as (_ & _ & S). rewrite andb_true_iff, Nat.eqb_eq, forallb_forall. split.
  - intros [L H]. destruct (split_on 46 s) as [|a [|b [|c [|e [|]]]]]; try discriminate L. exists a, b, c, e.
    repeat (split; [apply octet_iff, H; cbn; auto|]). exact S.
  - intros (a & b & c & e & Ha & Hb & Hc & He & E).
    assert (Q : split_on 46 s = [a; b; c; e]).
    { apply split_iff. split; [discriminate|]. split; [repeat constructor; apply octet_free; assumption|exact E]. }
    rewrite Q. split; [reflexivity|]. intros x [<-|[<-|[<-|[<-|[]]]]]; apply octet_iff; assumption.
Qed.

(** ** IPv6 *)
Lemma group_iff s : ipv6_hextet s = true <-> group s.
Proof.
  unfold group. destruct s as [|c s]; [split; [discriminate|cbn; lia]|]. unfold ipv6_hextet. rewrite andb_true_iff, forallb_forall, Nat.leb_le.
  assert (X : forall x, match hexval x with Some _ => true | None => false end = true <-> 48 <= x <= 57 \/ 65 <= x <= 70 \/ 97 <= x <= 102).
  { intros x. unfold hexval. destruct ((48 <=? x) && (x <=? 57)) eqn:E1; [split; [lia|reflexivity]|].
    destruct ((97 <=? x) && (x <=? 102)) eqn:E2; [split; [lia|reflexivity]|]. destruct ((65 <=? x) && (x <=? 70)) eqn:E3; [split; [lia|reflexivity]|]. split; [discriminate|lia]. }
  split.
  - intros [H L]. split; [cbn [List.length] in *; lia|]. intros x Hx. apply X, H, Hx.
  - intros [L H]. split; [|lia]. intros x Hx. apply X, H, Hx.
Qed.
Lemma group_nonempty s : group s -> s <> [].
Proof. intros [L _] ->. cbn in L. lia. Qed.
Lemma group_free s : group s -> free 58 s /\ free 46 s.
Proof. intros [_ H]. split; intros Hin; specialize (H _ Hin); lia. Qed.
Lemma groupsb l : forallb ipv6_hextet l = true <-> Forall group l.
Proof. rewrite forallb_forall, Forall_forall. split; intros H x Hx; apply group_iff, H, Hx. Qed.
Lemma octets_free58 s : ipv4 s -> free 58 s.
Proof.
  intros (a & b & c & e & (_ & Ha & _) & (_ & Hb & _) & (_ & Hc & _) & (_ & He & _) & ->) H.
  repeat (apply in_app_or in H as [H|H]; [match goal with G : forall c, In c _ -> _ |- _ => specialize (G _ H); lia end|]; destruct H as [H|H]; [discriminate|]).
  specialize (He _ H). lia.
Qed.
Lemma ipv4_dotted s : ipv4 s -> In 46 s.
Proof. intros (a & b & c & e & _ & _ & _ & _ & ->). apply in_or_app. right. left. reflexivity. Qed.

(** positions of the empty parts *)
Fixpoint nilpos (i : nat) (l : list ustr) : list nat :=
  match l with [] => [] | p :: r => (if is_nil p then [i] else []) ++ nilpos (S i) r end.
Lemma inner_nilpos l y : forall i, inner_empty (S i) (l ++ [y]) = nilpos (S i) l.
Proof.
  induction l as [|x l IH]; intros i; [reflexivity|]. cbn [app nilpos]. rewrite <- IH. destruct (l ++ [y]) eqn:E; [destruct l; discriminate|].
  cbn [inner_empty]. destruct x; reflexivity.
Qed.
Lemma inner_of x l y : inner_empty 0 (x :: l ++ [y]) = nilpos 1 l.
Proof. rewrite <- inner_nilpos with (y := y). destruct (l ++ [y]) eqn:E; [destruct l; discriminate|]. reflexivity. Qed.
Lemma nilpos_nil i l : nilpos i l = [] <-> Forall (fun p => p <> []) l.
Proof.
  revert i. induction l as [|p l IH]; intros i; cbn [nilpos]; [split; [constructor|reflexivity]|]. destruct p; cbn [is_nil app].
  - split; [discriminate|intros H; inversion H; congruence].
  - rewrite IH. split; [intros H; constructor; [discriminate|exact H]|intros H; inversion H; assumption].
Qed.
Lemma nilpos_one i l k : nilpos i l = [k] <-> exists a b, l = a ++ [] :: b /\ k = (i + List.length a)%nat /\ Forall (fun p => p <> []) a /\ Forall (fun p => p <> []) b.
Proof.
  revert i. induction l as [|p l IH]; intros i; cbn [nilpos].
  - split; [discriminate|]. intros ([|] & b & H & _); discriminate.
  - destruct p as [|c p]; cbn [is_nil app].
    + split.
      * intros H. assert (i = k /\ nilpos (S i) l = []) as [<- N] by (split; congruence). apply nilpos_nil in N. exists [], l. cbn. repeat split; auto.
      * intros (a & b & E & -> & Fa & Fb). destruct a as [|x a]; [|exfalso; injection E as E1 _; inversion Fa; congruence].
        injection E as ->. rewrite (proj2 (nilpos_nil _ _) Fb). cbn. f_equal. lia.
    + rewrite IH. split.
      * intros (a & b & -> & -> & Fa & Fb). exists ((c :: p) :: a), b. cbn [app List.length]. repeat split; auto; [lia|]. constructor; [discriminate|exact Fa].
      * intros (a & b & E & -> & Fa & Fb). destruct a as [|x a]; [discriminate|]. injection E as <- ->. inversion Fa; subst. exists a, b. cbn [List.length].
        repeat split; auto. lia.
Qed.

Definition pad (l : list ustr) : list ustr := match l with [] => [[]] | _ => l end.
Lemma colons_pad l : colons (pad l) = colons l.
Proof. destruct l; reflexivity. Qed.
Lemma pad_nonempty l : pad l <> [].
Proof. destruct l; discriminate. Qed.
Lemma pad_snoc b y : pad (b ++ [y]) = b ++ [y].
Proof. destruct b; reflexivity. Qed.
(** the tests on the list of parts, as one function *)
Definition parts_ok (parts : list ustr) : bool :=
  let n := List.length parts in
  if Nat.ltb 9 n then false else
  let first_nil := is_nil (hd [] parts) in
  let last_nil := is_nil (last parts []) in
  match inner_empty 0 parts with
  | [] =>
      Nat.eqb n 8 && negb first_nil && negb last_nil && forallb ipv6_hextet parts
  | [k] =>
      let hi := k in
      let lo := (n - k - 1)%nat in
      let hi' := if first_nil then (hi - 1)%nat else hi in
      let lo' := if last_nil then (lo - 1)%nat else lo in
      if first_nil && negb (Nat.eqb hi' 0) then false
      else if last_nil && negb (Nat.eqb lo' 0) then false
      else Nat.ltb (hi' + lo') 8
           && forallb ipv6_hextet (firstn hi' parts)
           && forallb ipv6_hextet (skipn (n - lo') parts)
  | _ => false
  end.
Definition parts_form (parts : list ustr) : Prop :=
  (Forall group parts /\ List.length parts = 8%nat) \/
  (exists l r, Forall group l /\ Forall group r /\ (List.length l + List.length r <= 7)%nat /\ parts = pad l ++ [] :: pad r).
Lemma last_app_one {A} (l : list A) x d : last (l ++ [x]) d = x.
Proof. apply last_last. Qed.
Lemma parts_iff parts : (3 <= List.length parts)%nat -> parts_ok parts = true <-> parts_form parts.
Proof.
  intros L3. unfold parts_ok. cbv zeta. destruct (Nat.ltb 9 (List.length parts)) eqn:L9.
  { apply Nat.ltb_lt in L9. split; [discriminate|]. intros [[_ H]|(l & r & _ & _ & H & ->)]; [lia|]. exfalso.
    rewrite app_length in L9. cbn [List.length] in L9. destruct l, r; cbn [pad List.length] in *; lia. }
  apply Nat.ltb_ge in L9. destruct parts as [|x p]; [cbn in L3; lia|]. destruct (exists_last (l := p)) as (m & y & ->); [intros ->; cbn in L3; lia|].
  cbn [hd]. replace (last (x :: m ++ [y]) []) with y by (symmetry; exact (last_last (x :: m) y [])).
  rewrite inner_of. set (n := List.length (x :: m ++ [y])) in *. assert (Hn : n = (2 + List.length m)%nat) by (unfold n; cbn [List.length]; rewrite app_length; cbn; lia).
  destruct (nilpos 1 m) as [|k [|k2 ks]] eqn:Np.
  - (* no inner empty part *) apply nilpos_nil in Np. rewrite !andb_true_iff, Nat.eqb_eq, groupsb. split.
    + intros (((E & _) & _) & F). left. split; [exact F|exact E].
    + intros [[F E]|(l & r & Fl & Fr & _ & E)].
      * split; [split; [split; [exact E|]|]|exact F]; rewrite Forall_forall in F.
        -- assert (G : x <> []) by (apply group_nonempty, F; left; reflexivity). destruct x; [congruence|reflexivity].
        -- assert (G : y <> []) by (apply group_nonempty, F; right; apply in_or_app; right; left; reflexivity). destruct y; [congruence|reflexivity].
      * exfalso. assert (In [] m); [|rewrite Forall_forall in Np; apply (Np _ H); reflexivity].
        destruct (pad l) as [|a pl] eqn:Pl; [destruct l; discriminate|]. destruct (exists_last (l := pad r)) as (pr & b & Pr); [apply pad_nonempty|].
        rewrite Pr in E. cbn [app] in E. assert (E2 : m ++ [y] = (pl ++ [] :: pr) ++ [b]) by (rewrite <- app_assoc; cbn [app]; injection E as _ E; exact E).
        apply app_inj_tail in E2 as [-> _]. apply in_or_app. right. left. reflexivity.
  - (* one *) apply nilpos_one in Np as (a & b & -> & -> & Fa & Fb). rewrite app_length in Hn. cbn [List.length] in Hn.
    replace (n - (1 + List.length a) - 1)%nat with (S (List.length b)) by lia.
    set (hi' := if is_nil x then (1 + List.length a - 1)%nat else (1 + List.length a)%nat).
    set (lo' := if is_nil y then (S (List.length b) - 1)%nat else S (List.length b)).
    (* the halves *)
    assert (F1 : forall h, firstn (1 + List.length a) (x :: (a ++ [] :: b) ++ h) = x :: a).
    { intros h. cbn [firstn Nat.add]. f_equal. rewrite <- app_assoc. rewrite firstn_app, firstn_all, Nat.sub_diag. cbn. apply app_nil_r. }
    assert (F2 : skipn (n - S (List.length b)) (x :: (a ++ [] :: b) ++ [y]) = b ++ [y]).
    { assert (Z0 : (n - S (List.length b))%nat = List.length (x :: a ++ [[]])) by (cbn [List.length]; rewrite app_length; cbn [List.length]; lia). rewrite Z0.
      replace (x :: (a ++ [] :: b) ++ [y]) with ((x :: a ++ [[]]) ++ b ++ [y]) by (cbn [app]; rewrite <- !app_assoc; reflexivity).
      rewrite skipn_app, skipn_all, Nat.sub_diag. reflexivity. }
    assert (F3 : skipn (n - 0) (x :: (a ++ [] :: b) ++ [y]) = []) by (rewrite Nat.sub_0_r; apply skipn_all).
    clearbody n. split.
    + intros H. destruct (is_nil x && negb (Nat.eqb hi' 0)) eqn:Q1; [discriminate|]. destruct (is_nil y && negb (Nat.eqb lo' 0)) eqn:Q2; [discriminate|].
      rewrite !andb_true_iff, Nat.ltb_lt, !groupsb in H. destruct H as [[Hn' G1] G2]. right.
      exists (if is_nil x then [] else x :: a), (if is_nil y then [] else b ++ [y]).
      destruct x as [|c x], y as [|e y]; unfold hi', lo' in *; cbn [is_nil andb] in *; clear hi' lo'.
      * apply negb_false_iff, Nat.eqb_eq in Q1, Q2. assert (a = []) by (destruct a; [reflexivity|cbn in Q1; lia]). assert (b = []) by (destruct b; [reflexivity|cbn in Q2; lia]). subst a b.
        repeat split; try constructor. cbn. lia.
      * apply negb_false_iff, Nat.eqb_eq in Q1. assert (a = []) by (destruct a; [reflexivity|cbn in Q1; lia]). subst a. pose proof (eq_ind _ (Forall group) G2 _ F2) as G3; clear G2; rename G3 into G2.
        split; [constructor|]. split; [exact G2|]. split; [rewrite app_length; cbn in *; lia|]. change (pad []) with [@nil Z]. cbn [app]. f_equal. f_equal. symmetry. apply pad_snoc.
      * apply negb_false_iff, Nat.eqb_eq in Q2. assert (b = []) by (destruct b; [reflexivity|cbn in Q2; lia]). subst b. pose proof (eq_ind _ (Forall group) G1 _ (F1 _)) as G3; clear G1; rename G3 into G1.
        split; [exact G1|]. split; [constructor|]. split; [unfold ustr in *; cbn [List.length] in *; lia|]. cbn [pad app]. rewrite <- app_assoc. reflexivity.
      * pose proof (eq_ind _ (Forall group) G1 _ (F1 _)) as G3; clear G1; rename G3 into G1. pose proof (eq_ind _ (Forall group) G2 _ F2) as G3; clear G2; rename G3 into G2. split; [exact G1|]. split; [exact G2|]. split; [rewrite app_length; unfold ustr in *; cbn [List.length] in *; lia|].
        change (pad ((c :: x) :: a)) with ((c :: x) :: a). cbn [app]. f_equal. rewrite <- app_assoc. cbn [app]. f_equal. f_equal. symmetry. apply pad_snoc.
    + intros [[F E]|(l & r & Fl & Fr & Hlr & E)].
      { exfalso. rewrite Forall_forall in F. assert (G : group []); [apply F; right; apply in_or_app; left; apply in_or_app; right; left; reflexivity|]. exact (group_nonempty _ G eq_refl). }
      (* read the halves back *)
      assert (Hl : x :: a = pad l /\ b ++ [y] = pad r).
      { assert (NE : forall (z : ustr) (s t l1 l2 : list ustr), z :: s ++ [] :: t = l1 ++ [] :: l2 -> l1 <> [] -> Forall (fun p => p <> []) s -> Forall (fun p => p <> []) (tl l1) ->
          z :: s = l1 /\ t = l2).
        { intros z s t l1 l2 Q N1 Fs F0. destruct l1 as [|z1 l1]; [congruence|]. cbn [app tl] in *. injection Q as <- Q'. clear N1. revert l1 F0 Q'. induction s as [|s0 s IH]; intros l1 F0 Q'.
          - destruct l1 as [|z1 l1]; cbn [app] in Q'; [injection Q' as <-; split; reflexivity|]. exfalso. injection Q' as <- _. inversion F0. congruence.
          - inversion Fs as [|? ? G1 G2]; subst. destruct l1 as [|z1 l1]; cbn [app] in Q'; [exfalso; injection Q' as -> _; congruence|]. injection Q' as <- Q2. inversion F0 as [|? ? G3 G4]; subst.
            destruct (IH G2 l1 G4 Q2) as [I1 I2]. split; [injection I1 as ->; reflexivity|exact I2]. }
        apply (NE x a (b ++ [y]) (pad l) (pad r)).
        - rewrite <- app_assoc in E. exact E.
        - apply pad_nonempty.
        - exact Fa.
        - destruct l as [|l0 l]; cbn [pad tl]; [constructor|]. inversion Fl; subst. eapply Forall_impl; [|eassumption]. exact group_nonempty. }
      destruct Hl as [Hx Hy].
      assert (Hhi : hi' = List.length l /\ (is_nil x = true -> l = []) /\ (is_nil x = false -> x :: a = l)).
      { unfold hi'. destruct l as [|l0 l]; cbn [pad] in Hx.
        - injection Hx as -> ->. cbn. split; [reflexivity|]. split; [reflexivity|discriminate].
        - inversion Fl; subst. injection Hx as -> ->. destruct l0; [exfalso; eapply group_nonempty; [eassumption|reflexivity]|].
          cbn. split; [reflexivity|]. split; [discriminate|reflexivity]. }
      assert (Hlo : lo' = List.length r /\ (is_nil y = true -> r = []) /\ (is_nil y = false -> b ++ [y] = r)).
      { unfold lo'. destruct r as [|r0 r]; cbn [pad] in Hy.
        - destruct b as [|? [|]]; try discriminate Hy. injection Hy as ->. cbn. split; [reflexivity|]. split; [reflexivity|discriminate].
        - assert (y <> []). { intros ->. assert (In [] (r0 :: r)) by (rewrite <- Hy; apply in_or_app; right; left; reflexivity). rewrite Forall_forall in Fr. apply Fr in H. exact (group_nonempty _ H eq_refl). }
          destruct y; [congruence|]. cbn [is_nil]. split; [rewrite <- Hy, app_length; cbn; lia|]. split; [discriminate|intros _; exact Hy]. }
      destruct Hhi as (H1 & H2 & H3), Hlo as (H4 & H5 & H6).
      assert (Q1 : is_nil x && negb (Nat.eqb hi' 0) = false) by (destruct (is_nil x) eqn:Qx; [rewrite H1, (H2 eq_refl); reflexivity|reflexivity]).
      assert (Q2 : is_nil y && negb (Nat.eqb lo' 0) = false) by (destruct (is_nil y) eqn:Qy; [rewrite H4, (H5 eq_refl); reflexivity|reflexivity]).
      rewrite Q1, Q2, !andb_true_iff, Nat.ltb_lt, !groupsb. split; [split; [lia|]|].
      * destruct (is_nil x) eqn:Qx; [rewrite H1, (H2 eq_refl); constructor|]. unfold hi'. refine (eq_ind_r (Forall group) _ (F1 _)). rewrite (H3 eq_refl). exact Fl.
      * destruct (is_nil y) eqn:Qy; [rewrite H4, (H5 eq_refl); refine (eq_ind_r (Forall group) _ F3); constructor|]. unfold lo'. refine (eq_ind_r (Forall group) _ F2). rewrite (H6 eq_refl). exact Fr.
  - split; [discriminate|]. intros H. exfalso. destruct H as [[F _]|(l & r & Fl & Fr & _ & E)].
    + assert (Nm : nilpos 1 m = []); [|congruence]. apply nilpos_nil. inversion F as [|? ? _ F']; subst. apply Forall_app in F' as [F' _]. eapply Forall_impl; [|exact F']. exact group_nonempty.
    + destruct (pad l) as [|a pl] eqn:Pl; [destruct l; discriminate|]. destruct (exists_last (l := pad r)) as (pr & b & Pr); [apply pad_nonempty|].
      rewrite Pr in E. cbn [app] in E. assert (E2 : m ++ [y] = (pl ++ [] :: pr) ++ [b]) by (rewrite <- app_assoc; cbn [app]; injection E as _ E; exact E).
      apply app_inj_tail in E2 as [-> _].
      assert (Q : nilpos 1 (pl ++ [] :: pr) = [(1 + List.length pl)%nat]); [|congruence]. apply nilpos_one. exists pl, pr. split; [reflexivity|]. split; [reflexivity|]. split.
      * destruct l as [|l0 l]; cbn [pad] in Pl; injection Pl as <- <-; [constructor|]. inversion Fl; subst. eapply Forall_impl; [|eassumption]. exact group_nonempty.
      * destruct r as [|r0 r]; cbn [pad] in Pr; [destruct pr as [|? [|]]; try discriminate Pr; constructor|]. rewrite Pr in Fr. apply Forall_app in Fr as [Fr _]. eapply Forall_impl; [|exact Fr]. exact group_nonempty.
Qed.

(** the accepted lists of parts, read as texts *)
Lemma zero_group : group (u "0").
Proof. split; [cbn; lia|]. intros c H. vm_compute in H. destruct H as [<-|[]]. left. split; discriminate. Qed.
Lemma nodot s : free 46 s -> existsb (Z.eqb 46) s = false.
Proof.
  intros F. destruct (existsb (Z.eqb 46) s) eqn:E; [|reflexivity]. exfalso. apply existsb_exists in E as (c & H & Q). apply Z.eqb_eq in Q. subst. exact (F H).
Qed.
Lemma dot s : existsb (Z.eqb 46) s = true <-> In 46 s.
Proof.
  rewrite existsb_exists. split; [intros (c & H & Q); apply Z.eqb_eq in Q; subst; exact H|]. intros H. exists 46. split; [exact H|apply Z.eqb_refl].
Qed.
Lemma colons_gap l r : colons (pad l ++ [] :: pad r) = colons l ++ [58; 58] ++ colons r.
Proof.
  unfold colons. rewrite join_app; [|apply pad_nonempty|discriminate]. pose proof (colons_pad l) as El. pose proof (colons_pad r) as Er. unfold colons in El, Er. rewrite El. f_equal.
  assert (Q : join 58 ([] :: pad r) = 58 :: join 58 (pad r)) by (destruct r; reflexivity). rewrite Q, Er. reflexivity.
Qed.
Lemma group_freed l : Forall group l -> Forall (free 58) l.
Proof. apply Forall_impl. intros s H. apply group_free, H. Qed.
Lemma groups_freed l n : groups l n -> Forall (free 58) l.
Proof.
  intros [[H _]|(r & q & -> & H & Hq & _)]; [apply group_freed, H|]. apply Forall_app. split; [apply group_freed, H|]. constructor; [apply octets_free58, Hq|constructor].
Qed.
Lemma pad_freed l : Forall (free 58) l -> Forall (free 58) (pad l).
Proof. destruct l; [intros _; constructor; [intros []|constructor]|auto]. Qed.
Lemma ipv6_unfold s : ipv6_ok s = true <->
  let parts := split_on 58 s in
  (3 <= List.length parts)%nat /\
  ((~ In 46 (last parts []) /\ parts_form parts) \/
   (ipv4 (last parts []) /\ parts_form (removelast parts ++ [u "0"; u "0"]))).
Proof.
  unfold ipv6_ok. cbv zeta. set (parts := split_on 58 s). destruct (Nat.ltb_spec (List.length parts) 3) as [L|L]; [split; [discriminate|lia]|].
  assert (R : parts <> []) by (intros Q; rewrite Q in L; cbn in L; lia).
  destruct (existsb (Z.eqb 46) (last parts [])) eqn:Dt; cbn [andb].
  - pose proof (proj1 (dot _) Dt) as Hd.
    destruct (ipv4_ok (last parts [])) eqn:V; cbn [negb].
    + fold (parts_ok (removelast parts ++ [u "0"; u "0"])). rewrite parts_iff.
      * apply ipv4_iff in V. split; [intros H; split; [exact L|right; split; assumption]|]. intros (_ & [[H _]|[_ H]]); [contradiction|exact H].
      * destruct (exists_last R) as (m & y & Q). rewrite Q in *. rewrite removelast_last. rewrite app_length in *. cbn [List.length] in *. lia.
    + split; [discriminate|]. intros (_ & [[H _]|[H _]]); [contradiction|]. apply ipv4_iff in H. congruence.
  - fold (parts_ok parts). rewrite parts_iff by exact L. split.
    + intros H. split; [exact L|]. left. split; [|exact H]. intros Q. apply dot in Q. congruence.
    + intros (_ & [[_ H]|[H _]]); [exact H|]. apply ipv4_dotted, dot in H. congruence.
Qed.
Lemma two_last {A} (l : list A) (a b x y : A) m : m ++ [a; b] = l ++ [x; y] -> m = l /\ a = x /\ b = y.
Proof.
  intros H. change [a; b] with ([a] ++ [b]) in H. change [x; y] with ([x] ++ [y]) in H. rewrite !app_assoc in H.
  apply app_inj_tail in H as [H ->]. apply app_inj_tail in H as [-> ->]. auto.
Qed.
Lemma ipv6_iff s : ipv6_ok s = true <-> ipv6 s.
Proof.
  rewrite ipv6_unfold. cbv zeta. split.
  - intros (L & H). destruct (proj1 (split_iff 58 s _) eq_refl) as (N & F & E). set (parts := split_on 58 s) in *. clearbody parts.
    destruct H as [[Nd [[G L8]|(l & r & Gl & Gr & Hlr & ->)]]|[V [[G L8]|(l & r & Gl & Gr & Hlr & Q)]]].
    + left. exists parts. split; [left; auto|exact E].
    + right. exists l, r, (List.length r). repeat (split; [first [assumption|left; auto]|]). rewrite E. apply colons_gap.
    + destruct (exists_last N) as (m & q & ->). rewrite last_last in V. rewrite removelast_last in G, L8. apply Forall_app in G as [G _].
      left. exists (m ++ [q]). split; [|exact E]. right. exists m, q. rewrite app_length in L8. cbn [List.length] in L8. repeat (split; [first [assumption|reflexivity]|]). lia.
    + destruct (exists_last N) as (m & q & ->). rewrite last_last in V. rewrite removelast_last in Q.
      destruct (exists_last (pad_nonempty r)) as (r1 & z2 & Er).
      assert (Hr : pad r = r).
      { destruct r; [|reflexivity]. exfalso. cbn [pad] in Q. change (pad l ++ [[]; []]) with (pad l ++ [[]] ++ [@nil Z]) in Q. change [u "0"; u "0"] with ([u "0"] ++ [u "0"]) in Q.
        rewrite !app_assoc in Q. apply app_inj_tail in Q as [_ Q]. discriminate Q. }
      rewrite Hr in *. destruct r1 as [|r0 r1'].
      { exfalso. subst r. cbn [app] in Q. change (pad l ++ [[]; z2]) with (pad l ++ [[]; z2]) in Q. apply two_last in Q as (_ & Q & _). discriminate Q. }
      destruct (exists_last (l := r0 :: r1')) as (r2 & z1 & Er1); [discriminate|]. rewrite Er1 in Er. rewrite <- app_assoc in Er. cbn [app] in Er. clear Er1.
      subst r. replace (pad l ++ [] :: r2 ++ [z1; z2]) with ((pad l ++ [] :: r2) ++ [z1; z2]) in Q by (rewrite <- app_assoc; reflexivity).
      apply two_last in Q as (-> & _ & _). apply Forall_app in Gr as [Gr _]. rewrite app_length in Hlr. cbn [List.length] in Hlr.
      right. exists l, (r2 ++ [q]), (List.length r2 + 2)%nat. split; [exact Gl|]. split; [right; exists r2, q; auto|]. split; [exact Hlr|].
      rewrite E, <- colons_gap, pad_snoc. rewrite <- app_assoc. reflexivity.
  - intros [(l & G & ->)|(l & r & n & Gl & Gr & Hlr & ->)].
    + assert (Nl : l <> []) by (destruct G as [[_ H]|(r & q & -> & _)]; [destruct l; [discriminate|discriminate]|destruct r; discriminate]).
      assert (Q : split_on 58 (colons l) = l) by (apply split_iff; split; [exact Nl|]; split; [eapply groups_freed, G|reflexivity]). rewrite Q.
      destruct G as [[G L8]|(r & q & -> & G & V & L8)].
      * split; [lia|]. left. split; [|left; auto]. destruct (exists_last Nl) as (m & y & ->). rewrite last_last. apply Forall_app in G as [_ G]. inversion G; subst. apply group_free. assumption.
      * rewrite app_length. cbn [List.length]. split; [lia|]. right. rewrite last_last, removelast_last. split; [exact V|]. left. split.
        -- apply Forall_app. split; [exact G|]. constructor; [apply zero_group|constructor; [apply zero_group|constructor]].
        -- rewrite app_length. cbn. lia.
    + rewrite <- colons_gap.
      assert (Q : split_on 58 (colons (pad l ++ [] :: pad r)) = pad l ++ [] :: pad r).
      { apply split_iff. split; [destruct (pad l); discriminate|]. split; [|reflexivity]. apply Forall_app. split; [apply pad_freed, group_freed, Gl|]. constructor; [intros []|]. eapply pad_freed, groups_freed, Gr. }
      rewrite Q. clear Q.
      assert (L1 : (1 <= List.length (pad l))%nat) by (destruct l; cbn; lia). assert (L2 : (1 <= List.length (pad r))%nat) by (destruct r; cbn; lia).
      split; [rewrite app_length; cbn [List.length]; lia|].
      destruct Gr as [[Gr ->]|(r2 & q & -> & Gr & V & ->)].
      * left. split; [|right; exists l, r; auto]. destruct (exists_last (pad_nonempty r)) as (m & y & Q). rewrite Q.
        replace (pad l ++ [] :: m ++ [y]) with ((pad l ++ [] :: m) ++ [y]) by (rewrite <- app_assoc; reflexivity). rewrite last_last.
        destruct r as [|r0 r]; [destruct m as [|? [|]]; try discriminate Q; injection Q as <-; intros []|]. cbn [pad] in Q. rewrite Q in Gr. apply Forall_app in Gr as [_ Gr]. inversion Gr; subst. apply group_free. assumption.
      * right. rewrite pad_snoc. replace (pad l ++ [] :: r2 ++ [q]) with ((pad l ++ [] :: r2) ++ [q]) by (rewrite <- app_assoc; reflexivity). rewrite last_last, removelast_last. split; [exact V|].
        right. exists l, (r2 ++ [u "0"; u "0"]). split; [exact Gl|]. split; [apply Forall_app; split; [exact Gr|constructor; [apply zero_group|constructor; [apply zero_group|constructor]]]|]. split; [rewrite app_length; cbn [List.length]; lia|].
        rewrite <- app_assoc. cbn [app]. f_equal. f_equal. destruct r2; reflexivity.
Qed.

Lemma ipaddress_iff f v : validate_ipaddress f v = Ok tt <->
  (exists s, v = VStr s /\ (ipv4 s \/ ipv6 s)) \/
  (exists b, v = VBytes b /\ (List.length b = 4%nat \/ List.length b = 16%nat)) \/
  (exists z, v = VInt z /\ 0 <= z < 2 ^ 128) \/ (exists b, v = VBool b).
Proof.
  unfold validate_ipaddress. destruct v; cbn [ip_ok];
    try (split; [discriminate|intros [(? & Q & _)|[(? & Q & _)|[(? & Q & _)|(? & Q)]]]; discriminate]).
  - split; [|reflexivity]. intros _. right. right. right. eauto.
  - destruct ((0 <=? z) && (z <? 2 ^ 128)) eqn:E; split; try discriminate; try reflexivity.
    + intros _. right. right. left. exists z. split; [reflexivity|]. apply andb_true_iff in E as [E1 E2]. apply Z.leb_le in E1. apply Z.ltb_lt in E2. auto.
    + intros [(? & Q & _)|[(? & Q & _)|[(z' & Q & H)|(? & Q)]]]; try discriminate. injection Q as <-. exfalso. apply andb_false_iff in E as [E|E]; [apply Z.leb_gt in E|apply Z.ltb_ge in E]; destruct H; eauto using Z.le_lt_trans.
      * apply (Z.lt_irrefl 0). eapply Z.le_lt_trans; eassumption.
      * apply (Z.lt_irrefl z). eapply Z.lt_le_trans; eassumption.
  - destruct (ipv4_ok s || ipv6_ok s) eqn:E; split; try discriminate; try reflexivity.
    + intros _. left. exists s. split; [reflexivity|]. apply orb_true_iff in E as [E|E]; [left; apply ipv4_iff, E|right; apply ipv6_iff, E].
    + intros [(s' & Q & H)|[(? & Q & _)|[(z' & Q & H)|(? & Q)]]]; try discriminate. injection Q as <-. exfalso. apply orb_false_iff in E as [E1 E2]. destruct H as [H|H]; [apply ipv4_iff in H|apply ipv6_iff in H]; congruence.
  - destruct (Nat.eqb (List.length b) 4 || Nat.eqb (List.length b) 16) eqn:E; split; try discriminate; try reflexivity.
    + intros _. right. left. exists b. split; [reflexivity|]. apply orb_true_iff in E as [E|E]; apply Nat.eqb_eq in E; auto.
    + intros [(s & Q & H)|[(b' & Q & H)|[(z' & Q & H)|(? & Q)]]]; try discriminate. injection Q as <-. exfalso. apply orb_false_iff in E as [E1 E2]. apply Nat.eqb_neq in E1, E2. destruct H; contradiction.
Qed.
Lemma varchar128_iff f v : validate_varchar128 f v = Ok tt <-> exists s, is_str v s /\ Z.of_nat (List.length s) <= 128.
Proof. apply varchar_iff. Qed.
