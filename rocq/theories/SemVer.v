(** * Versions: semantic_version 2.8 [Version] parsing and the range check of
    message/base.py 56-79, and the 32-byte Pascal string of Hello. *)
From Verif Require Export Text.

(** ** semantic_version.Version (non-partial parse)
    Regular expression
    [^(\d+)\.(\d+)\.(\d+)(?:-([0-9a-zA-Z.-]+))?(?:\+([0-9a-zA-Z.-]+))?$];
    [\d] and [int] take decimal digits of any script. *)
Record version := {
  v_major : Z; v_minor : Z; v_patch : Z; v_pre : list ustr; v_build : list ustr;
}.
Fixpoint take_while (f : Z -> bool) (s : ustr) : ustr * ustr :=
  match s with
  | c :: r => if f c then let '(a, b) := take_while f r in (c :: a, b) else ([], s)
  | [] => ([], [])
  end.
Definition is_ident (c : Z) : bool :=
  is_digit c || ((65 <=? c) && (c <=? 90)) || ((97 <=? c) && (c <=? 122)) || (c =? 45).
Definition is_run (c : Z) : bool := is_ident c || (c =? 46).
(** [_has_leading_zero] (the text is known to consist of digits; only the ASCII zero counts) *)
Definition leading_zero (s : ustr) : bool :=
  match s with a :: _ :: _ => a =? 48 | _ => false end.
Definition is_decimal (c : Z) : bool := match decimal c with Some _ => true | None => false end.
(** [int(s)] of digits *)
Definition num_val (s : ustr) : Z :=
  fold_left (fun acc c => acc * 10 + match decimal c with Some d => d | None => 0 end) s 0.
Definition ver_num (s : ustr) : option (Z * ustr) :=
  match take_while is_decimal s with
  | ([], _) => None
  | (d, r) => if leading_zero d then None else Some (num_val d, r)
  end.
Definition ver_char (c : Z) (s : ustr) : option ustr :=
  match s with x :: r => if x =? c then Some r else None | [] => None end.
(** [_validate_identifiers] *)
Definition pre_ok (s : ustr) : bool :=
  negb (is_nil s) && negb (forallb is_digit s && leading_zero s).
Definition build_ok (s : ustr) : bool := negb (is_nil s).
(** an optional group introduced by [c] *)
Definition ver_group (c : Z) (ok : ustr -> bool) (s : ustr) : option (list ustr * ustr) :=
  match ver_char c s with
  | None => Some ([], s)
  | Some r =>
      match take_while is_run r with
      | ([], _) => None
      | (g, r) => let ids := split_on 46 g in if forallb ok ids then Some (ids, r) else None
      end
  end.
(** [$] also matches before a final newline *)
Definition ver_end (s : ustr) : bool := match s with [] => true | [c] => c =? 10 | _ => false end.
Definition ver_parse (s : ustr) : option version :=
  match ver_num s with None => None | Some (major, s) =>
  match ver_char 46 s with None => None | Some s =>
  match ver_num s with None => None | Some (minor, s) =>
  match ver_char 46 s with None => None | Some s =>
  match ver_num s with None => None | Some (patch, s) =>
  match ver_group 45 pre_ok s with None => None | Some (pre, s) =>
  match ver_group 43 build_ok s with None => None | Some (build, s) =>
  if ver_end s then Some {| v_major := major; v_minor := minor; v_patch := patch; v_pre := pre; v_build := build |}
  else None
  end end end end end end end.

(** order on (major, minor, patch) *)
Definition triple (v : version) : Z * Z * Z := (v_major v, v_minor v, v_patch v).
Definition lt3 (a b : Z * Z * Z) : bool :=
  let '(a1, a2, a3) := a in let '(b1, b2, b3) := b in
  (a1 <? b1) || ((a1 =? b1) && ((a2 <? b2) || ((a2 =? b2) && (a3 <? b3)))).
Definition eq3 (a b : Z * Z * Z) : bool :=
  let '(a1, a2, a3) := a in let '(b1, b2, b3) := b in (a1 =? b1) && (a2 =? b2) && (a3 =? b3).
(** [Version.next_minor] *)
Definition next_minor (v : version) : Z * Z * Z :=
  if negb (is_nil (v_pre v)) && (v_patch v =? 0) then (v_major v, v_minor v, 0)
  else (v_major v, v_minor v + 1, 0).
(** [v in Spec('>=a.b.0,<next')]: build metadata is ignored, a prerelease is below its
    release, and a prerelease of the upper bound does not satisfy [<] *)
Definition in_range (v : version) (lo hi : Z * Z * Z) : bool :=
  (lt3 lo (triple v) || (eq3 lo (triple v) && is_nil (v_pre v)))
  && (if negb (is_nil (v_pre v)) && eq3 (triple v) hi then false else lt3 (triple v) hi).

(** message/base.py 56-79; [ours] is golem_messages.__version__ *)
Definition verify_version (ours theirs : ustr) : result unit :=
  match ver_parse theirs with
  | None => Err EVersionMismatchError
  | Some t =>
      match ver_parse ours with
      | None => Err EValueError
      | Some o =>
          if in_range t (v_major o, v_minor o, 0) (next_minor o) then Ok tt else Err EVersionMismatchError
      end
  end.

(** ** struct '!32p': message/base.py 637, 638 *)
Definition VERSION_LENGTH : nat := 32.
Definition pack32p (b : bytes) : bytes :=
  let b := firstn 31 b in z2b (blen b) :: b ++ zeros (31 - List.length b).
Definition unpack32p (b : bytes) : result bytes :=
  if negb (Nat.eqb (List.length b) 32) then Err EStructError else
  match b with
  | n :: r => Ok (firstn (Nat.min (Z.to_nat (b2z n)) 31) r)
  | [] => Err EStructError
  end.

(** ** Facts *)
Lemma take_while_spec f s a b : take_while f s = (a, b) ->
  s = a ++ b /\ forallb f a = true /\ match b with c :: _ => f c = false | [] => True end.
Proof.
  revert a b; induction s as [|c s IH]; cbn [take_while]; intros a b H.
  - injection H as <- <-. auto.
  - destruct (f c) eqn:E.
    + destruct (take_while f s) as [a' b'] eqn:E'. injection H as <- <-.
      destruct (IH _ _ eq_refl) as (-> & H1 & H2). cbn [app forallb]. rewrite E, H1. auto.
    + injection H as <- <-. cbn. auto.
Qed.
Lemma take_while_app f a b : forallb f a = true -> match b with c :: _ => f c = false | [] => True end ->
  take_while f (a ++ b) = (a, b).
Proof.
  intros H1 H2. induction a as [|x a IH]; cbn [app take_while].
  - destruct b as [|c b]; [reflexivity|]. cbn [take_while]. rewrite H2. reflexivity.
  - cbn [forallb] in H1. apply andb_true_iff in H1. destruct H1 as [H1 H1']. rewrite H1, (IH H1'). reflexivity.
Qed.

(** decimal text of a non-negative integer *)
Fixpoint dec_str_f (fuel : nat) (n : Z) : ustr :=
  match fuel with
  | O => []
  | S f => (if n <? 10 then [] else dec_str_f f (n / 10)) ++ [48 + n mod 10]
  end.
Definition dec_str (n : Z) : ustr := dec_str_f (S (Z.to_nat (Z.log2 n))) n.

Lemma dec_val_app a c : dec_val (a ++ [c]) = dec_val a * 10 + (c - 48).
Proof. unfold dec_val. rewrite fold_left_app. reflexivity. Qed.
Lemma dec_val_nonneg s : forallb is_digit s = true -> 0 <= dec_val s.
Proof.
  induction s as [|c s IH] using rev_ind; intros H; [unfold dec_val; cbn; lia|].
  rewrite forallb_app in H. cbn [forallb] in H. rewrite dec_val_app.
  apply andb_true_iff in H. destruct H as [H1 H2]. specialize (IH H1). unfold is_digit in H2. lia.
Qed.

Lemma log2_div10 n : 10 <= n -> Z.log2 (n / 10) < Z.log2 n.
Proof.
  intros H. assert (n / 10 <= n / 2) by (apply Z.div_le_compat_l; lia).
  assert (0 < n / 10) by (apply Z.div_str_pos; lia).
  pose proof (Z.log2_le_mono (n / 10) (n / 2) ltac:(lia)).
  replace (n / 2) with (Z.shiftr n 1) in * by (rewrite Z.shiftr_div_pow2 by lia; reflexivity).
  rewrite Z.log2_shiftr in * by lia.
  assert (3 <= Z.log2 n) by (change 3 with (Z.log2 8); apply Z.log2_le_mono; lia). lia.
Qed.
Lemma dec_str_spec n : 0 <= n ->
  dec_val (dec_str n) = n /\ forallb is_digit (dec_str n) = true /\ dec_str n <> [] /\ leading_zero (dec_str n) = false.
Proof.
  unfold dec_str. intros Hn.
  assert (G : forall f n, 0 <= n -> (Z.to_nat (Z.log2 n) < f)%nat ->
    dec_val (dec_str_f f n) = n /\ forallb is_digit (dec_str_f f n) = true /\
    (exists c r, dec_str_f f n = c :: r /\ (0 < n -> c <> 48)) /\ leading_zero (dec_str_f f n) = false).
  { induction f as [|f IH]; intros m Hm L; [lia|]. cbn [dec_str_f].
    destruct (m <? 10) eqn:E.
    - cbn [app]. unfold dec_val. cbn [fold_left forallb leading_zero]. rewrite Z.mod_small by lia.
      split; [lia|]. split; [unfold is_digit; lia|]. split; [|reflexivity]. exists (48 + m), []. split; [reflexivity|lia].
    - assert (10 <= m) by lia. pose proof (log2_div10 m ltac:(lia)).
      assert (P : 0 < m / 10) by (apply Z.div_str_pos; lia).
      pose proof (Z.log2_nonneg (m / 10)).
      destruct (IH (m / 10) ltac:(lia) ltac:(lia)) as (K1 & K2 & (c & r & K3 & K3') & K4).
      rewrite dec_val_app, K1, forallb_app, K2. cbn [forallb].
      split; [lia|]. split; [unfold is_digit; lia|].
      rewrite K3 in *. cbn [app]. split.
      + exists c, (r ++ [48 + m mod 10]). split; [reflexivity|]. auto.
      + specialize (K3' P). unfold leading_zero. destruct (r ++ [48 + m mod 10]); [reflexivity|]. lia. }
  destruct (G (S (Z.to_nat (Z.log2 n))) n Hn ltac:(lia)) as (H1 & H2 & (c & r & H3 & _) & H4).
  split; [exact H1|]. split; [exact H2|]. split; [rewrite H3; discriminate|exact H4].
Qed.
(** digits without a leading zero are the decimal text of their value *)
Lemma dec_str_val s : forallb is_digit s = true -> s <> [] -> leading_zero s = false -> dec_str (dec_val s) = s.
Proof.
  assert (G : forall s, forallb is_digit s = true -> leading_zero s = false -> s <> [] ->
     forall f, (Z.to_nat (Z.log2 (dec_val s)) < f)%nat -> dec_str_f f (dec_val s) = s).
  { clear s. induction s as [|c s IH] using rev_ind; intros D Z0 N f L; [congruence|].
    destruct f as [|f]; [lia|]. rewrite forallb_app in D. cbn [forallb] in D.
    apply andb_true_iff in D. destruct D as [D Dc]. rewrite dec_val_app in *. cbn [dec_str_f].
    pose proof (dec_val_nonneg s D) as P. unfold is_digit in Dc.
    destruct s as [|c0 s0].
    - cbn [app]. unfold dec_val. cbn [fold_left]. replace (0 * 10 + (c - 48) <? 10) with true by lia.
      cbn [app]. f_equal. rewrite Z.mod_small by lia. lia.
    - assert (Pos : 0 < dec_val (c0 :: s0)).
      { destruct (Z.eq_dec (dec_val (c0 :: s0)) 0) as [E0|]; [|lia]. exfalso.
        assert (NZ : c0 <> 48).
        { intros ->. cbn [app leading_zero] in Z0. destruct (s0 ++ [c]) eqn:Es; [destruct s0; discriminate|]. discriminate. }
        cbn [forallb] in D. apply andb_true_iff in D. destruct D as [D0 D]. unfold is_digit in D0.
        assert (G2 : forall l a, 0 < a -> forallb is_digit l = true -> 0 < fold_left (fun acc c => acc * 10 + (c - 48)) l a).
        { induction l as [|x l IHl]; intros a Ha Hl; [exact Ha|]. cbn [fold_left forallb] in *.
          apply andb_true_iff in Hl. destruct Hl as [Hx Hl]. unfold is_digit in Hx. apply IHl; [lia|exact Hl]. }
        unfold dec_val in E0. cbn [fold_left] in E0.
        assert (Z0' : 0 < fold_left (fun acc c => acc * 10 + (c - 48)) s0 (0 * 10 + (c0 - 48))) by (apply G2; [lia|exact D]).
        lia. }
      replace (dec_val (c0 :: s0) * 10 + (c - 48) <? 10) with false by lia.
      replace ((dec_val (c0 :: s0) * 10 + (c - 48)) / 10) with (dec_val (c0 :: s0)) by lia.
      replace ((dec_val (c0 :: s0) * 10 + (c - 48)) mod 10) with (c - 48) by lia.
      rewrite IH; [f_equal; f_equal; lia|exact D| |discriminate|].
      + destruct s0 as [|c1 s1]; [reflexivity|]. exact Z0.
      + pose proof (log2_div10 (dec_val (c0 :: s0) * 10 + (c - 48)) ltac:(lia)) as Q.
        replace ((dec_val (c0 :: s0) * 10 + (c - 48)) / 10) with (dec_val (c0 :: s0)) in Q by lia.
        pose proof (Z.log2_nonneg (dec_val (c0 :: s0))). lia. }
  intros D N Z0. unfold dec_str. apply G; auto.
Qed.

(** the text [s], digits of any script without a superfluous ASCII zero in front, is the
    number [n] *)
Definition spells_num (s : ustr) (n : Z) : Prop :=
  s <> [] /\ ~ (exists c r, s = 48 :: c :: r) /\ exists ds, Forall2 nd s ds /\ n = fold_left (fun a d => a * 10 + d) ds 0.
Lemma leading_zero_iff s : leading_zero s = true <-> exists c r, s = 48 :: c :: r.
Proof.
  destruct s as [|a [|b r]]; cbn [leading_zero]; try (split; [discriminate|intros (? & ? & ?); discriminate]).
  rewrite Z.eqb_eq. split; [intros ->; eauto|intros (c & r' & E); congruence].
Qed.
Lemma num_val_nd s ds : Forall2 nd s ds -> num_val s = fold_left (fun a d => a * 10 + d) ds 0 /\ forallb is_decimal s = true.
Proof.
  unfold num_val. intros H. set (f := fun acc c => acc * 10 + match decimal c with Some d => d | None => 0 end). generalize 0 at 1 2.
  induction H as [|c d s ds N _ IH]; intros a0; [auto|].
  apply decimal_iff in N. cbn [fold_left forallb]. unfold is_decimal at 1, f at 2. rewrite N. exact (IH _).
Qed.
Lemma nd_all s : forallb is_decimal s = true -> exists ds, Forall2 nd s ds.
Proof.
  induction s as [|c s IH]; [exists []; constructor|]. cbn [forallb]. intros H. apply andb_true_iff in H as [H1 H2]. destruct (IH H2) as (ds & F).
  unfold is_decimal in H1. destruct (decimal c) as [d|] eqn:E; [|discriminate]. apply decimal_iff in E. exists (d :: ds). constructor; assumption.
Qed.
Lemma spells_num_nonneg s n : spells_num s n -> 0 <= n.
Proof.
  intros (_ & _ & ds & F & ->). assert (G : forall a, 0 <= a -> 0 <= fold_left (fun a d => a * 10 + d) ds a); [|apply G; lia].
  induction F as [|c d s ds N _ IH]; intros a Ha; [exact Ha|]. cbn [fold_left]. apply IH. destruct N as (_ & _ & B & _). lia.
Qed.
Lemma spells_dec n : 0 <= n -> spells_num (dec_str n) n.
Proof.
  intros H. destruct (dec_str_spec n H) as (V & D & N & Z0). split; [exact N|]. split; [rewrite <- leading_zero_iff; congruence|].
  exists (map (fun c => c - 48) (dec_str n)). split.
  - clear V N Z0. induction (dec_str n) as [|c s IH]; [constructor|]. cbn [map]. cbn [forallb] in D. apply andb_true_iff in D as [D1 D2].
    constructor; [|apply IH, D2]. exists 48. unfold is_digit in D1. split; [left; reflexivity|lia].
  - rewrite <- V at 1. unfold dec_val. generalize 0. clear V D N Z0. induction (dec_str n) as [|c s IH]; intros a; [reflexivity|]. cbn [map fold_left]. apply IH.
Qed.
Lemma ver_num_spec s n r : ver_num s = Some (n, r) ->
  exists d, s = d ++ r /\ spells_num d n /\ match r with c :: _ => is_decimal c = false | [] => True end.
Proof.
  unfold ver_num. destruct (take_while is_decimal s) as [d r'] eqn:E. apply take_while_spec in E. destruct E as (-> & D & B).
  destruct d as [|c d]; [discriminate|]. destruct (leading_zero (c :: d)) eqn:Z0; [discriminate|].
  intros H. assert (num_val (c :: d) = n /\ r' = r) as [<- ->] by (split; congruence). exists (c :: d).
  split; [reflexivity|]. split; [|exact B]. split; [discriminate|]. split; [rewrite <- leading_zero_iff; congruence|].
  destruct (nd_all _ D) as (ds & F). exists ds. split; [exact F|]. apply num_val_nd, F.
Qed.
Lemma ver_num_ok d n r : spells_num d n -> match r with c :: _ => is_decimal c = false | [] => True end ->
  ver_num (d ++ r) = Some (n, r).
Proof.
  intros (N & Z0 & ds & F & ->) B. destruct (num_val_nd d ds F) as [V D]. unfold ver_num.
  rewrite take_while_app by assumption. destruct d as [|c d]; [congruence|]. rewrite <- leading_zero_iff in Z0.
  destruct (leading_zero (c :: d)); [congruence|]. rewrite V. reflexivity.
Qed.

(** [str(version)] *)
Fixpoint join (c : Z) (l : list ustr) : ustr :=
  match l with [] => [] | [x] => x | x :: r => x ++ c :: join c r end.
Definition ver_ids (c : Z) (l : list ustr) : ustr := match l with [] => [] | _ => c :: join 46 l end.
Definition ver_print (v : version) : ustr :=
  dec_str (v_major v) ++ 46 :: dec_str (v_minor v) ++ 46 :: dec_str (v_patch v)
  ++ ver_ids 45 (v_pre v) ++ ver_ids 43 (v_build v).
(** a valid version, with the parser's own tests of characters *)
Definition ver_wf0 (v : version) : Prop :=
  0 <= v_major v /\ 0 <= v_minor v /\ 0 <= v_patch v /\
  Forall (fun s => s <> [] /\ forallb is_ident s = true /\ ~ (forallb is_digit s = true /\ leading_zero s = true)) (v_pre v) /\
  Forall (fun s => s <> [] /\ forallb is_ident s = true) (v_build v).

Lemma split_join l : l <> [] -> Forall (fun s => forallb (fun c => negb (c =? 46)) s = true) l -> split_on 46 (join 46 l) = l.
Proof.
  assert (S1 : forall s r, forallb (fun c => negb (c =? 46)) s = true -> split_on 46 (s ++ 46 :: r) = s :: split_on 46 r).
  { induction s as [|c s IH]; intros r H; [reflexivity|]. cbn [forallb] in H. apply andb_true_iff in H. destruct H as [H1 H2].
    cbn [app split_on]. apply negb_true_iff in H1. rewrite H1, (IH r H2). reflexivity. }
  assert (S0 : forall s, forallb (fun c => negb (c =? 46)) s = true -> split_on 46 s = [s]).
  { induction s as [|c s IH]; intros H; [reflexivity|]. cbn [forallb] in H. apply andb_true_iff in H. destruct H as [H1 H2].
    cbn [split_on]. apply negb_true_iff in H1. rewrite H1, (IH H2). reflexivity. }
  induction l as [|x l IH]; intros N F; [congruence|]. inversion F; subst.
  destruct l as [|y l]; [apply S0; assumption|].
  change (join 46 (x :: y :: l)) with (x ++ 46 :: join 46 (y :: l)). rewrite S1 by assumption.
  rewrite IH; [reflexivity|discriminate|assumption].
Qed.
Lemma join_split s : join 46 (split_on 46 s) = s /\ split_on 46 s <> [] /\
  (forall f, forallb f s = true -> Forall (fun x => forallb (fun c => f c && negb (c =? 46)) x = true) (split_on 46 s)).
Proof.
  induction s as [|c s (I1 & I2 & I3)]; [split; [reflexivity|split; [discriminate|repeat constructor]]|].
  cbn [split_on]. destruct (c =? 46) eqn:E.
  - apply Z.eqb_eq in E. subst. split.
    + destruct (split_on 46 s) eqn:Es; [congruence|]. cbn [join app]. f_equal. exact I1.
    + split; [discriminate|]. intros f H. cbn [forallb] in H. apply andb_true_iff in H. constructor; [reflexivity|apply I3; tauto].
  - destruct (split_on 46 s) as [|h t] eqn:Es; [congruence|]. split.
    + destruct t; cbn [join] in *; cbn [app]; f_equal; exact I1.
    + split; [discriminate|]. intros f H. cbn [forallb] in H. apply andb_true_iff in H. destruct H as [H1 H2].
      specialize (I3 f H2). inversion I3; subst. constructor; [|assumption]. cbn [forallb]. rewrite H1, E. assumption.
Qed.

Lemma ver_group_spec c ok s ids r : ver_group c ok s = Some (ids, r) ->
  (ids = [] /\ s = r /\ ver_char c s = None) \/
  (ids <> [] /\ s = c :: join 46 ids ++ r /\ forallb ok ids = true /\
   Forall (fun x => forallb is_ident x = true) ids /\ match r with x :: _ => is_run x = false | [] => True end).
Proof.
  unfold ver_group. destruct (ver_char c s) as [s'|] eqn:Ec.
  - destruct (take_while is_run s') as [g r'] eqn:E. apply take_while_spec in E. destruct E as (-> & D & B).
    destruct g as [|x g]; [discriminate|]. cbv zeta. destruct (forallb ok (split_on 46 (x :: g))) eqn:Eo; [|discriminate].
    intros H. assert (Hi : split_on 46 (x :: g) = ids /\ r' = r) by (split; congruence). clear H. destruct Hi as [<- <-].
    right. destruct (join_split (x :: g)) as (J1 & J2 & J3).
    split; [exact J2|]. split.
    + rewrite J1. unfold ver_char in Ec. destruct s as [|y s]; [discriminate|]. destruct (y =? c) eqn:Ey; [|discriminate].
      apply Z.eqb_eq in Ey. injection Ec as ->. subst. reflexivity.
    + split; [exact Eo|]. split; [|exact B]. specialize (J3 _ D). eapply Forall_impl; [|exact J3].
      intros a Ha. cbn beta in Ha. rewrite forallb_forall in *. intros z Hz. specialize (Ha z Hz).
      unfold is_run in Ha. destruct (is_ident z); [reflexivity|]. cbn [orb] in Ha. destruct (z =? 46); discriminate.
  - intros H. injection H as <- <-. auto.
Qed.
Lemma join_run ids : Forall (fun x => forallb is_ident x = true) ids -> forallb is_run (join 46 ids) = true.
Proof.
  assert (W : forall x, forallb is_ident x = true -> forallb is_run x = true).
  { intros x Hx. rewrite forallb_forall in *. intros z Hz. unfold is_run. rewrite (Hx z Hz). reflexivity. }
  induction 1 as [|x l Hx Hl IH]; [reflexivity|]. destruct l as [|y l]; [apply W; exact Hx|].
  change (join 46 (x :: y :: l)) with (x ++ 46 :: join 46 (y :: l)). rewrite forallb_app. cbn [forallb]. rewrite (W _ Hx), IH. reflexivity.
Qed.
Lemma ident_nodot x : forallb is_ident x = true -> forallb (fun c => negb (c =? 46)) x = true.
Proof.
  rewrite !forallb_forall. intros H z Hz. specialize (H z Hz). destruct (Z.eqb_spec z 46); [subst; discriminate|reflexivity].
Qed.
Lemma ver_group_ok c (ok : ustr -> bool) (ids : list ustr) (r : ustr) : ids <> [] -> Forall (fun x => x <> [] /\ forallb is_ident x = true) ids ->
  forallb ok ids = true -> match r with x :: _ => is_run x = false | [] => True end ->
  ver_group c ok (c :: join 46 ids ++ r) = Some (ids, r).
Proof.
  intros N F O B. unfold ver_group, ver_char. rewrite Z.eqb_refl.
  assert (F1 : Forall (fun x => forallb is_ident x = true) ids) by (eapply Forall_impl; [|exact F]; cbn; tauto).
  rewrite take_while_app by (auto using join_run).
  assert (Ne : join 46 ids <> []).
  { destruct ids as [|x [|y l]]; [congruence| |]; inversion F as [|? ? [Hx _] _]; subst.
    - exact Hx.
    - cbn [join]. destruct x; discriminate. }
  destruct (join 46 ids) as [|z j] eqn:Ej; [congruence|]. cbv beta iota zeta. rewrite <- Ej.
  rewrite split_join; [rewrite O; reflexivity|exact N|].
  eapply Forall_impl; [|exact F1]. intros a. apply ident_nodot.
Qed.
Lemma ver_group_none c ok r : ver_char c r = None -> ver_group c ok r = Some ([], r).
Proof. unfold ver_group. intros ->. reflexivity. Qed.

(** a valid version per semver.org: identifiers are made of letters, digits and
    hyphens, and numeric prerelease identifiers have no leading zero *)
Definition ident_char (c : Z) : Prop := 48 <= c <= 57 \/ 65 <= c <= 90 \/ 97 <= c <= 122 \/ c = 45.
Definition ident (s : ustr) : Prop := s <> [] /\ forall c, In c s -> ident_char c.
Definition numeric (s : ustr) : Prop := forall c, In c s -> 48 <= c <= 57.
Definition ver_wf (v : version) : Prop :=
  0 <= v_major v /\ 0 <= v_minor v /\ 0 <= v_patch v /\
  Forall (fun s => ident s /\ ~ (numeric s /\ exists c r, s = 48 :: c :: r)) (v_pre v) /\
  Forall ident (v_build v).
Lemma ver_wf_iff v : ver_wf v <-> ver_wf0 v.
Proof.
  assert (I : forall s, (s <> [] /\ forallb is_ident s = true) <-> ident s).
  { intros s. unfold ident, ident_char. rewrite forallb_forall. unfold is_ident, is_digit. split; intros [N H]; (split; [exact N|]); intros c Hc; specialize (H c Hc); lia. }
  assert (D : forall s, forallb is_digit s = true <-> numeric s).
  { intros s. unfold numeric. rewrite forallb_forall. unfold is_digit. split; intros H c Hc; specialize (H c Hc); lia. }
  assert (L : forall s, leading_zero s = true <-> exists c r, s = 48 :: c :: r).
  { intros [|a [|b r]]; cbn [leading_zero]; try (split; [discriminate|intros (? & ? & ?); discriminate]).
    rewrite Z.eqb_eq. split; [intros ->; eauto|intros (c & r' & E); congruence]. }
  unfold ver_wf, ver_wf0. split; intros (H1 & H2 & H3 & H4 & H5); (split; [exact H1|]); (split; [exact H2|]); (split; [exact H3|]);
    (split; [eapply Forall_impl; [|exact H4]; cbv beta; intros s Hs; specialize (I s); specialize (D s); specialize (L s); tauto
            |eapply Forall_impl; [|exact H5]; cbv beta; intros s Hs; apply I, Hs]).
Qed.
(** a text of the version [v] without build metadata *)
Definition spells_core (s : ustr) (v : version) : Prop :=
  exists a b c, spells_num a (v_major v) /\ spells_num b (v_minor v) /\ spells_num c (v_patch v) /\
    s = a ++ 46 :: b ++ 46 :: c ++ ver_ids 45 (v_pre v).
(** a text of the version [v], optionally followed by a newline *)
Definition spells_version (s : ustr) (v : version) : Prop :=
  ver_wf v /\ exists k e, spells_core k v /\ (e = [] \/ e = [10]) /\ s = k ++ ver_ids 43 (v_build v) ++ e.
(** the parser accepts exactly these *)
Theorem ver_parse_iff s v : ver_parse s = Some v <-> spells_version s v.
Proof.
  unfold spells_version. rewrite ver_wf_iff. split.
  - unfold ver_parse.
    destruct (ver_num s) as [[a s1]|] eqn:E1; [|discriminate].
    destruct (ver_char 46 s1) as [s2|] eqn:E2; [|discriminate].
    destruct (ver_num s2) as [[b s3]|] eqn:E3; [|discriminate].
    destruct (ver_char 46 s3) as [s4|] eqn:E4; [|discriminate].
    destruct (ver_num s4) as [[c s5]|] eqn:E5; [|discriminate].
    destruct (ver_group 45 pre_ok s5) as [[pre s6]|] eqn:E6; [|discriminate].
    destruct (ver_group 43 build_ok s6) as [[bd s7]|] eqn:E7; [|discriminate].
    destruct (ver_end s7) eqn:E8; [|discriminate]. intros H. injection H as <-.
    apply ver_num_spec in E1. destruct E1 as (ta & -> & Sa & _).
    apply ver_num_spec in E3. destruct E3 as (tb & -> & Sb & _).
    apply ver_num_spec in E5. destruct E5 as (tc & -> & Sc & _).
    pose proof (spells_num_nonneg _ _ Sa) as Pa. pose proof (spells_num_nonneg _ _ Sb) as Pb. pose proof (spells_num_nonneg _ _ Sc) as Pc.
    assert (CH : forall x y, ver_char 46 x = Some y -> x = 46 :: y).
    { intros x y. unfold ver_char. destruct x as [|z x]; [discriminate|]. destruct (z =? 46) eqn:Ez; [|discriminate].
      apply Z.eqb_eq in Ez. intros H; injection H as ->. subst; reflexivity. }
    apply CH in E2, E4. subst s1 s3.
    assert (GE : s7 = [] \/ s7 = [10]).
    { destruct s7 as [|x [|? ?]]; [auto| |discriminate]. cbn in E8. apply Z.eqb_eq in E8. subst; auto. }
    apply ver_group_spec in E6, E7.
    assert (W : ver_wf0 {| v_major := a; v_minor := b; v_patch := c; v_pre := pre; v_build := bd |}).
    { unfold ver_wf0. cbn [v_major v_minor v_patch v_pre v_build]. split; [exact Pa|]. split; [exact Pb|]. split; [exact Pc|]. split.
      - destruct E6 as [(-> & _)|(_ & _ & Ho & Hi & _)]; [constructor|].
        rewrite Forall_forall in *. intros x Hx. rewrite forallb_forall in Ho. specialize (Ho x Hx). unfold pre_ok in Ho.
        apply andb_true_iff in Ho. destruct Ho as [H1 H2]. split; [destruct x; [discriminate|discriminate]|].
        split; [auto|]. intros [D Z0]. rewrite D, Z0 in H2. discriminate.
      - destruct E7 as [(-> & _)|(_ & _ & Ho & Hi & _)]; [constructor|].
        rewrite Forall_forall in *. intros x Hx. rewrite forallb_forall in Ho. specialize (Ho x Hx). unfold build_ok in Ho.
        split; [destruct x; [discriminate|discriminate]|auto]. }
    split; [exact W|]. exists (ta ++ 46 :: tb ++ 46 :: tc ++ ver_ids 45 pre), s7. unfold spells_core. cbn [v_major v_minor v_patch v_pre v_build].
    split; [exists ta, tb, tc; auto|]. split; [exact GE|].
    assert (S5 : s5 = ver_ids 45 pre ++ ver_ids 43 bd ++ s7).
    { destruct E6 as [(-> & -> & _)|(N & -> & _)], E7 as [(-> & -> & _)|(N' & -> & _)]; cbn [app].
      - reflexivity.
      - destruct bd; [congruence|]. reflexivity.
      - destruct pre; [congruence|]. reflexivity.
      - destruct bd; [congruence|]. destruct pre; [congruence|]. cbn [app]. reflexivity. }
    rewrite S5. repeat (rewrite <- ?app_assoc, <- ?app_comm_cons). reflexivity.
  - intros (W & k & t & (ta & tb & tc & Sa & Sb & Sc & ->) & Ht & ->). destruct v as [a b c pre bd]. unfold ver_wf0 in W.
    cbn [v_major v_minor v_patch v_pre v_build] in *. destruct W as (Pa & Pb & Pc & Wp & Wb).
    rewrite <- ?app_assoc, <- ?app_comm_cons, <- ?app_assoc, <- ?app_comm_cons, <- ?app_assoc.
    unfold ver_parse. rewrite (ver_num_ok ta a) by (auto; reflexivity).
    cbn [ver_char]. rewrite Z.eqb_refl. rewrite (ver_num_ok tb b) by (auto; reflexivity).
    cbn [ver_char]. rewrite Z.eqb_refl.
    rewrite (ver_num_ok tc c); [|exact Sc|].
    2:{ destruct pre; [destruct bd; [destruct Ht as [->| ->]; reflexivity || exact I|reflexivity]|reflexivity]. }
    assert (E6 : ver_group 45 pre_ok (ver_ids 45 pre ++ ver_ids 43 bd ++ t)
             = Some (pre, ver_ids 43 bd ++ t)).
    { destruct pre as [|p pre].
      - apply ver_group_none. destruct bd; [destruct Ht as [->| ->]; reflexivity|reflexivity].
      - cbn [ver_ids]. rewrite <- app_comm_cons. apply ver_group_ok; [discriminate| | |].
        + eapply Forall_impl; [|exact Wp]. cbn; tauto.
        + rewrite forallb_forall. rewrite Forall_forall in Wp. intros x Hx. destruct (Wp x Hx) as (N & _ & NZ). unfold pre_ok.
          destruct x; [congruence|]. cbn [is_nil negb andb]. destruct (forallb is_digit (z :: x)); [|reflexivity].
          destruct (leading_zero (z :: x)); [exfalso; auto|reflexivity].
        + destruct bd; [destruct Ht as [->| ->]; reflexivity || exact I|reflexivity]. }
    rewrite E6.
    assert (E7 : ver_group 43 build_ok (ver_ids 43 bd ++ t) = Some (bd, t)).
    { destruct bd as [|p bd].
      - apply ver_group_none. destruct Ht as [->| ->]; reflexivity.
      - cbn [ver_ids]. rewrite <- app_comm_cons. apply ver_group_ok; [discriminate|exact Wb| |].
        + rewrite forallb_forall. rewrite Forall_forall in Wb. intros x Hx. destruct (Wb x Hx) as (N & _). unfold build_ok. destruct x; [congruence|reflexivity].
        + destruct Ht as [->| ->]; reflexivity || exact I. }
    rewrite E7. destruct Ht as [->| ->]; reflexivity.
Qed.
(** [str(version)] is one of its texts *)
Lemma spells_print v : ver_wf v -> spells_version (ver_print v) v.
Proof.
  intros W. split; [exact W|]. destruct W as (A & B & C & _).
  exists (dec_str (v_major v) ++ 46 :: dec_str (v_minor v) ++ 46 :: dec_str (v_patch v) ++ ver_ids 45 (v_pre v)), [].
  split; [exists (dec_str (v_major v)), (dec_str (v_minor v)), (dec_str (v_patch v)); auto using spells_dec|]. split; [auto|]. rewrite app_nil_r. unfold ver_print.
  repeat (rewrite <- ?app_assoc, <- ?app_comm_cons). reflexivity.
Qed.
(** and an ASCII text has no other digits *)
Lemma spells_num_ascii s n : spells_num s n -> Forall (fun c => c < 128) s -> s = dec_str n.
Proof.
  intros (N & Z0 & ds & F & ->) A.
  assert (D : forallb is_digit s = true /\ forall a, fold_left (fun a d => a * 10 + d) ds a = fold_left (fun acc c => acc * 10 + (c - 48)) s a).
  { clear N Z0. induction F as [|c d s ds X _ IH]; [auto|]. apply Forall_cons_iff in A as [A1 A2]. destruct (IH A2) as [I1 I2].
    pose proof (proj1 (nd_ascii c d X) ltac:(lia)) as [R ->]. cbn [forallb fold_left]. split; [rewrite I1; unfold is_digit; lia|intros a; apply I2]. }
  destruct D as [D E]. rewrite E. symmetry. apply dec_str_val; [exact D|exact N|]. rewrite <- leading_zero_iff in Z0. destruct (leading_zero s); congruence.
Qed.
Lemma ver_parse_ascii s v : Forall (fun c => c < 128) s -> ver_parse s = Some v <-> ver_wf v /\ (s = ver_print v \/ s = ver_print v ++ [10]).
Proof.
  intros A. rewrite ver_parse_iff. split.
  - intros (W & k & e & (ta & tb & tc & Sa & Sb & Sc & ->) & He & ->). split; [exact W|].
    assert (Aa : forall l l' : ustr, Forall (fun c => c < 128) (l ++ l') -> Forall (fun c => c < 128) l /\ Forall (fun c => c < 128) l') by (intros l l'; apply Forall_app).
    apply Aa in A as [A _]. apply Aa in A as [A1 A]. apply Forall_cons_iff in A as [_ A]. apply Aa in A as [A2 A]. apply Forall_cons_iff in A as [_ A].
    apply Aa in A as [A3 _]. apply spells_num_ascii in Sa as ->, Sb as ->, Sc as ->; try assumption.
    unfold ver_print. destruct He as [->| ->]; [left|right]; rewrite ?app_nil_r; repeat (rewrite <- ?app_assoc, <- ?app_comm_cons); reflexivity.
  - intros (W & [->| ->]); [apply spells_print, W|]. split; [exact W|]. destruct W as (X & Y & Z & _).
    exists (dec_str (v_major v) ++ 46 :: dec_str (v_minor v) ++ 46 :: dec_str (v_patch v) ++ ver_ids 45 (v_pre v)), [10].
    split; [exists (dec_str (v_major v)), (dec_str (v_minor v)), (dec_str (v_patch v)); auto using spells_dec|]. split; [auto|]. unfold ver_print.
    repeat (rewrite <- ?app_assoc, <- ?app_comm_cons). reflexivity.
Qed.
Lemma ver_parse_wf s v : ver_parse s = Some v -> ver_wf v.
Proof. intros H. apply ver_parse_iff in H. exact (proj1 H). Qed.

Lemma verify_version_iff ours theirs :
  verify_version ours theirs = Ok tt <->
  exists o t, ver_parse ours = Some o /\ ver_parse theirs = Some t /\
    v_major t = v_major o /\ v_minor t = v_minor o /\
    ~ (v_patch t = 0 /\ v_pre t <> []) /\ ~ (v_patch o = 0 /\ v_pre o <> []).
Proof.
  unfold verify_version. split.
  - destruct (ver_parse theirs) as [t|] eqn:Et; [|discriminate]. destruct (ver_parse ours) as [o|]; [|discriminate].
    pose proof (ver_parse_wf _ _ Et) as (_ & _ & P & _). clear Et.
    destruct (in_range _ _ _) eqn:E; [|discriminate]. intros _. exists o, t. split; [reflexivity|]. split; [reflexivity|].
    revert E. unfold in_range, next_minor, triple, lt3, eq3.
    destruct t as [a1 a2 a3 ap ab], o as [b1 b2 b3 bp bb]; cbn [v_major v_minor v_patch v_pre v_build] in *.
    destruct ap, bp; cbn [is_nil negb andb]; repeat match goal with |- context [if ?b then _ else _] => destruct b eqn:? end;
    intros E; try discriminate; repeat split; try lia; try (intros [H1 H2]; try congruence; lia).
  - intros (o & t & -> & Et & H1 & H2 & H3 & H4).
    pose proof (ver_parse_wf _ _ Et) as (_ & _ & H5 & _). rewrite Et.
    assert (E : in_range t (v_major o, v_minor o, 0) (next_minor o) = true); [|rewrite E; reflexivity].
    unfold in_range, next_minor, triple, lt3, eq3.
    destruct t as [a1 a2 a3 ap ab], o as [b1 b2 b3 bp bb]; cbn [v_major v_minor v_patch v_pre v_build] in *. subst.
    assert (D1 : ap = [] \/ (a3 <> 0)) by (destruct ap; [auto|right; intros ->; apply H3; split; congruence]).
    assert (D2 : bp = [] \/ (b3 <> 0)) by (destruct bp; [auto|right; intros ->; apply H4; split; congruence]).
    clear H3 H4 Et. destruct ap, bp; cbn [is_nil negb andb];
      destruct D1 as [D1|D1]; try discriminate D1; destruct D2 as [D2|D2]; try discriminate D2; clear ab bb;
      repeat match goal with |- context [if ?b then _ else _] => destruct b eqn:? end; try lia.
  destruct (b3 =? 0) eqn:?; lia.
Qed.

(** ** the Pascal string *)
Lemma pack32p_length b : List.length (pack32p b) = 32%nat.
Proof.
  unfold pack32p. cbn [List.length]. rewrite app_length, zeros_length. rewrite firstn_length. lia.
Qed.
Lemma unpack_pack32p b : unpack32p (pack32p b) = Ok (firstn 31 b).
Proof.
  unfold unpack32p. rewrite pack32p_length. cbn [Nat.eqb negb]. unfold pack32p. f_equal.
  assert (L : (List.length (firstn 31 b) <= 31)%nat) by (rewrite firstn_length; lia).
  unfold blen. rewrite b2z_z2b_small by lia. rewrite Nat2Z.id, Nat.min_l by exact L.
  apply firstn_app_exact. reflexivity.
Qed.
