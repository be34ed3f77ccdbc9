(** * Facts about release versions and about versions cut to Hello's field *)
From Verif Require Export Version.

(** ** Texts *)
Lemma lstrip_none f s : match s with c :: _ => f c = false | [] => True end -> lstrip f s = s.
Proof. destruct s as [|c s]; [reflexivity|]. cbn [lstrip]. intros ->. reflexivity. Qed.
Lemma Forall_rev' {A} (P : A -> Prop) l : Forall P l -> Forall P (rev l).
Proof. rewrite !Forall_forall. intros H x Hx. apply H, in_rev, Hx. Qed.
(** a text without white space, printed with a newline *)
Lemma strip_line s : Forall (fun c => is_white c = false) s -> strip is_white (s ++ [10]) = s.
Proof.
  intros F. unfold strip. destruct s as [|c s]; [reflexivity|].
  rewrite (lstrip_none _ ((c :: s) ++ [10])) by (inversion F; assumption).
  rewrite rev_app_distr. change (rev [10]) with [10]. cbn [app lstrip]. change (is_white 10) with true. cbv iota.
  rewrite lstrip_none; [apply rev_involutive|].
  apply Forall_rev' in F. destruct (rev (c :: s)) as [|d r]; [exact I|]. inversion F; assumption.
Qed.
Lemma is_prefix_app p s : is_prefix p (p ++ s) = true.
Proof. induction p as [|c p IH]; [reflexivity|]. cbn [app is_prefix]. rewrite Z.eqb_refl. exact IH. Qed.
Lemma hex_run h : Forall (fun c => 48 <= c <= 57 \/ 97 <= c <= 102) h -> forall c, In c h -> ident_char c.
Proof. rewrite Forall_forall. intros F c Hc. specialize (F c Hc). unfold ident_char. lia. Qed.
Lemma map_dash s : Forall (fun c => c <> 45) s -> map (fun c => if c =? 45 then 46 else c) s = s.
Proof.
  induction 1 as [|c s H F IH]; [reflexivity|]. cbn [map]. rewrite IH. destruct (c =? 45) eqn:E; [|reflexivity]. lia.
Qed.

(** what Python calls white space *)
Definition white_space : list Z :=
  [9; 10; 11; 12; 13; 28; 29; 30; 31; 32; 133; 160; 5760; 8192; 8193; 8194; 8195; 8196; 8197; 8198; 8199; 8200; 8201; 8202; 8232; 8233; 8239; 8287; 12288].
Lemma not_white c : ~ In c white_space -> is_white c = false.
Proof.
  intros H. destruct (is_white c) eqn:W; [|reflexivity]. exfalso. apply H. unfold is_white in W. unfold white_space. cbn [In]. lia.
Qed.
(** ** What git prints *)
(** [git describe] prints the last tag, followed when there are commits after it by their
    number and the abbreviated hash of the last one *)
Definition describes (tag : ustr) (after : option (Z * ustr)) : ustr :=
  tag ++ match after with None => [] | Some (n, h) => u "-" ++ dec_str n ++ u "-g" ++ h end ++ [10].
Definition git_after (after : option (Z * ustr)) : Prop :=
  match after with None => True | Some (n, h) => 0 < n /\ h <> [] /\ Forall (fun c => 48 <= c <= 57 \/ 97 <= c <= 102) h end.
Definition unbroken (s : ustr) : Prop := forall c, In c s -> ~ In c white_space.
Lemma unbroken_white s : unbroken s -> Forall (fun c => is_white c = false) s.
Proof. intros H. apply Forall_forall. intros c Hc. apply not_white, H, Hc. Qed.
Definition release (tag : ustr) (after : option (Z * ustr)) : ustr :=
  tag ++ match after with None => [] | Some (n, h) => u "+dev" ++ dec_str n ++ u ".g" ++ h end.

Lemma dec_digits n : 0 <= n -> Forall (fun c => 48 <= c <= 57) (dec_str n).
Proof.
  intros H. destruct (dec_str_spec n H) as (_ & D & _). rewrite forallb_forall in D. apply Forall_forall.
  intros c Hc. specialize (D c Hc). unfold is_digit in D. lia.
Qed.
Lemma call_exact prefix tag after : unbroken prefix -> unbroken tag -> git_after after ->
  call_git_describe prefix (describes (prefix ++ tag) after) (describes (prefix ++ tag) None) = Ok (release tag after).
Proof.
  intros P T A. apply unbroken_white in P, T. unfold call_git_describe.
  assert (S : existsb (Z.eqb 32) prefix = false).
  { destruct (existsb (Z.eqb 32) prefix) eqn:E; [|reflexivity]. apply existsb_exists in E. destruct E as (c & Hc & E).
    rewrite Forall_forall in P. specialize (P c Hc). apply Z.eqb_eq in E. subst c. discriminate P. }
  rewrite S. unfold describes. cbn [app].
  rewrite (strip_line (prefix ++ tag)) by (apply Forall_app; split; assumption).
  rewrite is_prefix_app, skipn_app_exact by reflexivity.
  destruct after as [[n h]|]; cbn [git_after release] in *.
  - destruct A as (N & Hh & F). rewrite app_assoc.
    set (sfx := u "-" ++ dec_str n ++ u "-g" ++ h).
    assert (W : Forall (fun c => is_white c = false) sfx).
    { unfold sfx. apply Forall_app. split; [repeat constructor|]. apply Forall_app. split.
      - eapply Forall_impl; [|apply dec_digits; lia]. cbv beta. intros c Hc. unfold is_white. lia.
      - apply Forall_app. split; [repeat constructor|]. eapply Forall_impl; [|exact F]. cbv beta. intros c Hc. unfold is_white. lia. }
    rewrite strip_line by (apply Forall_app; split; [apply Forall_app; split; assumption|exact W]).
    rewrite <- !app_assoc, is_prefix_app, skipn_app_exact by reflexivity. cbn [negb]. rewrite is_prefix_app. cbn [negb].
    destruct (ustr_eqb (tag ++ sfx) tag) eqn:E.
    + apply ustr_eqb_eq in E. rewrite <- (app_nil_r tag) in E at 2. apply app_inv_head in E. discriminate E.
    + cbn [negb]. unfold release. do 2 f_equal. f_equal. unfold sfx. change (u "-" ++ ?x) with (45 :: x).
      change (tag ++ 45 :: ?x) with (tag ++ [45] ++ x). rewrite app_assoc.
      rewrite skipn_app_exact by (rewrite app_length; reflexivity). rewrite !map_app. f_equal; [|f_equal].
      * apply map_dash. eapply Forall_impl; [|apply dec_digits; lia]. cbv beta. lia.
      * apply map_dash. eapply Forall_impl; [|exact F]. cbv beta. lia.
  - rewrite strip_line by (apply Forall_app; split; assumption).
    rewrite is_prefix_app, skipn_app_exact by reflexivity. cbn [negb].
    assert (E : is_prefix tag tag = true) by (rewrite <- (app_nil_r tag) at 2; apply is_prefix_app).
    rewrite E, ustr_eqb_refl. cbn [negb]. unfold release. rewrite app_nil_r. reflexivity.
Qed.

(** ** Versions and build metadata *)
Definition with_build (v : version) (b : list ustr) : version :=
  {| v_major := v_major v; v_minor := v_minor v; v_patch := v_patch v; v_pre := v_pre v; v_build := b |}.
Definition core (v : version) : ustr := ver_print (with_build v []).
Lemma print_core v : ver_print v = core v ++ ver_ids 43 (v_build v).
Proof.
  unfold core, ver_print, with_build. cbn [v_major v_minor v_patch v_pre v_build ver_ids].
  repeat rewrite <- app_assoc || rewrite <- app_comm_cons || rewrite app_nil_r. reflexivity.
Qed.
Lemma join_in c ids : In c (join 46 ids) -> c = 46 \/ exists x, In x ids /\ In c x.
Proof.
  induction ids as [|x [|y l] IH]; cbn [join].
  - intros [].
  - intros H. right. exists x. split; [left; reflexivity|exact H].
  - intros H. apply in_app_or in H. destruct H as [H|[H|H]]; [right; exists x; split; [left; reflexivity|exact H]|left; congruence|].
    apply IH in H. destruct H as [H|(z & Hz & H)]; [left; exact H|right; exists z; split; [right; exact Hz|exact H]].
Qed.
Lemma ids_in c d ids : Forall ident ids -> In c (ver_ids d ids) -> c = d \/ c = 46 \/ ident_char c.
Proof.
  intros F. destruct ids as [|x l]; [intros []|]. cbn [ver_ids]. intros [H|H]; [left; congruence|].
  apply join_in in H. destruct H as [H|(z & Hz & H)]; [right; left; exact H|].
  rewrite Forall_forall in F. right; right. exact (proj2 (F z Hz) c H).
Qed.
Lemma core_in v c : ver_wf v -> In c (core v) -> c = 46 \/ ident_char c.
Proof.
  intros (A & B & C & P & _). unfold core, ver_print, with_build. cbn [v_major v_minor v_patch v_pre v_build ver_ids].
  rewrite app_nil_r.
  assert (D : forall n, 0 <= n -> In c (dec_str n) -> c = 46 \/ ident_char c).
  { intros n Hn H. pose proof (dec_digits n Hn) as F. rewrite Forall_forall in F. specialize (F c H). right. unfold ident_char. lia. }
  intros H. apply in_app_or in H. destruct H as [H|[H|H]]; [eauto|left; congruence|].
  apply in_app_or in H. destruct H as [H|[H|H]]; [eauto|left; congruence|].
  apply in_app_or in H. destruct H as [H|H]; [eauto|].
  apply ids_in in H; [|eapply Forall_impl; [|exact P]; cbv beta; tauto].
  destruct H as [->|H]; [right; unfold ident_char; lia|exact H].
Qed.
Lemma core_spells v : ver_wf v -> spells_core (core v) v.
Proof.
  intros (A & B & C & _). exists (dec_str (v_major v)), (dec_str (v_minor v)), (dec_str (v_patch v)).
  repeat (split; [apply spells_dec; assumption|]). unfold core, ver_print, with_build. cbn [v_major v_minor v_patch v_pre v_build ver_ids].
  rewrite app_nil_r. reflexivity.
Qed.
Lemma num_in s n c : spells_num s n -> In c s -> exists d, nd c d.
Proof.
  intros (_ & _ & ds & F & _). induction F as [|x d s ds N _ IH]; [intros []|]. intros [<-|H]; [eauto|auto].
Qed.
Lemma spells_in s v c : ver_wf v -> spells_core s v -> In c s -> c = 46 \/ ident_char c \/ exists d, nd c d.
Proof.
  intros (_ & _ & _ & P & _) (x & y & z & X & Y & Z & ->) H.
  apply in_app_or in H. destruct H as [H|[H|H]]; [eauto using num_in|left; congruence|].
  apply in_app_or in H. destruct H as [H|[H|H]]; [eauto using num_in|left; congruence|].
  apply in_app_or in H. destruct H as [H|H]; [eauto using num_in|].
  apply ids_in in H; [|eapply Forall_impl; [|exact P]; cbv beta; tauto].
  destruct H as [->|[H|H]]; [right; left; unfold ident_char; lia|left; exact H|auto].
Qed.
Lemma nd_not c : c < 48 -> ~ exists d, nd c d.
Proof. intros L (d & N). apply nd_ascii in N as [N _]. lia. Qed.
Lemma spells_plus s v : ver_wf v -> spells_core s v -> ~ In 43 s.
Proof.
  intros W S H. apply (spells_in s v 43 W S) in H. destruct H as [H|[H|H]]; [discriminate H|unfold ident_char in H; lia|].
  exact (nd_not 43 ltac:(lia) H).
Qed.
Lemma wf_build v b : ver_wf v -> Forall ident b -> ver_wf (with_build v b).
Proof. intros (A & B & C & P & _) H. repeat (split; [assumption|]). exact H. Qed.
Lemma split_at (c : Z) (a b a' b' : ustr) : ~ In c a -> ~ In c a' -> a ++ c :: b = a' ++ c :: b' -> a = a' /\ b = b'.
Proof.
  revert a'. induction a as [|x a IH]; intros [|y a'] N N' E; cbn [app] in E.
  - injection E as E. auto.
  - injection E as E1 E2. exfalso. apply N'. left. congruence.
  - injection E as E1 E2. exfalso. apply N. left. congruence.
  - injection E as E1 E2. destruct (IH a') as [H1 H2]; [intros H; apply N; right; exact H|intros H; apply N'; right; exact H|exact E2|]. subst. auto.
Qed.

(** the version of an untagged commit is valid just when the tag is a valid version without build metadata *)
Lemma release_parse tag n h w : unbroken tag -> git_after (Some (n, h)) ->
  ver_parse (release tag (Some (n, h))) = Some w <->
  exists v, ver_parse tag = Some v /\ v_build v = [] /\ w = with_build v [u "dev" ++ dec_str n; u "g" ++ h].
Proof.
  intros T (N & Hh & F).
  set (b := [u "dev" ++ dec_str n; u "g" ++ h]).
  assert (B : Forall ident b).
  { unfold b. constructor; [|constructor; [|constructor]].
    - split; [discriminate|]. intros c Hc. apply in_app_or in Hc. destruct Hc as [Hc|Hc].
      + change (u "dev") with [100; 101; 118] in Hc. cbn [In] in Hc. unfold ident_char. lia.
      + pose proof (dec_digits n ltac:(lia)) as D. rewrite Forall_forall in D. specialize (D c Hc). unfold ident_char. lia.
    - split; [discriminate|]. change (u "g" ++ h) with (103 :: h). intros c [Hc|Hc]; [unfold ident_char; lia|exact (hex_run h F c Hc)]. }
  assert (R : release tag (Some (n, h)) = tag ++ ver_ids 43 b).
  { unfold release, b. cbn [ver_ids join]. f_equal. }
  rewrite R, ver_parse_iff. split.
  - intros [W (k & e & S & [->| ->] & E)].
    + rewrite app_nil_r in E. destruct (v_build w) as [|b0 bs] eqn:Eb.
      * exfalso. cbn [ver_ids] in E. rewrite app_nil_r in E. apply (spells_plus k w W S). rewrite <- E. apply in_or_app. right. left. reflexivity.
      * assert (Nt : ~ In 43 tag).
        { assert (Wb : Forall ident (b0 :: bs)) by (rewrite <- Eb; apply W).
          assert (J : ~ In 43 (join 46 (b0 :: bs))).
          { intros J. apply join_in in J. destruct J as [J|(z & Hz & J)]; [discriminate J|].
            rewrite Forall_forall in Wb. pose proof (proj2 (Wb z Hz) 43 J) as Q. unfold ident_char in Q. lia. }
          assert (E' := f_equal (fun l => count_occ Z.eq_dec l 43) E). cbv beta in E'.
          unfold b in E'. cbn [ver_ids] in E'. unfold ustr in *. rewrite !count_occ_app in E'.
          change (43 :: ?x) with ([43] ++ x) in E'. rewrite !count_occ_app in E'.
          rewrite (proj1 (count_occ_not_In Z.eq_dec _ 43) (spells_plus k w W S)) in E'.
          rewrite (proj1 (count_occ_not_In Z.eq_dec _ 43) J) in E'.
          change (count_occ Z.eq_dec [43] 43) with 1%nat in E'.
          apply (count_occ_not_In Z.eq_dec). lia. }
        cbn [ver_ids b] in E. apply split_at in E; [|exact Nt|exact (spells_plus k w W S)]. destruct E as [E1 E2].
        exists (with_build w []). split; [|split; [reflexivity|]].
        -- apply ver_parse_iff. split; [apply wf_build; [exact W|constructor]|]. exists k, []. split; [exact S|]. split; [auto|]. rewrite E1. symmetry. apply app_nil_r.
        -- assert (Q : b0 :: bs = b).
           { assert (Wb : Forall ident (b0 :: bs)) by (rewrite <- Eb; apply W).
             assert (ND : forall l, Forall ident l -> Forall (fun s => forallb (fun c => negb (c =? 46)) s = true) l).
             { intros l Fl. eapply Forall_impl; [|exact Fl]. intros s [_ Hs]. apply forallb_forall. intros c Hc. specialize (Hs c Hc).
               unfold ident_char in Hs. lia. }
             rewrite <- (split_join (b0 :: bs)) by (discriminate || apply ND, Wb).
             rewrite <- (split_join b) by (discriminate || apply ND, B). f_equal. symmetry. exact E2. }
           destruct w as [w1 w2 w3 w4 w5]. cbn [v_build] in Eb. subst w5. rewrite Q. reflexivity.
    + exfalso. assert (J : exists q c, tag ++ ver_ids 43 b = q ++ [c] /\ ident_char c).
      { destruct (exists_last Hh) as (q & c & Eh). exists (tag ++ u "+dev" ++ dec_str n ++ u ".g" ++ q), c. split.
        - rewrite <- R. unfold release. rewrite Eh. rewrite <- !app_assoc. reflexivity.
        - apply (hex_run h F). rewrite Eh. apply in_or_app. right. left. reflexivity. }
      destruct J as (q & c & E' & I'). rewrite E', app_assoc in E. apply app_inj_tail in E. destruct E as [_ ->]. unfold ident_char in I'. lia.
  - intros (v & Hv & Eb & ->). apply ver_parse_iff in Hv. destruct Hv as [W (k & e & S & [->| ->] & E)].
    + split; [apply wf_build; assumption|]. exists k, []. split; [exact S|]. split; [auto|]. rewrite E, Eb. cbn [ver_ids with_build v_build].
      rewrite !app_nil_r. reflexivity.
    + exfalso. apply unbroken_white in T. rewrite E, app_assoc in T. apply Forall_app in T. destruct T as [_ T]. inversion T as [|? ? Q]. discriminate Q.
Qed.

(** ** Cutting a version *)
Lemma firstn_join m ids : Forall ident ids ->
  (exists ids', Forall ident ids' /\ ids' <> [] /\ firstn m (join 46 ids) = join 46 ids') \/
  firstn m (join 46 ids) = [] \/ exists q, firstn m (join 46 ids) = q ++ [46].
Proof.
  revert m. induction ids as [|x [|y l] IH]; intros m F.
  - right; left. cbn [join]. apply firstn_nil.
  - inversion F as [|? ? [Nx Cx] _]; subst. cbn [join]. destruct (firstn m x) as [|c r] eqn:E; [right; left; reflexivity|].
    left. exists [c :: r]. split; [|split; [discriminate|reflexivity]]. constructor; [|constructor]. split; [discriminate|].
    intros d Hd. apply Cx. rewrite <- E in Hd. rewrite <- (firstn_skipn m x). apply in_or_app. left. exact Hd.
  - inversion F as [|? ? [Nx Cx] F']; subst. change (join 46 (x :: y :: l)) with (x ++ 46 :: join 46 (y :: l)).
    rewrite firstn_app. destruct (Nat.le_gt_cases m (List.length x)) as [Hm|Hm].
    + replace (m - List.length x)%nat with 0%nat by lia. cbn [firstn]. rewrite app_nil_r.
      destruct (firstn m x) as [|c r] eqn:E; [right; left; reflexivity|].
      left. exists [c :: r]. split; [|split; [discriminate|reflexivity]]. constructor; [|constructor]. split; [discriminate|].
      intros d Hd. apply Cx. rewrite <- E in Hd. rewrite <- (firstn_skipn m x). apply in_or_app. left. exact Hd.
    + rewrite firstn_all2 by lia. destruct (m - List.length x)%nat as [|k] eqn:Ek; [lia|]. cbn [firstn].
      destruct (IH k F') as [(ids' & Fi & Ni & E)|[E|(q & E)]].
      * left. exists (x :: ids'). split; [constructor; [split|]; assumption|]. split; [discriminate|]. rewrite E.
        destruct ids' as [|i ids']; [congruence|reflexivity].
      * right; right. exists x. rewrite E. reflexivity.
      * right; right. exists (x ++ 46 :: q). rewrite E, <- app_assoc. reflexivity.
Qed.
Lemma spells_last k v : ver_wf v -> spells_core k v ->
  exists q c, k ++ ver_ids 43 (v_build v) = q ++ [c] /\ (ident_char c \/ exists d, nd c d).
Proof.
  intros W S.
  assert (L : forall d ids, Forall ident ids -> ids <> [] -> exists q c, ver_ids d ids = q ++ [c] /\ ident_char c).
  { intros d ids F N. destruct ids as [|x l]; [congruence|]. cbn [ver_ids].
    assert (J : exists q c, join 46 (x :: l) = q ++ [c] /\ ident_char c).
    { clear N. revert x F. induction l as [|y l IH]; intros x F; inversion F as [|? ? [Nx Cx] F']; subst.
      - destruct (exists_last Nx) as (q & c & ->). exists q, c. split; [reflexivity|]. apply Cx. apply in_or_app. right. left. reflexivity.
      - destruct (IH y F') as (q & c & E & Ic). exists (x ++ 46 :: q), c. split; [|exact Ic].
        change (join 46 (x :: y :: l)) with (x ++ 46 :: join 46 (y :: l)). rewrite E, <- app_assoc. reflexivity. }
    destruct J as (q & c & E & Ic). exists (d :: q), c. rewrite E. split; [reflexivity|exact Ic]. }
  destruct W as (_ & _ & _ & P & D). destruct S as (x & y & z & _ & _ & Z & ->).
  assert (P' : Forall ident (v_pre v)) by (eapply Forall_impl; [|exact P]; cbv beta; tauto).
  destruct (v_build v) as [|b0 bd].
  - cbn [ver_ids]. rewrite app_nil_r. destruct (v_pre v) as [|p0 p].
    + cbn [ver_ids]. rewrite app_nil_r. destruct (exists_last (proj1 Z)) as (q & c & E).
      exists (x ++ 46 :: y ++ 46 :: q), c. split; [rewrite E; repeat rewrite <- app_assoc || rewrite <- app_comm_cons; reflexivity|].
      right. apply (num_in z _ c Z). rewrite E. apply in_or_app. right. left. reflexivity.
    + destruct (L 45 (p0 :: p) P') as (q & c & -> & Ic); [discriminate|].
      exists (x ++ 46 :: y ++ 46 :: z ++ q), c. split; [|left; exact Ic].
      repeat rewrite <- app_assoc || rewrite <- app_comm_cons. reflexivity.
  - destruct (L 43 (b0 :: bd) D) as (q & c & -> & Ic); [discriminate|].
    exists ((x ++ 46 :: y ++ 46 :: z ++ ver_ids 45 (v_pre v)) ++ q), c. split; [|left; exact Ic]. rewrite <- !app_assoc. reflexivity.
Qed.
(** the gate does not look at build metadata *)
Lemma verify_build ours s t v b : ver_parse s = Some v -> ver_parse t = Some (with_build v b) ->
  verify_version ours t = verify_version ours s.
Proof.
  intros Hs Ht. unfold verify_version. rewrite Hs, Ht. reflexivity.
Qed.
Lemma cut_gate ours v n : ver_wf v -> (List.length (core v) <= n)%nat ->
  let t := firstn n (ver_print v) in
  ((forall q, t <> q ++ [43] /\ t <> q ++ [46]) -> verify_version ours t = verify_version ours (ver_print v)) /\
  ((exists q, t = q ++ [43] \/ t = q ++ [46]) -> verify_version ours t = Err EVersionMismatchError).
Proof.
  intros W L t.
  assert (Pv : ver_parse (ver_print v) = Some v) by (apply ver_parse_iff, spells_print, W).
  assert (Et : t = core v ++ firstn (n - List.length (core v)) (ver_ids 43 (v_build v))).
  { unfold t. rewrite print_core, firstn_app, firstn_all2 by exact L. reflexivity. }
  assert (Fb : Forall ident (v_build v)) by apply W.
  split.
  - intros H. assert (G : exists b, Forall ident b /\ t = ver_print (with_build v b)).
    { rewrite Et in *. destruct (n - List.length (core v))%nat as [|k].
      - exists []. split; [constructor|]. cbn [firstn]. rewrite app_nil_r. reflexivity.
      - destruct (v_build v) as [|b0 bs].
        + exists []. split; [constructor|]. cbn [ver_ids firstn]. rewrite app_nil_r. reflexivity.
        + cbn [ver_ids firstn] in *. destruct (firstn_join k (b0 :: bs) Fb) as [(b & Fi & Ni & E)|[E|(q & E)]].
          * exists b. split; [exact Fi|]. rewrite E. rewrite (print_core (with_build v b)). cbn [with_build v_build].
            destruct b as [|i b]; [congruence|reflexivity].
          * exfalso. apply (proj1 (H (core v))). rewrite E. reflexivity.
          * exfalso. apply (proj2 (H (core v ++ 43 :: q))). rewrite E, <- app_assoc. reflexivity. }
    destruct G as (b & Fi & E). apply verify_build with (v := v) (b := b); [exact Pv|]. apply ver_parse_iff.
    rewrite E. apply spells_print, wf_build; assumption.
  - intros (q & H). unfold verify_version. destruct (ver_parse t) as [w|] eqn:Ew; [|reflexivity]. exfalso.
    apply ver_parse_iff in Ew. destruct Ew as [Ww (k & e & S & He & E)]. rewrite app_assoc in E. destruct He as [->| ->].
    + rewrite app_nil_r in E. destruct (spells_last k w Ww S) as (q' & c & E' & Ic). rewrite E' in E.
      destruct H as [H|H]; rewrite H in E; apply app_inj_tail in E; destruct E as [_ E]; subst c;
        (destruct Ic as [Ic|Ic]; [unfold ident_char in Ic; lia|apply nd_not in Ic; [exact Ic|lia]]).
    + destruct H as [H|H]; rewrite H in E; apply app_inj_tail in E; destruct E as [_ E]; discriminate E.
Qed.

(** ** Two checkouts, and the version file *)
Lemma release_some tag after v : unbroken tag -> git_after after -> ver_parse tag = Some v -> v_build v = [] ->
  exists b, ver_parse (release tag after) = Some (with_build v b).
Proof.
  intros T A P B. destruct after as [[n h]|].
  - exists [u "dev" ++ dec_str n; u "g" ++ h]. apply release_parse; [exact T|exact A|]. exists v. auto.
  - exists []. unfold release. rewrite app_nil_r, P. destruct v as [x1 x2 x3 x4 x5]. cbn [v_build] in B. subst. reflexivity.
Qed.
Lemma interoperate t1 a1 v1 t2 a2 v2 :
  unbroken t1 -> git_after a1 -> ver_parse t1 = Some v1 -> v_build v1 = [] ->
  unbroken t2 -> git_after a2 -> ver_parse t2 = Some v2 -> v_build v2 = [] ->
  (verify_version (release t1 a1) (release t2 a2) = Ok tt <->
   v_major v1 = v_major v2 /\ v_minor v1 = v_minor v2 /\
   ~ (v_patch v1 = 0 /\ v_pre v1 <> []) /\ ~ (v_patch v2 = 0 /\ v_pre v2 <> [])).
Proof.
  intros T1 A1 P1 B1 T2 A2 P2 B2. destruct (release_some t1 a1 v1 T1 A1 P1 B1) as (b1 & E1). destruct (release_some t2 a2 v2 T2 A2 P2 B2) as (b2 & E2).
  rewrite verify_version_iff. split.
  - intros (o & t & Ho & Ht & H1 & H2 & H3 & H4). rewrite E1 in Ho. rewrite E2 in Ht.
    injection Ho as <-. injection Ht as <-. cbn [with_build v_major v_minor v_patch v_pre] in *. repeat split; auto.
  - intros (H1 & H2 & H3 & H4). exists (with_build v1 b1), (with_build v2 b2). cbn [with_build v_major v_minor v_patch v_pre].
    repeat split; auto.
Qed.
Lemma get_version_exact p out last nu file :
  snd (get_version p out last nu file) = call_git_describe p out last /\
  fst (get_version p out last nu file) =
    match call_git_describe p out last with Ok v => if nu then file else Some v | Err _ => file end.
Proof.
  unfold get_version. destruct (call_git_describe p out last) as [v|e]; [|split; reflexivity].
  destruct nu; [split; reflexivity|]. destruct file as [r|]; [|split; reflexivity].
  destruct (ustr_eqb v r) eqn:E; cbn [negb fst snd]; [|split; reflexivity]. apply ustr_eqb_eq in E. subst. split; reflexivity.
Qed.

(** ** White space around what git prints *)
Lemma white_spaces c : In c white_space -> is_white c = true.
Proof. intros H. assert (F : forallb is_white white_space = true) by reflexivity. rewrite forallb_forall in F. exact (F c H). Qed.
Lemma lstrip_white f w s : Forall (fun c => f c = true) w -> lstrip f (w ++ s) = lstrip f s.
Proof. induction 1 as [|c w H _ IH]; [reflexivity|]. cbn [app lstrip]. rewrite H. exact IH. Qed.
Lemma lstrip_app f s w : Forall (fun c => f c = true) w -> lstrip f (s ++ w) = match lstrip f s with [] => [] | r => r ++ w end.
Proof.
  intros W. induction s as [|c s IH]; cbn [app lstrip].
  - rewrite <- (app_nil_r w), (lstrip_white f w []) by exact W. reflexivity.
  - destruct (f c); [exact IH|reflexivity].
Qed.
Lemma strip_white f w1 s w2 : Forall (fun c => f c = true) w1 -> Forall (fun c => f c = true) w2 -> strip f (w1 ++ s ++ w2) = strip f s.
Proof.
  intros W1 W2. unfold strip. rewrite lstrip_white, lstrip_app by assumption. destruct (lstrip f s) as [|c r]; [reflexivity|].
  rewrite rev_app_distr, lstrip_white by (apply Forall_rev'; exact W2). reflexivity.
Qed.
Lemma call_white prefix out last w1 w2 w3 w4 : (forall c, In c (w1 ++ w2 ++ w3 ++ w4) -> In c white_space) ->
  call_git_describe prefix (w1 ++ out ++ w2) (w3 ++ last ++ w4) = call_git_describe prefix out last.
Proof.
  intros H. unfold call_git_describe.
  rewrite !strip_white by (apply Forall_forall; intros c Hc; apply white_spaces, H; rewrite !in_app_iff; auto). reflexivity.
Qed.
