(** * promissory.py 53-59: promissory notes shown as text *)
From Verif Require Export Promissory SemVer.
From Verif Require Import TextFacts.

(** [str] of an int *)
Definition int_str (z : Z) : ustr := if z <? 0 then 45 :: dec_str (- z) else dec_str z.
(** a value in an f-string.  Only text, numbers, booleans and None are modelled:
    [None] for any other value *)
Definition fmt (v : pyval) : option ustr :=
  match v with
  | VStr s => Some s
  | VInt z => Some (int_str z)
  | VBool b => Some (u (if b then "True" else "False"))
  | VNone => Some (u "None")
  | _ => None
  end.
(** promissory.py 53-59 *)
Definition note_repr (n : note) : option ustr :=
  match fmt (n_from n), fmt (n_to n), fmt (n_amount n), fmt (n_subtask n), fmt (n_contract n) with
  | Some f, Some t, Some a, Some s, Some c =>
      Some (u "<PromissoryNote: " ++ u " from: " ++ f ++ u ", to: " ++ t ++ u ", " ++
            u "amount: " ++ a ++ u ", subtask_id: " ++ s ++ u ", " ++ u "contract: " ++ c ++ u ">")
  | _, _, _, _, _ => None
  end.

(** ** Facts *)
(** up to the first comma *)
Lemma cut_comma a b r q : ~ In 44 a -> ~ In 44 b -> a ++ 44 :: r = b ++ 44 :: q -> a = b /\ r = q.
Proof.
  revert b. induction a as [|x a IH]; intros [|y b] A B E; cbn [app] in E.
  - injection E as ->. auto.
  - injection E as <- _. exfalso. apply B. left. reflexivity.
  - injection E as -> _. exfalso. apply A. left. reflexivity.
  - injection E as <- E. apply IH in E as [-> ->]; [auto| |]; intros I; [apply A|apply B]; right; exact I.
Qed.
Lemma digit_no_comma s : forallb is_digit s = true -> ~ In 44 s /\ ~ In 45 s.
Proof.
  intros H. rewrite forallb_forall in H. split; intros I; apply H in I; discriminate I.
Qed.
Lemma int_no_comma z : ~ In 44 (int_str z).
Proof.
  unfold int_str. destruct (Z.ltb_spec z 0) as [L|L].
  - destruct (dec_str_spec (- z) ltac:(lia)) as (_ & D & _). apply digit_no_comma in D as [D _]. intros [Q|Q]; [discriminate Q|contradiction].
  - destruct (dec_str_spec z L) as (_ & D & _). apply digit_no_comma in D as [D _]. exact D.
Qed.
Lemma int_str_inj x y : int_str x = int_str y -> x = y.
Proof.
  unfold int_str. destruct (Z.ltb_spec x 0) as [A|A], (Z.ltb_spec y 0) as [B|B]; intros E.
  - injection E as E. destruct (dec_str_spec (- x) ltac:(lia)) as (V & _), (dec_str_spec (- y) ltac:(lia)) as (W & _). rewrite E in V. lia.
  - destruct (dec_str_spec y B) as (_ & D & _). apply digit_no_comma in D as [_ D]. rewrite <- E in D. exfalso. apply D. left. reflexivity.
  - destruct (dec_str_spec x A) as (_ & D & _). apply digit_no_comma in D as [_ D]. rewrite E in D. exfalso. apply D. left. reflexivity.
  - destruct (dec_str_spec x A) as (V & _), (dec_str_spec y B) as (W & _). rewrite E in V. lia.
Qed.
(** a note of text and a number *)
Definition text_note (f t : ustr) (z : Z) (s c : ustr) : note :=
  {| n_from := VStr f; n_to := VStr t; n_amount := VInt z; n_subtask := VStr s; n_contract := VStr c |}.
Lemma note_repr_inj f t z s c f' t' z' s' c' :
  ~ In 44 f -> ~ In 44 t -> ~ In 44 s -> ~ In 44 f' -> ~ In 44 t' -> ~ In 44 s' ->
  note_repr (text_note f t z s c) = note_repr (text_note f' t' z' s' c') -> text_note f t z s c = text_note f' t' z' s' c'.
Proof.
  intros A B D A' B' D' E. unfold note_repr in E. cbn [text_note n_from n_to n_amount n_subtask n_contract fmt] in E.
  assert (J : forall x y : ustr, Some x = Some y -> x = y) by (intros x y [= ->]; reflexivity).
  apply J in E. clear J. apply app_inv_head in E. apply app_inv_head in E.
  change (u ", to: ") with (44 :: u " to: ") in E. change (u ", subtask_id: ") with (44 :: u " subtask_id: ") in E.
  change (u ", ") with (44 :: u " ") in E. cbn [app] in E.
  apply (cut_comma _ _ _ _ A A') in E as [-> E]. apply app_inv_head in E.
  apply (cut_comma _ _ _ _ B B') in E as [-> E]. apply app_inv_head in E. apply app_inv_head in E.
  apply (cut_comma _ _ _ _ (int_no_comma z) (int_no_comma z')) in E as [Z0 E]. apply int_str_inj in Z0. subst z'. apply app_inv_head in E.
  apply (cut_comma _ _ _ _ D D') in E as [-> E]. apply app_inv_head in E. apply app_inv_head in E.
  apply app_inv_tail in E. subst c'. reflexivity.
Qed.

(** *** a comma is nowhere in what can be signed *)
Lemma prefix_firstn p s : is_prefix p s = true -> firstn (List.length p) s = p.
Proof.
  revert s. induction p as [|a p IH]; intros s H; [reflexivity|]. destruct s as [|b s]; [discriminate H|].
  cbn [is_prefix] in H. apply andb_true_iff in H as [E H]. apply Z.eqb_eq in E. subst b. cbn [List.length firstn]. rewrite (IH _ H). reflexivity.
Qed.
Lemma drop_all_keeps a p s : forall k, ~ In 44 (a :: p) -> ~ In 44 (firstn k s) -> In 44 s -> In 44 (drop_all (a :: p) k s).
Proof.
  induction s as [|x r IH]; intros k P K I; [destruct I|]. cbn [drop_all]. destruct k as [|k].
  - destruct (is_prefix (a :: p) (x :: r)) eqn:E.
    + apply prefix_firstn in E. cbn [List.length firstn] in E. injection E as -> E.
      cbn [List.length]. replace (S (List.length p) - 1)%nat with (List.length p) by lia.
      destruct I as [->|I]; [exfalso; apply P; left; reflexivity|].
      apply IH; [exact P| |exact I]. rewrite E. intros J. apply P. right. exact J.
    + destruct I as [->|I]; [left; reflexivity|]. right. apply IH; [exact P|intros []|exact I].
  - cbn [firstn] in K. destruct I as [->|I]; [exfalso; apply K; left; reflexivity|].
    apply IH; [exact P| |exact I]. intros J. apply K. right. exact J.
Qed.
Lemma lstrip_keeps f s : f 44 = false -> In 44 s -> In 44 (lstrip f s).
Proof.
  intros F. induction s as [|x r IH]; intros I; [destruct I|]. cbn [lstrip]. destruct (f x) eqn:E; [|exact I].
  destruct I as [->|I]; [congruence|auto].
Qed.
Lemma uuid_digits_keeps s : In 44 s -> In 44 (uuid_digits s).
Proof.
  intros I. unfold uuid_digits, remove_all.
  assert (R : forall p k, existsb (Z.eqb 44) p = false -> p <> [] -> In 44 k -> In 44 (drop_all p 0 k)).
  { intros [|a p] k N E J; [congruence|]. apply drop_all_keeps; [|intros []|exact J].
    intros Q. assert (existsb (Z.eqb 44) (a :: p) = true) by (apply existsb_exists; exists 44; auto). congruence. }
  apply R; [reflexivity|discriminate|]. unfold strip. apply in_rev. rewrite rev_involutive.
  apply lstrip_keeps; [reflexivity|]. apply -> in_rev. apply lstrip_keeps; [reflexivity|].
  apply R; [reflexivity|discriminate|]. apply R; [reflexivity|discriminate|exact I].
Qed.
Lemma split_on_keeps c d s : c <> d -> In c s -> exists g, In g (split_on d s) /\ In c g.
Proof.
  intros N. induction s as [|x r IH]; intros I; [destruct I|]. cbn [split_on].
  destruct (Z.eqb_spec x d) as [->|X].
  - destruct I as [E|I]; [congruence|]. destruct (IH I) as (g & G & J). exists g. split; [right; exact G|exact J].
  - destruct I as [->|I].
    + destruct (split_on d r) as [|h t]; eexists; (split; [left; reflexivity|left; reflexivity]).
    + destruct (IH I) as (g & G & J). destruct (split_on d r) as [|h t]; [destruct G|].
      destruct G as [->|G]; [exists (x :: g); split; [left; reflexivity|right; exact J]|exists g; split; [right; exact G|exact J]].
Qed.
Lemma uuid_no_comma s z : py_uuid (VStr s) = Ok z -> ~ In 44 s.
Proof.
  intros H I. apply uuid_text_exact in H as (_ & w & sg & p & t & w' & F & W & W' & S & P & T & _).
  apply uuid_digits_keeps in I.
  assert (K : forall l r, Forall2 typed l r -> In 44 l -> In 44 r).
  { clear. induction 1 as [|x y l r T F IH]; intros I; [destruct I|]. destruct I as [->|I]; [|right; auto].
    apply typed_iff in T as [-> _]. left. reflexivity. }
  apply (K _ _ F) in I. rewrite !in_app_iff in I. rewrite forallb_forall in W, W'.
  destruct I as [I|[I|[I|[I|I]]]].
  - apply W in I. discriminate I.
  - destruct S as [->| ->]; [destruct I|]. destruct I as [I|[]]. discriminate I.
  - destruct P as [->|[->|[->|[->| ->]]]]; cbn [u] in I; repeat (destruct I as [I|I]; [discriminate I|]); destruct I.
  - destruct (split_on_keeps 44 95 t ltac:(discriminate) I) as (g & G & J). unfold hex_groups in T. rewrite Forall_forall in T. destruct (T g G) as [_ A].
    rewrite Forall_forall in A. destruct (A 44 J) as (d & D). discriminate D.
  - apply W' in I. discriminate I.
Qed.
Lemma decoded_no_comma s b : decode_hex (VStr s) = Ok b -> ~ In 44 s.
Proof.
  intros H I. apply (proj1 (decode_hex_exact b)) in H. apply (in_map lower_hex) in I. rewrite H in I.
  pose proof (hexlify_lhex b) as L. rewrite forallb_forall in L. apply L in I. discriminate I.
Qed.
Lemma hexstr_no_comma s b : hexstr_to_bytes (u "0x" ++ s) = Ok b -> ~ In 44 s.
Proof.
  unfold hexstr_to_bytes. cbv zeta. change (remove_0x (u "0x" ++ s)) with s.
  destruct (Nat.odd _); intros H.
  - change (remove_0x (u "0x0" ++ s)) with (48 :: s) in H. apply decoded_no_comma in H. intros I. apply H. right. exact I.
  - apply decoded_no_comma in H. exact H.
Qed.
Lemma signable_no_comma f t z s c m : signed_bytes (text_note f t z s c) = Ok m -> firstn 2 f = u "0x" -> firstn 2 t = u "0x" ->
  ~ In 44 f /\ ~ In 44 t /\ ~ In 44 s.
Proof.
  unfold signed_bytes, hexmsg, subtask_id_bytes. cbn [text_note n_from n_to n_amount n_subtask n_contract strip2 str_of bind].
  intros H F T. destruct (to_bytes32 (VInt z)) as [a|]; [|discriminate H]. cbn [bind] in H.
  destruct (py_uuid (VStr s)) as [i|] eqn:U; [|discriminate H]. cbn [bind] in H.
  destruct (hexstr_to_bytes _) as [b|] eqn:X in H; [|discriminate H].
  apply hexstr_no_comma in X. rewrite !in_app_iff in X. apply uuid_no_comma in U.
  assert (J : forall l : ustr, firstn 2 l = u "0x" -> ~ In 44 (skipn 2 l) -> ~ In 44 l).
  { intros l L N I. rewrite <- (firstn_skipn 2 l), in_app_iff, L in I. destruct I as [[I|[I|[]]]|I]; [discriminate I|discriminate I|contradiction]. }
  split; [apply J; [exact F|tauto]|]. split; [apply J; [exact T|tauto]|exact U].
Qed.
Lemma shown_bool f t s c (b : bool) m : signed_bytes (text_note f t (if b then 1 else 0) s c) = Ok m ->
  let n := {| n_from := VStr f; n_to := VStr t; n_amount := VBool b; n_subtask := VStr s; n_contract := VStr c |} in
  signed_bytes n = Ok m /\
  note_repr n = Some (u "<PromissoryNote:  from: " ++ f ++ u ", to: " ++ t ++ u ", amount: " ++ u (if b then "True" else "False") ++
    u ", subtask_id: " ++ s ++ u ", contract: " ++ c ++ u ">") /\
  note_repr (text_note f t (if b then 1 else 0) s c) = Some (u "<PromissoryNote:  from: " ++ f ++ u ", to: " ++ t ++ u ", amount: " ++ u (if b then "1" else "0") ++
    u ", subtask_id: " ++ s ++ u ", contract: " ++ c ++ u ">").
Proof.
  intros H. cbv zeta. split; [rewrite <- H; destruct b; reflexivity|]. split; [destruct b; reflexivity|]. destruct b; reflexivity.
Qed.
