(** * Bytes, big-endian integers, Python byte-string slices.

    Model substrate; no repository code is modelled here except the
    behaviour of Python's [bytes], [int.to_bytes]/[int.from_bytes] and of
    [struct]'s big-endian fixed-width integers used throughout /repo. *)
From Coq Require Export List ZArith Lia Bool String Ascii.
From Coq Require Export Strings.Byte.
From Coq Require Export ZifyBool ZifyNat ZifyN.
Export ListNotations.
Open Scope Z_scope.
Open Scope list_scope.

Ltac Zify.zify_post_hook ::= Z.div_mod_to_equations.

Definition bytes := list byte.

Definition b2z (b : byte) : Z := Z.of_N (Byte.to_N b).
Definition z2b (z : Z) : byte :=
  match Byte.of_N (Z.to_N (z mod 256)) with Some b => b | None => x00 end.

Lemma b2z_range b : 0 <= b2z b < 256.
Proof. unfold b2z. pose proof (Byte.to_N_bounded b). lia. Qed.

Lemma z2b_b2z b : z2b (b2z b) = b.
Proof.
  unfold z2b. pose proof (b2z_range b). rewrite Z.mod_small by lia.
  unfold b2z. rewrite N2Z.id, Byte.of_to_N. reflexivity.
Qed.

Lemma b2z_z2b z : b2z (z2b z) = z mod 256.
Proof.
  unfold z2b.
  destruct (Byte.of_N (Z.to_N (z mod 256))) eqn:E.
  - apply Byte.to_of_N in E. unfold b2z. rewrite E.
    assert (0 <= z mod 256 < 256) by (apply Z.mod_pos_bound; lia). lia.
  - exfalso. apply Byte.of_N_None_iff in E.
    assert (0 <= z mod 256 < 256) by (apply Z.mod_pos_bound; lia). lia.
Qed.

Lemma b2z_inj a b : b2z a = b2z b -> a = b.
Proof. intros H. rewrite <- (z2b_b2z a), <- (z2b_b2z b), H. reflexivity. Qed.

Lemma b2z_z2b_small z : 0 <= z < 256 -> b2z (z2b z) = z.
Proof. intros. rewrite b2z_z2b. apply Z.mod_small; lia. Qed.

Definition byte_eqb (a b : byte) : bool := Byte.eqb a b.
Lemma byte_eqb_eq a b : byte_eqb a b = true <-> a = b.
Proof.
  unfold byte_eqb. split; intros H.
  - apply Byte.byte_dec_bl; assumption.
  - subst. apply Byte.byte_dec_lb; reflexivity.
Qed.

Fixpoint list_eqb {A} (eqb : A -> A -> bool) (l1 l2 : list A) : bool :=
  match l1, l2 with
  | [], [] => true
  | a :: l1', b :: l2' => eqb a b && list_eqb eqb l1' l2'
  | _, _ => false
  end.

Lemma list_eqb_eq {A} (eqb : A -> A -> bool) :
  (forall a b, eqb a b = true <-> a = b) ->
  forall l1 l2, list_eqb eqb l1 l2 = true <-> l1 = l2.
Proof.
  intros Heq. induction l1 as [|a l1 IH]; destruct l2 as [|b l2]; cbn [list_eqb];
    try (split; congruence).
  rewrite andb_true_iff, Heq, IH. split; [intros []; congruence|].
  intros H; inversion H; auto.
Qed.

Definition bytes_eqb : bytes -> bytes -> bool := list_eqb byte_eqb.
Lemma bytes_eqb_eq a b : bytes_eqb a b = true <-> a = b.
Proof. apply list_eqb_eq, byte_eqb_eq. Qed.
Lemma bytes_eqb_refl a : bytes_eqb a a = true.
Proof. apply bytes_eqb_eq; reflexivity. Qed.

Definition blen (b : bytes) : Z := Z.of_nat (List.length b).

(** [int.to_bytes(n, 'big')] / struct big-endian fields (value taken mod 256^n). *)
Fixpoint be_enc (n : nat) (z : Z) : bytes :=
  match n with
  | O => []
  | S n' => be_enc n' (z / 256) ++ [z2b z]
  end.

(** [int.from_bytes(b, 'big')] *)
Definition be_dec (b : bytes) : Z :=
  fold_left (fun acc x => acc * 256 + b2z x) b 0.

Lemma be_enc_length n z : List.length (be_enc n z) = n.
Proof.
  revert z; induction n as [|n IH]; intros z; cbn [be_enc]; [reflexivity|].
  rewrite app_length, IH. cbn. lia.
Qed.

Lemma be_dec_acc b acc :
  fold_left (fun acc x => acc * 256 + b2z x) b acc
  = acc * 256 ^ (blen b) + be_dec b.
Proof.
  unfold be_dec, blen. revert acc. induction b as [|x b IH]; intros acc.
  - cbn. lia.
  - cbn [fold_left List.length]. rewrite IH, (IH (0 * 256 + b2z x)).
    rewrite Nat2Z.inj_succ, Z.pow_succ_r by lia. lia.
Qed.

Lemma be_dec_app a b : be_dec (a ++ b) = be_dec a * 256 ^ blen b + be_dec b.
Proof. unfold be_dec at 1. rewrite fold_left_app, be_dec_acc. reflexivity. Qed.

Lemma be_dec_nil : be_dec [] = 0. Proof. reflexivity. Qed.

Lemma be_dec_cons x b : be_dec (x :: b) = b2z x * 256 ^ blen b + be_dec b.
Proof. change (x :: b) with ([x] ++ b). rewrite be_dec_app. reflexivity. Qed.

Lemma be_dec_range b : 0 <= be_dec b < 256 ^ blen b.
Proof.
  induction b as [|x b IH]; [cbn; lia|].
  rewrite be_dec_cons. unfold blen in *. cbn [List.length].
  rewrite Nat2Z.inj_succ, Z.pow_succ_r by lia.
  pose proof (b2z_range x). nia.
Qed.

Lemma be_dec_enc n z : be_dec (be_enc n z) = z mod 256 ^ Z.of_nat n.
Proof.
  revert z; induction n as [|n IH]; intros z; cbn [be_enc].
  - rewrite Z.pow_0_r, Z.mod_1_r. reflexivity.
  - rewrite be_dec_app, IH. unfold blen. cbn [List.length].
    change (256 ^ Z.of_nat 1) with 256.
    rewrite be_dec_cons, be_dec_nil, b2z_z2b. change (256 ^ blen []) with 1.
    rewrite Nat2Z.inj_succ, Z.pow_succ_r by lia.
    assert (0 < 256 ^ Z.of_nat n) by (apply Z.pow_pos_nonneg; lia).
    rewrite Z.rem_mul_r by lia. lia.
Qed.

Lemma be_dec_enc_small n z :
  0 <= z < 256 ^ Z.of_nat n -> be_dec (be_enc n z) = z.
Proof. intros. rewrite be_dec_enc. apply Z.mod_small; lia. Qed.

Lemma be_enc_dec n b : List.length b = n -> be_enc n (be_dec b) = b.
Proof.
  intros <-. induction b as [|x b IH] using rev_ind; [reflexivity|].
  rewrite app_length. cbn [List.length]. rewrite Nat.add_1_r. cbn [be_enc].
  rewrite be_dec_app, be_dec_cons, be_dec_nil. unfold blen. cbn [List.length].
  change (256 ^ Z.of_nat 1) with 256. change (256 ^ Z.of_nat 0) with 1.
  pose proof (b2z_range x) as Hx.
  f_equal.
  - replace ((be_dec b * 256 + (b2z x * 1 + 0)) / 256) with (be_dec b) by lia. exact IH.
  - f_equal. apply b2z_inj. rewrite b2z_z2b. lia.
Qed.

Lemma be_dec_inj a b : List.length a = List.length b -> be_dec a = be_dec b -> a = b.
Proof.
  intros Hl Hd. rewrite <- (be_enc_dec (List.length a) a) by reflexivity.
  rewrite Hl, Hd. apply be_enc_dec; reflexivity.
Qed.

(** Python slices [b[:n]], [b[n:]], [b[-n:]], [b[:-n]] (n > 0). *)
Definition slice_to (n : nat) (b : bytes) : bytes := firstn n b.
Definition slice_from (n : nat) (b : bytes) : bytes := skipn n b.
Definition slice_last (n : nat) (b : bytes) : bytes := skipn (List.length b - n) b.
Definition slice_butlast (n : nat) (b : bytes) : bytes := firstn (List.length b - n) b.

Lemma firstn_app_exact {A} (a b : list A) n : List.length a = n -> firstn n (a ++ b) = a.
Proof. intros <-. rewrite firstn_app, firstn_all, Nat.sub_diag, firstn_O, app_nil_r. reflexivity. Qed.
Lemma skipn_app_exact {A} (a b : list A) n : List.length a = n -> skipn n (a ++ b) = b.
Proof. intros <-. rewrite skipn_app, skipn_all, Nat.sub_diag. reflexivity. Qed.

Lemma slice_last_app a b : slice_last (List.length b) (a ++ b) = b.
Proof. unfold slice_last. apply skipn_app_exact. rewrite app_length. lia. Qed.
Lemma slice_butlast_app a b : slice_butlast (List.length b) (a ++ b) = a.
Proof. unfold slice_butlast. apply firstn_app_exact. rewrite app_length. lia. Qed.

Lemma app_inj_len {A} (a b c d : list A) :
  List.length a = List.length c -> a ++ b = c ++ d -> a = c /\ b = d.
Proof.
  revert c; induction a as [|x a IH]; destruct c as [|y c]; cbn; intros Hl H; try discriminate.
  - auto.
  - inversion H; subst. apply IH in H2 as [-> ->]; auto.
Qed.

Lemma app_inj_len_r {A} (a b c d : list A) :
  List.length b = List.length d -> a ++ b = c ++ d -> a = c /\ b = d.
Proof.
  intros Hl H. apply app_inj_len; [|exact H].
  apply (f_equal (@List.length A)) in H. rewrite !app_length in H. lia.
Qed.

Definition zeros (n : nat) : bytes := repeat x00 n.
Lemma zeros_length n : List.length (zeros n) = n.
Proof. apply repeat_length. Qed.
