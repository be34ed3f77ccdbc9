(** * One signature under two notes *)
From Verif Require Export Promissory.

Lemma valid_iff C n sig : sig_valid C n sig = Ok true <->
  truthy sig = true /\ exists v r s b a, py_iter sig = Some [VInt v; VBytes r; VBytes s] /\ signed_bytes n = Ok b /\
    eth_recover C (keccak C b) (v, r, s) = Some a /\ str_of (n_from n) = Some a.
Proof.
  unfold sig_valid. split.
  - destruct (truthy sig); cbn [negb]; [|discriminate]. intros H. split; [reflexivity|].
    destruct (py_iter sig) as [[|v [|r [|s [|x l]]]]|]; try discriminate H.
    apply bind_ok in H as (h & Hh & H). unfold note_hash in Hh. apply bind_ok in Hh as (b & Hb & Hh). apply Ok_inj in Hh. subst h.
    destruct v; try discriminate H. destruct r; try discriminate H. destruct s; try discriminate H.
    destruct (eth_recover _ _ _) as [a|] eqn:R; [|discriminate H]. apply Ok_inj in H. apply py_eq_vstr in H. do 5 eexists. eauto.
  - intros (T & v & r & s & b & a & I & B & R & F). rewrite T, I. cbn [negb]. unfold note_hash. rewrite B. cbn [bind]. rewrite R.
    f_equal. apply py_eq_vstr. exact F.
Qed.

(** the two notes say the same *)
Definition same_terms (n1 n2 : note) : Prop :=
  (exists b, is_address (n_contract n1) b /\ is_address (n_contract n2) b) /\ (exists b, is_address (n_to n1) b /\ is_address (n_to n2) b) /\
  (exists z, amount_of (n_amount n1) z /\ amount_of (n_amount n2) z) /\ (exists i, py_uuid (n_subtask n1) = Ok i /\ py_uuid (n_subtask n2) = Ok i).

Lemma valid_exactly C n sig v r s : py_iter sig = Some [VInt v; VBytes r; VBytes s] ->
  (sig_valid C n sig = Ok true <-> exists b a, signed_bytes n = Ok b /\ eth_recover C (keccak C b) (v, r, s) = Some a /\ str_of (n_from n) = Some a).
Proof.
  intros I. rewrite valid_iff. split.
  - intros (_ & v' & r' & s' & b & a & I' & H). assert (v' = v /\ r' = r /\ s' = s) as (-> & -> & ->) by (repeat split; congruence). eauto.
  - intros (b & a & H). split; [|exists v, r, s, b, a; auto]. destruct sig; try discriminate I; try reflexivity; match goal with |- truthy ?x = true => match x with context [?l] => is_var l; destruct l; try discriminate I; reflexivity end end.
Qed.
Lemma one_note C n1 n2 c1 f1 t1 c2 f2 t2 sig v r s : py_iter sig = Some [VInt v; VBytes r; VBytes s] ->
  is_address (n_contract n1) c1 -> is_address (n_from n1) f1 -> is_address (n_to n1) t1 ->
  is_address (n_contract n2) c2 -> is_address (n_from n2) f2 -> is_address (n_to n2) t2 ->
  str_of (n_from n1) = str_of (n_from n2) -> sig_valid C n1 sig = Ok true -> sig_valid C n2 sig = Ok true ->
  same_terms n1 n2 \/
  exists b1 b2, signed_bytes n1 = Ok b1 /\ signed_bytes n2 = Ok b2 /\ b1 <> b2 /\
   (keccak C b1 = keccak C b2 \/
    exists a, keccak C b1 <> keccak C b2 /\
      eth_recover C (keccak C b1) (v, r, s) = Some a /\ eth_recover C (keccak C b2) (v, r, s) = Some a).
Proof.
  intros I A1 A2 A3 B1 B2 B3 F V1 V2.
  apply (valid_exactly _ _ _ _ _ _ I) in V1 as (b1 & a & S1 & R1 & F1). apply (valid_exactly _ _ _ _ _ _ I) in V2 as (b2 & a' & S2 & R2 & F2).
  assert (a' = a) by congruence. subst a'.
  destruct (list_eq_dec Byte.byte_eq_dec b1 b2) as [Q|Q].
  - subst b2. left. destruct (note_binds _ _ _ _ _ _ _ _ _ A1 A2 A3 B1 B2 B3 S1 S2) as (<- & <- & <- & Z & U). split; [eauto|]. split; [eauto|]. auto.
  - right. exists b1, b2. split; [exact S1|]. split; [exact S2|]. split; [exact Q|].
    destruct (list_eq_dec Byte.byte_eq_dec (keccak C b1) (keccak C b2)) as [K|K]; [left; exact K|]. right. exists a. auto.
Qed.
