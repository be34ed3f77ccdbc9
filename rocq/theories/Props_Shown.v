(** * C90: promissory notes shown as text *)
From Verif Require Import Shown.

(** notes that can be signed, with addresses that begin with 0x, are told apart by
    what is shown of them, whatever the contract's address *)
Theorem C90_signable :
  forall f t z s c m f' t' z' s' c' m',
  signed_bytes (text_note f t z s c) = Ok m -> firstn 2 f = u "0x" -> firstn 2 t = u "0x" ->
  signed_bytes (text_note f' t' z' s' c') = Ok m' -> firstn 2 f' = u "0x" -> firstn 2 t' = u "0x" ->
  note_repr (text_note f t z s c) = note_repr (text_note f' t' z' s' c') ->
  f = f' /\ t = t' /\ z = z' /\ s = s' /\ c = c'.
Proof.
  intros f t z s c m f' t' z' s' c' m' H F T H' F' T' E.
  destruct (signable_no_comma _ _ _ _ _ _ H F T) as (A & B & D). destruct (signable_no_comma _ _ _ _ _ _ H' F' T') as (A' & B' & D').
  pose proof (note_repr_inj _ _ _ _ _ _ _ _ _ _ A B D A' B' D' E) as Q. injection Q as -> -> -> -> ->. auto.
Qed.
Print Assumptions C90_signable.
(** and so are all notes whose addresses and id have no comma *)
Theorem C90_no_comma :
  forall f t z s c f' t' z' s' c',
  ~ In 44 f -> ~ In 44 t -> ~ In 44 s -> ~ In 44 f' -> ~ In 44 t' -> ~ In 44 s' ->
  note_repr (text_note f t z s c) = note_repr (text_note f' t' z' s' c') ->
  f = f' /\ t = t' /\ z = z' /\ s = s' /\ c = c'.
Proof.
  intros f t z s c f' t' z' s' c' A B D A' B' D' E.
  pose proof (note_repr_inj _ _ _ _ _ _ _ _ _ _ A B D A' B' D' E) as Q. injection Q as -> -> -> -> ->. auto.
Qed.
Print Assumptions C90_no_comma.
(** other notes are not: text is shown without quotes *)
Theorem C90_text_refuted :
  exists f t f' t' z s c, f <> f' /\ t <> t' /\ note_repr (text_note f t z s c) = note_repr (text_note f' t' z s c).
Proof.
  exists (u "0x1, to: 0x2"), (u "0x3"), (u "0x1"), (u "0x2, to: 0x3"), 5, (u "id"), (u "0x4").
  split; [discriminate|]. split; [discriminate|]. vm_compute. reflexivity.
Qed.
Print Assumptions C90_text_refuted.
(** nor does it show whether a field is missing *)
Theorem C90_missing_refuted :
  exists n n' r, n_contract n = VNone /\ n_contract n' = VStr (u "None") /\ note_repr n = Some r /\ note_repr n' = Some r.
Proof.
  exists {| n_from := VStr (u "0x1"); n_to := VStr (u "0x2"); n_amount := VInt 5; n_subtask := VStr (u "id"); n_contract := VNone |},
         (text_note (u "0x1") (u "0x2") 5 (u "id") (u "None")).
  eexists. split; [reflexivity|]. split; [reflexivity|]. split; vm_compute; reflexivity.
Qed.
Print Assumptions C90_missing_refuted.

(** and notes that are signed alike may be shown differently: True is signed as 1 (and
    False as 0), but shown as a word *)
Theorem C90_bool_amount :
  forall f t s c (b : bool) m, signed_bytes (text_note f t (if b then 1 else 0) s c) = Ok m ->
  let n := {| n_from := VStr f; n_to := VStr t; n_amount := VBool b; n_subtask := VStr s; n_contract := VStr c |} in
  signed_bytes n = Ok m /\
  note_repr n = Some (u "<PromissoryNote:  from: " ++ f ++ u ", to: " ++ t ++ u ", amount: " ++ u (if b then "True" else "False") ++
    u ", subtask_id: " ++ s ++ u ", contract: " ++ c ++ u ">") /\
  note_repr (text_note f t (if b then 1 else 0) s c) = Some (u "<PromissoryNote:  from: " ++ f ++ u ", to: " ++ t ++ u ", amount: " ++ u (if b then "1" else "0") ++
    u ", subtask_id: " ++ s ++ u ", contract: " ++ c ++ u ">").
Proof. exact shown_bool. Qed.
Print Assumptions C90_bool_amount.

Definition ex_shown (z : Z) : note :=
  text_note (u "0x1111111111111111111111111111111111111111") (u "0x2222222222222222222222222222222222222222") z
            (u "12345678-1234-5678-1234-567812345678") (u "0x3333333333333333333333333333333333333333").
Example C90_ex : (exists m, signed_bytes (ex_shown 70) = Ok m) /\
  note_repr (ex_shown 70) = Some (u "<PromissoryNote:  from: 0x1111111111111111111111111111111111111111, to: 0x2222222222222222222222222222222222222222, amount: 70, subtask_id: 12345678-1234-5678-1234-567812345678, contract: 0x3333333333333333333333333333333333333333>") /\
  note_repr (ex_shown 70) <> note_repr (ex_shown 7) /\ (exists m, signed_bytes (ex_shown 1) = Ok m).
Proof. split; [eexists; vm_compute; reflexivity|]. split; [vm_compute; reflexivity|]. split; [vm_compute; discriminate|eexists; vm_compute; reflexivity]. Qed.
