(** * Ciphertexts with one tag *)
From Verif Require Export EciesProofs.

(** the key of the tag, from the shared point (cryptography.py 249-252) *)
Definition tag_key (C : crypto) (km : bytes) : bytes := sha256 C (skipn 16 (sha256 C (be_enc 4 1 ++ km))).
(** what stands between the sender's key and the tag: the IV and what is encrypted *)
Definition middle (data : bytes) : bytes := firstn (List.length data - 97) (skipn 65 data).
Definition tag_of (data : bytes) : bytes := skipn (List.length data - 32) data.

Lemma three_parts data : (97 <= List.length data)%nat -> data = firstn 65 data ++ middle data ++ tag_of data.
Proof.
  intros L. unfold middle, tag_of. rewrite <- (firstn_skipn 65 data) at 1. f_equal. rewrite <- (firstn_skipn (List.length data - 97) (skipn 65 data)) at 1. f_equal.
  rewrite skipn_skipn'. f_equal. lia.
Qed.
Lemma parts_of p b t : List.length p = 65%nat -> List.length t = 32%nat ->
  firstn 65 (p ++ b ++ t) = p /\ middle (p ++ b ++ t) = b /\ tag_of (p ++ b ++ t) = t.
Proof.
  intros Lp Lt. unfold middle, tag_of. assert (L : List.length (p ++ b ++ t) = (65 + (List.length b + 32))%nat) by (rewrite !app_length; lia).
  rewrite L. replace (65 + (List.length b + 32) - 97)%nat with (List.length b) by lia. replace (65 + (List.length b + 32) - 32)%nat with (65 + List.length b)%nat by lia.
  split; [rewrite <- Lp; apply firstn_app_exact; reflexivity|].
  assert (S : skipn 65 (p ++ b ++ t) = b ++ t) by (rewrite <- Lp; apply skipn_app_exact; reflexivity).
  split; [rewrite S; apply firstn_app_exact; reflexivity|]. rewrite <- skipn_skipn', S. apply skipn_app_exact. reflexivity.
Qed.

Section T.
Variable C : crypto.
Hypothesis HC : crypto_ok C.
Variable timeout : nat -> Z.

Lemma one_tag created created' ops ops' m m' data data' k sh d d' :
  Forall (eop_ok C) ops -> Forall (eop_ok C) ops' ->
  fst (decrypt C (erun C timeout ops (init_state created)) m data k sh) = Ok d ->
  fst (decrypt C (erun C timeout ops' (init_state created')) m' data' k sh) = Ok d' ->
  tag_of data' = tag_of data ->
  data' = data \/
  exists s km km', secret_of C k = Some s /\ ecdh_raw C s (firstn 65 data) = Some km /\ ecdh_raw C s (firstn 65 data') = Some km' /\
   ((firstn 65 data' <> firstn 65 data /\ km' = km /\ middle data' = middle data /\ d' = d) \/
    (km' <> km /\ tag_key C km' = tag_key C km) \/
    ((tag_key C km' <> tag_key C km \/ middle data' <> middle data) /\
     hmac_sha256 C (tag_key C km) (middle data ++ sh) = hmac_sha256 C (tag_key C km') (middle data' ++ sh))).
Proof.
  intros F F' H H' T. apply (decrypt_exact C HC timeout) in H as (L & _ & s & km & S & K & _ & A & ->); [|exact F].
  apply (decrypt_exact C HC timeout) in H' as (L' & _ & s' & km' & S' & K' & _ & A' & ->); [|exact F']. assert (s' = s) by congruence. subst s'.
  change (tag_of data = hmac_sha256 C (tag_key C km) (middle data ++ sh)) in A. change (tag_of data' = hmac_sha256 C (tag_key C km') (middle data' ++ sh)) in A'.
  fold (middle data) (middle data').
  assert (HH : hmac_sha256 C (tag_key C km) (middle data ++ sh) = hmac_sha256 C (tag_key C km') (middle data' ++ sh)) by (rewrite <- A, <- A', T; reflexivity).
  destruct (list_eq_dec Byte.byte_eq_dec km' km) as [Qk|Qk].
  - subst km'. destruct (list_eq_dec Byte.byte_eq_dec (middle data') (middle data)) as [Qm|Qm].
    + destruct (list_eq_dec Byte.byte_eq_dec (firstn 65 data') (firstn 65 data)) as [Qp|Qp].
      * left. rewrite (three_parts data), (three_parts data') by lia. rewrite Qp, Qm, T. reflexivity.
      * right. exists s, km, km. split; [exact S|]. split; [exact K|]. split; [exact K'|]. left. split; [exact Qp|]. split; [reflexivity|]. split; [exact Qm|]. rewrite Qm. reflexivity.
    + right. exists s, km, km. split; [exact S|]. split; [exact K|]. split; [exact K'|]. right. right. split; [auto|exact HH].
  - right. exists s, km, km'. split; [exact S|]. split; [exact K|]. split; [exact K'|]. right.
    destruct (list_eq_dec Byte.byte_eq_dec (tag_key C km') (tag_key C km)) as [Qt|Qt]; [left; auto|]. right. split; [auto|exact HH].
Qed.

Lemma shared_moved created created' ops ops' m m' data k s1 s2 d :
  Forall (eop_ok C) ops -> Forall (eop_ok C) ops' ->
  fst (decrypt C (erun C timeout ops (init_state created)) m data k (s1 ++ s2)) = Ok d ->
  exists d', List.length d' = (List.length d + List.length s1)%nat /\
    fst (decrypt C (erun C timeout ops' (init_state created')) m' (firstn 65 data ++ (middle data ++ s1) ++ tag_of data) k s2) = Ok d'.
Proof.
  intros F F' H. apply (decrypt_exact C HC timeout) in H as (L & P & s & km & S & K & Lk & A & ->); [|exact F]. fold (middle data) (tag_of data) in *. fold (tag_key C km) in A.
  assert (Lp : List.length (firstn 65 data) = 65%nat) by (rewrite firstn_length; lia).
  assert (Lt : List.length (tag_of data) = 32%nat) by (unfold tag_of; rewrite skipn_length; lia).
  assert (Lm : (16 <= List.length (middle data))%nat) by (unfold middle; rewrite firstn_length, skipn_length; lia).
  destruct (parts_of (firstn 65 data) (middle data ++ s1) (tag_of data) Lp Lt) as (Q1 & Q2 & Q3). set (data' := firstn 65 data ++ (middle data ++ s1) ++ tag_of data) in *.
  eexists. split; [|apply (decrypt_exact C HC timeout); [exact F'|]; split; [|split; [|exists s, km; split; [exact S|]; split; [rewrite Q1; exact K|]; split; [exact Lk|]; cbv zeta;
     fold (middle data') (tag_of data') (tag_key C km); split; [rewrite Q2, Q3, <- app_assoc; exact A|reflexivity]]]].
  - rewrite Q2, !(aes_len _ HC), !skipn_length, app_length. lia.
  - unfold data'. rewrite !app_length. lia.
  - assert (Z : firstn 1 (firstn 65 data') = firstn 1 data') by (rewrite firstn_firstn; reflexivity). rewrite <- Z, Q1, firstn_firstn. exact P.
Qed.
End T.
