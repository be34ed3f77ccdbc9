(** * Property theorems: what share of all digests a mask matches (C37, C38) *)
From Verif Require Import MaskShare.

(** ** C37 *)
(** of the 2^256 digests exactly 2^(256-k) are matched by a mask with k bits: each bit
    halves the number *)
Theorem C37_share :
  forall m, exists l, NoDup l /\ (forall d, In d l -> 0 <= d < 2 ^ 256) /\
  (forall sha256 addr, List.length (sha256 addr) = 32%nat -> (matches sha256 m addr = true <-> In (be_dec (sha256 addr)) l)) /\
  Z.of_nat (List.length l) = 2 ^ (256 - num_bits m).
Proof. exact mask_share. Qed.
Print Assumptions C37_share.
(** masks match the same digests exactly if they are the same bytes *)
Theorem C37_determined :
  forall m1 m2, List.length m1 = 32%nat -> List.length m2 = 32%nat ->
  ((forall sha256 addr, List.length (sha256 addr) = 32%nat -> matches sha256 m1 addr = matches sha256 m2 addr) <->
   mask_to_bytes m1 = mask_to_bytes m2).
Proof. exact mask_determined. Qed.
Print Assumptions C37_determined.
Definition ms_mask : bytes := Eval vm_compute in match from_bits [0; 2; 255] with Ok m => m | Err _ => [] end.
Definition ms_other : bytes := Eval vm_compute in match from_bits [0; 255] with Ok m => m | Err _ => [] end.
Example C37_share_ex :
  num_bits ms_mask = 3 /\ List.length ms_mask = 32%nat /\ List.length ms_other = 32%nat /\
  matches (fun _ => be_enc 32 4) ms_mask [] = false /\ matches (fun _ => be_enc 32 4) ms_other [] = true.
Proof. vm_compute. repeat split. Qed.

(** ** C38 *)
(** what the number of bits is for: with digests spread evenly, at most [desired] of
    [potential] workers match, and more than half of [desired]; all of them if no more are
    there than desired *)
Theorem C38_share :
  forall sample F desired potential, sample_ok sample -> floor_log2_ok F ->
  1 <= desired <= 2 ^ 40 -> 1 <= potential <= 2 ^ 40 ->
  exists m l, get_mask_for_task sample F desired potential = Ok m /\ NoDup l /\ (forall d, In d l -> 0 <= d < 2 ^ 256) /\
  (forall sha256 addr, List.length (sha256 addr) = 32%nat -> (matches sha256 m addr = true <-> In (be_dec (sha256 addr)) l)) /\
  potential * Z.of_nat (List.length l) <= desired * 2 ^ 256 /\
  (desired < potential -> desired * 2 ^ 256 < 2 * (potential * Z.of_nat (List.length l))) /\
  (potential <= desired -> Z.of_nat (List.length l) = 2 ^ 256).
Proof. exact task_share. Qed.
Print Assumptions C38_share.
Example C38_share_ex :
  sample_ok first_sample /\ floor_log2_ok (fun m e => Z.log2 m + e) /\
  (do m <- get_mask_for_task first_sample (fun m e => Z.log2 m + e) 3 100; Ok (num_bits m)) = Ok 6.
Proof. split; [exact first_sample_ok|]. split; [exact exact_floor_log2_ok|vm_compute; reflexivity]. Qed.
