(** * Property theorems: the mask for a task (C38) *)
From Verif Require Import MaskTask.

(** ** C38 *)
(** potential workers but none desired: math.log2 of zero or less raises ValueError *)
Theorem C38_none_desired :
  forall sample F desired potential, - 2 ^ 40 <= desired <= 0 -> 1 <= potential <= 2 ^ 40 ->
  get_mask_for_task sample F desired potential = Err EValueError.
Proof. exact mask_none_desired. Qed.
Print Assumptions C38_none_desired.
(** more desired or fewer potential workers never means more bits *)
Theorem C38_monotone :
  forall sample F d1 p1 d2 p2 m1 m2, sample_ok sample -> floor_log2_ok F ->
  1 <= d1 <= d2 -> d2 <= 2 ^ 40 -> 1 <= p2 <= p1 -> p1 <= 2 ^ 40 ->
  get_mask_for_task sample F d1 p1 = Ok m1 -> get_mask_for_task sample F d2 p2 = Ok m2 -> num_bits m2 <= num_bits m1.
Proof. exact mask_task_monotone. Qed.
Print Assumptions C38_monotone.
Example C38_monotone_ex :
  let bits d p := do m <- get_mask_for_task first_sample (fun m e => Z.log2 m + e) d p; Ok (num_bits m) in
  map (fun q => bits (fst q) (snd q)) [(3, 100); (4, 100); (4, 64); (64, 64); (0, 64); (-3, 64); (0, 0)] =
  [Ok 6; Ok 5; Ok 4; Ok 0; Err EValueError; Err EValueError; Ok 0] /\
  sample_ok first_sample /\ floor_log2_ok (fun m e => Z.log2 m + e).
Proof. split; [vm_compute; reflexivity|]. split; [exact first_sample_ok|exact exact_floor_log2_ok]. Qed.
