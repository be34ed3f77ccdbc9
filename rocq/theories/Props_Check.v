(** * What the checks of a class raise *)
From Verif Require Import CheckFacts CborSpec SampleLoads Samples.

(** ** C84 *)
(** the checks a message goes through after it was read, for the classes that have any:
    what they raise is what the rules of [unchecked] say *)
Theorem C84_raised :
  forall E c ty t enc sig s a e, pure s = true -> read c s a -> 1262304000 < t < 32819212800 -> is_task_message c = true ->
  let m := VMsg c ty (VInt t) enc sig a in
  (do _ <- is_valid m; match c with MTaskToCompute => do _ <- verify_ethsig E m; validate_taskid m | _ => Ok tt end) = Err e <-> unchecked E m e.
Proof.
  intros E c ty t enc sig s a e P R T TM m. pose proof (vet_error E c ty t enc sig s a e P R T) as V. unfold vet in V. rewrite TM in V. exact V.
Qed.
Print Assumptions C84_raised.
(** the rules name one exception at most *)
Theorem C84_one_reason :
  forall E m e e', unchecked E m e -> unchecked E m e' -> e = e'.
Proof. exact unchecked_unique. Qed.
Print Assumptions C84_one_reason.
(** and none for a message that meets C77's requirements *)
Theorem C84_not_both :
  forall E c ty t enc sig s a e, pure s = true -> read c s a -> 0 <= t -> let m := VMsg c ty (VInt t) enc sig a in
  unchecked E m e -> ~ checked E m.
Proof. exact unchecked_not. Qed.
Print Assumptions C84_not_both.
(** exactly these messages make the checks raise an exception that is none of the library's own *)
Theorem C84_foreign :
  forall E c ty t enc sig s a, pure s = true -> read c s a -> 1262304000 < t < 32819212800 -> is_task_message c = true ->
  let m := VMsg c ty (VInt t) enc sig a in
  (exists e, (do _ <- is_valid m; match c with MTaskToCompute => do _ <- verify_ethsig E m; validate_taskid m | _ => Ok tt end) = Err e /\
             is_message_error e = false) <-> foreign E m.
Proof.
  intros E c ty t enc sig s a P R T TM m. pose proof (vet_foreign E c ty t enc sig s a P R T) as V. unfold vet in V. rewrite TM in V. exact V.
Qed.
Print Assumptions C84_foreign.
(** the attached WantToComputeTask cannot be hashed only if it is larger than any machine's memory *)
Theorem C84_hash :
  forall E ty ts enc sig b, pure ty = true -> pure ts = true -> loaded MWantToComputeTask b -> let w := VMsg MWantToComputeTask ty ts enc sig b in
  (forall h, short_hash E w <> Ok h) -> vsize (VList [ty; ts]) >= 2 ^ 64 \/ exists s, slots MWantToComputeTask b = Ok s /\ vsize s >= 2 ^ 64.
Proof. exact hash_fails. Qed.
Print Assumptions C84_hash.

(** the slots as sent, without those in [drop] and with [kw] instead *)
Definition resend (m : pyval) (drop : list string) (kw : list (string * pyval)) : pyval :=
  match m with
  | VMsg c _ _ _ _ a =>
      match slots c a with
      | Ok (VList l) =>
          VList (filter (fun p => match p with VList [VStr k; _] => negb (existsb (fun d => ustr_eqb (u d) k) (drop ++ map fst kw)) | _ => true end) l
                 ++ map (fun kv => slot (fst kv) (snd kv)) kw)
      | _ => VNone
      end
  | _ => VNone
  end.
(** a nested message with these slots *)
Definition nested_as (m s : pyval) : pyval :=
  match m with VMsg _ ty ts enc sig _ => VList [VBool false; VTuple [VTuple [ty; ts; enc]; sig; s]] | _ => VNone end.
(** what arrives as a message like [m] *)
Definition arrived (m : pyval) (drop : list string) (kw : list (string * pyval)) : option exn :=
  match m with
  | VMsg c _ _ _ _ _ => match load0 None (forge req_key c now0 (resend m drop kw)) with Ok _ => None | Err e => Some e end
  | _ => None
  end.
Definition rct_with (ttc : pyval) : pyval := nested_as ex_rct (resend ex_rct [] [("task_to_compute"%string, ttc)]).
Definition ttc_no_want : pyval := nested_as ex_ttc (resend ex_ttc ["want_to_compute_task"%string] []).
Definition ack_with (rct : pyval) : pyval := nested_as ex_ack (resend ex_ack [] [("report_computed_task"%string, rct)]).
Definition ctd (i j : string) : pyval := VDict DPlain [(skey "task_id", VStr (u i)); (skey "subtask_id", VStr (u j))].
Definition good_id : string := "6aa5b6e2-f8a2-11ea-8b0b-222222222222".
(** one frame for each rule *)
Example C84_ex :
  (arrived ex_sra [] [] = None /\ arrived ex_srr [] [] = None /\ arrived ex_verdict [] [] = None /\ arrived ex_ttc [] [] = None) /\
  map (fun p => arrived ex_sra [] [("payment_ts", p)]%string) [VNone; VBool true; VInt 1; VInt (- 2 ^ 1024); VInt (- (2 ^ 1024 - 2 ^ 970) + 1); VFloat 0] =
    [Some ETypeError; Some EValidationError; Some EValidationError; Some EOverflowError; Some EValidationError; Some EValidationError] /\
  arrived ex_srr ["reason"%string] [] = Some EValidationError /\
  map (fun dk => arrived ex_verdict (fst dk) (snd dk))
    [(["ack_report_computed_task"], []); (["force_report_computed_task"], []);
     ([], [("ack_report_computed_task", ack_with (rct_with ttc_no_want))]);
     ([], [("ack_report_computed_task", ack_with (rct_with (nested_as ex_ttc (resend ex_ttc [] [("price", VInt 6)]))))])]%string =
    [Some EAttributeError; Some EAttributeError; Some (EFieldError (u "want_to_compute_task")); Some EValidationError] /\
  map (fun dk => arrived ex_ttc (fst dk) (snd dk))
    [(["want_to_compute_task"; "requestor_ethereum_public_key"], []); (["requestor_ethereum_public_key"], [("ethsig", VNone)]);
     ([], [("requestor_ethereum_public_key", VStr (u "zz"))]); ([], [("requestor_ethereum_public_key", VStr [233])]);
     ([], [("requestor_ethereum_public_key", VStr (u "00")); ("ethsig", VNone)]); (["compute_task_def"], [("ethsig", VNone)]);
     (["compute_task_def"; "requestor_id"], []); ([], [("requestor_id", VStr (u "zz")); ("compute_task_def", ctd "a" "b")]);
     ([], [("compute_task_def", ctd "a" "b")]); ([], [("compute_task_def", ctd good_id "b")])]%string =
    [Some EAttributeError; Some ETypeError; Some EBinasciiError; Some EValueError; Some EInvalidKeys; Some EInvalidSignature; Some ETypeError;
     Some EBinasciiError; Some (EFieldError (u "task_id")); Some (EFieldError (u "subtask_id"))].
Proof. split; [|split; [|split; [|split]]]; vm_compute; auto. Qed.
(** and the hypotheses of the theorems, for the first of them *)
Example C84_ex_read :
  read MSubtaskResultsAccepted (VList []) [("payment_ts", VNone); ("report_computed_task", VNone)]%string /\
  foreign E0 (VMsg MSubtaskResultsAccepted (VInt 0) (VInt now0) (VBool false) VNone [("payment_ts", VNone); ("report_computed_task", VNone)]%string).
Proof.
  split.
  - apply read_is_load; [reflexivity|]. eexists. split; vm_compute; reflexivity.
  - apply Fo_payment. intros [[? Q]|[[? Q]|[? Q]]]; discriminate Q.
Qed.

(** ** C29: the exact bounds *)
(** an int payment time: accepted in the window of 900 s, a ValidationError outside it, and
    an OverflowError exactly for those that round to no float *)
Theorem C29_int_exact :
  forall ty t enc sig a z, 0 <= t < 2 ^ 52 -> attr_get_or_none "payment_ts" a = VInt z ->
  let r := is_valid (VMsg MSubtaskResultsAccepted ty (VInt t) enc sig a) in
  (r = Ok tt /\ t - 900 <= z <= t) \/ (r = Err EValidationError /\ ~ t - 900 <= z <= t /\ - (2 ^ 1024 - 2 ^ 970) < z) \/
  (r = Err EOverflowError /\ z <= - (2 ^ 1024 - 2 ^ 970)).
Proof.
  intros ty t enc sig a z T P r. unfold r. cbn [is_valid]. rewrite P.
  destruct (sra_int_exact z t T) as [H|[(H1 & H2 & H3)|[H1 H2]]]; [auto| |auto]. right. left. split; [exact H1|]. split; [exact H2|]. apply Z.nle_gt. exact H3.
Qed.
Print Assumptions C29_int_exact.
(** a float payment time: accepted exactly if it is not a number, or not later than the
    message and at most 900 s plus half the gap below the message's time earlier *)
Theorem C29_float_exact :
  forall ty t enc sig a b, 0 < t < 2 ^ 52 -> attr_get_or_none "payment_ts" a = VFloat b ->
  let r := is_valid (VMsg MSubtaskResultsAccepted ty (VInt t) enc sig a) in
  (r = Ok tt /\ recent t (fl_of_bits b)) \/ (r = Err EValidationError /\ ~ recent t (fl_of_bits b)).
Proof. intros ty t enc sig a b T P r. unfold r. cbn [is_valid]. rewrite P. exact (sra_float_exact t b T). Qed.
Print Assumptions C29_float_exact.
(** shortly after a power of two (2^31 s is in 2038) a payment 900 s and 2^-22 s old is still
    accepted, the float below it is not *)
Example C29_ex_exact :
  let t := 2 ^ 31 + 100 in let b := 4746794003893059584 in
  map (fun d => is_valid (VMsg MSubtaskResultsAccepted (VInt 0) (VInt t) (VBool false) VNone [("payment_ts"%string, VFloat (b + d))])) [0; -1; -2] =
  [Ok tt; Ok tt; Err EValidationError] /\ grain t = 22 /\
  fl_of_bits b = FFin ((t - 900) * 2 ^ 22) (- 22) /\ fl_of_bits (b - 1) = FFin ((t - 900) * 2 ^ 22 - 1) (- 22).
Proof. vm_compute. auto. Qed.
