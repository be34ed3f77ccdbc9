(** * Task messages: ownership, validity, ethereum signature and
    promissory notes (message/tasks.py 50-223, 300-504, 564-688,
    message/concents.py 102-114, 141-242, datastructures/promissory.py 110-148). *)
From Verif Require Export Message Promissory Fl Helpers.

(** ** Ownership *)

(** message/tasks.py 124-140: only InvalidSignature is caught *)
Fixpoint try_owners (check : owner -> result unit) (l : list owner) : result unit :=
  match l with
  | [] => Err EInvalidSignature
  | o :: r => match check o with
              | Err EInvalidSignature => try_owners check r
              | x => x
              end
  end.
(** message/tasks.py 443-445; [.verify] is a method of TaskHeader only *)
Definition verify_header (E : env) (m : pyval) : result unit :=
  do w <- getattr "want_to_compute_task" m;
  do h <- getattr "task_header" w;
  match h with
  | VObj CTaskHeader ha =>
      do k <- getattr "requestor_public_key" m;
      do k <- decode_hex k;
      header_verify (cr E) ha (VBytes k)
  | _ => Err EAttributeError
  end.
(** the two keys taken from the chain (message/tasks.py 116-119) *)
Definition chain_key (name : string) (m : pyval) : result bytes :=
  do t <- getattr "task_to_compute" m; do k <- getattr name t; decode_hex k.
(** message/tasks.py 108-140 and 442-446.  [concent] is [concent_public_key] *)
Definition validate_ownership (E : env) (m concent : pyval) : result unit :=
  match m with
  | VMsg c _ _ _ _ _ =>
      if is_task_message c then
        do _ <- (match c with MTaskToCompute => verify_header E m | _ => Ok tt end);
        do pk <- chain_key "provider_public_key" m;
        do rk <- chain_key "requestor_public_key" m;
        let key o := match o with OProvider => VBytes pk | ORequestor => VBytes rk | OConcent => concent end in
        try_owners (fun o => verify_signature E m (key o)) (expected_owners c)
      else Err EAttributeError
  | _ => Err EAttributeError
  end.

Fixpoint all_ok (l : list (result unit)) : result unit :=
  match l with [] => Ok tt | x :: r => do _ <- x; all_ok r end.
(** message/tasks.py 142-157: the message itself, then every slot holding a task
    message, in slot order; anything else in a slot is skipped *)
Fixpoint own_chain (E : env) (concent v : pyval) {struct v} : result unit :=
  match v with
  | VMsg c _ _ _ _ a =>
      if is_task_message c then
        do _ <- validate_ownership E v concent;
        let subs := map (fun kv => (fst kv, own_chain E concent (snd kv))) a in
        all_ok (map (fun k => assoc_or (Ok tt) k subs) (slot_names c))
      else Ok tt
  | _ => Ok tt
  end.
Definition is_task_msg (v : pyval) : bool := match v with VMsg c _ _ _ _ _ => is_task_message c | _ => false end.
Definition validate_ownership_chain (E : env) (m concent : pyval) : result unit :=
  if is_task_msg m then own_chain E concent m else Err EAttributeError.

(** message/tasks.py 179-195, one role *)
Definition assert_role (name : string) (m expected : pyval) : result unit :=
  if truthy expected then
    do k <- chain_key name m;
    if py_eq expected (VBytes k) then Ok tt else Err EOwnershipMismatch
  else Ok tt.
(** message/tasks.py 159-198 *)
Definition verify_owners (E : env) (m provider requestor concent : pyval) : result unit :=
  if is_task_msg m then
    do _ <- assert_role "provider_public_key" m provider;
    do _ <- assert_role "requestor_public_key" m requestor;
    validate_ownership_chain E m concent
  else Err EAttributeError.

(** ** Validity *)

(** [float(x)] in an addition: ints are rounded to 53 bits, too large ones are an
    OverflowError *)
Definition to_float (v : pyval) : result fl :=
  let go z :=
    do f <- py_truediv z 1;
    match f with
    | FFin m e => if Z.abs m * scale_up e <? 2 ^ 1024 * scale_up (- e) then Ok f else Err EOverflowError
    | _ => Ok f
    end in
  match v with
  | VInt z => go z
  | VBool b => go (if b then 1 else 0)
  | VFloat b => Ok (fl_of_bits b)
  | _ => Err ETypeError
  end.
(** [x + 900.0], settings.py 7; the sum never leaves the binary64 range (adding 900
    to the largest float rounds back to it) *)
Definition fl_add_int (x : fl) (n : Z) : result fl :=
  match x with
  | FFin m e => py_truediv (m * scale_up e + n * scale_up (- e)) (scale_up (- e))
  | _ => Ok x
  end.
(** [a < b]; simplification: operands that are not numbers are a TypeError
    (Python can also compare two strings, bytes or lists) *)
Definition py_lt (a b : pyval) : result bool :=
  match num_of a, num_of b with
  | Some x, Some y => Ok (fl_ltb x y)
  | _, _ => Err ETypeError
  end.
(** message/tasks.py 583-594 *)
Definition sra_valid (payment_ts ts : pyval) : result unit :=
  do future <- py_lt ts payment_ts;
  if future then Err EValidationError
  else
    do f <- to_float payment_ts;
    do s <- fl_add_int f 900;
    match num_of ts with
    | Some t => if fl_ltb s t then Err EValidationError else Ok tt
    | None => Err ETypeError
    end.

(** message/tasks.py 626-646 *)
Definition VerificationNegative : pyval := VEnum EnSRR "Results verification negative".
Definition ForcedResourcesFailure : pyval := VEnum EnSRR "Concent reported failure to retrieve the resources to verify".
Definition ResourcesFailure : pyval := VEnum EnSRR "Could not retrieve resources".
Definition requestor_reasons (concent : bool) : list pyval :=
  if concent then [VerificationNegative; ForcedResourcesFailure] else [VerificationNegative; ResourcesFailure].

(** message/tasks.py 648-668 *)
Definition srr_valid (m : pyval) : result unit :=
  do reason <- getattr "reason" m;
  if negb (truthy reason) then Err EValidationError
  else
    do fgtrf <- getattr "force_get_task_result_failed" m;
    do _ <- (if truthy fgtrf then
               do t <- getattr "task_id" m;
               do t' <- getattr "task_id" fgtrf;
               if negb (py_eq t t') then Err EValidationError
               else
                 do s <- getattr "subtask_id" m;
                 do s' <- getattr "subtask_id" fgtrf;
                 if negb (py_eq s s') then Err EValidationError else Ok tt
             else Ok tt);
    if py_eq reason ForcedResourcesFailure && negb (truthy fgtrf) then Err EValidationError else Ok tt.
(** message/tasks.py 670-688 *)
Definition srr_valid_for_requestor (m : pyval) : result unit :=
  do r <- getattr "report_computed_task" m;
  do t <- getattr "task_to_compute" r;
  do concent <- getattr "concent_enabled" t;
  do reason <- getattr "reason" m;
  if existsb (py_eq reason) (requestor_reasons (truthy concent)) then srr_valid m
  else match reason with VEnum _ _ => Err EValidationError | _ => Err EAttributeError end.

(** [a == b] when messages may occur at the top *)
Definition val_eq (a b : pyval) : result bool :=
  match a, b with
  | VMsg _ _ _ _ _ _, _ => msg_eq a b
  | _, VMsg _ _ _ _ _ _ => Ok false
  | _, _ => Ok (py_eq a b)
  end.
(** the parts of the text [repr(m)] is made of *)
Record shown := { sh_class : mcls; sh_header : pyval; sh_sig : pyval; sh_slots : option pyval; sh_version : option pyval }.
(** message/base.py 160-171 and, for a Hello, 697-701.  [None] for the slots stands
    for the text '<unserializable>'.  Simplification: the parts are not turned into
    text (the [repr] of header, signature and serialized slots cannot fail) *)
Definition msg_repr (m : pyval) : result shown :=
  match m with
  | VMsg c ty ts enc sig a =>
      let show s := Ok {| sh_class := c; sh_header := VTuple [ty; ts; enc]; sh_sig := sig; sh_slots := s;
                          sh_version := match c with MHello => Some (version_of m) | _ => None end |} in
      match slots c a with
      | Ok s => show (Some s)
      | Err (EFieldError _) => show None
      | Err e => Err e
      end
  | _ => Err EAttributeError
  end.
(** message/concents.py 102-114; the text of the error includes [repr(self)].
    Simplification: [tuple.count] also counts an
    element identical to the first without asking [__eq__]; that matters only for
    messages unequal to themselves (a NaN inside) *)
Definition verdict_valid (m : pyval) : result unit :=
  do a <- getattr "ack_report_computed_task" m;
  do a <- getattr "report_computed_task" a;
  do ack <- getattr "task_to_compute" a;
  do f <- getattr "force_report_computed_task" m;
  do f <- getattr "report_computed_task" f;
  do force <- getattr "task_to_compute" f;
  do e <- val_eq force ack;
  if e then Ok tt else do _ <- msg_repr m; Err EValidationError.

(** [m.is_valid()]; message/tasks.py 208-223 for the other task messages *)
Definition is_valid (m : pyval) : result unit :=
  match m with
  | VMsg MSubtaskResultsAccepted _ ts _ _ a => sra_valid (attr_get_or_none "payment_ts" a) ts
  | VMsg MSubtaskResultsRejected _ _ _ _ _ => srr_valid m
  | VMsg MVerdictReportComputedTask _ _ _ _ _ => verdict_valid m
  | VMsg c _ _ _ _ _ => if is_task_message c then Ok tt else Err EAttributeError
  | _ => Err EAttributeError
  end.

(** ** TaskToCompute: ethereum signature and ids (message/tasks.py 386-440) *)
Definition verify_ethsig (E : env) (m : pyval) : result unit :=
  do w <- getattr "want_to_compute_task" m;
  match w with
  | VMsg _ _ _ _ _ _ =>
      do sg <- getattr "ethsig" m;
      do k <- getattr "requestor_ethereum_public_key" m;
      do k <- decode_hex k;
      do h <- short_hash E w;
      ecdsa_verify (cr E) (VBytes k) sg h
  | _ => Err EAttributeError
  end.
Definition generate_ethsig (E : env) (m : pyval) (priv : bytes) : result pyval :=
  match m with
  | VMsg c ty ts enc sig a =>
      do k <- getattr "requestor_ethereum_public_key" m;
      if negb (truthy k) then Err (EFieldError (u "requestor_ethereum_public_key"))
      else
        do w <- getattr "want_to_compute_task" m;
        do h <- short_hash E w;
        do s <- ecdsa_sign (cr E) priv h;
        Ok (VMsg c ty ts enc sig (attr_set "ethsig" (VBytes s) a))
  | _ => Err EAttributeError
  end.
(** [self.compute_task_def[key]] (simplification: an object other than a dict or
    None is a TypeError) *)
Definition ctd_item (d : pyval) (k : string) : result pyval :=
  match d with
  | VDict _ kvs => match dict_get (skey k) kvs with Some x => Ok x | None => Err EKeyError end
  | _ => Err ETypeError
  end.
Definition validate_taskid_key (m : pyval) (k : string) : result unit :=
  do d <- getattr "compute_task_def" m;
  do v <- ctd_item d k;
  do r <- getattr "requestor_id" m;
  do b <- check_id_hex_seed v r;
  if b then Ok tt else Err (EFieldError (u k)).
Definition validate_taskid (m : pyval) : result unit :=
  do _ <- validate_taskid_key m "task_id"; validate_taskid_key m "subtask_id".

(** ** Promissory notes of messages *)

(** message/tasks.py 448-456 *)
Definition ttc_note (C : crypto) (m contract : pyval) : result note :=
  do f <- requestor_address C m;
  do t <- getattr "provider_ethereum_address" m;
  do p <- getattr "price" m;
  do s <- getattr "subtask_id" m;
  Ok {| n_from := f; n_to := t; n_amount := p; n_subtask := s; n_contract := contract |}.
(** message/tasks.py 458-466 and message/concents.py 231-242 *)
Definition concent_note (C : crypto) (m contract : pyval) : result note :=
  match m with
  | VMsg MTaskToCompute _ _ _ _ _ =>
      do f <- requestor_address C m;
      do p <- getattr "price" m;
      do s <- getattr "subtask_id" m;
      Ok {| n_from := f; n_to := contract; n_amount := p; n_subtask := s; n_contract := contract |}
  | VMsg MSubtaskResultsVerify _ _ _ _ _ =>
      do r <- getattr "subtask_results_rejected" m;
      do t <- getattr "task_to_compute" r;
      do f <- getattr "provider_ethereum_address" t;
      do p <- getattr "price" t;
      do s <- getattr "subtask_id" t;
      Ok {| n_from := f; n_to := contract; n_amount := p; n_subtask := s; n_contract := contract |}
  | _ => Err EAttributeError
  end.
Definition set_attr (k : string) (v m : pyval) : result pyval :=
  match m with
  | VMsg c ty ts enc sig a => Ok (VMsg c ty ts enc sig (attr_set k v a))
  | _ => Err EAttributeError
  end.
(** datastructures/promissory.py 127-148 *)
Definition sign_concent_note (C : crypto) (m contract : pyval) (priv : bytes) : result pyval :=
  do n <- concent_note C m contract; do s <- note_sign C n priv; set_attr "concent_promissory_note_sig" s m.
Definition verify_concent_note (C : crypto) (m contract : pyval) : result bool :=
  do n <- concent_note C m contract; do s <- getattr "concent_promissory_note_sig" m; sig_valid C n s.
(** message/tasks.py 468-504 *)
Definition sign_note (C : crypto) (m contract : pyval) (priv : bytes) : result pyval :=
  do n <- ttc_note C m contract; do s <- note_sign C n priv; set_attr "promissory_note_sig" s m.
Definition verify_note (C : crypto) (m contract : pyval) : result bool :=
  do n <- ttc_note C m contract; do s <- getattr "promissory_note_sig" m; sig_valid C n s.
Definition sign_all_notes (C : crypto) (m contract : pyval) (priv : bytes) : result pyval :=
  do m <- sign_concent_note C m contract priv; sign_note C m contract priv.
Definition verify_all_notes (C : crypto) (m contract : pyval) : result bool :=
  do b <- verify_concent_note C m contract; if b then verify_note C m contract else Ok false.

(** ** FileTransferToken (message/concents.py 180-201) *)
Definition is_upload (m : pyval) : result bool :=
  do o <- getattr "operation" m; Ok (py_eq o (VEnum EnFTTOperation "upload")).
Definition is_download (m : pyval) : result bool :=
  do o <- getattr "operation" m; Ok (py_eq o (VEnum EnFTTOperation "download")).
Fixpoint find_file (category : pyval) (l : list pyval) : result pyval :=
  match l with
  | [] => Ok VNone
  | VDict d kvs :: r =>
      let v := match dict_get (skey "category") kvs with Some v => v | None => VNone end in
      if py_eq v category then Ok (VDict d kvs) else find_file category r
  | _ :: _ => Err EAttributeError
  end.
Definition get_file_info (m category : pyval) : result pyval :=
  do f <- getattr "files" m;
  match py_iter f with Some l => find_file category l | None => Err ETypeError end.

(** constants.py 40-46: MSG_DELAYS, microseconds; a class not listed waits for nothing *)
Definition msg_delay (c : mcls) : Z := match c with MForceReportComputedTask => 2 * MMTT + MAT | _ => 0 end.
