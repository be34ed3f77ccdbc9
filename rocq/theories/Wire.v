(** * Frames: deserialization and the top-level dump/load
    (message/base.py 28-53, 379-484, 656-677, message/tasks.py 200-206, 371-384,
    shortcuts.py 6-28, settings.py 5-10). *)
From Verif Require Export TaskLogic Ecies.

(** settings.py 5-10, in microseconds and seconds *)
Definition MSG_TTL : Z := 600 * US.
Definition FUTURE_TIME_TOLERANCE : Z := 300 * US.
Definition MIN_TIMESTAMP : Z := 1262304000.   (* 2010-01-01 *)
Definition MAX_TIMESTAMP : Z := 32819212800.  (* 3010-01-01 *)

(** message/base.py 28-53; [now] is [datetime.utcnow()] in microseconds since the
    epoch, [ts] an int (the only caller passes an unpacked one) *)
Definition verify_time (now ts : Z) : result unit :=
  if negb (utc_ok ts) then Err ETimestampError
  else
    let delta := now - ts * US in
    let delta_future := ts * US - now in
    if MSG_TTL <? delta then Err EMessageTooOldError
    else if FUTURE_TIME_TOLERANCE <? delta_future then Err EMessageFromFutureError
    else Ok tt.

(** message/base.py 390-415 *)
Definition deserialize_header (data : bytes) : result (Z * Z * bool) :=
  do h <- unpack_header data;
  let '(ty, ts, enc) := h in
  if negb ((MIN_TIMESTAMP <? ts) && (ts <? MAX_TIMESTAMP)) then Err EHeaderError
  else if negb (contains library ty) then Err EHeaderError
  else Ok (ty, ts, enc).

(** message/base.py 461-470: [decf] is [decrypt_func] *)
Definition decrypted (decf : bytes -> result bytes) (enc : bool) (payload : bytes) : result bytes :=
  if enc then
    match decf payload with
    | Ok p => Ok p
    | Err e => if is_message_error e then Err e else Err EDecryptionError
    end
  else Ok payload.

(** message/base.py 481-484 *)
Definition check_sender (E : env) (m : pyval) (payload : bytes) (pub : option bytes) : result unit :=
  match m with
  | VMsg c ty ts _ sig a =>
      if key_given pub && signs c then
        do h <- hash_payload E c ty ts a payload;
        ecdsa_verify (cr E) (VBytes (match pub with Some k => k | None => [] end)) sig h
      else Ok tt
  | _ => Err EAttributeError
  end.

(** message/base.py 453-484; [ty], [ts], [enc] is the unpacked header *)
Definition base_load (E : env) (c : mcls) (ty ts : Z) (enc : bool) (data : bytes) (decf : bytes -> result bytes)
    (pub : option bytes) (kw : attrs_t) : result pyval :=
  let sig := firstn SIG_LEN data in
  let payload := skipn SIG_LEN data in
  do payload <- decrypted decf enc payload;
  do s <- loads (cdepth E) payload;
  do m <- msg_init E 0 c (Some (VInt ty, VInt ts, VBool enc)) (VBytes sig) s kw;
  do _ <- check_sender E m payload pub;
  Ok m.

(** [bytes.decode('ascii', 'replace')] *)
Definition ascii_decode (b : bytes) : ustr := map (fun x => if b2z x <? 128 then b2z x else 65533) b.

(** [class_.deserialize_with_header]: message/base.py 656-677 for Hello,
    message/tasks.py 371-384 for TaskToCompute, 200-206 for other task messages *)
Definition class_load (E : env) (c : mcls) (ty ts : Z) (enc : bool) (data : bytes) (decf : bytes -> result bytes)
    (pub : option bytes) : result pyval :=
  match c with
  | MHello =>
      let raw_version := slice_last VERSION_LENGTH data in
      let data := firstn (List.length data - VERSION_LENGTH) data in
      match unpack32p raw_version with
      | Err EStructError => Err EVersionMismatchError
      | Err e => Err e
      | Ok v =>
          let v := ascii_decode v in
          do _ <- verify_version (our_version E) v;
          base_load E c ty ts enc data decf pub [("_version"%string, VStr v)]
      end
  | _ =>
      do m <- base_load E c ty ts enc data decf pub [];
      if is_task_message c then
        do _ <- is_valid m;
        match c with
        | MTaskToCompute => do _ <- verify_ethsig E m; do _ <- validate_taskid m; Ok m
        | _ => Ok m
        end
      else Ok m
  end.

(** message/base.py 417-451 *)
Definition deserialize (E : env) (now : Z) (msg : bytes) (decf : bytes -> result bytes) (check_time : bool)
    (pub : option bytes) : result pyval :=
  if Nat.leb (List.length msg) (HDR_LEN + SIG_LEN) then Err EMessageError
  else
    do h <- deserialize_header (firstn HDR_LEN msg);
    let '(ty, ts, enc) := h in
    do _ <- (if check_time then verify_time now ts else Ok tt);
    do c <- getitem library ty;
    class_load E c ty ts enc (skipn HDR_LEN msg) decf pub.

(** shortcuts.py 20-28.  [st] is the state of the ECIES caches, [mgr] the key
    manager of the module's [ecies] object; how calls change the caches is the
    subject of Ecies.v and left out of the result here *)
Definition load_decrypt (E : env) (st : kstate) (mgr : nat) (privkey : option bytes) (payload : bytes) : result bytes :=
  match privkey with
  | Some ((_ :: _) as k) => fst (decrypt (cr E) st mgr payload k [])
  | _ => Ok payload
  end.
Definition load (E : env) (now : Z) (st : kstate) (mgr : nat) (data : bytes) (privkey pubkey : option bytes)
    (check_time : bool) : result pyval :=
  deserialize E now data (load_decrypt E st mgr privkey) check_time pubkey.

(** shortcuts.py 9-17; [r] are the random inputs of the encryption *)
Definition dump_encrypt (E : env) (timeout : nat -> Z) (st : kstate) (mgr : nat) (r : rnd) (pubkey : option bytes)
  : option (bytes -> result bytes) :=
  match pubkey with
  | Some ((_ :: _) as k) => Some (fun p => fst (encrypt (cr E) timeout st mgr p k [] r))
  | _ => None
  end.
Definition dump (E : env) (timeout : nat -> Z) (st : kstate) (mgr : nat) (r : rnd) (m : pyval) (privkey pubkey : option bytes)
  : pyval * result bytes :=
  serialize E m privkey (dump_encrypt E timeout st mgr r pubkey).
