(** * Messages: construction, slots, hash, signature, serialization
    (message/base.py 82-614 and the overrides in the other message modules). *)
From Verif Require Export Attrs.

(** ** Serialized slots *)

(** [results.append(...)] in order, stopping at the first exception *)
Fixpoint collect {A} (l : list (result A)) : result (list A) :=
  match l with
  | [] => Ok []
  | x :: r => do a <- x; do s <- collect r; Ok (a :: s)
  end.
Lemma collect_map {A B} (f : A -> result B) l : collect (map f l) = mapM f l.
Proof. induction l as [|a l IH]; cbn; [reflexivity|]. rewrite IH. reflexivity. Qed.

(** message/base.py 264-266: enum members are replaced by their value *)
Definition enum_value (v : pyval) : pyval := match v with VEnum _ s => VStr (u s) | _ => v end.

(** datastructures/p2p.py 135-138: [peer.serialize()]; other objects have no such
    method (simplification: also taken for messages, whose [serialize] would
    produce bytes) *)
Definition peer_serialize (p : pyval) : result pyval :=
  match p with
  | VDict DPeer kvs =>
      match dict_get (skey "node") kvs with
      | Some n => do d <- to_dict n; Ok (VDict DPlain (dict_set (skey "node") d kvs))
      | None => Err EKeyError
      end
  | _ => Err EAttributeError
  end.

(** [serialize_slot] for every kind of slot but message slots:
    message/base.py 264-269, message/p2p.py 49-56, 117-127, message/tasks.py 273-277,
    551-555, datastructures/p2p.py 71-74, 82-93 *)
Definition ser_plain (kd : skind) (k : string) (v : pyval) : result pyval :=
  match kd with
  | KNode =>
      if truthy v then
        match to_dict v with
        | Ok d => Ok d
        | Err _ => Err (EFieldError (u k)) (* to_dict raises no FieldError *)
        end
      else Ok v
  | KPeers => match py_iter v with
              | Some l => do r <- collect (map peer_serialize l); Ok (VList r)
              | None => Err ETypeError
              end
  | KTasks => match v with
              | VList l => do r <- collect (map to_dict l); Ok (VList r)
              | _ => Err (EFieldError (u "tasks"))
              end
  | KHeader => match v with VObj CTaskHeader _ => to_dict v | _ => Ok (enum_value v) end
  | KStats => match v with VObj CProvider _ => to_dict v | _ => Ok (enum_value v) end
  | _ => Ok (enum_value v)
  end.

(** message/base.py 286-294; [w] computes [value.header, value.sig, value.slots()] *)
Definition ser_single (w : pyval -> result pyval) (d : mcls) (k : string) (v : pyval) : result pyval :=
  match v with
  | VMsg c _ _ _ _ _ => if mcls_eqb c d then w v else Err (EFieldError (u k))
  | _ => Err (EFieldError (u k))
  end.
(** message/base.py 264-284 and the overrides *)
Definition ser_slot_with (w : pyval -> result pyval) (c : mcls) (k : string) (v : pyval) : result pyval :=
  match slot_kind c k with
  | KMsg d allow_none _ =>
      match v with
      | VEnum _ s => Ok (VStr (u s))
      | VNone => if allow_none then Ok (VTuple [VBool false; VNone]) else Err (EFieldError (u k))
      | VList l => do r <- collect (map (ser_single w d k) l); Ok (VTuple [VBool true; VList r])
      | _ => do r <- ser_single w d k v; Ok (VTuple [VBool false; r])
      end
  | kd => ser_plain kd k v
  end.

(** message/base.py 506-515: one [[key, value]] pair per valid slot, in order;
    [entries] are the serialized attributes *)
Definition slot_list (c : mcls) (entries : list (string * result pyval)) : result pyval :=
  do l <- collect (map (fun k => do x <- assoc_or (Ok VNone) k entries; Ok (VList [skey k; x])) (slot_names c));
  Ok (VList l).

(** [value.header, value.sig, value.slots()] (message/base.py 294) of a message *)
Fixpoint wire (v : pyval) : result pyval :=
  match v with
  | VMsg c ty ts enc sig a =>
      do s <- slot_list c (map (fun kv => (fst kv, ser_slot_with wire c (fst kv) (snd kv))) a);
      Ok (VTuple [VTuple [ty; ts; enc]; sig; s])
  | _ => Err EAttributeError
  end.
(** [serialize_slot(key, value)] of class [c] *)
Definition ser_slot (c : mcls) (k : string) (v : pyval) : result pyval := ser_slot_with wire c k v.
(** [self.slots()], message/base.py 506-515.  Attributes are always set for every
    slot, so [getattr(self, key, None)] finds them *)
Definition slots (c : mcls) (a : attrs_t) : result pyval :=
  slot_list c (map (fun kv => (fst kv, ser_slot c (fst kv) (snd kv))) a).
Lemma wire_msg c ty ts enc sig a :
  wire (VMsg c ty ts enc sig a) = do s <- slots c a; Ok (VTuple [VTuple [ty; ts; enc]; sig; s]).
Proof. reflexivity. Qed.

(** ** Construction *)

Definition is_true (v : pyval) : pyval := VBool (truthy v).
(** [x or []] *)
Definition or_empty (v : pyval) : pyval := if truthy v then v else VList [].
Definition upd (k : string) (f : pyval -> pyval) (a : attrs_t) : attrs_t := attr_set k (f (attr_get_or_none k a)) a.
(** the rest of the subclasses' [__init__] after [super().__init__]:
    message/p2p.py 45-47, 88-95, 153-159, 175-181; message/tasks.py 226-231,
    264-267, 711-714 *)
Definition post_init (c : mcls) (a : attrs_t) : attrs_t :=
  match c with
  | MPeers => upd "peers" or_empty a
  | MTasks => upd "tasks" or_empty a
  | MResourcePeers => upd "resource_peers" or_empty a
  | MGossip => upd "gossip" or_empty a
  | MWantToComputeTask =>
      upd "num_subtasks" (fun v => if is_none v then VInt 1 else v) (upd "concent_enabled" is_true a)
  | MTaskToCompute => upd "concent_enabled" is_true a
  | MTaskFailure => upd "reason" (fun v => if is_none v then VEnum EnTaskFailure "ComputationError" else v) a
  | _ => a
  end.

(** message/concents.py 140-154: [f.get]/[f[...] =] need a dict (simplification:
    any dict is treated as a plain one) *)
Definition deser_file (f : pyval) : result pyval :=
  match f with
  | VDict _ kvs =>
      let v := match dict_get (skey "category") kvs with Some v => v | None => VNone end in
      let kvs' := match enum_call EnFileCategory v with
                  | Some m => dict_set (skey "category") m kvs
                  | None => kvs
                  end in
      dict_new DFileInfo (VDict DPlain kvs')
  | _ => Err EAttributeError
  end.

(** [deserialize_slot] for every kind of slot but message slots *)
Definition deser_plain (kd : skind) (k : string) (v : pyval) : result pyval :=
  match kd with
  | KEnum e => (* message/base.py 296-305 *)
      if is_none v then Ok v
      else match enum_call e v with Some m => Ok m | None => Err (EFieldError (u k)) end
  | KNode => (* datastructures/p2p.py 76-80, 95-98 *)
      if truthy v then do _ <- validate_dict (u k) v; cnew_star CNode v else Ok v
  | KPeers => (* message/p2p.py 58-74 *)
      match v with
      | VList l => do r <- mapM (dict_new DPeer) l; Ok (VList r)
      | _ => Err (EFieldError (u k))
      end
  | KTasks => (* message/p2p.py 97-115 *)
      match v with
      | VList l => do r <- mapM (fun h => do _ <- validate_dict (u "tasks") h; cnew_star CTaskHeader h) l; Ok (VList r)
      | _ => Err (EFieldError (u "tasks"))
      end
  | KHeader => if is_none v then Ok v else cnew_star CTaskHeader v (* message/tasks.py 280-281 *)
  | KCpu => (* message/tasks.py 283-290 *)
      if is_none v then Ok v
      else do _ <- validate_integer (u k) v;
           match v with VInt z => if z <? 0 then Err (EFieldError (u k)) else Ok v | _ => Ok v end
  | KNum => do _ <- validate_positive_integer (u k) v; Ok v (* message/tasks.py 294-295 *)
  | KCtd => dict_new DCTD v (* message/tasks.py 346-347 *)
  | KInt => do _ <- validate_integer (u k) v; Ok v (* message/tasks.py 348-352 *)
  | KStats => if is_none v then Ok v else cnew_star CProvider v (* message/tasks.py 557-561 *)
  | KFiles => match py_iter v with (* message/concents.py 151-154 *)
              | Some l => do r <- mapM deser_file l; Ok (VList r)
              | None => Err ETypeError
              end
  | _ => Ok v
  end.

Section Load.
  (** [rec d slots]: the attributes that [d]'s [Message.__init__] loads *)
  Variable rec : mcls -> pyval -> result attrs_t.

  (** [except FieldError: raise; except Exception: raise FieldError(field=key)] *)
  Definition as_field_error {A} (k : string) (r : result A) : result A :=
    match r with
    | Err EFuel => Err EFuel
    | Err e => if is_field_error e then Err e else Err (EFieldError (u k))
    | _ => r
    end.
  (** message/base.py 345-377; [NestedMessage( *value)] and [MessageHeader( *header)]
      need an iterable of exactly three items *)
  Definition deser_single (d : mcls) (allow_none : bool) (k : string) (v : pyval) : result pyval :=
    if is_none v then if allow_none then Ok VNone else Err (EFieldError (u k))
    else match py_iter v with
         | Some [h; sig; s] =>
             as_field_error k
               (match py_iter h with
                | Some [ty; ts; enc] => do a <- rec d s; Ok (VMsg d ty ts enc sig (post_init d a))
                | _ => Err ETypeError
                end)
         | _ => Err (EFieldError (u k))
         end.
  (** message/base.py 310-343 *)
  Definition deser_message (d : mcls) (allow_none is_list : bool) (k : string) (v : pyval) : result pyval :=
    match py_iter v with
    | Some [il; v'] =>
        if truthy v' && negb (py_eq il (VBool is_list)) then Err (EFieldError (u k))
        else if truthy v' && truthy il then
          match v' with
          | VList l => do r <- mapM (deser_single d allow_none k) l; Ok (VList r)
          | _ => Err (EFieldError (u k))
          end
        else deser_single d allow_none k v'
    | _ => Err (EFieldError (u k))
    end.
  (** message/base.py 296-308 and the overrides *)
  Definition deser_slot (c : mcls) (k : string) (v : pyval) : result pyval :=
    match slot_kind c k with
    | KMsg d allow_none is_list => deser_message d allow_none is_list k v
    | kd => deser_plain kd k v
    end.
  (** message/base.py 486-504, one slot *)
  Definition load_slot (c : mcls) (kvs : list (pyval * pyval)) (k : string) : result (string * pyval) :=
    match dict_get (skey k) kvs with
    | None => Ok (k, VNone)
    | Some v => do v' <- deser_slot c k v; Ok (k, v')
    end.
  (** message/base.py 486-504 inside 110-115.  [dict(slots)] that fails leaves no
      slots.  StartSessionResponse sets [conn_id] before (message/tasks.py
      721-727), so [hasattr] skips it *)
  Definition load_slots (c : mcls) (s : pyval) : result attrs_t :=
    let kvs := match py_dict_of s with Some kvs => kvs | None => [] end in
    match c with
    | MStartSessionResponse => Ok [("conn_id"%string, VNone)]
    | _ =>
        match mapM (load_slot c kvs) (slot_names c) with
        | Err EFuel => Err EFuel
        | Err e => if is_field_error e then Err e else Err EMessageError
        | Ok a => Ok a
        end
    end.
End Load.

(** [fuel] bounds the nesting of classes; [rank_decreases] shows 8 suffices *)
Fixpoint load_attrs (fuel : nat) (c : mcls) (s : pyval) : result attrs_t :=
  match fuel with
  | O => Err EFuel
  | S fuel' => load_slots (load_attrs fuel') c s
  end.
Definition FUEL : nat := 8.

(** the names that can be set on an instance: the slots, and [_version] of Hello
    (message/base.py 653) *)
Definition kw_ok (c : mcls) (k : string) : bool :=
  existsb (String.eqb k) (slot_names c) || (mcls_eqb c MHello && (k =? "_version")%string).
(** message/base.py 117: [getattr(self, key, None) is None], on the attributes [a] set
    so far; an AttributeError counts as None, other exceptions escape.
    Simplification: names in double underscores, which every object has, count as
    missing *)
Definition unset (C : crypto) (c : mcls) (a : attrs_t) (k : string) : result bool :=
  if kw_ok c k then Ok (is_none (attr_get_or_none k a))
  else if existsb (String.eqb k) (class_names c) then Ok false
  else
    let self := VMsg c VNone VNone VNone VNone a in
    if mcls_eqb c MTaskToCompute && (k =? "requestor_ethereum_address")%string then
      do v <- requestor_address C self; Ok (is_none v)
    else Ok (match acc k self with Some v => is_none v | None => true end).
(** message/base.py 116-123: keyword arguments, in the order given, only fill what is
    None; what is None and cannot be set is an AttributeError *)
Fixpoint apply_kwargs (C : crypto) (c : mcls) (kw : attrs_t) (a : attrs_t) : result attrs_t :=
  match kw with
  | [] => Ok a
  | (k, v) :: r =>
      do n <- unset C c a k;
      if n then
        if kw_ok c k then apply_kwargs C c r (attr_set k v a) else Err EAttributeError
      else apply_kwargs C c r a
  end.

(** what a message depends on besides its arguments: the primitives, our own
    version string (golem_messages/__init__.py) and the depth cbor can decode *)
Record env := { cr : crypto; our_version : ustr; cdepth : nat }.

(** [C(header=, sig=, slots=, **kw)] (message/base.py 96-141 and the subclasses'
    [__init__]): [now] is the clock in seconds.  Hello (message/base.py 691-695)
    sets its version unless it was given one *)
Definition set_version (E : env) (c : mcls) (a : attrs_t) : attrs_t :=
  match c with
  | MHello => match attr_get "_version" a with
              | Some _ => a
              | None => attr_set "_version" (VStr (our_version E)) a
              end
  | _ => a
  end.
Definition msg_init (E : env) (now : Z) (c : mcls) (header : option (pyval * pyval * pyval)) (sig s : pyval) (kw : attrs_t)
  : result pyval :=
  do a <- load_attrs FUEL c s;
  do a <- apply_kwargs (cr E) c kw a;
  let '(ty, ts, enc) := match header with
                        | Some h => h
                        | None => (VInt (type_of c), VInt now, VBool false)
                        end in
  Ok (VMsg c ty ts enc sig (set_version E c (post_init c a))).

(** ** Hash and signature *)

(** [str.encode('ascii', 'replace')] *)
Definition ascii_replace (s : ustr) : bytes := map (fun c => if (0 <=? c) && (c <? 128) then z2b c else z2b 63) s.
(** [self._version.encode('ascii', 'replace')] *)
Definition version_bytes (a : attrs_t) : result bytes :=
  match attr_get "_version" a with
  | Some v => match str_of v with Some s => Ok (ascii_replace s) | None => Err EAttributeError end
  | None => Err EAttributeError
  end.
(** message/base.py 193-210, and 687-689 for Hello *)
Definition hash_payload (E : env) (c : mcls) (ty ts : pyval) (a : attrs_t) (payload : bytes) : result bytes :=
  do h <- dumps (VList [ty; ts]);
  let d := sha1 (cr E) (h ++ payload) in
  match c with
  | MHello => do v <- version_bytes a; Ok (d ++ v)
  | _ => Ok d
  end.
Definition payload_of (c : mcls) (a : attrs_t) : result bytes := do s <- slots c a; dumps s.
(** [m.get_short_hash()] *)
Definition short_hash (E : env) (m : pyval) : result bytes :=
  match m with
  | VMsg c ty ts _ _ a => do p <- payload_of c a; hash_payload E c ty ts a p
  | _ => Err EAttributeError
  end.
(** message/base.py 541-558 with 522-539 ([get_short_hash()] is never empty, so
    [msg_hash or ...] only distinguishes None) *)
Definition verify_signature (E : env) (m pub : pyval) : result unit :=
  match m with
  | VMsg _ _ _ _ sig _ => do h <- short_hash E m; ecdsa_verify (cr E) pub sig h
  | _ => Err EAttributeError
  end.
(** message/base.py 576-588 with 560-574 *)
Definition sign_message (E : env) (m : pyval) (priv : bytes) : result pyval :=
  match m with
  | VMsg c ty ts enc _ a =>
      do h <- short_hash E m;
      do s <- ecdsa_sign (cr E) priv h;
      Ok (VMsg c ty ts enc (VBytes s) a)
  | _ => Err EAttributeError
  end.
(** utils.py 43-53.  Messages are values here, so the original cannot change *)
Definition copy_and_sign (E : env) (m : pyval) (priv : bytes) : result pyval :=
  match m with
  | VMsg _ _ _ _ VNone _ => sign_message E m priv
  | VMsg _ _ _ _ _ _ => Ok m
  | _ => Err EAttributeError
  end.

(** ** Equality (message/base.py 143-158, and 703-706 for Hello).  Slots are
    serialized on both sides; a failing [slots()] raises *)
Definition version_of (m : pyval) : pyval :=
  match m with VMsg _ _ _ _ _ a => attr_get_or_none "_version" a | _ => VNone end.
Definition msg_eq (m m' : pyval) : result bool :=
  match m with
  | VMsg c ty ts _ sig a =>
      let base :=
        match m' with
        | VMsg c' ty' ts' _ sig' a' =>
            if mcls_eqb c c' && py_eq ty ty' && py_eq ts ts' && py_eq sig sig' then
              do s <- slots c a; do s' <- slots c' a'; Ok (py_eq s s')
            else Ok false
        | _ => Ok false
        end in
      match c with
      | MHello => if py_eq (version_of m) (version_of m') then base else Ok false
      | _ => base
      end
  | _ => Err EAttributeError
  end.

(** ** Serialization *)
Definition HDR_LEN : nat := 11.
Definition SIG_LEN : nat := 65.

(** [struct.pack('!HQ?', type, timestamp, encrypted)] (message/base.py 87, 247-262);
    bools count as integers *)
Definition pack_u64 (v : pyval) : result bytes :=
  let ok z := if (0 <=? z) && (z <? 2 ^ 64) then Ok (be_enc 8 z) else Err EStructError in
  match v with
  | VInt z => ok z
  | VBool b => ok (if b then 1 else 0)
  | _ => Err EStructError
  end.
Definition pack_header (ty : Z) (ts enc : pyval) : result bytes :=
  do t <- (if (0 <=? ty) && (ty <? 2 ^ 16) then Ok (be_enc 2 ty) else Err EStructError);
  do q <- pack_u64 ts;
  Ok (t ++ q ++ [if truthy enc then x01 else x00]).
(** [struct.unpack('!HQ?', data)] (message/base.py 379-388) *)
Definition unpack_header (data : bytes) : result (Z * Z * bool) :=
  if Nat.eqb (List.length data) HDR_LEN then
    Ok (be_dec (firstn 2 data), be_dec (firstn 8 (skipn 2 data)), negb (bytes_eqb (skipn 10 data) [x00]))
  else Err EHeaderError.

Definition key_given (k : option bytes) : bool := match k with Some (_ :: _) => true | _ => false end.

(** message/base.py 212-245, and 679-685 for Hello.  Returns the (mutated)
    message and the outcome; [encf] is [encrypt_func] *)
Definition serialize (E : env) (m : pyval) (sign_as : option bytes) (encf : option (bytes -> result bytes))
  : pyval * result bytes :=
  match m with
  | VMsg c ty ts enc sig a =>
      if key_given sign_as && truthy sig then (m, Err ESignatureAlreadyExists)
      else
        let enc' := VBool (encrypts c && match encf with Some _ => true | None => false end) in
        match payload_of c a with
        | Err e => (VMsg c ty ts enc' sig a, Err e)
        | Ok payload =>
            let signed :=
              if is_none sig then
                if key_given sign_as && signs c then
                  do h <- hash_payload E c ty ts a payload;
                  do s <- ecdsa_sign (cr E) (match sign_as with Some k => k | None => [] end) h;
                  Ok (VBytes s)
                else Ok (VBytes (zeros SIG_LEN))
              else Ok sig in
            match signed with
            | Err e => (VMsg c ty ts enc' sig a, Err e)
            | Ok sig' =>
                (VMsg c ty ts enc' sig' a,
                 do p <- (match encf with
                          | Some f => if encrypts c then f payload else Ok payload
                          | None => Ok payload
                          end);
                 do h <- pack_header (type_of c) ts enc';
                 do s <- (match sig' with VBytes s => Ok s | _ => Err ETypeError end);
                 do v <- (match c with
                          | MHello => do v <- version_bytes a; Ok (pack32p v)
                          | _ => Ok []
                          end);
                 Ok (h ++ s ++ p ++ v))
            end
        end
  | _ => (m, Err EAttributeError)
  end.
