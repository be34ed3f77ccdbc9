(** * Several threads in one process

    The library keeps state that all threads of a process share: the key manager
    behind [shortcuts.ecies] (shortcuts.py 6) with its three caches, the uuid
    module's [_last_timestamp] behind the id generator, and the message objects
    themselves.  Here every call is a sequence of steps, each of which reads or
    writes that state at most once, and the steps of any number of calls
    interleave in any order (the interpreter switches threads between bytecodes;
    reads and writes of one variable or dict are atomic under its lock). *)
From Verif Require Export Ecies Ids.
From Verif Require Export Message.

(** ** Calls in progress.  A call is [O], where it stands is [P]; calls may begin
    at any time and each may make its next step at any time. *)
Section Pool.
Context {S O P : Type} (start : O -> P) (step : O -> S -> P -> S -> P -> Prop).
Inductive pstep : S * list (O * P) -> S * list (O * P) -> Prop :=
| Begins st pool o : pstep (st, pool) (st, pool ++ [(o, start o)])
| Moves st pre o p post st' p' :
    step o st p st' p' -> pstep (st, pre ++ (o, p) :: post) (st', pre ++ (o, p') :: post).
(** any number of such steps *)
Inductive runs (a : S * list (O * P)) : S * list (O * P) -> Prop :=
| runs_here : runs a a
| runs_step b b' : runs a b -> pstep b b' -> runs a b'.
(** from the state [st0] with no call in progress *)
Definition reached (st0 : S) : S * list (O * P) -> Prop := runs (st0, []).
(** the steps of one call while no other call moves *)
Inductive alone (o : O) : S -> P -> S -> P -> Prop :=
| alone_here st p : alone o st p st p
| alone_step st p st1 p1 st2 p2 : step o st p st1 p1 -> alone o st1 p1 st2 p2 -> alone o st p st2 p2.
(** [n] steps of one call, with the state changing in any way between them *)
Inductive own (o : O) : nat -> P -> P -> Prop :=
| own_here p : own o 0 p p
| own_step n st p st' p1 p2 : step o st p st' p1 -> own o n p1 p2 -> own o (Datatypes.S n) p p2.
End Pool.

(** ** ECIES (cryptography.py 209-365)

    A cache is what can be found in it.  Under races CPython 3.6's [lru_cache] can
    hold a key twice or lose an entry it was to keep; so storing may drop entries,
    and [k] may have several values, but nothing else can appear. *)
Definition same_entries {A} (c c' : list A) : Prop := forall x, In x c' <-> In x c.
Definition stores {A} (x : A) (c c' : list A) : Prop := forall y, In y c' -> y = x \/ In y c.
Definition absent {K V} (k : K) (c : list (K * V)) : Prop := forall v, ~ In (k, v) c.

Definition with_ecdh (st : kstate) c := {| c_ecdh := c; c_derived := c_derived st; c_ephem := c_ephem st; last_cleanup := last_cleanup st |}.
Definition with_derived (st : kstate) c := {| c_ecdh := c_ecdh st; c_derived := c; c_ephem := c_ephem st; last_cleanup := last_cleanup st |}.
Definition with_ephem (st : kstate) c := {| c_ecdh := c_ecdh st; c_derived := c_derived st; c_ephem := c; last_cleanup := last_cleanup st |}.
Definition with_last (st : kstate) f := {| c_ecdh := c_ecdh st; c_derived := c_derived st; c_ephem := c_ephem st; last_cleanup := f |}.

Inductive ephase :=
| EAsk                                          (* 297: is get_ephem_key(raw_pubkey) cached? *)
| ECheck                                        (* 269: last_cleanup_time < time.time() - timeout *)
| EClear                                        (* 270: cache_clear() *)
| EStamp                                        (* 271: last_cleanup_time = time.time() *)
| EDraw                                         (* 273-276: new key, is ecdh(...) cached? *)
| EDh (ephem_pub pubkey : bytes)                (* 240: agree and store *)
| EGot (ephem_pub km : bytes)                   (* 277-279: is get_derived_keys(km) cached? *)
| EDerive (ephem_pub km : bytes)                (* 249-255 and store *)
| EStore (v : bytes * bytes * bytes)            (* 281 and store *)
| ESeal (v : bytes * bytes * bytes)             (* 299-319 *)
| DAsk                                          (* 335-341: is ecdh(...) cached? *)
| DDh (secret pubkey : bytes)                   (* 240: agree and store *)
| DGot (km : bytes)                             (* 342-344: is get_derived_keys(km) cached? *)
| DDerive (km : bytes)                          (* 249-255 and store *)
| DOpen (keys : bytes * bytes)                  (* 346-365 *)
| EDone (r : result bytes).

Definition ebegin (o : eop) : ephase :=
  match o with OpEncrypt _ _ _ _ _ => EAsk | OpDecrypt _ _ _ _ => DAsk end.

Section WithCrypto.
Context (C : crypto) (timeout : nat -> Z).

(** cryptography.py 299-319: no shared state *)
Definition seal (v : bytes * bytes * bytes) (data shared iv : bytes) : result bytes :=
  let '(enc_key, mac_key, ephem_pubkey) := v in
  if negb (Nat.eqb (List.length iv) 16) then Err EAssertionError else
  let ciphertext := aes_ctr C enc_key iv data in
  if negb (Nat.eqb (List.length ciphertext) (List.length data)) then Err EAssertionError else
  let msg := ephem_pubkey ++ iv ++ ciphertext in
  let tag := hmac_sha256 C mac_key (skipn (1 + 64) msg ++ shared) in
  if negb (Nat.eqb (List.length tag) 32) then Err EAssertionError else
  let msg := msg ++ tag in
  if negb (Nat.eqb (List.length msg) (OVERHEAD + List.length data)) then Err EAssertionError else
  Ok msg.
(** cryptography.py 346-365: no shared state *)
Definition unseal (keys : bytes * bytes) (data shared : bytes) : result bytes :=
  let '(enc_key, mac_key) := keys in
  let ephem_pubkey := firstn (1 + 64) data in
  let tag := slice_last 32 data in
  if negb (Nat.eqb (List.length tag) 32) then Err EAssertionError else
  if negb (bytes_eqb (hmac_sha256 C mac_key (slice_mid (1 + 64) data ++ shared)) tag)
  then Err EDecryptionError else
  let iv := firstn BLOCK_SIZE (skipn (1 + 64) data) in
  if negb (Nat.eqb (List.length iv) 16) then Err EAssertionError else
  let ciphertext := slice_mid (1 + 64 + BLOCK_SIZE) data in
  if negb (Nat.eqb (List.length ephem_pubkey + List.length iv + List.length ciphertext + List.length tag)
             (List.length data)) then Err EAssertionError else
  let msg := aes_ctr C enc_key iv ciphertext in
  if negb (Nat.eqb (List.length msg) (List.length ciphertext)) then Err EAssertionError else
  Ok msg.

(** cryptography.py 237-281 and 292-365, step by step.  The two readings of the
    clock are [r_now1] and [r_now2] *)
Inductive tstep : eop -> kstate -> ephase -> kstate -> ephase -> Prop :=
| t_ask_hit m d raw sh r st v c :
    In ((m, raw), v) (c_ephem st) -> same_entries (c_ephem st) c ->
    tstep (OpEncrypt m d raw sh r) st EAsk (with_ephem st c) (ESeal v)
| t_ask_miss m d raw sh r st :
    absent (m, raw) (c_ephem st) -> tstep (OpEncrypt m d raw sh r) st EAsk st ECheck
| t_check m d raw sh r st :
    tstep (OpEncrypt m d raw sh r) st ECheck st
      (if last_cleanup st m <? r_now1 r - timeout m then EClear else EDraw)
| t_clear m d raw sh r st :
    tstep (OpEncrypt m d raw sh r) st EClear (with_ephem st []) EStamp
| t_stamp m d raw sh r st :
    tstep (OpEncrypt m d raw sh r) st EStamp (with_last st (set_last (last_cleanup st) m (r_now2 r))) EDraw
| t_draw_bad m d raw sh r st :
    pub_of C (r_ephem r) = None \/ compress C (x04 :: raw) = None ->
    tstep (OpEncrypt m d raw sh r) st EDraw st (EDone (Err EValueError))
| t_draw_hit m d raw sh r st p k km c :
    pub_of C (r_ephem r) = Some p -> compress C (x04 :: raw) = Some k ->
    In ((r_ephem r, k), km) (c_ecdh st) -> same_entries (c_ecdh st) c ->
    tstep (OpEncrypt m d raw sh r) st EDraw (with_ecdh st c) (EGot p km)
| t_draw_miss m d raw sh r st p k :
    pub_of C (r_ephem r) = Some p -> compress C (x04 :: raw) = Some k ->
    absent (r_ephem r, k) (c_ecdh st) -> tstep (OpEncrypt m d raw sh r) st EDraw st (EDh p k)
| t_dh_bad m d raw sh r st p k :
    ecdh_raw C (r_ephem r) k = None ->
    tstep (OpEncrypt m d raw sh r) st (EDh p k) st (EDone (Err EValueError))
| t_dh m d raw sh r st p k km c :
    ecdh_raw C (r_ephem r) k = Some km -> stores ((r_ephem r, k), km) (c_ecdh st) c ->
    tstep (OpEncrypt m d raw sh r) st (EDh p k) (with_ecdh st c) (EGot p km)
| t_got_bad m d raw sh r st p km :
    List.length km <> 32%nat ->
    tstep (OpEncrypt m d raw sh r) st (EGot p km) st (EDone (Err EAssertionError))
| t_got_hit m d raw sh r st p km ek mk c :
    List.length km = 32%nat -> In ((m, km), (ek, mk)) (c_derived st) -> same_entries (c_derived st) c ->
    tstep (OpEncrypt m d raw sh r) st (EGot p km) (with_derived st c) (EStore (ek, mk, x04 :: p))
| t_got_miss m d raw sh r st p km :
    List.length km = 32%nat -> absent (m, km) (c_derived st) ->
    tstep (OpEncrypt m d raw sh r) st (EGot p km) st (EDerive p km)
| t_derive_bad m d raw sh r st p km e :
    derive C km = Err e -> tstep (OpEncrypt m d raw sh r) st (EDerive p km) st (EDone (Err e))
| t_derive m d raw sh r st p km ek mk c :
    derive C km = Ok (ek, mk) -> stores ((m, km), (ek, mk)) (c_derived st) c ->
    tstep (OpEncrypt m d raw sh r) st (EDerive p km) (with_derived st c) (EStore (ek, mk, x04 :: p))
| t_store m d raw sh r st v c :
    stores ((m, raw), v) (c_ephem st) c ->
    tstep (OpEncrypt m d raw sh r) st (EStore v) (with_ephem st c) (ESeal v)
| t_seal m d raw sh r st v :
    tstep (OpEncrypt m d raw sh r) st (ESeal v) st (EDone (seal v d sh (r_iv r)))
| t_open_bad m data k sh st :
    firstn 1 data <> [x04] -> tstep (OpDecrypt m data k sh) st DAsk st (EDone (Err EDecryptionError))
| t_open_key m data k sh st :
    firstn 1 data = [x04] -> secret_of C k = None ->
    tstep (OpDecrypt m data k sh) st DAsk st (EDone (Err EValueError))
| t_open_hit m data k sh st s km c :
    firstn 1 data = [x04] -> secret_of C k = Some s ->
    In ((s, firstn (1 + 64) data), km) (c_ecdh st) -> same_entries (c_ecdh st) c ->
    tstep (OpDecrypt m data k sh) st DAsk (with_ecdh st c) (DGot km)
| t_open_miss m data k sh st s :
    firstn 1 data = [x04] -> secret_of C k = Some s -> absent (s, firstn (1 + 64) data) (c_ecdh st) ->
    tstep (OpDecrypt m data k sh) st DAsk st (DDh s (firstn (1 + 64) data))
| t_ddh_bad m data k sh st s p :
    ecdh_raw C s p = None -> tstep (OpDecrypt m data k sh) st (DDh s p) st (EDone (Err EValueError))
| t_ddh m data k sh st s p km c :
    ecdh_raw C s p = Some km -> stores ((s, p), km) (c_ecdh st) c ->
    tstep (OpDecrypt m data k sh) st (DDh s p) (with_ecdh st c) (DGot km)
| t_dgot_bad m data k sh st km :
    List.length km <> 32%nat ->
    tstep (OpDecrypt m data k sh) st (DGot km) st (EDone (Err EAssertionError))
| t_dgot_hit m data k sh st km keys c :
    List.length km = 32%nat -> In ((m, km), keys) (c_derived st) -> same_entries (c_derived st) c ->
    tstep (OpDecrypt m data k sh) st (DGot km) (with_derived st c) (DOpen keys)
| t_dgot_miss m data k sh st km :
    List.length km = 32%nat -> absent (m, km) (c_derived st) ->
    tstep (OpDecrypt m data k sh) st (DGot km) st (DDerive km)
| t_dderive_bad m data k sh st km e :
    derive C km = Err e -> tstep (OpDecrypt m data k sh) st (DDerive km) st (EDone (Err e))
| t_dderive m data k sh st km keys c :
    derive C km = Ok keys -> stores ((m, km), keys) (c_derived st) c ->
    tstep (OpDecrypt m data k sh) st (DDerive km) (with_derived st c) (DOpen keys)
| t_open m data k sh st keys :
    tstep (OpDecrypt m data k sh) st (DOpen keys) st (EDone (unseal keys data sh)).
End WithCrypto.

(** ** Ids (idgenerator.py 9-20 over [uuid.uuid1] of Python 3.6)

    [timestamp] is computed from the clock, then
    [if _last_timestamp is not None and timestamp <= _last_timestamp:]
    [    timestamp = _last_timestamp + 1]
    [_last_timestamp = timestamp]
    reads the module global up to three times and writes it once.  The state is
    that global. *)
Record icall := { i_seed : bytes; i_now : Z; i_seq : Z }.
Inductive iphase :=
| IFirst                    (* _last_timestamp is not None *)
| ICompare                  (* timestamp <= _last_timestamp *)
| IBump                     (* timestamp = _last_timestamp + 1 *)
| IWrite (ts : Z)           (* _last_timestamp = timestamp *)
| IDone (id : ustr).
Inductive istep : icall -> option Z -> iphase -> option Z -> iphase -> Prop :=
| i_first_none o : istep o None IFirst None (IWrite (i_now o))
| i_first o t : istep o (Some t) IFirst (Some t) ICompare
| i_compare o t : istep o (Some t) ICompare (Some t) (if i_now o <=? t then IBump else IWrite (i_now o))
| i_bump o t : istep o (Some t) IBump (Some t) (IWrite (t + 1))
| i_write o last ts :
    istep o last (IWrite ts) (Some ts) (IDone (uuid_str (uuid1_int ts (i_seq o) (seed_to_node (i_seed o))))).

(** ** Dumping one message object (message/base.py 212-245, 679-685 for Hello)

    Class, type, timestamp and slots stay; shared are the header's flag and the
    signature.  One step per access to either.  (The setter of [encrypted],
    185-192, replaces the header by one with the same type and timestamp.) *)
Record dump_call := { d_key : option bytes; d_encf : option (bytes -> result bytes) }.
Inductive dphase :=
| SKey                                   (* 219: sign_as and self.sig *)
| SFlag                                  (* 224: self.encrypted = ... *)
| SSig (payload : bytes)                 (* 229: self.sig is None *)
| SSign (payload : bytes)                (* 230-236 *)
| SSeal (payload : bytes)                (* 238-239: if self.encrypted: encrypt_func(payload) *)
| SHeader (payload : bytes)              (* 242, 257-262: reads self.encrypted *)
| SJoin (header payload : bytes)         (* 241-245: reads self.sig *)
| SDone (r : result bytes).
Section Dump.
Context (E : env) (c : mcls) (ty ts : pyval) (a : attrs_t).
(** 230-236: the signature assigned to a message that has none *)
Definition new_sig (o : dump_call) (payload : bytes) : result bytes :=
  if key_given (d_key o) && signs c then
    do h <- hash_payload E c ty ts a payload;
    ecdsa_sign (cr E) (match d_key o with Some k => k | None => [] end) h
  else Ok (zeros SIG_LEN).
(** 241-245 and 679-685 *)
Definition joined (h : bytes) (sig : pyval) (payload : bytes) : result bytes :=
  do s <- (match sig with VBytes s => Ok s | _ => Err ETypeError end);
  do v <- (match c with MHello => do v <- version_bytes a; Ok (pack32p v) | _ => Ok [] end);
  Ok (h ++ s ++ payload ++ v).
Definition with_encf (o : dump_call) : bool := match d_encf o with Some _ => true | None => false end.
Definition after_flag : dphase := match payload_of c a with Ok p => SSig p | Err e => SDone (Err e) end.
Definition after_sig (sig : pyval) (p : bytes) : dphase := if is_none sig then SSign p else SSeal p.
Definition after_seal (o : dump_call) (enc : pyval) (p : bytes) : dphase :=
  if truthy enc
  then match d_encf o with
       | Some f => match f p with Ok q => SHeader q | Err e => SDone (Err e) end
       | None => SDone (Err ETypeError)
       end
  else SHeader p.
Definition after_header (enc : pyval) (p : bytes) : dphase :=
  match pack_header (type_of c) ts enc with Ok h => SJoin h p | Err e => SDone (Err e) end.
Definition again (o : dump_call) (sig : pyval) : bool := key_given (d_key o) && truthy sig.
Definition flag (o : dump_call) : pyval := VBool (encrypts c && with_encf o).
Inductive dstep (o : dump_call) : pyval * pyval -> dphase -> pyval * pyval -> dphase -> Prop :=
| s_key_bad enc sig : again o sig = true ->
    dstep o (enc, sig) SKey (enc, sig) (SDone (Err ESignatureAlreadyExists))
| s_key enc sig : again o sig = false -> dstep o (enc, sig) SKey (enc, sig) SFlag
(** 224 and, without touching flag or signature, 225 *)
| s_flag enc sig : dstep o (enc, sig) SFlag (flag o, sig) after_flag
| s_sig enc sig p : dstep o (enc, sig) (SSig p) (enc, sig) (after_sig sig p)
| s_sign enc sig p s : new_sig o p = Ok s -> dstep o (enc, sig) (SSign p) (enc, VBytes s) (SSeal p)
| s_sign_bad enc sig p e : new_sig o p = Err e -> dstep o (enc, sig) (SSign p) (enc, sig) (SDone (Err e))
| s_seal enc sig p : dstep o (enc, sig) (SSeal p) (enc, sig) (after_seal o enc p)
| s_header enc sig p : dstep o (enc, sig) (SHeader p) (enc, sig) (after_header enc p)
| s_join enc sig h p : dstep o (enc, sig) (SJoin h p) (enc, sig) (SDone (joined h sig p)).
End Dump.
