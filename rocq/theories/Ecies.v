(** * cryptography.py 205-365: ECIES with its key manager and LRU caches.
    Calls are atomic here; Threads.v takes them apart into steps that interleave (C86).
    The state is the three module-wide caches and each manager's
    [last_cleanup_time]; managers are identified by a number (object identity).
    Randomness and clock readings are inputs. *)
From Verif Require Export Crypto.

(** ** functools.lru_cache: most recently used first *)
Section Lru.
Context {K V : Type} (keqb : K -> K -> bool).
Definition lru := list (K * V).
Fixpoint lru_remove (k : K) (c : lru) : lru :=
  match c with
  | [] => []
  | (k', v) :: r => if keqb k' k then r else (k', v) :: lru_remove k r
  end.
Fixpoint lru_find (k : K) (c : lru) : option V :=
  match c with
  | [] => None
  | (k', v) :: r => if keqb k' k then Some v else lru_find k r
  end.
(** hit: the entry moves to the front *)
Definition lru_hit (k : K) (v : V) (c : lru) : lru := (k, v) :: lru_remove k c.
(** miss: insert in front, evicting the oldest entry when full *)
Definition lru_add (maxsize : nat) (k : K) (v : V) (c : lru) : lru :=
  (k, v) :: firstn (maxsize - 1) c.
End Lru.

(** cryptography.py 238, 242, 257: maxsize=1024 *)
Definition MAXSIZE : nat := 1024.

Definition key2b (a b : bytes * bytes) : bool := bytes_eqb (fst a) (fst b) && bytes_eqb (snd a) (snd b).
Definition keynb (a b : nat * bytes) : bool := Nat.eqb (fst a) (fst b) && bytes_eqb (snd a) (snd b).

Record kstate := {
  c_ecdh : list ((bytes * bytes) * bytes);
  c_derived : list ((nat * bytes) * (bytes * bytes));
  c_ephem : list ((nat * bytes) * (bytes * bytes * bytes));
  last_cleanup : nat -> Z;
}.
Definition init_state (created : nat -> Z) : kstate :=
  {| c_ecdh := []; c_derived := []; c_ephem := []; last_cleanup := created |}.
Definition set_last (f : nat -> Z) (m : nat) (t : Z) : nat -> Z := fun n => if Nat.eqb n m then t else f n.

Section WithCrypto.
Context (C : crypto) (timeout : nat -> Z).

(** cryptography.py 217-235: the loop runs floor((key_len+7)*8/512)+1 times *)
Definition ckdf (key_material : bytes) (key_len : nat) : bytes :=
  let reps := S ((key_len + 7) / 64) in
  firstn key_len (flat_map (fun c => sha256 C (be_enc 4 (Z.of_nat c) ++ key_material)) (seq 1 reps)).

(** cryptography.py 237-240 *)
Definition ecdh (st : kstate) (secret pubkey : bytes) : result bytes * kstate :=
  match lru_find key2b (secret, pubkey) (c_ecdh st) with
  | Some v => (Ok v, {| c_ecdh := lru_hit key2b (secret, pubkey) v (c_ecdh st); c_derived := c_derived st;
                        c_ephem := c_ephem st; last_cleanup := last_cleanup st |})
  | None =>
      match ecdh_raw C secret pubkey with
      | Some v => (Ok v, {| c_ecdh := lru_add MAXSIZE (secret, pubkey) v (c_ecdh st); c_derived := c_derived st;
                            c_ephem := c_ephem st; last_cleanup := last_cleanup st |})
      | None => (Err EValueError, st)
      end
  end.

(** cryptography.py 249-255 (function body) *)
Definition derive (key_material : bytes) : result (bytes * bytes) :=
  let key := ckdf key_material 32 in
  if negb (Nat.eqb (List.length key) 32) then Err EAssertionError else
  let enc_key := firstn 16 key in
  let mac_key := sha256 C (skipn 16 key) in
  if negb (Nat.eqb (List.length mac_key) 32) then Err EAssertionError else Ok (enc_key, mac_key).
(** cryptography.py 242-255 *)
Definition get_derived_keys (st : kstate) (mgr : nat) (km : bytes) : result (bytes * bytes) * kstate :=
  match lru_find keynb (mgr, km) (c_derived st) with
  | Some v => (Ok v, {| c_ecdh := c_ecdh st; c_derived := lru_hit keynb (mgr, km) v (c_derived st);
                        c_ephem := c_ephem st; last_cleanup := last_cleanup st |})
  | None =>
      match derive km with
      | Ok v => (Ok v, {| c_ecdh := c_ecdh st; c_derived := lru_add MAXSIZE (mgr, km) v (c_derived st);
                          c_ephem := c_ephem st; last_cleanup := last_cleanup st |})
      | Err e => (Err e, st)
      end
  end.

(** the random and time inputs of one encryption: [HashablePrivateKey()],
    [gen_IV], and the two possible readings of [time.time()] *)
Record rnd := { r_ephem : bytes; r_iv : bytes; r_now1 : Z; r_now2 : Z }.

(** cryptography.py 269-280 (function body, runs on a cache miss) *)
Definition make_ephem_key (st : kstate) (mgr : nat) (raw_pubkey : bytes) (r : rnd)
  : result (bytes * bytes * bytes) * kstate :=
  let st :=
    if last_cleanup st mgr <? r_now1 r - timeout mgr
    then {| c_ecdh := c_ecdh st; c_derived := c_derived st; c_ephem := [];
            last_cleanup := set_last (last_cleanup st) mgr (r_now2 r) |}
    else st in
  match pub_of C (r_ephem r) with
  | None => (Err EValueError, st)
  | Some ephem_pub =>
      let ephem_raw_pubkey := x04 :: ephem_pub in
      match compress C (x04 :: raw_pubkey) with
      | None => (Err EValueError, st)
      | Some pubkey =>
          let '(km, st) := ecdh st (r_ephem r) pubkey in
          match km with
          | Err e => (Err e, st)
          | Ok km =>
              if negb (Nat.eqb (List.length km) 32) then (Err EAssertionError, st) else
              let '(keys, st) := get_derived_keys st mgr km in
              match keys with
              | Err e => (Err e, st)
              | Ok (enc_key, mac_key) => (Ok (enc_key, mac_key, ephem_raw_pubkey), st)
              end
          end
      end
  end.
(** cryptography.py 257-280 *)
Definition get_ephem_key (st : kstate) (mgr : nat) (raw_pubkey : bytes) (r : rnd)
  : result (bytes * bytes * bytes) * kstate :=
  match lru_find keynb (mgr, raw_pubkey) (c_ephem st) with
  | Some v => (Ok v, {| c_ecdh := c_ecdh st; c_derived := c_derived st;
                        c_ephem := lru_hit keynb (mgr, raw_pubkey) v (c_ephem st); last_cleanup := last_cleanup st |})
  | None =>
      let '(v, st) := make_ephem_key st mgr raw_pubkey r in
      match v with
      | Ok v => (Ok v, {| c_ecdh := c_ecdh st; c_derived := c_derived st;
                          c_ephem := lru_add MAXSIZE (mgr, raw_pubkey) v (c_ephem st); last_cleanup := last_cleanup st |})
      | Err e => (Err e, st)
      end
  end.

(** cryptography.py 285, 286 *)
Definition BLOCK_SIZE : nat := 16.
Definition OVERHEAD : nat := 1 + 64 + 16 + 32.

(** cryptography.py 292-319 *)
Definition encrypt (st : kstate) (mgr : nat) (data raw_pubkey shared : bytes) (r : rnd) : result bytes * kstate :=
  let '(k, st) := get_ephem_key st mgr raw_pubkey r in
  match k with
  | Err e => (Err e, st)
  | Ok (enc_key, mac_key, ephem_pubkey) =>
      let iv := r_iv r in
      (if negb (Nat.eqb (List.length iv) 16) then Err EAssertionError else
       let ciphertext := aes_ctr C enc_key iv data in
       if negb (Nat.eqb (List.length ciphertext) (List.length data)) then Err EAssertionError else
       let msg := ephem_pubkey ++ iv ++ ciphertext in
       let tag := hmac_sha256 C mac_key (skipn (1 + 64) msg ++ shared) in
       if negb (Nat.eqb (List.length tag) 32) then Err EAssertionError else
       let msg := msg ++ tag in
       if negb (Nat.eqb (List.length msg) (OVERHEAD + List.length data)) then Err EAssertionError else
       Ok msg, st)
  end.

(** [data[i:-32]] *)
Definition slice_mid (i : nat) (data : bytes) : bytes :=
  firstn (List.length data - 32 - i) (skipn i data).

(** cryptography.py 321-365 *)
Definition decrypt (st : kstate) (mgr : nat) (data raw_privkey shared : bytes) : result bytes * kstate :=
  if negb (bytes_eqb (firstn 1 data) [x04]) then (Err EDecryptionError, st) else
  let ephem_pubkey := firstn (1 + 64) data in
  match secret_of C raw_privkey with
  | None => (Err EValueError, st)
  | Some secret =>
    let '(km, st) := ecdh st secret ephem_pubkey in
    match km with
    | Err e => (Err e, st)
    | Ok km =>
      if negb (Nat.eqb (List.length km) 32) then (Err EAssertionError, st) else
      let '(keys, st) := get_derived_keys st mgr km in
      match keys with
      | Err e => (Err e, st)
      | Ok (enc_key, mac_key) =>
        let tag := slice_last 32 data in
        (if negb (Nat.eqb (List.length tag) 32) then Err EAssertionError else
         if negb (bytes_eqb (hmac_sha256 C mac_key (slice_mid (1 + 64) data ++ shared)) tag)
         then Err EDecryptionError else
         let iv := firstn BLOCK_SIZE (skipn (1 + 64) data) in
         if negb (Nat.eqb (List.length iv) 16) then Err EAssertionError else
         let ciphertext := slice_mid (1 + 64 + BLOCK_SIZE) data in
         if negb (Nat.eqb (List.length ephem_pubkey + List.length iv + List.length ciphertext + List.length tag)
                    (List.length data)) then Err EAssertionError else
         let msg := aes_ctr C enc_key iv ciphertext in
         if negb (Nat.eqb (List.length msg) (List.length ciphertext)) then Err EAssertionError else
         Ok msg, st)
      end
    end
  end.

(** ** Histories *)
Inductive eop :=
| OpEncrypt (mgr : nat) (data raw_pubkey shared : bytes) (r : rnd)
| OpDecrypt (mgr : nat) (data raw_privkey shared : bytes).
Definition estep (st : kstate) (o : eop) : kstate :=
  match o with
  | OpEncrypt m d p s r => snd (encrypt st m d p s r)
  | OpDecrypt m d k s => snd (decrypt st m d k s)
  end.
Definition erun (ops : list eop) (st : kstate) : kstate := fold_left estep ops st.
End WithCrypto.
