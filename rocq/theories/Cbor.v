(** * CBOR (cbor==1.0.0) and the serializer wrapper (serializer.py 12-35).

    Encoder and decoder are modelled concretely.  The library itself is not part
    of /repo; this file models the behaviour of its C implementation
    [cbor.dumps]/[cbor.loads] (RFC 7049): minimal heads, floats always as 8-byte
    doubles, big integers as tags 2/3, subclasses of str/dict/tuple encoded as
    text/map/array, indefinite lengths accepted when decoding, bytes after the
    first item ignored.  Simplifications: tags other than 2 and 3 decode to an
    opaque [cbor.Tag]; the recursion limit is a parameter [d]. *)
From Verif Require Export Utf8.

(** Largest magnitude encoded without a bignum tag. The round-trip results below
    only use that these are at most 2^64-1. *)
Definition cbor_uint_max : Z := 2 ^ 64 - 1.
Definition cbor_negint_max : Z := 2 ^ 63 - 1.

Definition enc_head (maj n : Z) : option bytes :=
  if n <? 0 then None
  else if n <? 24 then Some [z2b (maj * 32 + n)]
  else if n <? 2 ^ 8 then Some (z2b (maj * 32 + 24) :: be_enc 1 n)
  else if n <? 2 ^ 16 then Some (z2b (maj * 32 + 25) :: be_enc 2 n)
  else if n <? 2 ^ 32 then Some (z2b (maj * 32 + 26) :: be_enc 4 n)
  else if n <? 2 ^ 64 then Some (z2b (maj * 32 + 27) :: be_enc 8 n)
  else None.

Definition oapp (a b : option bytes) : option bytes :=
  match a, b with Some x, Some y => Some (x ++ y) | _, _ => None end.

(** minimal big-endian bytes of a positive integer *)
Definition big_bytes (z : Z) : bytes := be_enc (Z.to_nat (Z.log2 z / 8 + 1)) z.

Definition enc_bstr (b : bytes) : option bytes := oapp (enc_head 2 (blen b)) (Some b).
Definition enc_text (s : ustr) : option bytes :=
  match utf8_enc s with
  | Some b => oapp (enc_head 3 (blen b)) (Some b)
  | None => None
  end.
Definition enc_int (z : Z) : option bytes :=
  if 0 <=? z then
    if z <=? cbor_uint_max then enc_head 0 z
    else oapp (enc_head 6 2) (enc_bstr (big_bytes z))
  else
    if -1 - z <=? cbor_negint_max then enc_head 1 (-1 - z)
    else oapp (enc_head 6 3) (enc_bstr (big_bytes (-1 - z))).

(** [cbor.dumps]; [None] stands for any exception *)
Fixpoint enc (v : pyval) : option bytes :=
  match v with
  | VNone => Some [z2b 246]
  | VBool false => Some [z2b 244]
  | VBool true => Some [z2b 245]
  | VInt z => enc_int z
  | VFloat b => if (0 <=? b) && (b <? 2 ^ 64) then Some (z2b 251 :: be_enc 8 b) else None
  | VStr s => enc_text s
  | VBytes b => enc_bstr b
  | VList l | VTuple l =>
      oapp (enc_head 4 (Z.of_nat (List.length l)))
           (fold_right (fun x acc => oapp (enc x) acc) (Some []) l)
  | VDict _ kvs =>
      oapp (enc_head 5 (Z.of_nat (List.length kvs)))
           (fold_right (fun kv acc => oapp (oapp (enc (fst kv)) (enc (snd kv))) acc) (Some []) kvs)
  | VEnum e s => if is_string_enum e then enc_text (u s) else None
  | VTag n x => oapp (enc_head 6 n) (enc x)
  | VObj _ _ | VMask _ | VMsg _ _ _ _ _ _ => None
  end.

(** ** Decoder *)

Definition take (n : Z) (bs : bytes) : option (bytes * bytes) :=
  if (0 <=? n) && (n <=? blen bs)
  then Some (firstn (Z.to_nat n) bs, skipn (Z.to_nat n) bs) else None.

Record head := { h_maj : Z; h_ai : Z; h_arg : Z; h_indef : bool }.

Definition dec_head (bs : bytes) : option (head * bytes) :=
  match bs with
  | [] => None
  | b :: r =>
      let maj := b2z b / 32 in
      let ai := b2z b mod 32 in
      let fixed n :=
        match take n r with
        | Some (a, r') => Some ({| h_maj := maj; h_ai := ai; h_arg := be_dec a; h_indef := false |}, r')
        | None => None
        end in
      if ai <? 24 then Some ({| h_maj := maj; h_ai := ai; h_arg := ai; h_indef := false |}, r)
      else if ai =? 24 then fixed 1
      else if ai =? 25 then fixed 2
      else if ai =? 26 then fixed 4
      else if ai =? 27 then fixed 8
      else if ai =? 31 then Some ({| h_maj := maj; h_ai := ai; h_arg := 0; h_indef := true |}, r)
      else None
  end.

(** chunks of an indefinite-length string, up to the 0xff break *)
Fixpoint dec_chunks (maj : Z) (fuel : nat) (bs acc : bytes) : option (bytes * bytes) :=
  match fuel with
  | O => None
  | S fuel' =>
      match dec_head bs with
      | Some (h, r) =>
          if (h_maj h =? 7) && h_indef h then Some (acc, r)
          else if (h_maj h =? maj) && negb (h_indef h) then
            match take (h_arg h) r with
            | Some (a, r') => dec_chunks maj fuel' r' (acc ++ a)
            | None => None
            end
          else None
      | None => None
      end
  end.

Definition dec_str_body (h : head) (r : bytes) : option (bytes * bytes) :=
  if h_indef h then dec_chunks (h_maj h) (List.length r) r [] else take (h_arg h) r.

(** binary16 and binary32 patterns widened to binary64 patterns *)
Definition widen (ebits mbits bias : Z) (w : Z) : Z :=
  let sgn := w / 2 ^ (ebits + mbits) in
  let ex := (w / 2 ^ mbits) mod 2 ^ ebits in
  let m := w mod 2 ^ mbits in
  let body :=
    if ex =? 2 ^ ebits - 1 then 2047 * 2 ^ 52 + m * 2 ^ (52 - mbits)
    else if ex =? 0 then
      if m =? 0 then 0
      else let l := Z.log2 m in
           (* subnormal: m * 2^(1-bias-mbits) *)
           (l + 1 - bias - mbits + 1023) * 2 ^ 52 + (m - 2 ^ l) * 2 ^ (52 - l)
    else (ex - bias + 1023) * 2 ^ 52 + m * 2 ^ (52 - mbits) in
  sgn * 2 ^ 63 + body.

Definition simple7 (h : head) : option pyval :=
  if h_indef h then None
  else if h_ai h =? 20 then Some (VBool false)
  else if h_ai h =? 21 then Some (VBool true)
  else if h_ai h =? 22 then Some VNone
  else if h_ai h =? 23 then Some VNone
  else if h_ai h =? 25 then Some (VFloat (widen 5 10 15 (h_arg h)))
  else if h_ai h =? 26 then Some (VFloat (widen 8 23 127 (h_arg h)))
  else if h_ai h =? 27 then Some (VFloat (h_arg h))
  else None.

Definition is_break (bs : bytes) : bool :=
  match bs with b :: _ => b2z b =? 255 | [] => false end.

(** [n] items; every item consumes at least one byte, so running out of [fuel]
    (the number of remaining bytes) is running out of input *)
Fixpoint dec_items (f : bytes -> option (pyval * bytes)) (fuel : nat) (n : Z) (bs : bytes)
  : option (list pyval * bytes) :=
  if n <=? 0 then Some ([], bs) else
  match fuel with
  | O => None
  | S fuel' =>
      match f bs with
      | Some (x, r) =>
          match dec_items f fuel' (n - 1) r with
          | Some (xs, r') => Some (x :: xs, r')
          | None => None
          end
      | None => None
      end
  end.

Fixpoint dec_items_indef (f : bytes -> option (pyval * bytes)) (fuel : nat) (bs : bytes)
  : option (list pyval * bytes) :=
  if is_break bs then Some ([], tl bs) else
  match fuel with
  | O => None
  | S fuel' =>
      match f bs with
      | Some (x, r) =>
          match dec_items_indef f fuel' r with
          | Some (xs, r') => Some (x :: xs, r')
          | None => None
          end
      | None => None
      end
  end.

Fixpoint dec_pairs (f : bytes -> option (pyval * bytes)) (fuel : nat) (n : Z) (bs : bytes)
         (acc : list (pyval * pyval)) : option (list (pyval * pyval) * bytes) :=
  if n <=? 0 then Some (acc, bs) else
  match fuel with
  | O => None
  | S fuel' =>
      match f bs with
      | Some (k, r) =>
          match f r with
          | Some (v, r') =>
              if hashable k then dec_pairs f fuel' (n - 1) r' (dict_set k v acc) else None
          | None => None
          end
      | None => None
      end
  end.

Fixpoint dec_pairs_indef (f : bytes -> option (pyval * bytes)) (fuel : nat) (bs : bytes)
         (acc : list (pyval * pyval)) : option (list (pyval * pyval) * bytes) :=
  if is_break bs then Some (acc, tl bs) else
  match fuel with
  | O => None
  | S fuel' =>
      match f bs with
      | Some (k, r) =>
          match f r with
          | Some (v, r') =>
              if hashable k then dec_pairs_indef f fuel' r' (dict_set k v acc) else None
          | None => None
          end
      | None => None
      end
  end.

(** [cbor.loads] on a stream: first item and the rest; [None] = any exception *)
Fixpoint dec (d : nat) (bs : bytes) : option (pyval * bytes) :=
  match d with
  | O => None
  | S d' =>
    match dec_head bs with
    | None => None
    | Some (h, r) =>
      if h_maj h =? 0 then if h_indef h then None else Some (VInt (h_arg h), r)
      else if h_maj h =? 1 then if h_indef h then None else Some (VInt (-1 - h_arg h), r)
      else if h_maj h =? 2 then
        match dec_str_body h r with Some (b, r') => Some (VBytes b, r') | None => None end
      else if h_maj h =? 3 then
        match dec_str_body h r with
        | Some (b, r') => match utf8_dec b with Some s => Some (VStr s, r') | None => None end
        | None => None
        end
      else if h_maj h =? 4 then
        match (if h_indef h then dec_items_indef (dec d') (List.length r) r
               else dec_items (dec d') (List.length r) (h_arg h) r) with
        | Some (l, r') => Some (VList l, r')
        | None => None
        end
      else if h_maj h =? 5 then
        match (if h_indef h then dec_pairs_indef (dec d') (List.length r) r []
               else dec_pairs (dec d') (List.length r) (h_arg h) r []) with
        | Some (l, r') => Some (VDict DPlain l, r')
        | None => None
        end
      else if h_maj h =? 6 then
        if h_indef h then None
        else if (h_arg h =? 2) || (h_arg h =? 3) then
          match dec_head r with
          | Some (h2, r2) =>
              if h_maj h2 =? 2 then
                match dec_str_body h2 r2 with
                | Some (b, r3) =>
                    Some (VInt (if h_arg h =? 2 then be_dec b else -1 - be_dec b), r3)
                | None => None
                end
              else None
          | None => None
          end
        else
          match dec d' r with Some (v, r') => Some (VTag (h_arg h) v, r') | None => None end
      else match simple7 h with Some v => Some (v, r) | None => None end
    end
  end.

(** serializer.py 34: [dumps = wrap_error(SerializationError)(cbor.dumps)] *)
Definition dumps (v : pyval) : result bytes :=
  match enc v with Some b => Ok b | None => Err ESerializationError end.
(** serializer.py 35: [loads = wrap_error(SerializationError)(cbor.loads)] *)
Definition loads (d : nat) (bs : bytes) : result pyval :=
  match dec d bs with Some (v, _) => Ok v | None => Err ESerializationError end.

(** ** What the wire can represent *)

(** the value seen by the receiver: tuples become lists, dict subclasses plain
    dicts, str-mixin enum members plain strings *)
Fixpoint norm (v : pyval) : pyval :=
  match v with
  | VList l | VTuple l => VList (map norm l)
  | VDict _ kvs => VDict DPlain (map (fun kv => (norm (fst kv), norm (snd kv))) kvs)
  | VEnum e s => if is_string_enum e then VStr (u s) else v
  | VTag n x => VTag n (norm x)
  | _ => v
  end.

Fixpoint nodup_keys (ks : list pyval) : bool :=
  match ks with
  | [] => true
  | k :: r => forallb (fun k2 => negb (py_eq k k2)) r && nodup_keys r
  end.

(** the receiver does not lose keys: map keys stay hashable and distinct; tags 2
    and 3 are reserved for integers *)
Fixpoint wirewf (v : pyval) : bool :=
  match v with
  | VList l | VTuple l => forallb wirewf l
  | VDict _ kvs =>
      forallb (fun kv => hashable (norm (fst kv))) kvs
      && nodup_keys (map (fun kv => norm (fst kv)) kvs)
      && forallb (fun kv => wirewf (fst kv) && wirewf (snd kv)) kvs
  | VTag n x => negb (n =? 2) && negb (n =? 3) && wirewf x
  | _ => true
  end.
