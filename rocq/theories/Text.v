(** * String utilities of the Python standard library used by /repo:
    [str.split], [str.replace(x, '')], [str.strip(chars)], [int(s, 16)],
    [binascii.hexlify]/[unhexlify], [ipaddress.ip_address] (Python 3.6). *)
From Verif Require Export CborProofs.

(** [s.split(c)] for a single character *)
Fixpoint split_on (c : Z) (s : ustr) : list ustr :=
  match s with
  | [] => [[]]
  | x :: r =>
      if x =? c then [] :: split_on c r
      else match split_on c r with
           | [] => [[x]]
           | h :: t => (x :: h) :: t
           end
  end.

Fixpoint is_prefix (p s : ustr) : bool :=
  match p, s with
  | [], _ => true
  | a :: p', b :: s' => (a =? b) && is_prefix p' s'
  | _, _ => false
  end.
(** [s.replace(p, '')]; [k] counts characters of a match still to drop *)
Fixpoint drop_all (p : ustr) (k : nat) (s : ustr) : ustr :=
  match s with
  | [] => []
  | x :: r =>
      match k with
      | S k' => drop_all p k' r
      | O => if is_prefix p s then drop_all p (List.length p - 1) r else x :: drop_all p O r
      end
  end.
Definition remove_all (p s : ustr) : ustr := drop_all p O s.

Fixpoint lstrip (f : Z -> bool) (s : ustr) : ustr :=
  match s with
  | x :: r => if f x then lstrip f r else s
  | [] => []
  end.
Definition strip (f : Z -> bool) (s : ustr) : ustr := rev (lstrip f (rev (lstrip f s))).

(** ** Hexadecimal digits *)
Definition hexval (c : Z) : option Z :=
  if (48 <=? c) && (c <=? 57) then Some (c - 48)
  else if (97 <=? c) && (c <=? 102) then Some (c - 87)
  else if (65 <=? c) && (c <=? 70) then Some (c - 55)
  else None.
Definition hexdig (d : Z) : Z := if d <? 10 then 48 + d else 87 + d.
Lemma hexval_dig d : 0 <= d < 16 -> hexval (hexdig d) = Some d.
Proof.
  intros H. unfold hexval, hexdig. destruct (d <? 10) eqn:E.
  - replace ((48 <=? 48 + d) && (48 + d <=? 57)) with true by lia. f_equal; lia.
  - replace ((48 <=? 87 + d) && (87 + d <=? 57)) with false by lia.
    replace ((97 <=? 87 + d) && (87 + d <=? 102)) with true by lia. f_equal; lia.
Qed.
Lemma hexval_range c d : hexval c = Some d -> 0 <= d < 16.
Proof.
  unfold hexval.
  destruct ((48 <=? c) && (c <=? 57)) eqn:E1; [intros [= <-]; lia|].
  destruct ((97 <=? c) && (c <=? 102)) eqn:E2; [intros [= <-]; lia|].
  destruct ((65 <=? c) && (c <=? 70)) eqn:E3; [intros [= <-]; lia|discriminate].
Qed.

(** [binascii.hexlify(b)] as text ([bytes.hex()] is the same) *)
Definition hexlify (b : bytes) : ustr :=
  flat_map (fun x => [hexdig (b2z x / 16); hexdig (b2z x mod 16)]) b.

(** [binascii.unhexlify] on characters: odd length or a non-hex digit is [None] *)
Fixpoint unhex (s : ustr) : option bytes :=
  match s with
  | [] => Some []
  | a :: b :: r =>
      match hexval a, hexval b, unhex r with
      | Some x, Some y, Some t => Some (z2b (x * 16 + y) :: t)
      | _, _, _ => None
      end
  | [_] => None
  end.

Lemma unhex_hexlify b : unhex (hexlify b) = Some b.
Proof.
  induction b as [|x b IH]; [reflexivity|].
  unfold hexlify in *. cbn [flat_map app unhex].
  pose proof (b2z_range x).
  rewrite !hexval_dig by lia. rewrite IH.
  replace (b2z x / 16 * 16 + b2z x mod 16) with (b2z x) by lia. rewrite z2b_b2z. reflexivity.
Qed.

Lemma hexlify_length b : List.length (hexlify b) = (2 * List.length b)%nat.
Proof.
  induction b as [|x b IH]; [reflexivity|].
  change (hexlify (x :: b)) with ([hexdig (b2z x / 16); hexdig (b2z x mod 16)] ++ hexlify b).
  rewrite app_length, IH. cbn [List.length]. lia.
Qed.
Lemma hexlify_app a b : hexlify (a ++ b) = hexlify a ++ hexlify b.
Proof. unfold hexlify. apply flat_map_app. Qed.
Lemma hexlify_inj a b : hexlify a = hexlify b -> a = b.
Proof.
  intros H. assert (E : Some a = Some b) by (rewrite <- (unhex_hexlify a), <- (unhex_hexlify b), H; reflexivity).
  congruence.
Qed.

(** [binascii.unhexlify(x)] (utils.py 31-32): str must be ASCII, bytes are taken
    as characters, anything else is a TypeError *)
Definition decode_hex (v : pyval) : result bytes :=
  let go s := match unhex s with Some b => Ok b | None => Err EBinasciiError end in
  match v with
  | VStr s => if is_ascii s then go s else Err EValueError
  | VEnum e s => if is_string_enum e then go (u s) else Err ETypeError
  | VBytes b => go (map b2z b)
  | _ => Err ETypeError
  end.

(** [encode_hex] (utils.py 21-28): the comparison [b[0] == b'0'] is between an
    int and bytes and never true, so no prefix is stripped; [b[0]] of an empty
    value is an IndexError *)
Definition encode_hex (v : pyval) : result ustr :=
  let go b := match b with [] => Err EIndexError | _ => Ok (hexlify b) end in
  match v with
  | VStr s => match utf8_enc s with Some b => go b | None => Err EUnicodeError end
  | VEnum e s =>
      if is_string_enum e then
        match utf8_enc (u s) with Some b => go b | None => Err EUnicodeError end
      else Err ETypeError
  | VBytes b => go b
  | _ => Err ETypeError
  end.

(** ** Decimal digits: [str.isdecimal] and [unicodedata.decimal] of Python 3.6
    (category Nd of Unicode 9.0): beside 0-9, ten consecutive characters from each of
    these zeros on *)
Definition is_digit (c : Z) : bool := (48 <=? c) && (c <=? 57).
Definition digit_zeros : list Z :=
  [1632; 1776; 1984; 2406; 2534; 2662; 2790; 2918; 3046; 3174; 3302; 3430; 3558; 3664; 3792; 3872; 4160;
   4240; 6112; 6160; 6470; 6608; 6784; 6800; 6992; 7088; 7232; 7248; 42528; 43216; 43264; 43472; 43504;
   43600; 44016; 65296; 66720; 69734; 69872; 69942; 70096; 70384; 70736; 70864; 71248; 71360; 71472; 71904;
   72784; 92768; 93008; 120782; 120792; 120802; 120812; 120822; 125264].
Definition decimal (c : Z) : option Z :=
  if is_digit c then Some (c - 48)
  else match find (fun z => (z <=? c) && (c <=? z + 9)) digit_zeros with Some z => Some (c - z) | None => None end.

(** ** [int(s, 16)]; [None] stands for ValueError.  Non-ASCII digits and spaces count as
    their ASCII counterparts (CPython's _PyUnicode_TransformDecimalAndSpaceToASCII); of
    the ASCII characters only these six are skipped *)
Definition is_space (c : Z) : bool := ((9 <=? c) && (c <=? 13)) || (c =? 32).
Definition wide_spaces : list Z :=
  [133; 160; 5760; 8192; 8193; 8194; 8195; 8196; 8197; 8198; 8199; 8200; 8201; 8202; 8232; 8233; 8239; 8287; 12288].
Definition plain_char (c : Z) : Z :=
  if c <? 128 then c
  else if existsb (Z.eqb c) wide_spaces then 32
  else match decimal c with Some d => 48 + d | None => c end.
Fixpoint hex_run (s : ustr) (acc : Z) (started us : bool) : option (Z * ustr) :=
  match s with
  | [] => if started && negb us then Some (acc, []) else None
  | c :: r =>
      match hexval c with
      | Some d => hex_run r (acc * 16 + d) true false
      | None =>
          if c =? 95 then if started && negb us then hex_run r acc started true else None
          else if started && negb us then Some (acc, s) else None
      end
  end.
Definition skip_0x (s : ustr) : ustr :=
  match s with
  | a :: b :: r =>
      if (a =? 48) && ((b =? 120) || (b =? 88))
      then match r with c :: r' => if c =? 95 then r' else r | [] => [] end
      else s
  | _ => s
  end.
Definition int_sign (s : ustr) : bool * ustr :=
  match s with
  | a :: r => if a =? 43 then (false, r) else if a =? 45 then (true, r) else (false, s)
  | [] => (false, s)
  end.
Definition py_int16 (s : ustr) : option Z :=
  let '(neg, s) := int_sign (lstrip is_space (map plain_char s)) in
  match hex_run (skip_0x s) 0 false false with
  | Some (v, r) => if forallb is_space r then Some (if neg then - v else v) else None
  | None => None
  end.

(** ** ipaddress.ip_address (Python 3.6), validity only (ASCII digits only) *)
Definition dec_val (s : ustr) : Z := fold_left (fun acc c => acc * 10 + (c - 48)) s 0.
(** IPv4Address._parse_octet *)
Definition ipv4_octet (s : ustr) : bool :=
  match s with
  | [] => false
  | c :: _ =>
      forallb is_digit s && (Nat.leb (List.length s) 3)
      && negb ((7 <? dec_val s) && (c =? 48)) && (dec_val s <=? 255)
  end.
(** IPv4Address._ip_int_from_string *)
Definition ipv4_ok (s : ustr) : bool :=
  let parts := split_on 46 s in
  Nat.eqb (List.length parts) 4 && forallb ipv4_octet parts.
(** IPv6Address._parse_hextet *)
Definition ipv6_hextet (s : ustr) : bool :=
  match s with
  | [] => false
  | _ => forallb (fun c => match hexval c with Some _ => true | None => false end) s
         && Nat.leb (List.length s) 4
  end.
(** positions of empty parts strictly inside the list *)
Fixpoint inner_empty (i : nat) (parts : list ustr) : list nat :=
  match parts with
  | [] | [_] => []
  | p :: r =>
      (match i, p with S _, [] => [i] | _, _ => [] end) ++ inner_empty (S i) r
  end.
Definition is_nil {A} (l : list A) : bool := match l with [] => true | _ => false end.
(** IPv6Address._ip_int_from_string *)
Definition ipv6_ok (s : ustr) : bool :=
  let parts := split_on 58 s in
  if Nat.ltb (List.length parts) 3 then false else
  let lastp := last parts [] in
  let dotted := existsb (Z.eqb 46) lastp in
  if dotted && negb (ipv4_ok lastp) then false else
  let parts := if dotted then removelast parts ++ [u "0"; u "0"] else parts in
  let n := List.length parts in
  if Nat.ltb 9 n then false else
  let first_nil := is_nil (hd [] parts) in
  let last_nil := is_nil (last parts []) in
  match inner_empty 0 parts with
  | [] =>
      Nat.eqb n 8 && negb first_nil && negb last_nil && forallb ipv6_hextet parts
  | [k] =>
      let hi := k in
      let lo := (n - k - 1)%nat in
      let hi' := if first_nil then (hi - 1)%nat else hi in
      let lo' := if last_nil then (lo - 1)%nat else lo in
      if first_nil && negb (Nat.eqb hi' 0) then false
      else if last_nil && negb (Nat.eqb lo' 0) then false
      else Nat.ltb (hi' + lo') 8
           && forallb ipv6_hextet (firstn hi' parts)
           && forallb ipv6_hextet (skipn (n - lo') parts)
  | _ => false
  end.
(** ip_address(v) does not raise: text, packed bytes, or an integer; any other
    object is converted with [str()], which never yields an address for the
    values modelled here *)
Definition ip_ok (v : pyval) : bool :=
  match v with
  | VStr s => ipv4_ok s || ipv6_ok s
  | VBytes b => Nat.eqb (List.length b) 4 || Nat.eqb (List.length b) 16
  | VInt z => (0 <=? z) && (z <? 2 ^ 128)
  | VBool _ => true
  | _ => false
  end.

Example ip_examples :
  map ip_ok [VStr (u "127.0.0.1"); VStr (u "::1"); VStr (u "2001:db8::8:800:200c:417a");
             VStr (u "::"); VStr (u "::ffff:1.2.3.4"); VStr (u "1:2:3:4:5:6:7::")]
  = [true; true; true; true; true; true]
  /\ map ip_ok [VStr (u "127.0.0.256"); VStr (u "010.0.0.1"); VStr (u "1::2::3"); VStr (u ":1:2:3:4:5:6:7");
                VStr (u "1.2.3"); VStr []; VNone; VInt (-1); VBytes []; VStr (u "12345::")]
     = [false; false; false; false; false; false; false; false; false; false].
Proof. split; vm_compute; reflexivity. Qed.

(** ** Digits of any script *)
(** [c] stands for the digit [d] *)
Definition nd (c d : Z) : Prop := exists z, In z (48 :: digit_zeros) /\ 0 <= d <= 9 /\ c = z + d.
Lemma decimal_iff c d : decimal c = Some d <-> nd c d.
Proof.
  split.
  - unfold decimal, nd. destruct (is_digit c) eqn:E.
    + intros H. exists 48. unfold is_digit in E. assert (d = c - 48) by congruence. split; [left; reflexivity|lia].
    + destruct (find _ digit_zeros) as [z|] eqn:F; [|discriminate]. apply find_some in F as [I F]. intros H. assert (d = c - z) by congruence.
      exists z. split; [right; exact I|lia].
  - intros (z & I & D & ->).
    assert (T : forallb (fun z => forallb (fun d => match decimal (z + d) with Some d' => d' =? d | None => false end) [0; 1; 2; 3; 4; 5; 6; 7; 8; 9])
                  (48 :: digit_zeros) = true) by (vm_compute; reflexivity).
    rewrite forallb_forall in T. specialize (T z I). cbv beta in T. rewrite forallb_forall in T.
    assert (Id : In d [0; 1; 2; 3; 4; 5; 6; 7; 8; 9]) by (cbn [In]; lia). specialize (T d Id).
    destruct (decimal (z + d)); [|discriminate]. apply Z.eqb_eq in T. congruence.
Qed.
(** the ASCII digits are their own script *)
Lemma nd_ascii c d : nd c d -> (c < 1632 -> 48 <= c <= 57 /\ d = c - 48) /\ (c = 48 -> d = 0).
Proof.
  intros (z & [<-|I] & D & ->); [lia|]. assert (T : forallb (fun z => 1632 <=? z) digit_zeros = true) by reflexivity.
  rewrite forallb_forall in T. specialize (T z I). lia.
Qed.
Lemma nd_unique c d d' : nd c d -> nd c d' -> d = d'.
Proof. rewrite <- !decimal_iff. congruence. Qed.
(** [c] is read as [c'] by [int] *)
Definition typed (c c' : Z) : Prop := (c < 128 /\ c' = c) \/ (In c wide_spaces /\ c' = 32) \/ exists d, nd c d /\ c' = 48 + d.
Lemma typed_iff c c' : typed c c' <-> c' = plain_char c /\ c' < 128.
Proof.
  unfold typed, plain_char. split.
  - intros [[H ->]|[[I ->]|(d & N & ->)]].
    + replace (c <? 128) with true by lia. auto.
    + assert (T : forallb (fun c => 128 <=? c) wide_spaces = true) by reflexivity. rewrite forallb_forall in T. specialize (T c I). cbv beta in T.
      replace (c <? 128) with false by lia. assert (E : existsb (Z.eqb c) wide_spaces = true) by (apply existsb_exists; exists c; split; [exact I|apply Z.eqb_refl]).
      rewrite E. lia.
    + pose proof (nd_ascii c d N) as [A _]. destruct (Z.ltb_spec c 128) as [L|L]; [lia|].
      assert (B : 0 <= d <= 9) by (destruct N as (z & _ & B & _); exact B).
      destruct (existsb (Z.eqb c) wide_spaces) eqn:E; [exfalso|apply decimal_iff in N; rewrite N; lia].
      apply existsb_exists in E as (x & I & E). apply Z.eqb_eq in E. subst x. apply decimal_iff in N.
      assert (T : forallb (fun c => match decimal c with None => true | _ => false end) wide_spaces = true) by (vm_compute; reflexivity).
      rewrite forallb_forall in T. specialize (T c I). cbv beta in T. rewrite N in T. discriminate T.
  - intros [E L]. destruct (Z.ltb_spec c 128) as [B|B]; [auto|]. destruct (existsb (Z.eqb c) wide_spaces) eqn:X.
    + apply existsb_exists in X as (x & I & Q). apply Z.eqb_eq in Q. subst x. right. left. auto.
    + destruct (decimal c) as [d|] eqn:D; [|lia]. apply decimal_iff in D. right. right. exists d. auto.
Qed.
Lemma typed_all s r : Forall2 typed s r <-> r = map plain_char s /\ Forall (fun c => c < 128) r.
Proof.
  revert r. induction s as [|c s IH]; intros r.
  - split; [intros H; inversion H; subst; auto|intros [-> _]; constructor].
  - split.
    + intros H. inversion H as [|? x ? r' H1 H2]; subst. apply typed_iff in H1 as [-> L]. apply IH in H2 as [-> F]. split; [reflexivity|constructor; assumption].
    + intros [-> F]. cbn [map] in *. apply Forall_cons_iff in F as [L F]. constructor; [apply typed_iff; auto|apply IH; auto].
Qed.
