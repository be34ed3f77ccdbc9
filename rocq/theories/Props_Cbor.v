(** * Which bytes load, and to what *)
From Verif Require Import SerFacts CborSpec CborFloat.

(** ** C74 *)
(** bytes load to a value exactly if they begin with a spelling of it, in the sense of
    RFC 7049: heads of any width, strings, lists and dicts of known or unknown length,
    repeated keys, bignums, tags and floats of three widths *)
Theorem C74_loads :
  forall d bs v, loads d bs = Ok v <-> exists e r, bs = e ++ r /\ spelt d e v.
Proof. exact loads_exact. Qed.
Print Assumptions C74_loads.
(** all other bytes raise SerializationError *)
Theorem C74_refused :
  forall d bs, (forall e r v, bs = e ++ r -> ~ spelt d e v) <-> loads d bs = Err ESerializationError.
Proof. exact loads_refused. Qed.
Print Assumptions C74_refused.
(** no bytes begin with two spellings *)
Theorem C74_unique :
  forall d d' e e' r r' v v', spelt d e v -> spelt d' e' v' -> e ++ r = e' ++ r' -> e = e' /\ r = r' /\ v = v'.
Proof. exact spelt_unique. Qed.
Print Assumptions C74_unique.
(** text is read exactly if it is the encoding of Unicode scalars *)
Theorem C74_text :
  forall bs s, utf8_dec bs = Some s <-> utf8_enc s = Some bs.
Proof. exact utf8_iff. Qed.
Print Assumptions C74_text.
(** half and single precision floats are read to the double of the same value *)
Theorem C74_half :
  forall neg ex frac, 0 <= ex < 2 ^ 5 -> 0 <= frac < 2 ^ 10 -> let b := widen 5 10 15 (pattern 5 10 neg ex frac) in
  0 <= b < 2 ^ 64 /\ Z.testbit b 63 = neg /\
  (ex = 31 -> fl_of_bits b = if frac =? 0 then FInf neg else FNan) /\
  (ex <> 31 -> denotes b ((if neg then -1 else 1) * (if ex =? 0 then frac else 2 ^ 10 + frac)) (Z.max ex 1 - 25)).
Proof. exact half_exact. Qed.
Print Assumptions C74_half.
Theorem C74_single :
  forall neg ex frac, 0 <= ex < 2 ^ 8 -> 0 <= frac < 2 ^ 23 -> let b := widen 8 23 127 (pattern 8 23 neg ex frac) in
  0 <= b < 2 ^ 64 /\ Z.testbit b 63 = neg /\
  (ex = 255 -> fl_of_bits b = if frac =? 0 then FInf neg else FNan) /\
  (ex <> 255 -> denotes b ((if neg then -1 else 1) * (if ex =? 0 then frac else 2 ^ 23 + frac)) (Z.max ex 1 - 150)).
Proof. exact single_exact. Qed.
Print Assumptions C74_single.
Theorem C74_patterns :
  forall eb mb w, 0 < eb -> 0 < mb -> 0 <= w < 2 ^ (1 + eb + mb) -> exists neg ex frac, w = pattern eb mb neg ex frac /\ 0 <= ex < 2 ^ eb /\ 0 <= frac < 2 ^ mb.
Proof. exact pattern_all. Qed.
Print Assumptions C74_patterns.

(** a wide head, a list up to a break, a string in chunks, a key given twice, a half
    precision float, something after the value; and bytes that are refused: a missing
    byte, a lone continuation byte, a break where a value should be, a list as key *)
Example C74_ex :
  loads 9 [x19; x00; x05] = Ok (VInt 5) /\ spelt 9 [x19; x00; x05] (VInt 5) /\
  loads 9 [x9f; x01; x5f; x41; x61; x41; x62; xff; xff; xaa] = Ok (VList [VInt 1; VBytes [x61; x62]]) /\
  loads 9 [xa2; x01; x02; x01; x03] = Ok (VDict DPlain [(VInt 1, VInt 3)]) /\
  loads 9 [xf9; x00; x01] = Ok (VFloat (widen 5 10 15 (pattern 5 10 false 0 1))) /\
  loads 9 [xf9; x00; x01] = Ok (VFloat 4499096027743125504) /\
  loads 9 [xc2; x42; x01; x00] = Ok (VInt 256) /\
  map (loads 9) [[x19; x00]; [x61; x80]; [xff]; [xa1; x80; x01]; [x5f; x61; x61; xff]] = repeat (Err ESerializationError) 5.
Proof.
  split; [reflexivity|]. split; [apply S_uint; exists 25; apply (Head2 0 5); lia|]. repeat split; vm_compute; reflexivity.
Qed.
