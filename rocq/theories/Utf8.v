(** * UTF-8 as used by [cbor] for text and by [bytes(s, 'utf-8')]
    (utils.py 23; cbor 1.0.0 text strings): strict encoder and decoder. *)
From Verif Require Export Py.

(** Unicode scalar value (a lone surrogate cannot be encoded). *)
Definition scalar (c : Z) : bool :=
  (0 <=? c) && (c <=? 1114111) && negb ((55296 <=? c) && (c <=? 57343)).

Definition utf8_enc1 (c : Z) : bytes :=
  if c <? 128 then [z2b c]
  else if c <? 2048 then [z2b (192 + c / 64); z2b (128 + c mod 64)]
  else if c <? 65536 then
    [z2b (224 + c / 4096); z2b (128 + (c / 64) mod 64); z2b (128 + c mod 64)]
  else
    [z2b (240 + c / 262144); z2b (128 + (c / 4096) mod 64);
     z2b (128 + (c / 64) mod 64); z2b (128 + c mod 64)].

(** [s.encode('utf-8')]; [None] stands for UnicodeEncodeError *)
Definition utf8_enc (s : ustr) : option bytes :=
  if forallb scalar s then Some (flat_map utf8_enc1 s) else None.

Definition is_cont (b : byte) : bool := (128 <=? b2z b) && (b2z b <? 192).

(** [b.decode('utf-8')]; [None] stands for UnicodeDecodeError *)
Fixpoint utf8_dec (bs : bytes) : option ustr :=
  match bs with
  | [] => Some []
  | b0 :: r0 =>
    let z0 := b2z b0 in
    if z0 <? 128 then option_map (cons z0) (utf8_dec r0)
    else if z0 <? 194 then None
    else if z0 <? 224 then
      match r0 with
      | b1 :: r1 =>
          if is_cont b1
          then option_map (cons ((z0 - 192) * 64 + (b2z b1 - 128))) (utf8_dec r1)
          else None
      | _ => None
      end
    else if z0 <? 240 then
      match r0 with
      | b1 :: b2 :: r2 =>
          let c := (z0 - 224) * 4096 + (b2z b1 - 128) * 64 + (b2z b2 - 128) in
          if is_cont b1 && is_cont b2 && (2048 <=? c) && scalar c
          then option_map (cons c) (utf8_dec r2) else None
      | _ => None
      end
    else if z0 <? 245 then
      match r0 with
      | b1 :: b2 :: b3 :: r3 =>
          let c := (z0 - 240) * 262144 + (b2z b1 - 128) * 4096
                   + (b2z b2 - 128) * 64 + (b2z b3 - 128) in
          if is_cont b1 && is_cont b2 && is_cont b3 && (65536 <=? c) && scalar c
          then option_map (cons c) (utf8_dec r3) else None
      | _ => None
      end
    else None
  end.

Lemma utf8_dec_enc1 c r :
  scalar c = true -> utf8_dec (utf8_enc1 c ++ r) = option_map (cons c) (utf8_dec r).
Proof.
  intros H. unfold utf8_enc1.
  destruct (c <? 128) eqn:H1; [|destruct (c <? 2048) eqn:H2; [|destruct (c <? 65536) eqn:H3]];
    cbn [app utf8_dec]; unfold is_cont; rewrite !b2z_z2b_small by (unfold scalar in H; lia).
  - rewrite H1. reflexivity.
  - assert (E : 0 <= c < 2048) by (unfold scalar in H; lia).
    replace (192 + c / 64 <? 128) with false by lia.
    replace (192 + c / 64 <? 194) with false by lia.
    replace (192 + c / 64 <? 224) with true by lia.
    replace ((128 <=? 128 + c mod 64) && (128 + c mod 64 <? 192)) with true by lia.
    replace ((192 + c / 64 - 192) * 64 + (128 + c mod 64 - 128)) with c by lia. reflexivity.
  - assert (E : 2048 <= c < 65536) by (unfold scalar in H; lia).
    replace (224 + c / 4096 <? 128) with false by lia.
    replace (224 + c / 4096 <? 194) with false by lia.
    replace (224 + c / 4096 <? 224) with false by lia.
    replace (224 + c / 4096 <? 240) with true by lia.
    replace ((128 <=? 128 + (c / 64) mod 64) && (128 + (c / 64) mod 64 <? 192)) with true by lia.
    replace ((128 <=? 128 + c mod 64) && (128 + c mod 64 <? 192)) with true by lia.
    replace ((224 + c / 4096 - 224) * 4096 + (128 + (c / 64) mod 64 - 128) * 64 +
             (128 + c mod 64 - 128)) with c by lia.
    rewrite H. replace (2048 <=? c) with true by lia. reflexivity.
  - assert (E : 65536 <= c <= 1114111) by (unfold scalar in H; lia).
    replace (240 + c / 262144 <? 128) with false by lia.
    replace (240 + c / 262144 <? 194) with false by lia.
    replace (240 + c / 262144 <? 224) with false by lia.
    replace (240 + c / 262144 <? 240) with false by lia.
    replace (240 + c / 262144 <? 245) with true by lia.
    replace ((128 <=? 128 + (c / 4096) mod 64) && (128 + (c / 4096) mod 64 <? 192)) with true by lia.
    replace ((128 <=? 128 + (c / 64) mod 64) && (128 + (c / 64) mod 64 <? 192)) with true by lia.
    replace ((128 <=? 128 + c mod 64) && (128 + c mod 64 <? 192)) with true by lia.
    replace ((240 + c / 262144 - 240) * 262144 + (128 + (c / 4096) mod 64 - 128) * 4096 +
             (128 + (c / 64) mod 64 - 128) * 64 + (128 + c mod 64 - 128)) with c by lia.
    rewrite H. replace (65536 <=? c) with true by lia. reflexivity.
Qed.

Lemma utf8_dec_enc s bs : utf8_enc s = Some bs -> utf8_dec bs = Some s.
Proof.
  unfold utf8_enc. destruct (forallb scalar s) eqn:H; [|discriminate].
  intros [= <-]. induction s as [|c s IH]; [reflexivity|].
  cbn [forallb] in H. apply andb_true_iff in H as [Hc Hs].
  cbn [flat_map]. rewrite utf8_dec_enc1 by assumption. rewrite IH by assumption. reflexivity.
Qed.

Lemma utf8_enc_ok s : forallb scalar s = true -> exists bs, utf8_enc s = Some bs.
Proof. unfold utf8_enc. intros ->. eauto. Qed.

(** ASCII strings *)
Definition is_ascii (s : ustr) : bool := forallb (fun c => (0 <=? c) && (c <? 128)) s.
Lemma u_ascii_or s : forallb scalar (u s) = true.
Proof.
  induction s as [|a s IH]; [reflexivity|]. cbn [u forallb]. rewrite IH.
  unfold scalar. pose proof (N_ascii_bounded a). lia.
Qed.

(** [s.encode('ascii', 'replace')]: non-ASCII characters become '?'
    (message/base.py 683, 689) *)
Definition ascii_enc_replace (s : ustr) : bytes :=
  map (fun c => if (0 <=? c) && (c <? 128) then z2b c else z2b 63) s.
(** [b.decode('ascii', 'replace')]: non-ASCII bytes become U+FFFD
    (message/base.py 661-662) *)
Definition ascii_dec_replace (b : bytes) : ustr :=
  map (fun x => if b2z x <? 128 then b2z x else 65533) b.

Lemma ascii_dec_enc s : is_ascii s = true -> ascii_dec_replace (ascii_enc_replace s) = s.
Proof.
  unfold is_ascii, ascii_dec_replace, ascii_enc_replace. rewrite map_map.
  induction s as [|c s IH]; cbn [forallb map]; [reflexivity|].
  rewrite andb_true_iff. intros [Hc Hs]. rewrite Hc.
  rewrite b2z_z2b_small by lia. replace (c <? 128) with true by lia. rewrite (IH Hs). reflexivity.
Qed.
