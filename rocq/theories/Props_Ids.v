(** * Property theorems: identifiers, hex and uuid helpers (C21, C22, C52) *)
From Verif Require Import TextFacts.

(** ** C21 An id generated from a seed passes [check_id_seed] for exactly the
    seeds whose first six bytes, read as a big-endian number, are the same. *)
Theorem C21_id_carries_seed :
  forall last now cs seed,
  exists id last', generate_id last now cs seed = (Ok id, last') /\
    forall seed2,
      check_id_seed (VStr id) seed2 = Ok (be_dec (firstn 6 seed2) =? be_dec (firstn 6 seed)).
Proof. exact id_carries_seed. Qed.
Print Assumptions C21_id_carries_seed.
Example C21_id_carries_seed_ex :
  check_id_seed (VStr (u "00000001-0000-1000-8000-000102030405")) [x00; x01; x02; x03; x04; x05; xff] = Ok true
  /\ check_id_seed (VStr (u "00000001-0000-1000-8000-000102030405")) [x00; x01; x02; x03; x04; x06] = Ok false
  /\ fst (generate_id None 1 0 [x00; x01; x02; x03; x04; x05; xff])
     = Ok (u "00000001-0000-1000-8000-000102030405").
Proof. repeat split; vm_compute; reflexivity. Qed.

(** for seeds of at least six bytes (public keys): exactly the same first six bytes *)
Theorem C21_id_accepts_exactly_same_prefix :
  forall last now cs seed id last' seed2,
  generate_id last now cs seed = (Ok id, last') ->
  (6 <= List.length seed)%nat -> (6 <= List.length seed2)%nat ->
  (check_id_seed (VStr id) seed2 = Ok true <-> firstn 6 seed2 = firstn 6 seed).
Proof. exact check_generated_iff. Qed.
Print Assumptions C21_id_accepts_exactly_same_prefix.

(** the hex variant agrees with the bytes variant on the decoded seed *)
Theorem C21_hex_variant :
  forall last now cs b,
  generate_id_from_hex last now cs (VStr (hexlify b)) = generate_id last now cs b /\
  forall id_, check_id_hex_seed id_ (VStr (hexlify b)) = check_id_seed id_ b.
Proof. exact hex_variant. Qed.
Print Assumptions C21_hex_variant.

(** the number put into the id for a hex seed is that of its first six bytes *)
Theorem C21_node_of_hex_seed :
  forall b, hex_seed_to_node (VStr (hexlify b)) = Ok (be_dec (firstn 6 b)).
Proof. exact node_of_hex_seed. Qed.
Print Assumptions C21_node_of_hex_seed.
Example C21_node_of_hex_seed_ex : hex_seed_to_node (VStr (u "00000000010203")) = Ok 258.
Proof. vm_compute. reflexivity. Qed.

(** an id derived from an id is accepted for exactly the same seeds *)
Theorem C21_derived_id_keeps_seed :
  forall last now cs id_ id' last',
  generate_new_id_from_id last now cs id_ = (Ok id', last') ->
  forall seed, check_id_seed (VStr id') seed = check_id_seed id_ seed.
Proof. exact new_id_keeps_checks. Qed.
Print Assumptions C21_derived_id_keeps_seed.
Example C21_derived_id_keeps_seed_ex :
  fst (generate_new_id_from_id (Some 5) 3 77 (VStr (u "00000001-0000-1000-8000-000102030405")))
  = Ok (u "00000006-0000-1000-804d-000102030405").
Proof. vm_compute. reflexivity. Qed.

(** ** C22 Over any history of id-generating calls (any mix of the three
    functions, failing calls included, any clock readings - stalled or going
    backwards - and any clock sequences) the generated ids are pairwise
    different.  [M] bounds the clock readings: 2^60 ticks of 100 ns is the year
    5236, where the uuid timestamp field wraps around. *)
Theorem C22_ids_unique :
  forall (history : list id_step) (last : option Z) M,
  Forall (fun s => 0 <= st_now s <= M) history ->
  (match last with Some t => 0 <= t <= M | None => True end) ->
  M + Z.of_nat (List.length history) < 2 ^ 60 ->
  NoDup (oks (id_run last history)).
Proof. exact id_run_nodup. Qed.
Print Assumptions C22_ids_unique.
Example C22_ids_unique_ex :
  List.length (oks (id_run None
    [ {| st_call := GenSeed [x01]; st_now := 1000; st_cs := 7 |};
      {| st_call := GenSeed [x01]; st_now := 1000; st_cs := 7 |};
      {| st_call := GenHex (VInt 3); st_now := 1000; st_cs := 7 |};
      {| st_call := GenHex (VStr (u "01")); st_now := 10; st_cs := 7 |} ])) = 3%nat.
Proof. vm_compute. reflexivity. Qed.

(** ** C52 Hex and uuid helpers are inverse. *)
Theorem C52_hex_round_trip :
  forall b, b <> [] ->
  exists s, encode_hex (VBytes b) = Ok s /\ decode_hex (VStr s) = Ok b.
Proof. exact decode_encode_hex. Qed.
Print Assumptions C52_hex_round_trip.
Example C52_hex_round_trip_ex :
  encode_hex (VBytes [x30; x78; xff]) = Ok (u "3078ff").
Proof. reflexivity. Qed.
(** the claim fails for the empty byte string *)
Theorem C52_hex_round_trip_refuted :
  exists b, encode_hex (VBytes b) = Err EIndexError.
Proof. exact (ex_intro _ [] eq_refl). Qed.
Print Assumptions C52_hex_round_trip_refuted.

(** uuids are represented by their 128-bit integer value *)
Theorem C52_uuid_round_trip :
  forall z, 0 <= z < 2 ^ 128 -> bytes32_to_uuid (uuid_to_bytes32 z) = Ok z.
Proof. exact bytes32_uuid_roundtrip. Qed.
Print Assumptions C52_uuid_round_trip.
Example C52_uuid_round_trip_ex : 0 <= 2 ^ 127 + 5 < 2 ^ 128.
Proof. split; vm_compute; congruence. Qed.
(** printing and parsing a uuid are inverse *)
Theorem C52_uuid_text_round_trip :
  forall z, 0 <= z < 2 ^ 128 -> py_uuid (VStr (uuid_str z)) = Ok z.
Proof. exact uuid_text_round_trip. Qed.
Print Assumptions C52_uuid_text_round_trip.

(** hex text is decoded exactly when, in lower case, it is the hex text of some bytes;
    given as bytes it is treated the same *)
Theorem C52_hex_text_exact :
  forall b,
  (forall s, decode_hex (VStr s) = Ok b <-> map lower_hex s = hexlify b) /\
  (forall d, decode_hex (VBytes d) = Ok b <-> map lower_hex (map b2z d) = hexlify b).
Proof. exact decode_hex_exact. Qed.
Print Assumptions C52_hex_text_exact.
Example C52_hex_text_exact_ex :
  map lower_hex (u "0aFf") = hexlify [x0a; xff] /\ decode_hex (VBytes [x30; x61; x46; x66]) = Ok [x0a; xff]
  /\ decode_hex (VStr (u "0aF")) = Err EBinasciiError /\ decode_hex (VStr (u "0x")) = Err EBinasciiError.
Proof. repeat split; vm_compute; reflexivity. Qed.

(** which texts are taken for the id [z]: without "urn:", "uuid:", outer braces and dashes
    there are 32 characters, and these are a hexadecimal number as [int(text, 16)] reads it:
    surrounding blanks, a plus, 0x and single underscores between digits are allowed, and
    decimal digits and blanks of any script count as the ASCII ones ([typed]) *)
Theorem C52_uuid_text_exact :
  forall s z,
  py_uuid (VStr s) = Ok z <->
  List.length (uuid_digits s) = 32%nat /\
  exists w sg p t w',
    Forall2 typed (uuid_digits s) (w ++ sg ++ p ++ t ++ w') /\
    forallb is_space w = true /\ forallb is_space w' = true /\ (sg = [] \/ sg = u "+") /\
    (p = [] \/ p = u "0x" \/ p = u "0X" \/ p = u "0x_" \/ p = u "0X_") /\
    Forall (fun g => g <> [] /\ Forall (fun c => exists d, hexval c = Some d) g) (split_on 95 t) /\
    z = hex_number 0 t.
Proof. exact uuid_text_exact. Qed.
Print Assumptions C52_uuid_text_exact.
(** the decimal digits of every script in Unicode 9.0, by name *)
Definition scripts : list (string * string) := [
   ("Ascii", "0123456789");
   ("Arabic-Indic", "٠١٢٣٤٥٦٧٨٩");
   ("Extended Arabic-Indic", "۰۱۲۳۴۵۶۷۸۹");
   ("Nko", "߀߁߂߃߄߅߆߇߈߉");
   ("Devanagari", "०१२३४५६७८९");
   ("Bengali", "০১২৩৪৫৬৭৮৯");
   ("Gurmukhi", "੦੧੨੩੪੫੬੭੮੯");
   ("Gujarati", "૦૧૨૩૪૫૬૭૮૯");
   ("Oriya", "୦୧୨୩୪୫୬୭୮୯");
   ("Tamil", "௦௧௨௩௪௫௬௭௮௯");
   ("Telugu", "౦౧౨౩౪౫౬౭౮౯");
   ("Kannada", "೦೧೨೩೪೫೬೭೮೯");
   ("Malayalam", "൦൧൨൩൪൫൬൭൮൯");
   ("Sinhala Lith", "෦෧෨෩෪෫෬෭෮෯");
   ("Thai", "๐๑๒๓๔๕๖๗๘๙");
   ("Lao", "໐໑໒໓໔໕໖໗໘໙");
   ("Tibetan", "༠༡༢༣༤༥༦༧༨༩");
   ("Myanmar", "၀၁၂၃၄၅၆၇၈၉");
   ("Myanmar Shan", "႐႑႒႓႔႕႖႗႘႙");
   ("Khmer", "០១២៣៤៥៦៧៨៩");
   ("Mongolian", "᠐᠑᠒᠓᠔᠕᠖᠗᠘᠙");
   ("Limbu", "᥆᥇᥈᥉᥊᥋᥌᥍᥎᥏");
   ("New Tai Lue", "᧐᧑᧒᧓᧔᧕᧖᧗᧘᧙");
   ("Tai Tham Hora", "᪀᪁᪂᪃᪄᪅᪆᪇᪈᪉");
   ("Tai Tham Tham", "᪐᪑᪒᪓᪔᪕᪖᪗᪘᪙");
   ("Balinese", "᭐᭑᭒᭓᭔᭕᭖᭗᭘᭙");
   ("Sundanese", "᮰᮱᮲᮳᮴᮵᮶᮷᮸᮹");
   ("Lepcha", "᱀᱁᱂᱃᱄᱅᱆᱇᱈᱉");
   ("Ol Chiki", "᱐᱑᱒᱓᱔᱕᱖᱗᱘᱙");
   ("Vai", "꘠꘡꘢꘣꘤꘥꘦꘧꘨꘩");
   ("Saurashtra", "꣐꣑꣒꣓꣔꣕꣖꣗꣘꣙");
   ("Kayah Li", "꤀꤁꤂꤃꤄꤅꤆꤇꤈꤉");
   ("Javanese", "꧐꧑꧒꧓꧔꧕꧖꧗꧘꧙");
   ("Myanmar Tai Laing", "꧰꧱꧲꧳꧴꧵꧶꧷꧸꧹");
   ("Cham", "꩐꩑꩒꩓꩔꩕꩖꩗꩘꩙");
   ("Meetei Mayek", "꯰꯱꯲꯳꯴꯵꯶꯷꯸꯹");
   ("Fullwidth", "０１２３４５６７８９");
   ("Osmanya", "𐒠𐒡𐒢𐒣𐒤𐒥𐒦𐒧𐒨𐒩");
   ("Brahmi", "𑁦𑁧𑁨𑁩𑁪𑁫𑁬𑁭𑁮𑁯");
   ("Sora Sompeng", "𑃰𑃱𑃲𑃳𑃴𑃵𑃶𑃷𑃸𑃹");
   ("Chakma", "𑄶𑄷𑄸𑄹𑄺𑄻𑄼𑄽𑄾𑄿");
   ("Sharada", "𑇐𑇑𑇒𑇓𑇔𑇕𑇖𑇗𑇘𑇙");
   ("Khudawadi", "𑋰𑋱𑋲𑋳𑋴𑋵𑋶𑋷𑋸𑋹");
   ("Newa", "𑑐𑑑𑑒𑑓𑑔𑑕𑑖𑑗𑑘𑑙");
   ("Tirhuta", "𑓐𑓑𑓒𑓓𑓔𑓕𑓖𑓗𑓘𑓙");
   ("Modi", "𑙐𑙑𑙒𑙓𑙔𑙕𑙖𑙗𑙘𑙙");
   ("Takri", "𑛀𑛁𑛂𑛃𑛄𑛅𑛆𑛇𑛈𑛉");
   ("Ahom", "𑜰𑜱𑜲𑜳𑜴𑜵𑜶𑜷𑜸𑜹");
   ("Warang Citi", "𑣠𑣡𑣢𑣣𑣤𑣥𑣦𑣧𑣨𑣩");
   ("Bhaiksuki", "𑱐𑱑𑱒𑱓𑱔𑱕𑱖𑱗𑱘𑱙");
   ("Mro", "𖩠𖩡𖩢𖩣𖩤𖩥𖩦𖩧𖩨𖩩");
   ("Pahawh Hmong", "𖭐𖭑𖭒𖭓𖭔𖭕𖭖𖭗𖭘𖭙");
   ("Mathematical Bold", "𝟎𝟏𝟐𝟑𝟒𝟓𝟔𝟕𝟖𝟗");
   ("Mathematical Double-Struck", "𝟘𝟙𝟚𝟛𝟜𝟝𝟞𝟟𝟠𝟡");
   ("Mathematical Sans-Serif", "𝟢𝟣𝟤𝟥𝟦𝟧𝟨𝟩𝟪𝟫");
   ("Mathematical Sans-Serif Bold", "𝟬𝟭𝟮𝟯𝟰𝟱𝟲𝟳𝟴𝟵");
   ("Mathematical Monospace", "𝟶𝟷𝟸𝟹𝟺𝟻𝟼𝟽𝟾𝟿");
   ("Adlam", "𞥐𞥑𞥒𞥓𞥔𞥕𞥖𞥗𞥘𞥙")]%string.
Theorem C52_digits :
  forall c d, nd c d <-> exists name line, In (name, line) scripts /\ 0 <= d /\ nth_error (in_utf8 line) (Z.to_nat d) = Some c.
Proof. exact (nd_scripts scripts eq_refl). Qed.
Print Assumptions C52_digits.
Theorem C52_blanks :
  forall c, (is_space c = true <-> 9 <= c <= 13 \/ c = 32) /\
  (In c wide_spaces <-> c = 0x85 \/ c = 0xa0 \/ c = 0x1680 \/ 0x2000 <= c <= 0x200a \/ c = 0x2028 \/ c = 0x2029 \/ c = 0x202f \/ c = 0x205f \/ c = 0x3000).
Proof. intros c. unfold is_space, wide_spaces. cbn [In]. lia. Qed.
Print Assumptions C52_blanks.
Example C52_digits_ex : nd 0x96c 6 /\ In ("Devanagari", "०१२३४५६७८९")%string scripts /\ in_utf8 "٣" = [0x663] /\ In 0x3000 wide_spaces.
Proof. repeat split; [apply decimal_iff; vm_compute; reflexivity|vm_compute; tauto|cbn [In wide_spaces]; tauto]. Qed.
(** so one id has many spellings, also ones that do not look like a uuid *)
Example C52_uuid_text_exact_ex :
  py_uuid (VStr (u "{00000001-0000-1000-8000-000102030405}")) = py_uuid (VStr (u "urn:uuid:000000010000-1000-8000000102030405"))
  /\ py_uuid (VStr (u " +0x_1000_0000001020304050000000")) = Ok (0x10000000001020304050000000)
  /\ py_uuid (VStr (0xa0 :: 0xff10 :: u "x_1000_000000102030405000000" ++ [0x661; 0x1d7ff])) = Ok (0x1000000000102030405000000 * 256 + 0x19)
  /\ py_uuid (VStr (28 :: u "0000001-0000-1000-8000-000102030405")) = Err EValueError
  /\ py_uuid (VStr (0xff21 :: u "0000001-0000-1000-8000-000102030405")) = Err EValueError
  /\ py_uuid (VStr (u "00000001-0000-1000-8000-00010203040__5")) = Err EValueError
  /\ py_uuid (VStr (u "00000001-0000-1000-8000-00010203040")) = Err EValueError.
Proof. repeat split; vm_compute; reflexivity. Qed.
