(** * Property theorems: version gate (C17) and validators (C35) *)
From Verif Require Import Validators IpFacts.

(** ** C17 [verify_version] accepts exactly peers of our major.minor, except
    prereleases of major.minor.0; and nobody if we are such a prerelease *)
Theorem C17_gate_exact :
  forall ours theirs,
  verify_version ours theirs = Ok tt <->
  exists o t, ver_parse ours = Some o /\ ver_parse theirs = Some t /\
    v_major t = v_major o /\ v_minor t = v_minor o /\
    ~ (v_patch t = 0 /\ v_pre t <> []) /\ ~ (v_patch o = 0 /\ v_pre o <> []).
Proof. exact verify_version_iff. Qed.
Print Assumptions C17_gate_exact.

(** the parser accepts exactly the texts of valid versions (semver.org), possibly followed
    by one newline; the numbers may be written with decimal digits of any script, and a
    leading zero is refused only if it is the ASCII one *)
Theorem C17_parser_exact :
  forall s v, ver_parse s = Some v <->
  ver_wf v /\ exists a b c e,
    spells_num a (v_major v) /\ spells_num b (v_minor v) /\ spells_num c (v_patch v) /\ (e = [] \/ e = [10]) /\
    s = (a ++ 46 :: b ++ 46 :: c ++ ver_ids 45 (v_pre v)) ++ ver_ids 43 (v_build v) ++ e.
Proof.
  intros s v. rewrite ver_parse_iff. unfold spells_version, spells_core. split.
  - intros (W & k & e & (a & b & c & A & B & C & ->) & He & ->). split; [exact W|]. exists a, b, c, e. auto.
  - intros (W & a & b & c & e & A & B & C & He & ->). split; [exact W|]. eexists. exists e. split; [exists a, b, c; auto|]. auto.
Qed.
Print Assumptions C17_parser_exact.
(** so an ASCII text, such as Hello's, has to be the printed version *)
Theorem C17_parser_ascii :
  forall s v, Forall (fun c => c < 128) s -> ver_parse s = Some v <-> ver_wf v /\ (s = ver_print v \/ s = ver_print v ++ [10]).
Proof. exact ver_parse_ascii. Qed.
Print Assumptions C17_parser_ascii.
Example C17_parser_ex :
  ver_parse [0xff11; 46; 0x660; 0x665; 46; 0x661; 50] = Some {| v_major := 1; v_minor := 5; v_patch := 12; v_pre := []; v_build := [] |} /\
  ver_parse (u "1.05.12") = None /\ ver_parse (u "1.5.12" ++ [10]) = ver_parse (u "1.5.12") /\ ver_parse (u "1.5.12-" ++ [0x665]) = None /\
  Forall (fun c => c < 128) (u "1.5.12").
Proof. repeat split; try (vm_compute; reflexivity). repeat constructor. Qed.

Theorem C17_unparsable_is_mismatch :
  forall ours theirs, ver_parse theirs = None -> verify_version ours theirs = Err EVersionMismatchError.
Proof. intros ours theirs H. unfold verify_version. rewrite H. reflexivity. Qed.
Print Assumptions C17_unparsable_is_mismatch.

(** a library whose own version is no version at all raises ValueError for peers that
    have one; every other refusal is a VersionMismatchError *)
Theorem C17_errors :
  forall ours theirs,
  (verify_version ours theirs = Err EValueError <-> ver_parse ours = None /\ ver_parse theirs <> None) /\
  forall e, verify_version ours theirs = Err e -> e = EVersionMismatchError \/ e = EValueError.
Proof.
  intros ours theirs. unfold verify_version. destruct (ver_parse theirs), (ver_parse ours);
    try destruct (in_range _ _ _); split; try split; intros; intuition congruence.
Qed.
Print Assumptions C17_errors.
Example C17_errors_ex : verify_version (u "3.1") (u "3.1.0") = Err EValueError /\ ver_parse (u "3.1") = None.
Proof. split; vm_compute; reflexivity. Qed.

(** "a peer running exactly our version is accepted" is false for a .0 prerelease *)
Theorem C17_own_version_refuted :
  exists v, verify_version v v = Err EVersionMismatchError /\ exists x, ver_parse v = Some x.
Proof. exists (u "3.1.0-rc.1"). split; [vm_compute; reflexivity|]. eexists. vm_compute. reflexivity. Qed.
Print Assumptions C17_own_version_refuted.

Example C17_ex :
  map (verify_version (u "3.1.4")) [u "3.1.0"; u "3.1.99"; u "3.1.5-alpha+build.7"; u "3.1.4+x"]
    = [Ok tt; Ok tt; Ok tt; Ok tt]
  /\ map (verify_version (u "3.1.4")) [u "3.1.0-a"; u "3.2.0"; u "3.2.0-a"; u "3.0.9"; u "2.1.4"; u "3.01.4"; u "3.1"; []]
    = repeat (Err EVersionMismatchError) 8.
Proof. split; vm_compute; reflexivity. Qed.

(** ** C35 the accepted sets *)
Theorem C35_varchar : forall m f v,
  validate_varchar m f v = Ok tt <-> exists s, is_str v s /\ Z.of_nat (List.length s) <= m.
Proof. exact varchar_iff. Qed.
Print Assumptions C35_varchar.
Theorem C35_varchar128 : forall f v,
  validate_varchar128 f v = Ok tt <-> exists s, is_str v s /\ Z.of_nat (List.length s) <= 128.
Proof. exact varchar128_iff. Qed.
Print Assumptions C35_varchar128.
Theorem C35_integer : forall f v, validate_integer f v = Ok tt <-> exists z, v = VInt z.
Proof. exact integer_iff. Qed.
Print Assumptions C35_integer.
Theorem C35_positive_integer : forall f v, validate_positive_integer f v = Ok tt <-> exists z, v = VInt z /\ 1 <= z.
Proof. exact positive_iff. Qed.
Print Assumptions C35_positive_integer.
(** ports: 1..65534 *)
Theorem C35_port : forall f v, validate_port f v = Ok tt <-> exists z, v = VInt z /\ 1 <= z <= 65534.
Proof. exact port_iff. Qed.
Print Assumptions C35_port.
(** the documented range 1..2**16-1 is not what is accepted *)
Theorem C35_port_documented_range_refuted :
  exists z, 1 <= z <= 2 ^ 16 - 1 /\ forall f, validate_port f (VInt z) = Err (EFieldError f).
Proof. exists 65535. split; [lia|reflexivity]. Qed.
Print Assumptions C35_port_documented_range_refuted.
Theorem C35_boolean : forall f v, validate_boolean f v = Ok tt <-> exists b, v = VBool b.
Proof. exact boolean_iff. Qed.
Print Assumptions C35_boolean.
Theorem C35_dict : forall f v, validate_dict f v = Ok tt <-> exists c kvs, v = VDict c kvs.
Proof. exact dict_iff. Qed.
Print Assumptions C35_dict.
Theorem C35_version : forall f v, validate_version f v = Ok tt <->
  exists s ver, is_str v s /\ spells_version s ver.
Proof. exact version_iff. Qed.
Print Assumptions C35_version.
(** addresses: dotted quads and IPv6 texts, exactly as in the grammar of
    [IpFacts]; and, which the name of the validator does not suggest, packed
    addresses, integers below 2**128 and booleans *)
Theorem C35_ipaddress : forall f v, validate_ipaddress f v = Ok tt <->
  (exists s, v = VStr s /\ (ipv4 s \/ ipv6 s)) \/
  (exists b, v = VBytes b /\ (List.length b = 4%nat \/ List.length b = 16%nat)) \/
  (exists z, v = VInt z /\ 0 <= z < 2 ^ 128) \/ (exists b, v = VBool b).
Proof. exact ipaddress_iff. Qed.
Print Assumptions C35_ipaddress.
Example C35_ipaddress_ex :
  map (validate_ipaddress (u "f"))
    [VStr (u "127.0.0.1"); VStr (u "1.02.3.255"); VStr (u "::"); VStr (u "1::8"); VStr (u "::ffff:1.2.3.4"); VStr (u "1:2:3:4:5:6:7:abcD"); VBool true]
  = repeat (Ok tt) 7
  /\ map (validate_ipaddress (u "f"))
    [VStr (u "1.2.3"); VStr (u "1.2.3.256"); VStr (u "1.2.3.010"); VStr (u "1::2::3"); VStr (u ":1"); VStr (u "1:2:3:4:5:6:7:8:9");
     VStr (u "1:2:3:4:5:6:7::8"); VStr (u "12345::"); VStr (u "g::"); VStr (u "1.2.3.4::"); VNone]
  = repeat (Err (EFieldError (u "f"))) 11.
Proof. split; vm_compute; reflexivity. Qed.
(** a validator never raises anything but FieldError for its field *)
Theorem C35_only_field_errors :
  (forall m, only_field_error (validate_varchar m)) /\ only_field_error validate_integer /\
  only_field_error validate_positive_integer /\ only_field_error validate_port /\ only_field_error validate_ipaddress /\
  only_field_error validate_boolean /\ only_field_error validate_version /\ only_field_error validate_dict.
Proof. exact validators_total. Qed.
Print Assumptions C35_only_field_errors.
Example C35_ex :
  validate_varchar128 (u "f") (VStr (repeat 233 128)) = Ok tt /\
  validate_varchar128 (u "f") (VStr (repeat 233 129)) = Err (EFieldError (u "f")) /\
  validate_integer (u "f") (VBool true) = Err (EFieldError (u "f")) /\
  validate_version (u "f") (VStr (u "1.2.3-a.b+c")) = Ok tt /\
  validate_ipaddress (u "f") (VStr (u "10.0.0.1")) = Ok tt.
Proof. repeat split; vm_compute; reflexivity. Qed.
