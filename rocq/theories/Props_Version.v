(** * C61: the version number taken from git; C62: versions cut to Hello's field *)
From Verif Require Import VersionFacts.

(** ** C61 *)
(** [describes tag after] is what git prints for a commit [after] the [tag]: the tag
    alone, or the tag, the number of commits since and the abbreviated hash *)
Theorem C61_from_git :
  forall prefix tag after, unbroken prefix -> unbroken tag -> git_after after ->
  call_git_describe prefix (describes (prefix ++ tag) after) (describes (prefix ++ tag) None) =
  Ok (tag ++ match after with None => [] | Some (n, h) => u "+dev" ++ dec_str n ++ u ".g" ++ h end).
Proof. exact call_exact. Qed.
Print Assumptions C61_from_git.
(** white space around git's output does not matter *)
Theorem C61_white :
  forall prefix out last w1 w2 w3 w4,
  (forall c, In c (w1 ++ w2 ++ w3 ++ w4) ->
     In c [9; 10; 11; 12; 13; 28; 29; 30; 31; 32; 133; 160; 5760; 8192; 8193; 8194; 8195; 8196; 8197; 8198; 8199; 8200; 8201; 8202; 8232; 8233; 8239; 8287; 12288]) ->
  call_git_describe prefix (w1 ++ out ++ w2) (w3 ++ last ++ w4) = call_git_describe prefix out last.
Proof. exact call_white. Qed.
Print Assumptions C61_white.
(** between tags the version is a valid one just when the tag is a valid version
    without build metadata, and then it differs from the tag in build metadata only *)
Theorem C61_valid_exact :
  forall tag n h w, unbroken tag -> git_after (Some (n, h)) ->
  ver_parse (tag ++ u "+dev" ++ dec_str n ++ u ".g" ++ h) = Some w <->
  exists v, ver_parse tag = Some v /\ v_build v = [] /\
    w = {| v_major := v_major v; v_minor := v_minor v; v_patch := v_patch v; v_pre := v_pre v;
           v_build := [u "dev" ++ dec_str n; u "g" ++ h] |}.
Proof. exact release_parse. Qed.
Print Assumptions C61_valid_exact.
(** two checkouts, on or after a tag, accept each other just when their tags do *)
Theorem C61_interoperate :
  forall p1 t1 a1 v1 p2 t2 a2 v2 s1 s2,
  unbroken p1 -> unbroken t1 -> git_after a1 -> ver_parse t1 = Some v1 -> v_build v1 = [] ->
  unbroken p2 -> unbroken t2 -> git_after a2 -> ver_parse t2 = Some v2 -> v_build v2 = [] ->
  call_git_describe p1 (describes (p1 ++ t1) a1) (describes (p1 ++ t1) None) = Ok s1 ->
  call_git_describe p2 (describes (p2 ++ t2) a2) (describes (p2 ++ t2) None) = Ok s2 ->
  (verify_version s1 s2 = Ok tt <->
   v_major v1 = v_major v2 /\ v_minor v1 = v_minor v2 /\
   ~ (v_patch v1 = 0 /\ v_pre v1 <> []) /\ ~ (v_patch v2 = 0 /\ v_pre v2 <> [])).
Proof.
  intros p1 t1 a1 v1 p2 t2 a2 v2 s1 s2 H1 H2 H3 H4 H5 K1 K2 K3 K4 K5 E1 E2.
  rewrite call_exact in E1, E2 by assumption. apply Ok_inj in E1, E2. subst. apply interoperate; assumption.
Qed.
Print Assumptions C61_interoperate.
(** the version file holds the version returned, unless git failed or an update was declined *)
Theorem C61_version_file :
  forall prefix out last no_update file,
  let r := get_version prefix out last no_update file in
  (forall v, snd r = Ok v <-> call_git_describe prefix out last = Ok v) /\
  (forall v, snd r = Ok v -> no_update = false -> fst r = Some v) /\
  (no_update = true -> fst r = file) /\ (forall e, snd r = Err e -> fst r = file).
Proof.
  intros prefix out last nu file r. destruct (get_version_exact prefix out last nu file) as [E1 E2]. fold r in E1, E2.
  rewrite E1, E2. split; [tauto|]. split; [intros v -> ->; reflexivity|].
  split; [intros ->; destruct (call_git_describe prefix out last); reflexivity|intros e ->; reflexivity].
Qed.
Print Assumptions C61_version_file.
(** a commit after a tag with build metadata has a version that no peer accepts *)
Theorem C61_build_tag_refuted :
  exists prefix tag n h s, unbroken prefix /\ unbroken tag /\ git_after (Some (n, h)) /\ ver_parse tag <> None /\
    call_git_describe prefix (describes (prefix ++ tag) (Some (n, h))) (describes (prefix ++ tag) None) = Ok s /\
    forall ours, verify_version ours s = Err EVersionMismatchError.
Proof.
  exists (u "v"), (u "2.12.0+hotfix"), 5, (u "78df3e1"), (u "2.12.0+hotfix+dev5.g78df3e1").
  split; [intros c Hc; vm_compute in Hc; cbn [white_space In]; lia|]. split; [intros c Hc; vm_compute in Hc; cbn [white_space In]; lia|]. split; [split; [lia|split; [discriminate|]]|].
  { apply Forall_forall. intros c Hc. change (u "78df3e1") with [55; 56; 100; 102; 51; 101; 49] in Hc. cbn [In] in Hc. lia. }
  split; [vm_compute; discriminate|]. split; [vm_compute; reflexivity|].
  intros ours. assert (E : ver_parse (u "2.12.0+hotfix+dev5.g78df3e1") = None) by (vm_compute; reflexivity).
  unfold verify_version. rewrite E. reflexivity.
Qed.
Print Assumptions C61_build_tag_refuted.
Example C61_ex :
  call_git_describe (u "v") (describes (u "v0.5.3-rc5-post1") (Some (5, u "78df3e12"))) (describes (u "v0.5.3-rc5-post1") None) =
    Ok (u "0.5.3-rc5-post1+dev5.g78df3e12") /\
  verify_version (u "0.5.3-rc5-post1+dev5.g78df3e12") (u "0.5.9") = Ok tt /\
  get_version (u "v") (describes (u "v2.12.0") None) (describes (u "v2.12.0") None) false (Some (u "2.11.9")) =
    (Some (u "2.12.0"), Ok (u "2.12.0")) /\
  call_git_describe (u "v") (u "2.12.0") (u "v2.12.0") = Err EAssertionError.
Proof. vm_compute. repeat split; reflexivity. Qed.
