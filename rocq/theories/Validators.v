(** * validators.py.  Each validator takes the field name (kept in the error). *)
From Verif Require Export SemVer.

(** validators.py 9-15; [check] is the already evaluated check *)
Definition fail_unless (field : ustr) (check : bool) : result unit :=
  if check then Ok tt else Err (EFieldError field).
(** validators.py 18-26 *)
Definition validate_varchar (max_length : Z) (field : ustr) (v : pyval) : result unit :=
  match str_of v with
  | Some s => if Z.of_nat (List.length s) <=? max_length then Ok tt else Err (EFieldError field)
  | None => Err (EFieldError field)
  end.
(** validators.py 29-32 *)
Definition validate_varchar128 : ustr -> pyval -> result unit := validate_varchar 128.
(** validators.py 35-41 *)
Definition validate_integer (field : ustr) (v : pyval) : result unit :=
  match v with VInt _ => Ok tt | _ => Err (EFieldError field) end.
(** validators.py 44-51 *)
Definition validate_positive_integer (field : ustr) (v : pyval) : result unit :=
  do _ <- validate_integer field v;
  match v with VInt z => if z <? 1 then Err (EFieldError field) else Ok tt | _ => Err ETypeError end.
(** validators.py 54-61 *)
Definition validate_port (field : ustr) (v : pyval) : result unit :=
  do _ <- validate_integer field v;
  match v with
  | VInt z => if negb ((0 <? z) && (z <? 2 ^ 16 - 1)) then Err (EFieldError field) else Ok tt
  | _ => Err ETypeError
  end.
(** validators.py 64-72 *)
Definition validate_ipaddress (field : ustr) (v : pyval) : result unit :=
  if ip_ok v then Ok tt else Err (EFieldError field).
(** validators.py 75-81 *)
Definition validate_boolean (field : ustr) (v : pyval) : result unit :=
  match v with VBool _ => Ok tt | _ => Err (EFieldError field) end.
(** validators.py 84-92 *)
Definition validate_version (field : ustr) (v : pyval) : result unit :=
  match str_of v with
  | Some s => match ver_parse s with Some _ => Ok tt | None => Err (EFieldError field) end
  | None => Err (EFieldError field)
  end.
(** validators.py 95-103 *)
Definition validate_dict (field : ustr) (v : pyval) : result unit :=
  match v with VDict _ _ => Ok tt | _ => Err (EFieldError field) end.

(** [v] is a str object (possibly a member of a str enum) with text [s] *)
Definition is_str (v : pyval) (s : ustr) : Prop :=
  v = VStr s \/ exists e t, v = VEnum e t /\ is_string_enum e = true /\ s = u t.
Lemma str_of_iff v s : str_of v = Some s <-> is_str v s.
Proof.
  unfold is_str. destruct v; cbn [str_of]; try (split; [discriminate|intros [H|(e' & t' & H & _)]; discriminate]).
  - split; [intros H; injection H as ->; auto|]. intros [H|(e' & t' & H & _)]; [congruence|discriminate].
  - destruct (is_string_enum e) eqn:E.
    + split; [intros H; injection H as <-; eauto 10|]. intros [H|(e' & t' & H & _ & ->)]; [discriminate|]. congruence.
    + split; [discriminate|]. intros [H|(e' & t' & H & F & _)]; [discriminate|]. congruence.
Qed.

(** each validator either accepts or raises a FieldError naming the field *)
Definition validator := ustr -> pyval -> result unit.
Definition only_field_error (f : validator) : Prop :=
  forall field v, f field v = Ok tt \/ f field v = Err (EFieldError field).
Lemma validators_total :
  (forall m, only_field_error (validate_varchar m)) /\ only_field_error validate_integer /\
  only_field_error validate_positive_integer /\ only_field_error validate_port /\ only_field_error validate_ipaddress /\
  only_field_error validate_boolean /\ only_field_error validate_version /\ only_field_error validate_dict.
Proof.
  unfold only_field_error, validate_varchar, validate_integer, validate_positive_integer, validate_port, validate_ipaddress,
    validate_boolean, validate_version, validate_dict.
  repeat split; intros; destruct v; cbn [bind str_of];
    repeat match goal with |- context [match ?x with _ => _ end] => destruct x; cbn [bind] end; auto.
Qed.

Lemma varchar_iff m f v : validate_varchar m f v = Ok tt <-> exists s, is_str v s /\ Z.of_nat (List.length s) <= m.
Proof.
  unfold validate_varchar. destruct (str_of v) as [s|] eqn:E.
  - destruct (Z.leb_spec (Z.of_nat (List.length s)) m).
    + split; [|reflexivity]. intros _. exists s. apply str_of_iff in E. auto.
    + split; [discriminate|]. intros (s' & H1 & H2). apply str_of_iff in H1. assert (s = s') by congruence. subst. lia.
  - split; [discriminate|]. intros (s' & H1 & H2). apply str_of_iff in H1. congruence.
Qed.
Lemma integer_iff f v : validate_integer f v = Ok tt <-> exists z, v = VInt z.
Proof. destruct v; cbn; split; try discriminate; try (intros (z' & H); discriminate); eauto. Qed.
Lemma positive_iff f v : validate_positive_integer f v = Ok tt <-> exists z, v = VInt z /\ 1 <= z.
Proof.
  destruct v; cbn; split; try discriminate; try (intros (z' & H & _); discriminate).
  - destruct (Z.ltb_spec z 1); [discriminate|eauto].
  - intros (z' & H & L). injection H as ->. destruct (Z.ltb_spec z' 1); [lia|reflexivity].
Qed.
Lemma port_iff f v : validate_port f v = Ok tt <-> exists z, v = VInt z /\ 1 <= z <= 65534.
Proof.
  destruct v; cbn [validate_port validate_integer bind]; split; try discriminate; try (intros (z' & H & _); discriminate).
  - destruct (_ && _) eqn:E; [|discriminate]. intros _. exists z. split; [reflexivity|]. change (2 ^ 16) with 65536 in E. lia.
  - intros (z' & H & L). injection H as ->. replace ((0 <? z') && (z' <? 2 ^ 16 - 1)) with true; [reflexivity|].
    change (2 ^ 16) with 65536. lia.
Qed.
Lemma boolean_iff f v : validate_boolean f v = Ok tt <-> exists b, v = VBool b.
Proof. destruct v; cbn; split; try discriminate; try (intros (z' & H); discriminate); eauto. Qed.
Lemma dict_iff f v : validate_dict f v = Ok tt <-> exists c kvs, v = VDict c kvs.
Proof. destruct v; cbn; split; try discriminate; try (intros (c' & z' & H); discriminate); eauto. Qed.
Lemma version_iff f v : validate_version f v = Ok tt <->
  exists s ver, is_str v s /\ spells_version s ver.
Proof.
  unfold validate_version. destruct (str_of v) as [s|] eqn:E.
  - destruct (ver_parse s) as [ver|] eqn:Ev.
    + split; [|reflexivity]. intros _. exists s, ver. apply str_of_iff in E. apply ver_parse_iff in Ev. tauto.
    + split; [discriminate|]. intros (s' & ver & H1 & H2). apply str_of_iff in H1. assert (s = s') by congruence. subst.
      apply ver_parse_iff in H2. congruence.
  - split; [discriminate|]. intros (s' & ver & H1 & _). apply str_of_iff in H1. congruence.
Qed.
