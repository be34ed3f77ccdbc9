(** * Property theorems: the message register (C19) *)
From Verif Require Import Register.

(** ** C19 [C] is any type of classes, [ceqb] identity of classes; a history is
    any list of (number, class) registrations starting from an empty register. *)

(** a number, once bound, keeps its class through every later registration *)
Theorem C19_never_rebound :
  forall (C : Type) (ceqb : C -> C -> bool) (later : list (Z * C)) (r : register C) t c,
  getitem r t = Ok c -> getitem (run_register ceqb later r) t = Ok c.
Proof. exact @run_register_keeps. Qed.
Print Assumptions C19_never_rebound.

(** the class of a number is that of its first registration *)
Theorem C19_first_registration_wins :
  forall (C : Type) (ceqb : C -> C -> bool) (history : list (Z * C)) t,
  getitem (run_register ceqb history empty_register) t
  = match find (fun p => fst p =? t) history with Some p => Ok (snd p) | None => Err EKeyError end.
Proof. exact @register_first_wins. Qed.
Print Assumptions C19_first_registration_wins.

(** a registration fails exactly when the number is taken, and then changes nothing *)
Theorem C19_duplicate_refused_unchanged :
  forall (C : Type) (ceqb : C -> C -> bool) t c (r : register C),
  ((exists e, fst (do_register ceqb t c r) = Err e) <-> contains r t = true) /\
  (forall e, fst (do_register ceqb t c r) = Err e -> e = ERuntimeError /\ snd (do_register ceqb t c r) = r).
Proof. exact @register_refuse. Qed.
Print Assumptions C19_duplicate_refused_unchanged.

(** a successful registration is visible in both directions *)
Theorem C19_registration_visible :
  forall (C : Type) (ceqb : C -> C -> bool), (forall a b, ceqb a b = true <-> a = b) ->
  forall t c (r : register C) x,
  fst (do_register ceqb t c r) = Ok x ->
  x = c /\ getitem (snd (do_register ceqb t c r)) t = Ok c /\ get_type ceqb (snd (do_register ceqb t c r)) c = Ok t.
Proof. exact @register_ok_effect. Qed.
Print Assumptions C19_registration_visible.

(** after any history, [library[library.get_type(c)] is c], and [get_type] is
    defined for every class bound to some number *)
Theorem C19_get_type_inverse :
  forall (C : Type) (ceqb : C -> C -> bool), (forall a b, ceqb a b = true <-> a = b) ->
  forall (history : list (Z * C)),
  let r := run_register ceqb history empty_register in
  (forall c t, get_type ceqb r c = Ok t -> getitem r t = Ok c) /\
  (forall c t, getitem r t = Ok c -> exists t', get_type ceqb r c = Ok t').
Proof. exact @register_inverse. Qed.
Print Assumptions C19_get_type_inverse.

(** a class bound to no number has no type; registering a class changes no other's *)
Theorem C19_other_classes :
  forall (C : Type) (ceqb : C -> C -> bool), (forall a b, ceqb a b = true <-> a = b) ->
  forall (history : list (Z * C)) c,
  let r := run_register ceqb history empty_register in
  ((forall t, getitem r t <> Ok c) -> get_type ceqb r c = Err EKeyError) /\
  forall t c', c' <> c -> get_type ceqb (snd (do_register ceqb t c r)) c' = get_type ceqb r c'.
Proof.
  intros C ceqb Q history c r. split.
  - intros N. destruct (get_type ceqb r c) as [t|e] eqn:E.
    + exfalso. apply (N t). exact (proj1 (register_inverse ceqb Q history) c t E).
    + unfold get_type in E. destruct (cget ceqb c (reversed r)); congruence.
  - intros t c' Hc. unfold do_register, get_type. destruct (zget t (types r)); [reflexivity|]. cbn [snd reversed].
    rewrite (cget_cset ceqb Q). destruct (ceqb c c') eqn:E; [apply Q in E; congruence|reflexivity].
Qed.
Print Assumptions C19_other_classes.

Example C19_ex :
  let h := [(1, MHello); (2, MPing); (1, MPong); (3, MHello)] in
  let r := run_register mcls_eqb h empty_register in
  getitem r 1 = Ok MHello /\ getitem r 3 = Ok MHello /\ get_type mcls_eqb r MHello = Ok 3
  /\ get_type mcls_eqb r MPong = Err EKeyError
  /\ (forall a b, mcls_eqb a b = true <-> a = b).
Proof. repeat split; try reflexivity; apply mcls_eqb_eq. Qed.
