(** * Property theorems: the shipped registry (C20) *)
From Verif Require Import Classes.

(** ** C20 [library] is the register after every decorator in /repo has run. *)

(** every shipped class has a type number, and looking that number up gives the
    class back *)
Theorem C20_class_to_number_and_back :
  forall c : mcls, exists t, get_type mcls_eqb library c = Ok t /\ getitem library t = Ok c.
Proof. exact (fun c => ex_intro _ (type_of c) (conj (registry_type c) (registry_roundtrip c))). Qed.
Print Assumptions C20_class_to_number_and_back.

(** every integer bound in the register is the number of the class it is bound to *)
Theorem C20_number_to_class_and_back :
  forall t c, getitem library t = Ok c -> get_type mcls_eqb library c = Ok t.
Proof. exact number_to_class_and_back. Qed.
Print Assumptions C20_number_to_class_and_back.

(** distinct classes never share a number *)
Theorem C20_numbers_distinct :
  forall c c' t, get_type mcls_eqb library c = Ok t -> get_type mcls_eqb library c' = Ok t -> c = c'.
Proof. exact numbers_distinct. Qed.
Print Assumptions C20_numbers_distinct.

(** membership of an integer in the register is exactly being some class's number *)
Theorem C20_contains_exactly_the_numbers :
  forall t, contains library t = true <-> exists c, get_type mcls_eqb library c = Ok t.
Proof. exact contains_exactly. Qed.
Print Assumptions C20_contains_exactly_the_numbers.

(** every type number fits the header's unsigned short *)
Theorem C20_numbers_fit_header :
  forall c t, get_type mcls_eqb library c = Ok t -> 0 <= t < 2 ^ 16.
Proof. exact numbers_fit. Qed.
Print Assumptions C20_numbers_fit_header.

(** no shipped decorator is refused: importing the package raises nothing here *)
Theorem C20_every_registration_succeeds :
  forall before t c after, registrations = before ++ (t, c) :: after ->
  fst (do_register mcls_eqb t c (run_register mcls_eqb before empty_register)) = Ok c.
Proof. exact no_duplicate_registration. Qed.
Print Assumptions C20_every_registration_succeeds.

Example C20_ex :
  get_type mcls_eqb library MForceGetTaskResult = Ok 4009 /\ getitem library 4009 = Ok MForceGetTaskResult /\
  contains library 2005 = false /\ contains library (-1) = false.
Proof. vm_compute. auto. Qed.
Example C20_ex_split : exists before after, registrations = before ++ (2002, MTaskToCompute) :: after /\ before <> [] /\ after <> [].
Proof. exists (firstn 5 registrations), (skipn 6 registrations). vm_compute. repeat split; discriminate. Qed.
