(** * What accepted evidence proves (C65) *)
From Verif Require Export CleanFacts OwnFacts ValidFacts ProtocolFacts.
Open Scope Z_scope.

(** ** Messages inside a received message were received too *)
Lemma loaded_val_msg kd d ty ts enc sig b : loaded_val kd (VMsg d ty ts enc sig b) -> exists d' an il, kd = KMsg d' an il.
Proof.
  intros [G [_ C]]. destruct G as [G|[G|[_ G]]]; [discriminate G| |discriminate G].
  destruct kd as [| |d0 an il| | | | | | | | | |]; cbn [val_ok] in G;
    try (destruct G as [G|G]; [discriminate G|]); try (destruct G as (x & G); first [discriminate G|destruct G as [G _]; discriminate G]).
  - exfalso. cbn [ser_clean ser_plain] in C. specialize (C ""%string _ eq_refl). destruct C as [C _]. discriminate C.
  - eauto.
Qed.
Lemma reach_loaded c ty ts enc sig a n : loaded c a -> is_task_message c = true -> reach (VMsg c ty ts enc sig a) n ->
  n = VMsg c ty ts enc sig a \/
  exists d ty' ts' enc' sig' b, n = VMsg d ty' ts' enc' sig' b /\ is_task_message d = true /\ loaded d b /\ pure ty' = true /\ pure ts' = true.
Proof.
  intros L T R. remember (VMsg c ty ts enc sig a) as m eqn:Em. revert c ty ts enc sig a Em L T.
  induction R as [m|c0 ty0 ts0 enc0 sig0 a0 k w n _ Hk Hw W R IH]; intros c ty ts enc sig a Em L T; [left; reflexivity|right].
  assert (c0 = c /\ a0 = a) as [-> ->] by (split; congruence).
  destruct L as [F V N]. pose proof (attr_get_In _ _ _ Hw) as Hin. destruct w as [| | | | | | | | | | | |d y1 y2 y3 y4 b|]; try discriminate W.
  destruct (loaded_val_msg _ _ _ _ _ _ _ (proj2 (V _ _ Hin))) as (d' & an & il & K).
  destruct (N _ _ _ _ _ Hin K) as [Q|[[Q _]|[[_ (z1 & z2 & z3 & z4 & b' & Q & P1 & P2 & _ & _ & Lb)]|[_ (l & Q & _)]]]]; try discriminate Q.
  injection Q as <- <- <- <- <- <-. destruct (IH _ _ _ _ _ _ eq_refl Lb W) as [->|Q]; [|exact Q].
  exists d, y1, y2, y3, y4, b. auto 8.
Qed.

(** the keys a message is checked with are those of a TaskToCompute inside it *)
Lemma keys_from_task c ty ts enc sig a pk rk : is_task_message c = true -> loaded c a ->
  chain_keys (VMsg c ty ts enc sig a) pk rk ->
  exists t, getattr "task_to_compute" (VMsg c ty ts enc sig a) = Ok t /\ reach (VMsg c ty ts enc sig a) t /\ is_ttc t /\ chain_keys t pk rk.
Proof.
  intros T L (t & p & r & A & B & D & F & G).
  destruct (accessor_from_chain c ty ts enc sig a "task_to_compute" T L ltac:(slots_in)) as (v & Hv & Q).
  assert (v = t) by congruence. subst v. destruct Q as [->|(t' & Rt & It & Gt)]; [discriminate B|].
  assert (t' = t) by (destruct It as (y1 & y2 & y3 & y4 & b & ->); rewrite getattr_ttc_self in Gt; congruence). subst t'.
  exists t. split; [exact A|]. split; [exact Rt|]. split; [exact It|]. exists t, p, r.
  destruct It as (y1 & y2 & y3 & y4 & b & ->). rewrite getattr_ttc_self. auto.
Qed.

(** ** Who signed what is inside *)
Definition tasks_name (m : pyval) (pk rk : bytes) : Prop :=
  forall t p r, reach m t -> is_ttc t -> chain_keys t p r -> p = pk /\ r = rk.
Definition signed_in_role (E : env) (n : pyval) (pk rk : bytes) (concent : pyval) : Prop :=
  exists c ty ts enc sig a os o, n = VMsg c ty ts enc sig a /\ In (type_of c, os) signers /\ In o os /\
    signed_by E n (owner_key pk rk concent o).

Lemma inside_signed E c ty ts enc sig a pk rk concent :
  let m := VMsg c ty ts enc sig a in
  loaded c a -> a_key concent -> validate_ownership_chain E m concent = Ok tt -> tasks_name m pk rk ->
  forall n, reach m n -> signed_in_role E n pk rk concent.
Proof.
  intros m L K H N n R. apply ownership_chain_iff in H as [T H]. cbn [m is_task_msg] in T. specialize (H n R).
  assert (Q : exists d ty' ts' enc' sig' b, n = VMsg d ty' ts' enc' sig' b /\ is_task_message d = true /\ loaded d b).
  { destruct (reach_loaded c ty ts enc sig a n L T R) as [->|(d & y1 & y2 & y3 & y4 & b & -> & Td & Lb & _)]; eauto 12. }
  destruct Q as (d & y1 & y2 & y3 & y4 & b & -> & Td & Lb).
  destruct (owner_declared E d y1 y2 y3 y4 b concent K H) as (os & o & p & r & Ro & Hk & Ho & Hs).
  destruct (keys_from_task _ _ _ _ _ _ _ _ Td Lb Hk) as (t & _ & Rt & It & Ht).
  destruct (N t p r (reach_trans _ _ _ R Rt) It Ht) as [-> ->].
  exists d, y1, y2, y3, y4, b, os, o. auto.
Qed.

(** ** Messages with room for one task only *)
Fixpoint task_paths (n : nat) (c : mcls) : nat :=
  match n with
  | O => O
  | S n => if mcls_eqb c MTaskToCompute then 1%nat
           else list_sum (map (fun p => match snd p with KMsg d _ _ => if is_task_message d then task_paths n d else O | _ => O end) (slot_table c))
  end.
(** the types with two slots that lead to a TaskToCompute *)
Definition several_tasks : list Z := [2011; 2030; 4004; 4006; 4007; 4016; 4021].

Lemma list_sum_zero {A} (f : A -> nat) l x : list_sum (map f l) = O -> In x l -> f x = O.
Proof.
  induction l as [|y l IH]; [intros _ []|]. cbn [map]. change (list_sum (f y :: map f l)) with (f y + list_sum (map f l))%nat.
  intros H [<-|Hx]; [lia|]. apply IH; [lia|exact Hx].
Qed.
Lemma list_sum_one {A} (f : A -> nat) l i j x y : (list_sum (map f l) <= 1)%nat -> nth_error l i = Some x -> nth_error l j = Some y ->
  f x <> O -> f y <> O -> i = j.
Proof.
  revert i j. induction l as [|z l IH]; intros i j; cbn [map]; [destruct i; discriminate|].
  change (list_sum (f z :: map f l)) with (f z + list_sum (map f l))%nat. intros H Hi Hj Nx Ny.
  destruct i, j; cbn [nth_error] in *; [reflexivity| | |f_equal; eapply IH; try eassumption; lia].
  - apply nth_error_In in Hj. exfalso. apply Ny. apply (list_sum_zero f l y); [|exact Hj]. assert (z = x) by congruence. subst z. lia.
  - apply nth_error_In in Hi. exfalso. apply Nx. apply (list_sum_zero f l x); [|exact Hi]. assert (z = y) by congruence. subst z. lia.
Qed.

Lemma slot_row c k d an il : slot_kind c k = KMsg d an il -> In (k, KMsg d an il) (slot_table c).
Proof.
  intros K. destruct (slot_kind_cases c k) as [Q|Q]; [rewrite K in Q; exact Q|rewrite (slot_kind_default _ _ Q) in K; discriminate K].
Qed.
Definition room (c : mcls) : nat := task_paths FUEL c.
Definition row_room (p : string * skind) : nat := match snd p with KMsg d _ _ => if is_task_message d then room d else O | _ => O end.
Lemma room_step : forallb (fun c => (room c =? (if mcls_eqb c MTaskToCompute then 1 else
    list_sum (map row_room (slot_table c))))%nat) all_classes = true.
Proof. vm_compute. reflexivity. Qed.
Lemma room_eq c : c <> MTaskToCompute ->
  room c = list_sum (map row_room (slot_table c)).
Proof.
  intros N. pose proof (for_all_classes _ room_step c) as G. cbv beta in G. apply Nat.eqb_eq in G.
  destruct (mcls_eqb c MTaskToCompute) eqn:Q; [apply mcls_eqb_eq in Q; contradiction|exact G].
Qed.
Lemma room_rows c : is_task_message c = true -> ~ In (type_of c) several_tasks -> (room c <= 1)%nat.
Proof.
  intros T N.
  assert (F : forallb (fun c => negb (is_task_message c) || (room c <=? 1)%nat || existsb (Z.eqb (type_of c)) several_tasks) all_classes = true)
    by (vm_compute; reflexivity).
  pose proof (for_all_classes _ F c) as G. cbv beta in G. rewrite T in G. cbn [negb orb] in G. apply orb_true_iff in G as [G|G]; [apply Nat.leb_le, G|].
  exfalso. apply N. apply existsb_exists in G as (z & Hz & G). apply Z.eqb_eq in G. congruence.
Qed.
(** a slot holding a task message, in what was received *)
Lemma loaded_task_slot c a k w : loaded c a -> attr_get k a = Some w -> is_task_msg w = true ->
  exists d an il ty ts enc sig b, slot_kind c k = KMsg d an il /\ w = VMsg d ty ts enc sig b /\ loaded d b /\ is_task_message d = true.
Proof.
  intros [F V N] Hw W. pose proof (attr_get_In _ _ _ Hw) as Hin. destruct w as [| | | | | | | | | | | |d y1 y2 y3 y4 b|]; try discriminate W.
  destruct (loaded_val_msg _ _ _ _ _ _ _ (proj2 (V _ _ Hin))) as (d' & an & il & K).
  destruct (N _ _ _ _ _ Hin K) as [Q|[[Q _]|[[_ (z1 & z2 & z3 & z4 & b' & Q & P1 & P2 & _ & _ & Lb)]|[_ (l & Q & _)]]]]; try discriminate Q.
  injection Q as <- <- <- <- <- <-. exists d, an, il, y1, y2, y3, y4, b. auto.
Qed.
Lemma room_zero : forall m t, reach m t -> is_ttc t -> forall c ty ts enc sig a, m = VMsg c ty ts enc sig a -> loaded c a -> room c <> O.
Proof.
  intros m t R. induction R as [m|c0 ty0 ts0 enc0 sig0 a0 k w n T Hk Hw W R IH]; intros It c ty ts enc sig a Em L.
  - destruct It as (y1 & y2 & y3 & y4 & b & E). assert (c = MTaskToCompute) by congruence. subst c. vm_compute. discriminate.
  - assert (c0 = c /\ a0 = a) as [-> ->] by (split; congruence). destruct (mcls_eq_dec c MTaskToCompute) as [->|N]; [vm_compute; discriminate|].
    destruct (loaded_task_slot _ _ _ _ L Hw W) as (d & an & il & y1 & y2 & y3 & y4 & b & K & -> & Lb & Td).
    specialize (IH It _ _ _ _ _ _ eq_refl Lb). rewrite (room_eq c N). intros Q. apply slot_row in K.
    pose proof (list_sum_zero _ _ _ Q K) as G. unfold row_room in G. cbn [snd] in G. rewrite Td in G. contradiction.
Qed.
Lemma ttc_only : forallb (fun p => match snd p with KMsg d _ _ => negb (is_task_message d) | _ => true end) (slot_table MTaskToCompute) = true.
Proof. vm_compute. reflexivity. Qed.
Lemma room_one : forall m t1, reach m t1 -> is_ttc t1 -> forall c ty ts enc sig a, m = VMsg c ty ts enc sig a -> loaded c a -> (room c <= 1)%nat ->
  forall t2, reach m t2 -> is_ttc t2 -> t1 = t2.
Proof.
  assert (Top : forall ty ts enc sig a t, loaded MTaskToCompute a -> reach (VMsg MTaskToCompute ty ts enc sig a) t -> t = VMsg MTaskToCompute ty ts enc sig a).
  { intros ty ts enc sig a t L R. inversion R as [|c0 ty0 ts0 enc0 sig0 a0 k w n T Hk Hw W R']; subst; [reflexivity|exfalso].
    destruct (loaded_task_slot _ _ _ _ L Hw W) as (d & an & il & y1 & y2 & y3 & y4 & b & K & -> & Lb & Td). apply slot_row in K.
    pose proof ttc_only as G. rewrite forallb_forall in G. specialize (G _ K). cbn [snd] in G. rewrite Td in G. discriminate G. }
  intros m t1 R. induction R as [m|c0 ty0 ts0 enc0 sig0 a0 k w n T Hk Hw W R IH]; intros I1 c ty ts enc sig a Em L H t2 R2 I2.
  - assert (c = MTaskToCompute) by (destruct I1 as (y1 & y2 & y3 & y4 & b & E); congruence). subst c m. symmetry. apply Top; assumption.
  - assert (c0 = c /\ a0 = a) as [-> ->] by (split; congruence). destruct (mcls_eq_dec c MTaskToCompute) as [->|N].
    { rewrite Em in R2. rewrite (Top _ _ _ _ _ _ L R2). eapply Top; [exact L|]. rewrite <- Em. econstructor; eassumption. }
    destruct (loaded_task_slot _ _ _ _ L Hw W) as (d & an & il & y1 & y2 & y3 & y4 & b & K & Ew & Lb & Td).
    pose proof (room_zero _ _ R I1 _ _ _ _ _ _ Ew Lb) as Z1.
    rewrite Em in R2. inversion R2 as [|c1 ty1 ts1 enc1 sig1 a1 k' w' n' T' Hk' Hw' W' R2']; subst.
    { exfalso. destruct I2 as (z1 & z2 & z3 & z4 & b' & E). apply N. congruence. }
    destruct (loaded_task_slot _ _ _ _ L Hw' W') as (d' & an' & il' & z1 & z2 & z3 & z4 & b' & K' & Ew' & Lb' & Td').
    pose proof (room_zero _ _ R2' I2 _ _ _ _ _ _ Ew' Lb') as Z2.
    rewrite (room_eq c N) in H. pose proof (slot_row _ _ _ _ _ K) as I. pose proof (slot_row _ _ _ _ _ K') as I'.
    destruct (In_nth_error _ _ I) as [i Hi]. destruct (In_nth_error _ _ I') as [j Hj].
    assert (i = j) by (eapply (list_sum_one _ _ _ _ _ _ H Hi Hj); unfold row_room; cbn [snd]; [rewrite Td|rewrite Td']; assumption). subst j.
    assert (k' = k /\ d' = d) as [-> ->] by (split; congruence).
    assert (EQ : w' = VMsg d y1 y2 y3 y4 b) by congruence. rewrite EQ in R2'.
    apply (IH I1 _ _ _ _ _ _ eq_refl Lb); [|exact R2'|exact I2].
    assert (Q : forall l : list (string * skind), In (k, KMsg d an il) l -> 
       (list_sum (map row_room l) <= 1)%nat -> (room d <= 1)%nat).
    { clear -Td. induction l as [|z l IH]; [intros []|]. cbn [map].
      change (list_sum (row_room z :: map row_room l)) with (row_room z + list_sum (map row_room l))%nat. intros [->|Hz] Hl.
      - unfold row_room in Hl at 1. cbn [snd] in Hl. rewrite Td in Hl. lia.
      - apply IH; [exact Hz|lia]. }
    exact (Q _ I H).
Qed.
(** all the signatures inside belong to the two parties given *)
Lemma one_task_signed E c ty ts enc sig a pk rk concent :
  let m := VMsg c ty ts enc sig a in
  loaded c a -> a_key concent -> pk <> [] -> rk <> [] -> ~ In (type_of c) several_tasks ->
  verify_owners E m (opt_key (Some pk)) (opt_key (Some rk)) concent = Ok tt ->
  forall n, reach m n -> signed_in_role E n pk rk concent.
Proof.
  intros m L K Np Nr NS H n R. apply verify_owners_iff in H as (Hp & Hr & H). specialize (Hp _ eq_refl Np). specialize (Hr _ eq_refl Nr).
  assert (T : is_task_message c = true) by (apply ownership_chain_iff in H as [T _]; exact T).
  eapply inside_signed; try eassumption.
  assert (Hk : chain_keys m pk rk) by (apply chain_keys_iff; auto).
  destruct (keys_from_task _ _ _ _ _ _ _ _ T L Hk) as (t0 & _ & R0 & I0 & K0).
  intros t p r Rt It Kt. assert (t = t0) by (eapply room_one; [exact Rt|exact It|reflexivity|exact L|apply room_rows; assumption|exact R0|exact I0]).
  subst t. apply chain_keys_iff in Kt as [A B]. apply chain_keys_iff in K0 as [C D]. split; congruence.
Qed.

(** ** Authenticity *)
(** The signatures of key [k] inside [m] are genuine: whoever holds the private key has
    signed a message with the hash they verify for ([issued] are the messages the
    holder has signed) *)
Definition genuine (E : env) (k : bytes) (issued : pyval -> Prop) (m : pyval) : Prop :=
  forall n h, reach m n -> signed_by E n (VBytes k) -> short_hash E n = Ok h ->
  exists m0, issued m0 /\ short_hash E m0 = Ok h.
(** a message as a program makes it: the header is its own and its slots can be sent *)
Definition sendable (m : pyval) : Prop :=
  exists c ts enc sig a s, m = VMsg c (VInt (type_of c)) (VInt ts) enc sig a /\ slots c a = Ok s /\ wirewf s = true.

Lemma names_equal c a s c0 a0 s0 : slots c a = Ok s -> slots c0 a0 = Ok s0 -> norm s = norm s0 -> slot_names c = slot_names c0.
Proof.
  intros H H0 N. destruct (sent_names _ _ _ _ H (proj2 (wire_rows c _) eq_refl)) as (l & -> & F).
  destruct (sent_names _ _ _ _ H0 (proj2 (wire_rows c0 _) eq_refl)) as (l0 & -> & F0). cbn [norm] in N. injection N as N.
  clear H H0. revert l l0 F F0 N. generalize (slot_names c) (slot_names c0). clear. intros ks.
  induction ks as [|k ks IH]; intros ks0 l l0 F F0 N.
  - inversion F; subst. destruct l0; [|discriminate N]. inversion F0. reflexivity.
  - inversion F as [|k' x ks' l' (v & ->) F']; subst. destruct l0 as [|y l0]; [discriminate N|]. inversion F0 as [|k0 y' ks0' l0' (v0 & ->) F0']; subst.
    cbn [map norm] in N. injection N as N1 _ N2. apply u_inj in N1. subst k0. f_equal. eapply IH; eassumption.
Qed.

Lemma issued_same E c ty ts enc sig b m0 h : crypto_ok (cr E) -> loaded c b -> pure ty = true -> pure ts = true ->
  short_hash E (VMsg c ty ts enc sig b) = Ok h -> sendable m0 -> short_hash E m0 = Ok h ->
  exists c0 ts0 enc0 sig0 a0, m0 = VMsg c0 (VInt (type_of c0)) (VInt ts0) enc0 sig0 a0 /\
    (sha1_collision E m0 (VMsg c ty ts enc sig b) \/
     (ty = VInt (type_of c0) /\ ts = VInt ts0 /\ payload_of c b = payload_of c0 a0 /\
      exists s s0, slots c b = Ok s /\ slots c0 a0 = Ok s0 /\ norm s = norm s0 /\ slot_names c = slot_names c0)).
Proof.
  intros HC L P1 P2 H (c0 & ts0 & e0 & g0 & a0 & s0 & -> & S0 & W0) H0. exists c0, ts0, e0, g0, a0. split; [reflexivity|].
  assert (W : wirewf (VList [ty; ts]) = true).
  { cbn [wirewf forallb]. rewrite (proj2 (pure_clean _ P1)), (proj2 (pure_clean _ P2)). reflexivity. }
  destruct (nested_type E c0 ts0 e0 g0 a0 c ty ts enc sig b h HC W H0 H) as [C|(A & B & D)]; [left; exact C|right].
  rewrite (pure_norm _ P1) in A. rewrite (pure_norm _ P2) in B. split; [exact A|]. split; [exact B|]. split; [exact D|].
  apply short_hash_ok in H as (s & d & p & S & P & _). exists s, s0. split; [exact S|]. split; [exact S0|].
  assert (N : norm s = norm s0).
  { eapply payload_inj; [exact P| |exact (proj2 (loaded_clean _ _ _ L S))|exact W0].
    unfold payload_of in D. rewrite S, S0 in D. cbn [bind] in D. congruence. }
  split; [exact N|]. eapply names_equal; eassumption.
Qed.

Lemma received_task E now bs decf ct pub m : deserialize E now bs decf ct pub = Ok m -> is_task_msg m = true ->
  exists c t enc sig a, m = VMsg c (VInt (type_of c)) (VInt t) enc sig a /\ loaded c a /\ is_task_message c = true.
Proof.
  intros H T. apply deserialize_loaded in H as (c & t & en & sg & v & a & -> & L & _). cbn [is_task_msg] in T.
  assert (N : c <> MHello) by (intros ->; discriminate T). rewrite full_not_hello by exact N. eauto 10.
Qed.
Lemma inside_received E now bs decf ct pub m n : deserialize E now bs decf ct pub = Ok m -> is_task_msg m = true -> reach m n ->
  exists c ty ts enc sig a, n = VMsg c ty ts enc sig a /\ is_task_message c = true /\ loaded c a /\ pure ty = true /\ pure ts = true.
Proof.
  intros H T R. destruct (received_task _ _ _ _ _ _ _ H T) as (c & t & en & sg & a & -> & L & Tc).
  destruct (reach_loaded _ _ _ _ _ _ _ L Tc R) as [->|Q]; [|exact Q]. exists c, (VInt (type_of c)), (VInt t), en, sg, a. auto 8.
Qed.

(** what is inside accepted evidence has been signed, in its role, by a party *)
Lemma evidence_issued E now bs decf ct pub m pk rk concent (issued : owner -> pyval -> Prop) :
  crypto_ok (cr E) -> deserialize E now bs decf ct pub = Ok m -> a_key concent ->
  validate_ownership_chain E m concent = Ok tt -> tasks_name m pk rk ->
  (forall o k, owner_key pk rk concent o = VBytes k -> genuine E k (issued o) m) ->
  (forall o m0, issued o m0 -> sendable m0) ->
  forall c ty ts enc sig a, reach m (VMsg c ty ts enc sig a) ->
  exists os o c0 ts0 enc0 sig0 a0, In (type_of c, os) signers /\ In o os /\
    issued o (VMsg c0 (VInt (type_of c0)) (VInt ts0) enc0 sig0 a0) /\
    (sha1_collision E (VMsg c0 (VInt (type_of c0)) (VInt ts0) enc0 sig0 a0) (VMsg c ty ts enc sig a) \/
     (ty = VInt (type_of c0) /\ ts = VInt ts0 /\ payload_of c a = payload_of c0 a0 /\
      exists s s0, slots c a = Ok s /\ slots c0 a0 = Ok s0 /\ norm s = norm s0 /\ slot_names c = slot_names c0)).
Proof.
  intros HC HD K H N G S c ty ts enc sig a R. assert (T : is_task_msg m = true) by (apply ownership_chain_iff in H as [T _]; exact T).
  destruct (received_task _ _ _ _ _ _ _ HD T) as (cm & t & en & sg & am & -> & L & Tc).
  destruct (inside_signed E _ _ _ _ _ _ pk rk concent L K H N _ R) as (c' & ty' & ts' & enc' & sig' & a' & os & o & Em & Ro & Ho & Hs).
  injection Em as <- <- <- <- <- <-.
  pose proof Hs as (k & _ & _ & _ & _ & _ & _ & h & Ek & _ & _ & Hh & _). rewrite Ek in Hs.
  destruct (G o k Ek _ h R Hs Hh) as (m0 & I0 & H0).
  destruct (inside_received _ _ _ _ _ _ _ _ HD T R) as (c2 & ty2 & ts2 & enc2 & sig2 & a2 & E2 & _ & L2 & P1 & P2). injection E2 as <- <- <- <- <- <-.
  destruct (issued_same E c ty ts enc sig a m0 h HC L2 P1 P2 Hh (S _ _ I0) H0) as (c0 & ts0 & e0 & g0 & a0 & -> & Q).
  exists os, o, c0, ts0, e0, g0, a0. auto.
Qed.

(** a type whose list of slots no other type has *)
Lemma same_slots_same_class c c0 ks : In (type_of c, ks) wire_slots -> (forall t, In (t, ks) wire_slots -> t = type_of c) -> slot_names c = slot_names c0 -> c0 = c.
Proof.
  intros R U Q. apply wire_rows in R. subst ks. apply type_of_inj. apply U. apply wire_rows. congruence.
Qed.
Lemma plain_slot_agrees c b a0 s s0 k w0 : loaded c b -> slots c b = Ok s -> slots c a0 = Ok s0 -> norm s = norm s0 -> In k (slot_names c) ->
  slot_kind c k = KPlain \/ slot_kind c k = KInt -> attr_get k a0 = Some w0 -> attr_get k b = Some (norm (enum_value w0)).
Proof.
  intros [F V _] S S0 N Hk K H0. destruct (norm_slots_at _ _ _ _ _ _ S S0 N Hk) as (x & x0 & X & X0 & Q). rewrite assoc_attr in X, X0. rewrite H0 in X0.
  pose proof Hk as Hk'. rewrite <- F in Hk'. destruct (attr_get_some _ _ Hk') as (w & Hw & Hin). rewrite Hw in X |- *.
  assert (P : forall v y, ser_slot c k v = Ok y -> y = enum_value v) by (intros v y; unfold ser_slot, ser_slot_with; destruct K as [->| ->]; cbn [ser_plain]; congruence).
  apply P in X, X0. subst x x0. rewrite <- Q. destruct (proj2 (V _ _ Hin)) as [G [W _]]. f_equal. destruct K as [K|K]; rewrite K in G, W.
  - destruct W as [W1 W2]. change (enum_value w) with (deenum w). rewrite W1. congruence.
  - destruct G as [->|[(z & ->)|[G _]]]; [reflexivity|reflexivity|discriminate G].
Qed.
(** the terms of a task that are plain values *)
Definition terms : list string := ["requestor_id"; "requestor_public_key"; "requestor_ethereum_public_key"; "provider_id"; "package_hash"; "size";
  "concent_enabled"; "price"; "resources_options"; "ethsig"; "promissory_note_sig"; "concent_promissory_note_sig"]%string.
Lemma terms_plain k : In k terms -> In k (slot_names MTaskToCompute) /\ (slot_kind MTaskToCompute k = KPlain \/ slot_kind MTaskToCompute k = KInt).
Proof. intros H. cbn [terms In] in H. repeat (destruct H as [<-|H]; [split; [slots_in|first [left; reflexivity|right; reflexivity]]|]). destruct H. Qed.

Lemma terms_issued E now bs decf ct pub m pk rk concent (issued : owner -> pyval -> Prop) :
  crypto_ok (cr E) -> deserialize E now bs decf ct pub = Ok m -> a_key concent ->
  validate_ownership_chain E m concent = Ok tt -> tasks_name m pk rk ->
  (forall o k, owner_key pk rk concent o = VBytes k -> genuine E k (issued o) m) ->
  (forall o m0, issued o m0 -> sendable m0) ->
  forall ty ts enc sig a, reach m (VMsg MTaskToCompute ty ts enc sig a) ->
  exists m0, issued ORequestor m0 /\
    (sha1_collision E m0 (VMsg MTaskToCompute ty ts enc sig a) \/
     exists ts0 enc0 sig0 a0, m0 = VMsg MTaskToCompute (VInt 2002) (VInt ts0) enc0 sig0 a0 /\ ty = VInt 2002 /\ ts = VInt ts0 /\
       (forall k w0, In k terms -> attr_get k a0 = Some w0 -> attr_get k a = Some (norm (enum_value w0))) /\
       (forall kvs, attr_get "compute_task_def" a0 = Some (VDict DCTD kvs) ->
          exists kvs', attr_get "compute_task_def" a = Some (VDict DCTD kvs') /\ norm (VDict DCTD kvs') = norm (VDict DCTD kvs)) /\
       (forall y1 y2 y3 y4 b, attr_get "want_to_compute_task" a0 = Some (VMsg MWantToComputeTask y1 y2 y3 y4 b) ->
          exists z1 z2 z3 z4 b', attr_get "want_to_compute_task" a = Some (VMsg MWantToComputeTask z1 z2 z3 z4 b') /\
            norm y1 = norm z1 /\ norm y2 = norm z2 /\ norm y3 = norm z3 /\ norm y4 = norm z4 /\
            payload_of MWantToComputeTask b = payload_of MWantToComputeTask b')).
Proof.
  intros HC HD K H N G S ty ts enc sig a R.
  destruct (evidence_issued _ _ _ _ _ _ _ _ _ _ issued HC HD K H N G S _ _ _ _ _ _ R) as (os & o & c0 & ts0 & e0 & g0 & a0 & Ro & Ho & I0 & Q).
  assert (o = ORequestor). { apply signer_rows in Ro as [_ ->]. destruct Ho as [<-|[]]. reflexivity. } subst o.
  exists (VMsg c0 (VInt (type_of c0)) (VInt ts0) e0 g0 a0). split; [exact I0|]. destruct Q as [C|(-> & -> & _ & s & s0 & Sa & S0 & NS & Nm)]; [left; exact C|right].
  assert (c0 = MTaskToCompute).
  { eapply same_slots_same_class; [apply wire_rows; reflexivity| |exact Nm]. intros t Ht.
    assert (F : forallb (fun r => negb (same_names (snd r) (slot_names MTaskToCompute)) || (fst r =? 2002)) wire_slots = true) by (vm_compute; reflexivity).
    rewrite forallb_forall in F. specialize (F _ Ht). cbn [fst snd] in F. apply orb_true_iff in F as [F|F]; [|apply Z.eqb_eq in F; exact F].
    unfold same_names in F. destruct (list_eq_dec _ _ _); [discriminate F|congruence]. }
  subst c0. exists ts0, e0, g0, a0. repeat (split; [reflexivity|]).
  assert (T : is_task_msg m = true) by (apply ownership_chain_iff in H as [T _]; exact T).
  destruct (inside_received _ _ _ _ _ _ _ _ HD T R) as (c2 & ty2 & ts2 & enc2 & sig2 & a2 & E2 & _ & L2 & _). injection E2 as <- <- <- <- <- <-.
  assert (At : forall k w0, In k (slot_names MTaskToCompute) -> attr_get k a0 = Some w0 ->
     exists w x x0, attr_get k a = Some w /\ ser_slot MTaskToCompute k w = Ok x /\ ser_slot MTaskToCompute k w0 = Ok x0 /\ norm x = norm x0 /\ loaded_val (slot_kind MTaskToCompute k) w).
  { intros k w0 Hk H0. destruct (norm_slots_at _ _ _ _ _ _ Sa S0 NS Hk) as (x & x0 & X & X0 & Q). rewrite assoc_attr in X, X0. rewrite H0 in X0.
    destruct L2 as [F V _]. pose proof Hk as Hk'. rewrite <- F in Hk'. destruct (attr_get_some _ _ Hk') as (w & Hw & Hin). rewrite Hw in X.
    exists w, x, x0. repeat (split; [assumption|]). exact (proj2 (V _ _ Hin)). }
  split; [|split].
  - intros k w0 Hk H0. destruct (terms_plain _ Hk) as [Hk' Kk]. eapply plain_slot_agrees; eassumption.
  - intros kvs H0. destruct (At "compute_task_def"%string _ ltac:(slots_in) H0) as (w & x & x0 & Hw & X & X0 & Q & V). apply Ok_inj in X, X0. subst x x0.
    destruct V as [[->|[(kvs' & -> & _)|[V _]]] _]; [discriminate Q| |discriminate V]. exists kvs'. split; [exact Hw|exact Q].
  - intros y1 y2 y3 y4 b H0.
    assert (A : agree (VMsg MTaskToCompute VNone VNone VNone VNone a0) (VMsg MTaskToCompute VNone VNone VNone VNone a)) by (apply agree_msg with (s1 := s0) (s2 := s); auto).
    destruct (agree_follow [("want_to_compute_task"%string, 0%nat)] _ _ (VMsg MWantToComputeTask y1 y2 y3 y4 b) A) as (n2 & F2 & A2);
      [cbn [follow]; change (slot_kind MTaskToCompute "want_to_compute_task") with (KMsg MWantToComputeTask false false); cbv beta iota; rewrite H0; reflexivity|eauto 10|].
    cbn [follow] in F2. change (slot_kind MTaskToCompute "want_to_compute_task") with (KMsg MWantToComputeTask false false) in F2. cbv beta iota in F2.
    inversion A2 as [c' y1' y2' y3' y4' b1 z1 z2 z3 z4 b' t t' N1 N2 N3 N4 T1 T2 NT]; subst. exists z1, z2, z3, z4, b'.
    split.
    + destruct L2 as [F V M]. destruct (attr_get "want_to_compute_task" a) as [w|] eqn:W; [|discriminate F2]. pose proof (attr_get_In _ _ _ W) as Hin.
      destruct (M _ _ _ _ _ Hin eq_refl) as [->|[[-> _]|[[_ (q1 & q2 & q3 & q4 & b2 & -> & _)]|[Q _]]]]; try discriminate F2; [|discriminate Q]. congruence.
    + repeat (split; [assumption|]). unfold payload_of. rewrite T1, T2. cbn [bind]. rewrite <- (dumps_norm t), <- (dumps_norm t'). congruence.
Qed.

(** what was accepted as sent by the holder of [k] is what that holder signed *)
(** The signature of key [k] in a frame is genuine: if it verifies for the hash of the
    frame's type, time and payload then the holder has signed a message with that hash *)
Definition genuine_frame (E : env) (k : bytes) (issued : pyval -> Prop) (decf : bytes -> result bytes) (msg : bytes) : Prop :=
  forall c ty ts enc payload d h,
  unpack_header (firstn 11 msg) = Ok (ty, ts, enc) -> getitem library ty = Ok c ->
  decrypted decf enc (skipn 65 (body c msg)) = Ok payload -> dumps (VList [VInt ty; VInt ts]) = Ok d ->
  h = sha1 (cr E) (d ++ payload) ++ match c with MHello => hello_suffix msg | _ => [] end ->
  recover (cr E) (firstn 65 (body c msg)) (sha3_256 (cr E) h) = Some (x04 :: k) ->
  exists m0, issued m0 /\ short_hash E m0 = Ok h.
Lemma sender_issued E now msg decf ct k m (issued : pyval -> Prop) : crypto_ok (cr E) -> k <> [] ->
  deserialize E now msg decf ct (Some k) = Ok m -> ~ In (be_dec (firstn 2 msg)) unsigned_types ->
  genuine_frame E k issued decf msg ->
  (forall m0, issued m0 -> sendable m0) ->
  exists c ts enc sig a d payload m0, m = VMsg c (VInt (type_of c)) (VInt ts) (VBool enc) (VBytes sig) a /\
    decrypted decf enc (skipn 65 (body c msg)) = Ok payload /\ dumps (VList [VInt (type_of c); VInt ts]) = Ok d /\ issued m0 /\
    ((exists i, hashed_bytes m0 i /\ i <> d ++ payload /\ sha1 (cr E) i = sha1 (cr E) (d ++ payload)) \/
     exists enc0 sig0 a0, m0 = VMsg c (VInt (type_of c)) (VInt ts) enc0 sig0 a0 /\ payload_of c a0 = Ok payload).
Proof.
  intros HC Nk H NU G S. pose proof H as H'. apply (sender_exact _ _ _ _ _ _ _ Nk) in H' as (H0 & ty & ts & enc & c & payload & sig & a & d & -> & U & Lc & P & D & V).
  pose proof (registry_number _ _ Lc) as ->.
  assert (Sg : signs c = true).
  { destruct (signs c) eqn:Sg; [reflexivity|]. exfalso. apply NU. assert (T : be_dec (firstn 2 msg) = type_of c).
    { apply unpack_type in U. rewrite firstn_firstn in U. change (Nat.min 2 11) with 2%nat in U. congruence. }
    rewrite T. apply unsigned_rows, Sg. }
  destruct (V Sg) as [Lk R]. set (v := match c with MHello => hello_suffix msg | _ => [] end) in R.
  destruct (G c _ _ _ payload d _ U Lc P D eq_refl R) as (m0 & I0 & Hm). exists c, ts, enc, sig, a, d, payload, m0.
  split; [reflexivity|]. split; [exact P|]. split; [exact D|]. split; [exact I0|].
  destruct (S _ I0) as (c0 & ts0 & e0 & g0 & a0 & s0 & -> & S0 & W0).
  apply short_hash_ok in Hm as (s & d0 & p0 & Sa & P0 & D0 & N1 & N2).
  assert (X : exists v0, sha1 (cr E) (d ++ payload) ++ v = sha1 (cr E) (d0 ++ p0) ++ v0).
  { destruct (mcls_eq_dec c0 MHello) as [->|N]; [destruct (N2 eq_refl) as (v0 & _ & Q); eauto|]. exists []. rewrite app_nil_r. auto. }
  destruct X as [v0 X]. apply app_inj_len in X as [X _]; [|rewrite !(sha1_len _ HC); reflexivity].
  destruct (list_eq_dec Byte.byte_eq_dec (d0 ++ p0) (d ++ payload)) as [Q|Q].
  - right. destruct (hash_input_inj _ _ _ _ _ _ _ _ D0 D Q) as (T & -> & ->). apply type_of_inj in T. subst c0.
    exists e0, g0, a0. split; [reflexivity|]. unfold payload_of. rewrite Sa. exact P0.
  - left. exists (d0 ++ p0). split; [|split; [exact Q|congruence]].
    exists c0, (VInt (type_of c0)), (VInt ts0), e0, g0, a0, d0, p0. unfold payload_of. rewrite Sa. auto.
Qed.
Lemma one_pair E now bs decf ct pub m pk rk concent :
  deserialize E now bs decf ct pub = Ok m -> a_key concent -> validate_ownership_chain E m concent = Ok tt -> tasks_name m pk rk ->
  forall n, reach m n -> signed_in_role E n pk rk concent.
Proof.
  intros HD K H N.
  assert (T : is_task_msg m = true) by (apply ownership_chain_iff in H as [T _]; exact T).
  destruct (received_task _ _ _ _ _ _ _ HD T) as (c & t & en & sg & a & -> & L & _). eapply inside_signed; eassumption.
Qed.
Lemma one_task_received E now bs decf ct pub c ty ts enc sig a pk rk concent :
  deserialize E now bs decf ct pub = Ok (VMsg c ty ts enc sig a) -> a_key concent -> pk <> [] -> rk <> [] ->
  ~ In (type_of c) several_tasks ->
  verify_owners E (VMsg c ty ts enc sig a) (opt_key (Some pk)) (opt_key (Some rk)) concent = Ok tt ->
  forall n, reach (VMsg c ty ts enc sig a) n -> signed_in_role E n pk rk concent.
Proof.
  intros HD K Np Nr NS H.
  assert (T : is_task_msg (VMsg c ty ts enc sig a) = true) by (unfold verify_owners in H; destruct (is_task_msg _); [reflexivity|discriminate H]).
  destruct (received_task _ _ _ _ _ _ _ HD T) as (c' & t & en & sg & a' & Em & L & _). injection Em as <- -> -> <- <- <-. eapply one_task_signed; eassumption.
Qed.
Lemma signed_by_one E n k k' : signed_by E n (VBytes k) -> signed_by E n (VBytes k') -> k = k'.
Proof.
  intros (k1 & c & ty & ts & enc & sg & a & h & E1 & _ & -> & H & R) (k2 & c' & ty' & ts' & enc' & sg' & a' & h' & E2 & _ & Q & H' & R').
  injection E1 as ->. injection E2 as ->. injection Q as <- <- <- <- <- <-. assert (h' = h) by congruence. subst h'. congruence.
Qed.
Lemma evidence_rows E now bs decf ct pub m pk rk concent (issued : owner -> pyval -> Prop) :
  crypto_ok (cr E) -> deserialize E now bs decf ct pub = Ok m -> a_key concent ->
  validate_ownership_chain E m concent = Ok tt -> tasks_name m pk rk ->
  (forall o k, owner_key pk rk concent o = VBytes k -> genuine E k (issued o) m) ->
  (forall o m0, issued o m0 -> sendable m0) ->
  forall c ty ts enc sig a, reach m (VMsg c ty ts enc sig a) ->
  exists os o c0 ts0 enc0 sig0 a0, In (type_of c, os) signers /\ In o os /\
    issued o (VMsg c0 (VInt (type_of c0)) (VInt ts0) enc0 sig0 a0) /\
    (sha1_collision E (VMsg c0 (VInt (type_of c0)) (VInt ts0) enc0 sig0 a0) (VMsg c ty ts enc sig a) \/
     (ty = VInt (type_of c0) /\ ts = VInt ts0 /\ payload_of c a = payload_of c0 a0 /\
      exists ks, In (type_of c, ks) wire_slots /\ In (type_of c0, ks) wire_slots)).
Proof.
  intros HC HD K H N G S c ty ts enc sig a R.
  destruct (evidence_issued _ _ _ _ _ _ _ _ _ _ issued HC HD K H N G S _ _ _ _ _ _ R) as (os & o & c0 & ts0 & e0 & g0 & a0 & Ro & Ho & I0 & Q).
  exists os, o, c0, ts0, e0, g0, a0. repeat (split; [assumption|]). destruct Q as [C|(A & B & D & s & s0 & _ & _ & _ & Nm)]; [left; exact C|right].
  repeat (split; [assumption|]). exists (slot_names c). split; [apply wire_rows; reflexivity|apply wire_rows; exact Nm].
Qed.
Lemma sendable_check m :
  match m with
  | VMsg c (VInt t) (VInt _) _ _ a => (t =? type_of c) && match slots c a with Ok s => wirewf s | Err _ => false end
  | _ => false
  end = true -> sendable m.
Proof.
  destruct m as [| | | | | | | | | | | |c ty ts enc sig a|]; try discriminate. destruct ty as [| |t| | | | | | | | | | |]; try discriminate.
  destruct ts as [| |ts| | | | | | | | | | |]; try discriminate. intros H. apply andb_true_iff in H as [Q H]. apply Z.eqb_eq in Q. subst t.
  destruct (slots c a) as [s|] eqn:S; [|discriminate H]. exists c, ts, enc, sig, a, s. auto.
Qed.
