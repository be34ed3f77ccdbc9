(** * Python values, exceptions, and the small part of the Python data model
    that /repo relies on (truthiness, [==], iteration, dict access). *)
From Verif Require Export Base.

(** ** Unicode strings: lists of code points. *)
Definition ustr := list Z.
Fixpoint u (s : string) : ustr :=
  match s with
  | EmptyString => []
  | String a r => Z.of_N (N_of_ascii a) :: u r
  end.
Definition ustr_eqb : ustr -> ustr -> bool := list_eqb Z.eqb.
Lemma ustr_eqb_eq a b : ustr_eqb a b = true <-> a = b.
Proof. apply list_eqb_eq. intros; apply Z.eqb_eq. Qed.
Lemma ustr_eqb_refl a : ustr_eqb a a = true.
Proof. apply ustr_eqb_eq; reflexivity. Qed.

Lemma u_inj a b : u a = u b -> a = b.
Proof.
  revert b; induction a as [|x a IH]; destruct b as [|y b]; cbn [u]; intros H; try discriminate; auto.
  inversion H as [[H1 H2]]. apply N2Z.inj in H1.
  rewrite <- (ascii_N_embedding x), <- (ascii_N_embedding y), H1, (IH _ H2). reflexivity.
Qed.

(** ** Exceptions: golem_messages/exceptions.py 1-70 plus the Python builtins
    that code in /repo can raise.  [FieldError] keeps its [field] attribute;
    messages texts are dropped. *)
Inductive exn :=
| EMessageError | EHeaderError | ETimestampError
| EFieldError (field : ustr)
| EMessageTooOldError | EMessageFromFutureError
| ECryptoError | EInvalidSignature | EInvalidKeys | EDecryptionError
| ESerializationError | ESignatureAlreadyExists
| EVersionMismatchError | EOwnershipMismatch | EValidationError
| ETypeError | EValueError | EKeyError | EAttributeError | EIndexError
| EOverflowError | EAssertionError | EStructError | EBinasciiError
| ERuntimeError | ENotImplementedError | EZeroDivisionError | EUnicodeError
| EFuel (* model artefact: recursion budget exhausted; theorems exclude it *).

(** [isinstance(e, MessageError)] (exceptions.py 1-70) *)
Definition is_message_error (e : exn) : bool :=
  match e with
  | EMessageError | EHeaderError | ETimestampError | EFieldError _
  | EMessageTooOldError | EMessageFromFutureError
  | ECryptoError | EInvalidSignature | EInvalidKeys | EDecryptionError
  | ESerializationError | ESignatureAlreadyExists
  | EVersionMismatchError | EOwnershipMismatch | EValidationError => true
  | _ => false
  end.
Definition is_field_error (e : exn) : bool :=
  match e with EFieldError _ => true | _ => false end.
Definition is_header_error (e : exn) : bool :=
  match e with
  | EHeaderError | ETimestampError | EMessageTooOldError | EMessageFromFutureError => true
  | _ => false
  end.

Inductive result (A : Type) := Ok (a : A) | Err (e : exn).
Arguments Ok {A} a.
Arguments Err {A} e.

Definition bind {A B} (r : result A) (f : A -> result B) : result B :=
  match r with Ok a => f a | Err e => Err e end.
Notation "'do' x <- e ; f" := (bind e (fun x => f))
  (at level 200, x pattern, e at level 100, f at level 200).
Definition is_ok {A} (r : result A) : bool := match r with Ok _ => true | Err _ => false end.

Lemma Ok_inj {A} (a b : A) : Ok a = Ok b -> a = b.
Proof. congruence. Qed.
Lemma bind_ok {A B} (r : result A) (f : A -> result B) b :
  bind r f = Ok b -> exists a, r = Ok a /\ f a = Ok b.
Proof. destruct r; cbn; intros; [eauto|discriminate]. Qed.

Fixpoint mapM {A B} (f : A -> result B) (l : list A) : result (list B) :=
  match l with
  | [] => Ok []
  | a :: r => do b <- f a; do bs <- mapM f r; Ok (b :: bs)
  end.

(** ** Classes (closed enumerations of the classes shipped in /repo). *)

(** enum classes *)
Inductive ecls :=
| EnDisconnect            (* message/base.py 721-733 *)
| EnCannotAssign          (* message/tasks.py 513-518 *)
| EnSRR                   (* message/tasks.py 626-635 *)
| EnTaskFailure           (* message/tasks.py 704-707 *)
| EnCannotCompute         (* message/tasks.py 742-757 *)
| EnRejectRCT             (* message/tasks.py 840-844 *)
| EnServiceRefused        (* message/concents.py 33-43 *)
| EnFTTOperation          (* message/concents.py 123-126 *)
| EnFileCategory          (* message/concents.py 159-162 *)
| EnSettledOrigin         (* message/concents.py 286-289 *)
| EnFGTRRejected          (* message/concents.py 381-382 *)
| EnFSRRejected           (* message/concents.py 504-506 *)
| EnActor                 (* message/concents.py 558-560 *)
| EnForcePaymentRejected  (* message/concents.py 576-579 *)
| EnFRCTResponse          (* message/concents.py 598-608 *)
| EnMarketType            (* datastructures/tasks.py 24-26 *)
| EnOwner.                (* message/tasks.py 54-58 *)

(** dict and its subclasses *)
Inductive dcls :=
| DPlain
| DCTD          (* message/tasks.py 22-47 *)
| DFileInfo     (* message/concents.py 156-178 *)
| DPeer         (* datastructures/p2p.py 101-138 *)
| DBlockIoEntry (* datastructures/stats.py 8-15 *)
| DCpuUsage     (* datastructures/stats.py 37-46 *)
| DThrottling   (* datastructures/stats.py 49-58 *)
| DMemoryData.  (* datastructures/stats.py 93-100 *)

(** datastructures.Container subclasses *)
Inductive ccls :=
| CNode        (* datastructures/p2p.py 11-65 *)
| CTaskHeader  (* datastructures/tasks.py 18-151 *)
| CBlockIo     (* datastructures/stats.py 25-34 *)
| CCpu         (* datastructures/stats.py 61-90 *)
| CMemory      (* datastructures/stats.py 110-127 *)
| CPid         (* datastructures/stats.py 130-139 *)
| CProvider.   (* datastructures/stats.py 142-210 *)

(** registered message classes *)
Inductive mcls :=
(* message/base.py 634-738 *)
| MHello | MRandVal | MDisconnect | MChallengeSolution
(* message/p2p.py *)
| MPing | MPong | MGetPeers | MPeers | MGetTasks | MTasks | MRemoveTask | MGetResourcePeers
| MResourcePeers | MDegree | MGossip | MStopGossip | MLocRank | MFindNode
| MWantToStartTaskSession | MSetTaskSession | MRemoveTaskContainer
(* message/tasks.py *)
| MWantToComputeTask | MTaskToCompute | MCannotAssignTask | MReportComputedTask
| MSubtaskResultsAccepted | MSubtaskResultsRejected | MTaskFailure | MStartSessionResponse
| MCannotComputeTask | MSubtaskPayment | MSubtaskPaymentRequest | MAckReportComputedTask
| MRejectReportComputedTask
(* message/resources.py *)
| MPushResource | MHasResource | MWantsResource | MPullResource | MPullAnswer
| MResourceHandshakeStart | MResourceHandshakeNonce | MResourceHandshakeVerdict
(* message/concents.py *)
| MServiceRefused | MForceReportComputedTask | MVerdictReportComputedTask | MFileTransferToken
| MSubtaskResultsVerify | MAckSubtaskResultsVerify | MSubtaskResultsSettled | MForceGetTaskResult
| MAckForceGetTaskResult | MForceGetTaskResultFailed | MForceGetTaskResultRejected
| MForceGetTaskResultUpload | MForceGetTaskResultDownload | MForceSubtaskResults
| MForceSubtaskResultsResponse | MForceSubtaskResultsRejected | MForcePayment
| MForcePaymentCommitted | MForcePaymentRejected | MForceReportComputedTaskResponse
| MClientAuthorization.

Definition ecls_eq_dec (a b : ecls) : {a = b} + {a <> b}. Proof. decide equality. Defined.
Definition dcls_eq_dec (a b : dcls) : {a = b} + {a <> b}. Proof. decide equality. Defined.
Definition ccls_eq_dec (a b : ccls) : {a = b} + {a <> b}. Proof. decide equality. Defined.
Definition mcls_eq_dec (a b : mcls) : {a = b} + {a <> b}. Proof. decide equality. Defined.
Definition ecls_eqb a b := if ecls_eq_dec a b then true else false.
Definition dcls_eqb a b := if dcls_eq_dec a b then true else false.
Definition ccls_eqb a b := if ccls_eq_dec a b then true else false.
Definition mcls_eqb a b := if mcls_eq_dec a b then true else false.
Lemma mcls_eqb_eq a b : mcls_eqb a b = true <-> a = b.
Proof. unfold mcls_eqb. destruct (mcls_eq_dec a b); split; congruence. Qed.
Lemma mcls_eqb_refl a : mcls_eqb a a = true. Proof. apply mcls_eqb_eq; reflexivity. Qed.

(** Is the enum a [StringEnum] (str mixin, datastructures/__init__.py 87-94)? *)
Definition is_string_enum (e : ecls) : bool :=
  match e with
  | EnCannotAssign | EnTaskFailure | EnCannotCompute | EnRejectRCT
  | EnFTTOperation | EnFileCategory | EnMarketType | EnOwner => true
  | _ => false
  end.

(** ** Values.
    [VFloat] holds the IEEE-754 binary64 bit pattern; [VEnum e s] is the member
    of enum [e] whose [.value] is [s]; [VObj] a container instance with its
    attributes; [VMask] a [Mask]; [VMsg c t ts enc sig attrs] a message instance
    of class [c] with header [MessageHeader(t, ts, enc)]; [VTag] a [cbor.Tag]. *)
Inductive pyval :=
| VNone
| VBool (b : bool)
| VInt (z : Z)
| VFloat (bits : Z)
| VStr (s : ustr)
| VBytes (b : bytes)
| VList (l : list pyval)
| VTuple (l : list pyval)
| VDict (c : dcls) (kvs : list (pyval * pyval))
| VEnum (e : ecls) (value : string)
| VObj (c : ccls) (attrs : list (string * pyval))
| VMask (b : bytes)
| VMsg (c : mcls) (ty ts enc sig : pyval) (attrs : list (string * pyval))
| VTag (n : Z) (v : pyval).

Definition attrs_t := list (string * pyval).

(** Induction principle that goes through the nested lists. *)
Section pyval_ind'.
  Variable P : pyval -> Prop.
  Hypothesis Hnone : P VNone.
  Hypothesis Hbool : forall b, P (VBool b).
  Hypothesis Hint : forall z, P (VInt z).
  Hypothesis Hfloat : forall z, P (VFloat z).
  Hypothesis Hstr : forall s, P (VStr s).
  Hypothesis Hbytes : forall b, P (VBytes b).
  Hypothesis Hlist : forall l, Forall P l -> P (VList l).
  Hypothesis Htuple : forall l, Forall P l -> P (VTuple l).
  Hypothesis Hdict : forall c kvs,
      Forall (fun kv => P (fst kv) /\ P (snd kv)) kvs -> P (VDict c kvs).
  Hypothesis Henum : forall e s, P (VEnum e s).
  Hypothesis Hobj : forall c a, Forall (fun kv => P (snd kv)) a -> P (VObj c a).
  Hypothesis Hmask : forall b, P (VMask b).
  Hypothesis Hmsg : forall c ty ts enc sig a,
      P ty -> P ts -> P enc -> P sig -> Forall (fun kv => P (snd kv)) a ->
      P (VMsg c ty ts enc sig a).
  Hypothesis Htag : forall n v, P v -> P (VTag n v).

  Fixpoint pyval_ind' (v : pyval) : P v :=
    match v with
    | VNone => Hnone
    | VBool b => Hbool b
    | VInt z => Hint z
    | VFloat z => Hfloat z
    | VStr s => Hstr s
    | VBytes b => Hbytes b
    | VList l => Hlist l
        ((fix go (l : list pyval) : Forall P l :=
            match l with
            | [] => Forall_nil _
            | x :: r => Forall_cons x (pyval_ind' x) (go r)
            end) l)
    | VTuple l => Htuple l
        ((fix go (l : list pyval) : Forall P l :=
            match l with
            | [] => Forall_nil _
            | x :: r => Forall_cons x (pyval_ind' x) (go r)
            end) l)
    | VDict c kvs => Hdict c kvs
        ((fix go (l : list (pyval * pyval)) :
            Forall (fun kv => P (fst kv) /\ P (snd kv)) l :=
            match l with
            | [] => Forall_nil _
            | x :: r => Forall_cons x
                (match x as p return P (fst p) /\ P (snd p) with
                 | (a, b) => conj (pyval_ind' a) (pyval_ind' b) end) (go r)
            end) kvs)
    | VEnum e s => Henum e s
    | VObj c a => Hobj c a
        ((fix go (l : list (string * pyval)) : Forall (fun kv => P (snd kv)) l :=
            match l with
            | [] => Forall_nil _
            | x :: r => Forall_cons x
                (match x as p return P (snd p) with (_, b) => pyval_ind' b end) (go r)
            end) a)
    | VMask b => Hmask b
    | VMsg c ty ts enc sig a => Hmsg c ty ts enc sig a
        (pyval_ind' ty) (pyval_ind' ts) (pyval_ind' enc) (pyval_ind' sig)
        ((fix go (l : list (string * pyval)) : Forall (fun kv => P (snd kv)) l :=
            match l with
            | [] => Forall_nil _
            | x :: r => Forall_cons x
                (match x as p return P (snd p) with (_, b) => pyval_ind' b end) (go r)
            end) a)
    | VTag n v => Htag n v (pyval_ind' v)
    end.
End pyval_ind'.

(** ** Floats: decoding of a binary64 pattern to an exact dyadic m * 2^e. *)
Inductive fl := FNan | FInf (neg : bool) | FFin (m e : Z).

Definition fl_of_bits (b : Z) : fl :=
  let sgn := Z.testbit b 63 in
  let ex := (b / 2 ^ 52) mod 2048 in
  let mant := b mod 2 ^ 52 in
  if ex =? 2047 then (if mant =? 0 then FInf sgn else FNan)
  else
    let m := if ex =? 0 then mant else mant + 2 ^ 52 in
    let e := (if ex =? 0 then 1 else ex) - 1075 in
    FFin (if sgn then - m else m) e.

Definition fl_eqb (a b : fl) : bool :=
  match a, b with
  | FInf s, FInf t => Bool.eqb s t
  | FFin m1 e1, FFin m2 e2 =>
      let e := Z.min e1 e2 in
      m1 * 2 ^ (e1 - e) =? m2 * 2 ^ (e2 - e)
  | _, _ => false
  end.

Definition fl_ltb (a b : fl) : bool :=
  match a, b with
  | FNan, _ | _, FNan => false
  | FInf true, FInf true => false
  | FInf true, _ => true
  | FInf false, _ => false
  | FFin _ _, FInf s => negb s
  | FFin m1 e1, FFin m2 e2 =>
      let e := Z.min e1 e2 in
      m1 * 2 ^ (e1 - e) <? m2 * 2 ^ (e2 - e)
  end.

(** numeric view: bool and int are exact, float is its dyadic value *)
Definition num_of (v : pyval) : option fl :=
  match v with
  | VBool b => Some (FFin (if b then 1 else 0) 0)
  | VInt z => Some (FFin z 0)
  | VFloat b => Some (fl_of_bits b)
  | _ => None
  end.

(** str view: str itself and members of str-mixin enums *)
Definition str_of (v : pyval) : option ustr :=
  match v with
  | VStr s => Some s
  | VEnum e s => if is_string_enum e then Some (u s) else None
  | _ => None
  end.

(** ** Truthiness ([bool(x)]). Containers, masks, messages, enum members and
    cbor tags define neither [__bool__] nor [__len__] (str-mixin enum members in
    /repo are all non-empty strings). *)
Definition truthy (v : pyval) : bool :=
  match v with
  | VNone => false
  | VBool b => b
  | VInt z => negb (z =? 0)
  | VFloat b => negb (fl_eqb (fl_of_bits b) (FFin 0 0))
  | VStr s => match s with [] => false | _ => true end
  | VBytes s => match s with [] => false | _ => true end
  | VList l | VTuple l => match l with [] => false | _ => true end
  | VDict _ l => match l with [] => false | _ => true end
  | _ => true
  end.

Definition is_none (v : pyval) : bool := match v with VNone => true | _ => false end.
Lemma is_none_true v : is_none v = true <-> v = VNone.
Proof. destruct v; cbn; split; congruence. Qed.
Lemma truthy_not_none v : truthy v = true -> is_none v = false.
Proof. destruct v; cbn; congruence. Qed.

(** ** Equality ([==]).
    Simplification: containers, masks and messages occurring inside other values
    compare unequal here; message equality proper is modelled in Message.v (it
    compares serialized slots, in which no such object occurs), and the identity
    shortcut CPython takes for a NaN inside a list is ignored. *)
Fixpoint py_eq (a b : pyval) {struct a} : bool :=
  match num_of a, num_of b with
  | Some x, Some y => fl_eqb x y
  | Some _, None | None, Some _ => false
  | None, None =>
    match str_of a, str_of b with
    | Some x, Some y => ustr_eqb x y
    | Some _, None | None, Some _ => false
    | None, None =>
      match a, b with
      | VNone, VNone => true
      | VBytes x, VBytes y => bytes_eqb x y
      | VList l1, VList l2 =>
          (fix go (l1 l2 : list pyval) : bool :=
             match l1, l2 with
             | [], [] => true
             | x :: r1, y :: r2 => py_eq x y && go r1 r2
             | _, _ => false
             end) l1 l2
      | VTuple l1, VTuple l2 =>
          (fix go (l1 l2 : list pyval) : bool :=
             match l1, l2 with
             | [], [] => true
             | x :: r1, y :: r2 => py_eq x y && go r1 r2
             | _, _ => false
             end) l1 l2
      | VDict _ d1, VDict _ d2 =>
          Nat.eqb (List.length d1) (List.length d2) &&
          (fix go (d1 : list (pyval * pyval)) : bool :=
             match d1 with
             | [] => true
             | (k, v) :: r =>
                 (fix find (d2 : list (pyval * pyval)) : bool :=
                    match d2 with
                    | [] => false
                    | (k2, v2) :: r2 => if py_eq k k2 then py_eq v v2 else find r2
                    end) d2 && go r
             end) d1
      | VEnum e1 s1, VEnum e2 s2 => ecls_eqb e1 e2 && String.eqb s1 s2
      | VTag n x, VTag m y => (n =? m) && py_eq x y
      | _, _ => false
      end
    end
  end.

(** ** Dict access. *)
Fixpoint dict_get (k : pyval) (kvs : list (pyval * pyval)) : option pyval :=
  match kvs with
  | [] => None
  | (k', v) :: r => if py_eq k' k then Some v else dict_get k r
  end.
(** [d[k] = v]: an existing equal key keeps its position and its key object. *)
Fixpoint dict_set (k v : pyval) (kvs : list (pyval * pyval)) : list (pyval * pyval) :=
  match kvs with
  | [] => [(k, v)]
  | (k', v') :: r => if py_eq k' k then (k', v) :: r else (k', v') :: dict_set k v r
  end.

Definition skey (s : string) : pyval := VStr (u s).

(** [hash(x)] defined? (list, dict and cbor.Tag are unhashable; a tuple is
    hashable when its items are; messages define [__eq__] without [__hash__]) *)
Fixpoint hashable (v : pyval) : bool :=
  match v with
  | VList _ | VDict _ _ | VTag _ _ | VMsg _ _ _ _ _ _ => false
  | VTuple l => forallb hashable l
  | VObj CNode _ => false
  | _ => true
  end.

(** ** Iteration ([iter(x)]); [None] stands for TypeError. *)
Definition py_iter (v : pyval) : option (list pyval) :=
  match v with
  | VList l | VTuple l => Some l
  | VDict _ kvs => Some (map fst kvs)
  | VStr s => Some (map (fun c => VStr [c]) s)
  | VBytes b => Some (map (fun c => VInt (b2z c)) b)
  | VEnum e s => if is_string_enum e then Some (map (fun c => VStr [c]) (u s)) else None
  | _ => None
  end.

(** [dict(x)]; [None] stands for TypeError/ValueError. *)
Fixpoint dict_of_pairs (l : list pyval) (acc : list (pyval * pyval)) : option (list (pyval * pyval)) :=
  match l with
  | [] => Some acc
  | x :: r =>
      match py_iter x with
      | Some [k; v] => if hashable k then dict_of_pairs r (dict_set k v acc) else None
      | _ => None
      end
  end.
Definition py_dict_of (v : pyval) : option (list (pyval * pyval)) :=
  match v with
  | VDict _ kvs => Some kvs
  | _ => match py_iter v with Some l => dict_of_pairs l [] | None => None end
  end.

(** ** Attributes *)
Fixpoint attr_get (k : string) (a : attrs_t) : option pyval :=
  match a with
  | [] => None
  | (k', v) :: r => if String.eqb k' k then Some v else attr_get k r
  end.
Fixpoint attr_set (k : string) (v : pyval) (a : attrs_t) : attrs_t :=
  match a with
  | [] => [(k, v)]
  | (k', v') :: r => if String.eqb k' k then (k', v) :: r else (k', v') :: attr_set k v r
  end.
(** [getattr(o, k, None)] on an object's own attributes *)
Definition attr_get_or_none (k : string) (a : attrs_t) : pyval :=
  match attr_get k a with Some v => v | None => VNone end.

(** ** Nesting depth of a value (used as recursion budget). *)
Definition max_list (l : list nat) : nat := fold_right Nat.max O l.
Fixpoint vdepth (v : pyval) : nat :=
  match v with
  | VList l | VTuple l => max_list (map (fun x => S (vdepth x)) l)
  | VDict _ kvs => max_list (map (fun kv => S (Nat.max (vdepth (fst kv)) (vdepth (snd kv)))) kvs)
  | VObj _ a => S (max_list (map (fun kv => vdepth (snd kv)) a))
  | VMsg _ ty ts enc sig a =>
      S (Nat.max (Nat.max (vdepth ty) (vdepth ts))
        (Nat.max (Nat.max (vdepth enc) (vdepth sig)) (max_list (map (fun kv => vdepth (snd kv)) a))))
  | VTag _ v => S (vdepth v)
  | _ => O
  end.

Lemma max_list_le l x : In x l -> (x <= max_list l)%nat.
Proof.
  induction l as [|y l IH]; cbn [In]; [easy|].
  change (max_list (y :: l)) with (Nat.max y (max_list l)).
  intros [->|H]; [lia|]. apply IH in H. lia.
Qed.

(** ** Basic facts *)
Lemma attr_get_set_same k v a : attr_get k (attr_set k v a) = Some v.
Proof.
  induction a as [|[k' v'] a IH]; cbn [attr_set attr_get].
  - rewrite String.eqb_refl. reflexivity.
  - destruct (String.eqb k' k) eqn:E; cbn [attr_get]; rewrite E; auto.
Qed.
Lemma attr_get_set_other k k' v a : k <> k' -> attr_get k (attr_set k' v a) = attr_get k a.
Proof.
  intros H. induction a as [|[x y] a IH]; cbn [attr_set attr_get].
  - destruct (String.eqb_spec k' k); [congruence|reflexivity].
  - destruct (String.eqb_spec x k'); cbn [attr_get].
    + subst. destruct (String.eqb_spec k' k); [congruence|reflexivity].
    + destruct (String.eqb_spec x k); auto.
Qed.

Lemma attr_get_in k v a : attr_get k a = Some v -> In (k, v) a.
Proof.
  induction a as [|[x y] a IH]; cbn; [discriminate|].
  destruct (String.eqb_spec x k); [intros [= ->]; subst; auto|auto].
Qed.

Lemma attr_get_nodup k v a : NoDup (map fst a) -> In (k, v) a -> attr_get k a = Some v.
Proof.
  induction a as [|[x y] a IH]; cbn; [easy|]. intros Hn [H|H].
  - inversion H; subst. rewrite String.eqb_refl. reflexivity.
  - inversion Hn; subst. destruct (String.eqb_spec x k) as [->|]; [|auto].
    exfalso. apply H2. apply (in_map fst) in H. exact H.
Qed.

Lemma attr_get_none k a : attr_get k a = None <-> ~ In k (map fst a).
Proof.
  induction a as [|[x y] a IH]; cbn; [tauto|].
  destruct (String.eqb_spec x k); [subst; split; [discriminate|tauto]|].
  rewrite IH. tauto.
Qed.

Lemma py_eq_str a b : py_eq (VStr a) (VStr b) = ustr_eqb a b.
Proof. reflexivity. Qed.
Lemma py_eq_skey a b : py_eq (skey a) (skey b) = String.eqb a b.
Proof.
  unfold skey. rewrite py_eq_str. destruct (String.eqb_spec a b).
  - subst. apply ustr_eqb_refl.
  - destruct (ustr_eqb (u a) (u b)) eqn:E; [|reflexivity].
    apply ustr_eqb_eq, u_inj in E. congruence.
Qed.

(** view of an attribute list as a str-keyed dict *)
Definition kv_of_attrs (a : attrs_t) : list (pyval * pyval) :=
  map (fun kv => (skey (fst kv), snd kv)) a.
Lemma dict_get_kv k a : dict_get (skey k) (kv_of_attrs a) = attr_get k a.
Proof.
  induction a as [|[x y] a IH]; [reflexivity|].
  cbn [kv_of_attrs map dict_get attr_get fst snd]. rewrite py_eq_skey.
  destruct (String.eqb x k); auto.
Qed.
