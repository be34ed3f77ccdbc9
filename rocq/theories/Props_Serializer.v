(** * Property theorems: the serializer (C48) *)
From Verif Require Import SerFacts.

(** ** C48 *)
(** [norm] is the receiver's view: lists for tuples, plain dicts and strings;
    [rest] shows that what follows an item does not matter *)
Theorem C48_round_trip :
  forall v b d rest, dumps v = Ok b -> wirewf v = true -> (vdepth v < d)%nat -> loads d (b ++ rest) = Ok (norm v).
Proof. exact loads_dumps_norm. Qed.
Print Assumptions C48_round_trip.
Theorem C48_prefix_free :
  forall v1 v2 b1 b2 r1 r2, dumps v1 = Ok b1 -> dumps v2 = Ok b2 -> wirewf v1 = true -> wirewf v2 = true ->
  b1 ++ r1 = b2 ++ r2 -> norm v1 = norm v2 /\ b1 = b2 /\ r1 = r2.
Proof. exact dumps_prefix_free. Qed.
Print Assumptions C48_prefix_free.
(** dumping fails exactly for values with lone surrogates, objects, masks,
    messages or non-string enum members in them *)
Theorem C48_dumpable :
  forall v, vsize v < 2 ^ 64 -> (dumpable v /\ exists b, dumps v = Ok b) \/ (~ dumpable v /\ dumps v = Err ESerializationError).
Proof. exact dumps_exact. Qed.
Print Assumptions C48_dumpable.
(** every value that any bytes load to can be dumped and loads again unchanged *)
Theorem C48_loaded_redumps :
  forall d bs v, loads d bs = Ok v -> blen bs < 2 ^ 64 ->
  exists b, dumps v = Ok b /\ forall d' rest, (d <= d')%nat -> loads d' (b ++ rest) = Ok v.
Proof. exact loads_dumps. Qed.
Print Assumptions C48_loaded_redumps.
(** without [wirewf] the trip can fail: a tuple key arrives as an unhashable list *)
Theorem C48_tuple_key_refuted :
  exists v b, dumps v = Ok b /\ hashable (VTuple [VInt 1]) = true /\ v = VDict DPlain [(VTuple [VInt 1], VNone)] /\ forall d, loads d b = Err ESerializationError.
Proof.
  exists (VDict DPlain [(VTuple [VInt 1], VNone)]). eexists. split; [reflexivity|]. split; [reflexivity|]. split; [reflexivity|].
  intros [|[|[|d]]]; reflexivity.
Qed.
Print Assumptions C48_tuple_key_refuted.
Definition ex_value : pyval := VDict DCTD [(VStr (u "k"), VTuple [VInt (-5); VInt (2 ^ 80); VFloat 4607182418800017408; VBytes [xff]; VBool true; VNone]);
  (VInt 3, VEnum EnFTTOperation "upload"); (VStr [8364; 128512], VTag 77 (VList []))].
Example C48_ex :
  wirewf ex_value = true /\ encb ex_value = true /\ vsize ex_value < 2 ^ 64 /\ vdepth ex_value = 2%nat /\
  (do b <- dumps ex_value; loads 3 (b ++ [x00])) = Ok (norm ex_value) /\ norm ex_value <> ex_value /\
  dumps (VList [VStr [55296]]) = Err ESerializationError /\ dumps (VList [VMask []]) = Err ESerializationError /\
  loads 9 [x9f; x18; x2a; xf9; x3c; x00; xff] = Ok (VList [VInt 42; VFloat 4607182418800017408]).
Proof.
  split; [vm_compute; reflexivity|]. split; [vm_compute; reflexivity|]. split; [vm_compute; reflexivity|]. split; [vm_compute; reflexivity|].
  split; [vm_compute; reflexivity|]. split; [vm_compute; discriminate|]. split; [vm_compute; reflexivity|]. split; vm_compute; reflexivity.
Qed.
