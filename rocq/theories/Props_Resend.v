(** * C96: dumping a message that other messages contain *)
From Verif Require Import HeapDump Samples.

(** dumping with objects is dumping with values: the same bytes or exception, the
    object shows the message as [serialize] leaves it, no other object is changed, and
    only those show anything else that contain it *)
Theorem C96_dump :
  forall E n h l key encf c ty ts enc sig a, sound h -> view n h (At l) = Some (VMsg c ty ts enc sig a) ->
  exists h', dump_at E n h l key encf = Some (h', snd (serialize E (VMsg c ty ts enc sig a) key encf)) /\
  view n h' (At l) = Some (fst (serialize E (VMsg c ty ts enc sig a) key encf)) /\
  (forall p, p <> l -> nth_error h' p = nth_error h p) /\
  forall k x, there h x -> ~ reach h x l -> view k h' x = view k h x.
Proof. exact dump_exact. Qed.
Print Assumptions C96_dump.
(** what can be shown, and so dumped, does not contain itself *)
Theorem C96_acyclic :
  forall n h l o y v, view n h (At l) = Some v -> nth_error h l = Some o -> In y (parts o) -> ~ reach h y l.
Proof. exact shown_acyclic. Qed.
Print Assumptions C96_acyclic.
(** dumping signed messages the way they were dumped before (encrypted or not), any
    number of times, changes no object at all *)
Theorem C96_again :
  forall E n h ops,
  (forall l key encf, In (l, key, encf) ops -> exists c ty ts sig a, sig <> VNone /\
     view n h (At l) = Some (VMsg c ty ts (VBool (encrypts c && match encf with Some _ => true | None => false end)) sig a)) ->
  dump_all E n h ops = h.
Proof. exact all_settled. Qed.
Print Assumptions C96_again.

(** but dumping a signed message the other way breaks the signature of a message that
    contains it, as that covers the flag of the message inside *)
Definition hr : heap := Eval vm_compute in
  match ex_wtct, ex_ttc with
  | VMsg c ty ts enc sig a, VMsg c' ty' ts' enc' sig' a' =>
      [OMsg c ty ts enc sig (map (fun kv => (fst kv, Val (snd kv))) a);
       OMsg c' ty' ts' enc' sig' (map (fun kv => (fst kv, if (fst kv =? "want_to_compute_task")%string then At 0%nat else Val (snd kv))) a')]
  | _, _ => []
  end.
Definition hs : heap := Eval vm_compute in match dump_at E0 9%nat hr 0%nat None (Some (fun b => Ok b)) with Some (h, _) => h | None => [] end.
Definition outer (h : heap) : pyval := match view 9%nat h (At 1%nat) with Some m => m | None => VNone end.
Theorem C96_contained_refuted :
  exists E n h l p k encf h' bs m m', crypto_ok (cr E) /\ sound h /\ p <> l /\
  view n h (At p) = Some m /\ verify_signature E m k = Ok tt /\
  dump_at E n h l None encf = Some (h', Ok bs) /\
  view n h' (At p) = Some m' /\ verify_signature E m' k = Err EInvalidSignature.
Proof.
  exists E0, 9%nat, hr, 0%nat, 1%nat, (VBytes (pub req_key)), (Some (fun b => Ok b)), hs.
  exists (match dump_at E0 9%nat hr 0%nat None (Some (fun b => Ok b)) with Some (_, Ok bs) => bs | _ => [] end), (outer hr), (outer hs).
  split; [exact toy_ok|]. split; [|split; [discriminate|]].
  - intros l o y N I. destruct l as [|[|l]]; [| |destruct l; discriminate N]; injection N as <-; vm_compute in I;
      repeat (destruct I as [I|I]; [first [discriminate I|injection I as <-; cbn; lia]|]); contradiction.
  - split; [vm_compute; reflexivity|]. split; [vm_compute; reflexivity|]. split; [vm_compute; reflexivity|]. split; vm_compute; reflexivity.
Qed.
Print Assumptions C96_contained_refuted.
(** messages that meet the hypotheses of C96_again *)
Example C96_ex :
  (forall l key encf, In (l, key, encf) [(0%nat, None, None); (1%nat, None, None); (0%nat, Some req_key, None)] -> settled 9%nat hr l encf) /\
  is_ok (match dump_at E0 9%nat hr 1%nat None None with Some (_, r) => r | None => Err EFuel end) = true.
Proof.
  split; [|vm_compute; reflexivity]. intros l key encf [Q|[Q|[Q|[]]]]; injection Q as <- <- <-; unfold settled;
    [exists MWantToComputeTask|exists MTaskToCompute|exists MWantToComputeTask]; do 4 eexists; (split; [|vm_compute; reflexivity]); discriminate.
Qed.
