(** * C95: what objects share: signed copies and defaults *)
From Verif Require Import HeapFacts Samples.

(** [copy_and_sign] with objects is [copy_and_sign] with values: the object returned
    shows the signed message, is the original exactly if that was signed already, and
    every object that there was shows what it showed before *)
Theorem C95_copy :
  forall E n h l priv c ty ts enc sig a, sound h -> view n h (At l) = Some (VMsg c ty ts enc sig a) ->
  (forall m', copy_and_sign E (VMsg c ty ts enc sig a) priv = Ok m' ->
     exists l' h', copy_and_sign_at E n h l priv = Some (Ok (l', h')) /\ view n h' (At l') = Some m' /\ (l' = l <-> sig <> VNone) /\
     forall k x, there h x -> view k h' x = view k h x) /\
  (forall e, copy_and_sign E (VMsg c ty ts enc sig a) priv = Err e -> copy_and_sign_at E n h l priv = Some (Err e)).
Proof. exact copy_exact. Qed.
Print Assumptions C95_copy.
(** changing the attributes of the original afterwards, in any way and any number of
    times, does not change the copy *)
Theorem C95_own_attributes :
  forall E n h l priv l' h' cs, sound h -> copy_and_sign_at E n h l priv = Some (Ok (l', h')) -> l' <> l ->
  (forall o y, nth_error h l = Some o -> In y (parts o) -> ~ reach h y l) ->
  (forall p o, In (Put p o) cs -> p = l) -> forall k, view k (later h' cs) (At l') = view k h' (At l').
Proof. exact own_attributes. Qed.
Print Assumptions C95_own_attributes.
(** nor does any change of objects that cannot be reached from it *)
Theorem C95_untouched :
  forall n h x cs, sound h -> there h x -> (forall l o, In (Put l o) cs -> ~ reach h x l) -> view n (later h cs) x = view n h x.
Proof. exact untouched. Qed.
Print Assumptions C95_untouched.
(** but whatever happens to the messages, dicts and lists inside happens to both: they
    always show the same slots *)
Theorem C95_follows :
  forall E n h l priv l' h' cs, copy_and_sign_at E n h l priv = Some (Ok (l', h')) ->
  (forall p o, In (Put p o) cs -> p <> l /\ p <> l') ->
  exists c ty ts enc sig sig' r, forall k,
    view (S k) (later h' cs) (At l) = option_map (VMsg c ty ts enc sig) (r k) /\ view (S k) (later h' cs) (At l') = option_map (VMsg c ty ts enc sig') (r k).
Proof. exact copy_follows. Qed.
Print Assumptions C95_follows.

(** so a copy that waits in a queue need not stay signed: the price in the
    WantToComputeTask inside is changed *)
Definition slots_of (m : pyval) : attrs_t := match m with VMsg _ _ _ _ _ a => a | _ => [] end.
Definition object_of (m : pyval) (sig : pyval) (inner : list (string * held)) : object :=
  match m with
  | VMsg c ty ts enc _ a => OMsg c ty ts enc sig (map (fun kv => (fst kv, match List.find (fun kv' => (fst kv' =? fst kv)%string) inner with Some x => snd x | None => Val (snd kv) end)) a)
  | _ => OList []
  end.
Definition hp : heap := Eval vm_compute in
  [object_of ex_wtct (VBytes (match ex_wtct with VMsg _ _ _ _ (VBytes s) _ => s | _ => [] end)) []; object_of ex_ttc VNone [("want_to_compute_task"%string, At 0%nat)]].
Definition dearer : change := Eval vm_compute in
  Put 0%nat (match object_of ex_wtct (VBytes []) [] with OMsg c ty ts enc sig s => OMsg c ty ts enc sig (map (fun kv => if (fst kv =? "price")%string then (fst kv, Val (VInt 5000)) else kv) s) | o => o end).
Definition hq : heap := Eval vm_compute in match copy_and_sign_at E0 9%nat hp 1%nat req_key with Some (Ok (_, h)) => h | _ => [] end.
Theorem C95_stays_signed_refuted :
  exists E n h l priv l' h' k change m m', crypto_ok (cr E) /\ sound h /\
  copy_and_sign_at E n h l priv = Some (Ok (l', h')) /\ l' <> l /\
  view n h' (At l') = Some m /\ verify_signature E m k = Ok tt /\
  (forall p o, change = Put p o -> p <> l /\ p <> l') /\
  view n (changed h' change) (At l') = Some m' /\ verify_signature E m' k = Err EInvalidSignature.
Proof.
  assert (V : exists m, view 9%nat hq (At 2%nat) = Some m /\ verify_signature E0 m (VBytes (pub req_key)) = Ok tt).
  { destruct (view 9%nat hq (At 2%nat)) as [m|] eqn:Q; [|vm_compute in Q; discriminate Q]. exists m. split; [reflexivity|].
    assert (T : match view 9%nat hq (At 2%nat) with Some m => verify_signature E0 m (VBytes (pub req_key)) | None => Err EFuel end = Ok tt) by (vm_compute; reflexivity).
    rewrite Q in T. exact T. }
  assert (V' : exists m, view 9%nat (changed hq dearer) (At 2%nat) = Some m /\ verify_signature E0 m (VBytes (pub req_key)) = Err EInvalidSignature).
  { destruct (view 9%nat (changed hq dearer) (At 2%nat)) as [m|] eqn:Q; [|vm_compute in Q; discriminate Q]. exists m. split; [reflexivity|].
    assert (T : match view 9%nat (changed hq dearer) (At 2%nat) with Some m => verify_signature E0 m (VBytes (pub req_key)) | None => Err EFuel end = Err EInvalidSignature) by (vm_compute; reflexivity).
    rewrite Q in T. exact T. }
  destruct V as (m & Vm & Sm), V' as (m' & Vm' & Sm').
  exists E0, 9%nat, hp, 1%nat, req_key, 2%nat, hq, (VBytes (pub req_key)), dearer, m, m'. split; [exact toy_ok|]. split.
  - intros l o y N I. destruct l as [|[|l]]; [| |destruct l; discriminate N]; injection N as <-; vm_compute in I;
      repeat (destruct I as [I|I]; [first [discriminate I|injection I as <-; cbn; lia]|]); contradiction.
  - split; [vm_compute; reflexivity|]. split; [discriminate|]. split; [exact Vm|]. split; [exact Sm|]. split; [|split; [exact Vm'|exact Sm']].
    intros p o Q. injection Q as <- _. split; discriminate.
Qed.
Print Assumptions C95_stays_signed_refuted.

(** ** Defaults *)
(** the defaults a dict is given are new objects, each of its own, which refer to
    nothing, and show what the values of ITEMS say *)
Theorem C95_defaults :
  forall d n h kvs vs h' kvs', d <> DPlain -> d <> DPeer -> sound h -> (forall y, In y (map snd kvs) -> there h y) ->
  each (view (S n) h) kvs = Some vs -> set_defaults h kvs (items d) = (h', kvs') ->
  exists new dk vs', h' = h ++ new /\ kvs' = kvs ++ dk /\ dset_defaults d vs (items d) = Ok vs' /\ each (view (S n) h') kvs' = Some vs' /\
  (forall o y, In o new -> In y (parts o) -> exists w, y = Val w) /\
  NoDup (places dk) /\ (forall l, In l (places dk) <-> (List.length h <= l < List.length h')%nat).
Proof. intros d n h kvs vs h' kvs' D1 D2. exact (defaults_placed d n (items d) D1 D2 (incl_refl _) h kvs vs h' kvs'). Qed.
Print Assumptions C95_defaults.
(** so changing a default of one dict in place changes no other dict made later *)
Theorem C95_defaults_apart :
  forall d d' n h kvs vs h1 kvs1 kvs' vs' h2 kvs2, d <> DPlain -> d <> DPeer -> d' <> DPlain -> d' <> DPeer -> sound h ->
  (forall y, In y (map snd kvs) -> there h y) -> each (view (S n) h) kvs = Some vs ->
  (forall y, In y (map snd kvs') -> there h y) -> each (view (S n) h) kvs' = Some vs' ->
  set_defaults h kvs (items d) = (h1, kvs1) -> set_defaults h1 kvs' (items d') = (h2, kvs2) ->
  forall l o, (List.length h <= l < List.length h1)%nat -> forall k y, In y (map snd kvs2) -> view k (put h2 l o) y = view k h2 y.
Proof. exact defaults_apart. Qed.
Print Assumptions C95_defaults_apart.
(** two empty ComputeTaskDefs: four new objects; an item put into the first one's extra_data *)
Example C95_ex :
  let '(h1, k1) := set_defaults [] [] (items DCTD) in let '(h2, k2) := set_defaults h1 [] (items DCTD) in
  places k1 = [0; 1]%nat /\ places k2 = [2; 3]%nat /\
  each (view 5%nat (put h2 0%nat (ODict DPlain [(VInt 1, Val (VInt 2))]))) k2 = each (view 5%nat h2) k2 /\
  each (view 5%nat (put h2 0%nat (ODict DPlain [(VInt 1, Val (VInt 2))]))) k1 <> each (view 5%nat h2) k1.
Proof. vm_compute. repeat split. discriminate. Qed.
