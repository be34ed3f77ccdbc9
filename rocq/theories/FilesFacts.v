(** * The files of a received FileTransferToken (C51) *)
From Verif Require Export EvidenceFacts.

(** a FileInfo of category [s] *)
Definition filed (s : string) (f : pyval) : Prop :=
  exists kvs, f = VDict DFileInfo kvs /\ dict_get (skey "category") kvs = Some (VEnum EnFileCategory s).
Lemma token_files a : loaded MFileTransferToken a ->
  attr_get "files" a = Some VNone \/
  exists l, attr_get "files" a = Some (VList l) /\ Forall (fun f => exists s, In s (members EnFileCategory) /\ filed s f) l.
Proof.
  intros [F V _]. destruct (attr_get "files" a) as [w|] eqn:G; [|exfalso; apply attr_get_none in G; apply G; rewrite F; vm_compute; tauto].
  pose proof (proj2 (V _ _ (attr_get_In _ _ _ G))) as [[->|[W|[W _]]] _]; [left; reflexivity| |discriminate W]. right.
  destruct W as (l & -> & W). exists l. split; [reflexivity|]. rewrite Forall_forall in W |- *. intros f Hf. destruct (W f Hf) as (kvs & -> & S & C).
  destruct (schema_get _ _ "category"%string S) as (k & v & G1 & G2 & G3); [vm_compute; tauto|].
  destruct (C _ _ G2 G3) as (s & -> & Hs). exists s. split; [exact Hs|]. exists kvs. auto.
Qed.
Lemma filed_of s s' f : In s (members EnFileCategory) -> In s' (members EnFileCategory) -> filed s f -> (of_category (VEnum EnFileCategory s') f <-> s = s').
Proof.
  intros H H' (kvs & -> & G).
  assert (Q : py_eq (VEnum EnFileCategory s) (VEnum EnFileCategory s') = true <-> s = s').
  { cbn in H, H'. destruct H as [<-|[<-|[]]], H' as [<-|[<-|[]]]; vm_compute; split; congruence. }
  rewrite <- Q. unfold of_category, category_of. split.
  - intros (d & kvs' & E & P). injection E as <- <-. rewrite G in P. exact P.
  - intros P. exists DFileInfo, kvs. split; [reflexivity|]. rewrite G. exact P.
Qed.
Lemma token_lookup ty ts enc sig a : loaded MFileTransferToken a -> let t := VMsg MFileTransferToken ty ts enc sig a in
  (attr_get "files" a = Some VNone /\ forall cat, get_file_info t cat = Err ETypeError) \/
  exists l, attr_get "files" a = Some (VList l) /\ Forall (fun f => exists s, In s (members EnFileCategory) /\ filed s f) l /\
    forall s, In s (members EnFileCategory) ->
    (Forall (fun f => ~ filed s f) l /\ get_file_info t (VEnum EnFileCategory s) = Ok VNone) \/
    exists pre f post, l = pre ++ f :: post /\ Forall (fun g => ~ filed s g) pre /\ filed s f /\ get_file_info t (VEnum EnFileCategory s) = Ok f.
Proof.
  intros L t. destruct (token_files a L) as [G|(l & G & W)].
  - left. split; [exact G|]. intros cat. unfold get_file_info, t. rewrite getattr_slot by (vm_compute; tauto). unfold attr_get_or_none. rewrite G. reflexivity.
  - right. exists l. split; [exact G|]. split; [exact W|]. intros s Hs.
    assert (GF : get_file_info t (VEnum EnFileCategory s) = find_file (VEnum EnFileCategory s) l).
    { unfold get_file_info, t. rewrite getattr_slot by (vm_compute; tauto). unfold attr_get_or_none. rewrite G. reflexivity. }
    rewrite GF. rewrite Forall_forall in W.
    assert (EQ : forall f, In f l -> (of_category (VEnum EnFileCategory s) f <-> filed s f)).
    { intros f Hf. destruct (W f Hf) as (s0 & H0 & F0). rewrite (filed_of s0 s f H0 Hs F0). split; [intros <-; exact F0|].
      intros (kvs & E & Q). destruct F0 as (kvs0 & E0 & Q0). assert (kvs0 = kvs) by congruence. subst. congruence. }
    destruct (find_file_spec (VEnum EnFileCategory s) l) as [(pre & f & post & El & Hp & Hf & R)|[Hn R]].
    + apply Forall_forall. intros f Hf. destruct (W f Hf) as (s0 & _ & kvs & -> & _). do 2 eexists. reflexivity.
    + right. exists pre, f, post. split; [exact El|]. split; [|split; [apply EQ; [rewrite El; apply in_elt|exact Hf]|exact R]].
      rewrite Forall_forall in Hp |- *. intros g Hg X. apply (Hp g Hg). apply EQ; [rewrite El; apply in_or_app; left; exact Hg|exact X].
    + left. split; [|exact R]. rewrite Forall_forall in Hn |- *. intros g Hg X. apply (Hn g Hg). apply EQ; assumption.
Qed.
(** also of a token that came inside another message *)
Lemma received_token E now bs decf ct pub m t : deserialize E now bs decf ct pub = Ok m ->
  t = m \/ (exists c ty ts enc sig a k, m = VMsg c ty ts enc sig a /\ attr_get k a = Some t) ->
  forall ty ts enc sig a, t = VMsg MFileTransferToken ty ts enc sig a -> loaded MFileTransferToken a.
Proof.
  intros H I ty ts enc sig a ->. apply deserialize_loaded in H as (c & z & e & s & v & b & -> & L & _). destruct I as [I|(c' & x1 & x2 & x3 & x4 & b' & k & I & G)].
  - assert (c = MFileTransferToken) by congruence. subst c. cbn [full] in I. assert (b = a) by congruence. subst b. exact L.
  - assert (b' = full c v b) by congruence. subst b'. clear I.
    assert (G' : attr_get k b = Some (VMsg MFileTransferToken ty ts enc sig a)).
    { destruct (mcls_eqb c MHello) eqn:Q; [|destruct c; (discriminate Q || exact G)]. apply mcls_eqb_eq in Q. subst c. cbn [full] in G.
      revert G. clear. induction b as [|[k' w'] b IH]; cbn [attr_get app]; [destruct (_ =? _)%string; [discriminate|auto]|].
      destruct (_ =? _)%string; auto. }
    destruct L as [F V N]. pose proof (attr_get_In _ _ _ G') as Hin.
    destruct (loaded_val_msg _ _ _ _ _ _ _ (proj2 (V _ _ Hin))) as (d' & an & il & K).
    destruct (N _ _ _ _ _ Hin K) as [Q|[[Q _]|[[_ (z1 & z2 & z3 & z4 & b' & Q & _ & _ & _ & _ & Lb)]|[_ (l & Q & _)]]]]; try discriminate Q.
    injection Q as <- _ _ _ _ <-. exact Lb.
Qed.
Lemma received_files E now bs decf ct pub m t : deserialize E now bs decf ct pub = Ok m ->
  t = m \/ (exists c ty ts enc sig a k, m = VMsg c ty ts enc sig a /\ attr_get k a = Some t) ->
  forall ty ts enc sig a, t = VMsg MFileTransferToken ty ts enc sig a ->
  (attr_get "files" a = Some VNone /\ forall cat, get_file_info t cat = Err ETypeError) \/
  exists l, attr_get "files" a = Some (VList l) /\ Forall (fun f => exists s, In s (members EnFileCategory) /\ filed s f) l /\
    forall s, In s (members EnFileCategory) ->
    (Forall (fun f => ~ filed s f) l /\ get_file_info t (VEnum EnFileCategory s) = Ok VNone) \/
    exists pre f post, l = pre ++ f :: post /\ Forall (fun g => ~ filed s g) pre /\ filed s f /\ get_file_info t (VEnum EnFileCategory s) = Ok f.
Proof. intros H I ty ts enc sig a Et. pose proof (received_token E now bs decf ct pub m t H I ty ts enc sig a Et) as L. subst t. exact (token_lookup ty ts enc sig a L). Qed.
(** a received token without an operation is for neither; else for exactly one *)
Lemma received_operation E now bs decf ct pub m t : deserialize E now bs decf ct pub = Ok m ->
  t = m \/ (exists c ty ts enc sig a k, m = VMsg c ty ts enc sig a /\ attr_get k a = Some t) ->
  forall ty ts enc sig a, t = VMsg MFileTransferToken ty ts enc sig a ->
  exists b b', is_upload t = Ok b /\ is_download t = Ok b' /\ (b && b' = false) /\ (b || b' = false <-> attr_get "operation" a = Some VNone).
Proof.
  intros H I ty ts enc sig a Et. pose proof (received_token E now bs decf ct pub m t H I ty ts enc sig a Et) as [F V _]. subst t.
  destruct (attr_get "operation" a) as [w|] eqn:G; [|exfalso; apply attr_get_none in G; apply G; rewrite F; vm_compute; tauto].
  unfold is_upload, is_download. rewrite !getattr_slot by (vm_compute; tauto). unfold attr_get_or_none. rewrite G. cbn [bind].
  pose proof (proj2 (V _ _ (attr_get_In _ _ _ G))) as [[->|[W|[W _]]] _]; [| |discriminate W].
  - do 2 eexists. do 2 (split; [reflexivity|]). split; [reflexivity|]. split; reflexivity.
  - destruct W as [->|(s & -> & Hs)]; do 2 eexists; (split; [reflexivity|]); (split; [reflexivity|]).
    + split; [reflexivity|]. split; reflexivity.
    + cbn in Hs. destruct Hs as [<-|[<-|[]]]; vm_compute; split; try reflexivity; split; discriminate.
Qed.
