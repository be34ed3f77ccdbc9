(** * Rules between the slots of a message: which classes have any *)
From Verif Require Import AcceptFacts HashFacts ReadSpec Samples.

(** what a slot of a message may hold, whatever the other slots hold *)
Definition allowed (c : mcls) (k : string) (w : pyval) : Prop :=
  w = kept c k VNone \/ exists v w0, slot_as (slot_kind c k) v w0 /\ w = kept c k w0.
(** the classes with checks of their own, message/tasks.py 371-440 (TaskToCompute),
    583-594, 648-668 and message/concents.py 102-113 *)
Definition related : list mcls := [MTaskToCompute; MSubtaskResultsAccepted; MSubtaskResultsRejected; MVerdictReportComputedTask].

Lemma only_these c : (forall E ty ts enc sig a, vet E c (VMsg c ty ts enc sig a) = Ok tt) <-> ~ In c related.
Proof.
  split.
  - intros H I. specialize (H E0 VNone VNone VNone VNone []). unfold related in I. cbn [In] in I.
    destruct I as [<-|[<-|[<-|[<-|[]]]]]; vm_compute in H; discriminate H.
  - intros N E ty ts enc sig a. unfold vet. destruct (is_task_message c) eqn:T; [|reflexivity].
    assert (V : is_valid (VMsg c ty ts enc sig a) = Ok tt).
    { unfold is_valid. destruct c; try discriminate T; try reflexivity; exfalso; apply N; unfold related; cbn [In]; auto. }
    rewrite V. cbn [bind]. destruct c; try reflexivity. exfalso. apply N. left. reflexivity.
Qed.

Lemma skey_in k k' : skey k = skey k' -> k = k'.
Proof. intros H. apply u_inj. injection H as H. exact H. Qed.
Lemma built c (f : string -> pyval) ks : NoDup ks -> (forall k, In k ks -> allowed c k (f k)) ->
  exists kvs, (forall x v, In (x, v) kvs -> exists k, x = skey k /\ In k ks) /\ NoDup (map fst kvs) /\
  forall k, In k ks -> ((forall v, ~ In (skey k, v) kvs) /\ f k = kept c k VNone) \/
                       exists v w0, In (skey k, v) kvs /\ slot_as (slot_kind c k) v w0 /\ f k = kept c k w0.
Proof.
  induction ks as [|k ks IH]; intros ND A.
  - exists []. split; [intros x v []|]. split; [constructor|]. intros k [].
  - inversion ND as [|? ? Hk ND']; subst. destruct (IH ND') as (kvs & K & N & H); [intros k' I; apply A; right; exact I|].
    destruct (A k (or_introl eq_refl)) as [W|(v & w0 & S & W)].
    + exists kvs. split; [intros x v I; destruct (K x v I) as (k' & ? & ?); exists k'; split; [assumption|right; assumption]|]. split; [exact N|].
      intros k' [<-|I]; [left|exact (H k' I)]. split; [|exact W]. intros v I. destruct (K _ _ I) as (k' & Q & I'). apply skey_in in Q. subst k'. exact (Hk I').
    + exists ((skey k, v) :: kvs). split; [|split].
      * intros x v' [Q|I]; [injection Q as <- <-; exists k; split; [reflexivity|left; reflexivity]|].
        destruct (K x v' I) as (k' & ? & ?); exists k'; split; [assumption|right; assumption].
      * cbn [map fst]. constructor; [|exact N]. intros I. apply in_map_iff in I as ([x v'] & Q & I). cbn [fst] in Q. subst x.
        destruct (K _ _ I) as (k' & Q & I'). apply skey_in in Q. subst k'. exact (Hk I').
      * intros k' [<-|I]; [right; exists v, w0; split; [left; reflexivity|split; assumption]|].
        assert (Ne : k <> k') by (intros ->; exact (Hk I)).
        destruct (H k' I) as [[U W']|(v' & w' & I' & S' & W')].
        { left. split; [|exact W']. intros v' [Q|I']; [|exact (U v' I')]. apply Ne. injection Q as Q _. apply skey_in. unfold skey. f_equal. exact Q. }
        { right. exists v', w'. split; [right; exact I'|split; assumption]. }
Qed.
Lemma split_unique {A B} (k : A) (v : B) l : NoDup (map fst l) -> In (k, v) l ->
  exists pre post, l = pre ++ (k, v) :: post /\ (forall v', ~ In (k, v') post) /\ forall v', ~ In (k, v') pre.
Proof.
  intros N I. apply in_split in I as (pre & post & ->). exists pre, post. split; [reflexivity|].
  rewrite map_app in N. cbn [map fst] in N. apply NoDup_remove_2 in N.
  split; intros v' I; apply N; apply in_or_app; [right|left]; apply in_map_iff; exists (k, v'); split; auto.
Qed.
Lemma supplied_dict kvs k v : NoDup (map fst kvs) -> (forall x v', In (x, v') kvs -> hashable x = true) ->
  (supplied (VDict DPlain kvs) k v <-> In (skey k, v) kvs).
Proof.
  intros N Hh. split.
  - intros (pre & post & P & _). inversion P as [d l E1 E2|w l l' D _ _ E1 E2]; subst.
    + apply in_or_app. right. left. reflexivity.
    + exfalso. exact (D _ _ eq_refl).
  - intros I. destruct (split_unique _ _ _ N I) as (pre & post & -> & U & _). exists pre, post. split; [apply P_dict|]. split; [|exact U].
    intros k' v' I'. apply (Hh k' v'). apply in_app_iff in I' as [I'|I']; apply in_or_app; [left|right; right]; exact I'.
Qed.
Theorem independent c a : c <> MStartSessionResponse -> ((exists s, read c s a) <-> map fst a = slot_names c /\ forall k w, In (k, w) a -> allowed c k w).
Proof.
  intros NS. split.
  - intros [s R]. inversion R as [s0 E1 E2|c0 s0 a0 _ F G E1 E2 E3]; subst; [congruence|]. split; [exact F|].
    intros k w I. destruct (G k w I) as [[_ W]|(v & w0 & _ & S & W)]; [left; exact W|right; eauto].
  - intros [F A]. pose proof (slot_names_NoDup c) as ND.
    assert (V : forall k w, In (k, w) a -> attr_get_or_none k a = w).
    { rewrite <- F in ND. clear F A. induction a as [|[k0 w0] a IH]; intros k w I; [destruct I|]. cbn [map fst] in ND. inversion ND as [|? ? Hk ND']; subst.
      unfold attr_get_or_none. cbn [attr_get]. destruct I as [Q|I].
      - injection Q as -> ->. rewrite String.eqb_refl. reflexivity.
      - destruct (String.eqb_spec k0 k) as [<-|Ne]; [exfalso; apply Hk; apply in_map_iff; exists (k0, w); auto|]. apply (IH ND' k w I). }
    destruct (built c (fun k => attr_get_or_none k a) (slot_names c) ND) as (kvs & K & N & H).
    { intros k I. rewrite <- F in I. apply in_map_iff in I as ([k' w] & <- & I). cbn [fst]. rewrite (V _ _ I). exact (A _ _ I). }
    exists (VDict DPlain kvs). apply Read; [exact NS|exact F|]. intros k w I.
    assert (Hh : forall x v', In (x, v') kvs -> hashable x = true) by (intros x v' I'; destruct (K x v' I') as (k' & -> & _); reflexivity).
    assert (Ik : In k (slot_names c)) by (rewrite <- F; apply in_map_iff; exists (k, w); auto).
    destruct (H k Ik) as [[U W]|(v & w0 & I' & S & W)]; rewrite (V _ _ I) in W.
    + left. split; [|exact W]. intros v S. apply (supplied_dict _ _ _ N Hh) in S. exact (U v S).
    + right. exists v, w0. split; [apply (supplied_dict _ _ _ N Hh); exact I'|split; assumption].
Qed.

(** ** An authorization and the key it names *)
Lemma own_key E now bs decf ct t e sg k : let m := VMsg MClientAuthorization (VInt 4022) (VInt t) (VBool e) (VBytes sg) [("client_public_key"%string, VBytes k)] in
  k <> [] -> deserialize E now bs decf ct None = Ok m ->
  (deserialize E now bs decf ct (Some k) = Ok m <->
   List.length k = 64%nat /\ exists payload h, decrypted decf e (skipn 76 bs) = Ok payload /\ dumps (VList [VInt 4022; VInt t]) = Ok h /\
     recover (cr E) (firstn 65 (skipn 11 bs)) (sha3_256 (cr E) (sha1 (cr E) (h ++ payload))) = Some (x04 :: k)).
Proof.
  intros m Hk H. rewrite (sender_exact E now bs decf ct k m Hk).
  assert (Q : unpack_header (firstn 11 bs) = Ok (4022, t, e)).
  { apply deserialize_ok in H as (_ & ty & ts & enc & c & Hh & _ & _ & _ & Hc). rewrite Hh.
    apply class_load_msg in Hc as (sg' & a' & Hm). unfold m in Hm. injection Hm as <- <- <- <- _ _. reflexivity. }
  assert (K : skipn 65 (body MClientAuthorization bs) = skipn 76 bs) by (unfold body; clear; revert bs; do 11 (intros [|? bs]; [reflexivity|]; revert bs); reflexivity).
  split.
  - intros (_ & ty & ts & enc & c & payload & sig & a & h & Hm & _ & _ & Hp & Hh & R). unfold m in Hm. injection Hm as <- <- <- <- <- <-.
    destruct (R eq_refl) as [L R']. split; [exact L|]. exists payload, h. rewrite K in Hp. rewrite app_nil_r in R'. auto.
  - intros (L & payload & h & Hp & Hh & R). split; [exact H|]. exists 4022, t, e, MClientAuthorization, payload, sg, [("client_public_key"%string, VBytes k)], h.
    rewrite K. rewrite app_nil_r. repeat (split; [first [exact Q|exact Hp|exact Hh|reflexivity]|]). intros _. split; assumption.
Qed.
