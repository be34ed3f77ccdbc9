(** * Containers: dictionary form, rebuilding, and what the wire preserves *)
From Verif Require Export DataProofs.
From Coq Require Import Permutation.

Lemma enc_norm v : enc (norm v) = enc v.
Proof.
  induction v as [ |b|z|fb|s|b|l IH|l IH|c kvs IH|e s|c a IH|b|c ty ts en sg a _ _ _ _ IH|n v IH]
    using pyval_ind'; cbn [norm]; try reflexivity.
  - cbn [enc]. rewrite map_length. f_equal. induction IH as [|x l Hx Hl IH]; cbn [map fold_right]; [reflexivity|].
    rewrite Hx, IH. reflexivity.
  - cbn [enc]. rewrite map_length. f_equal. induction IH as [|x l Hx Hl IH]; cbn [map fold_right]; [reflexivity|].
    rewrite Hx, IH. reflexivity.
  - cbn [enc]. rewrite map_length. f_equal. induction IH as [|x l [Hx Hy] Hl IH]; cbn [map fold_right fst snd]; [reflexivity|].
    rewrite Hx, Hy, IH. reflexivity.
  - destruct (is_string_enum e) eqn:E; cbn [enc]; rewrite ?E; reflexivity.
  - cbn [enc]. rewrite IH. reflexivity.
Qed.
Lemma dumps_norm v : dumps (norm v) = dumps v.
Proof. unfold dumps. rewrite enc_norm. reflexivity. Qed.

(** plain form of an attribute: [to_dict] replaces enum members by their values *)
Definition deenum (v : pyval) : pyval := match v with VEnum _ s => VStr (u s) | _ => v end.

(** the two readings of a dict form: as it is, or after a trip over the wire *)
Definition view (g : pyval -> pyval) : Prop := (forall v, g v = v) \/ (forall v, g v = norm v).
Lemma view_id : view (fun v => v). Proof. left; reflexivity. Qed.
Lemma view_norm : view norm. Proof. right; reflexivity. Qed.
Lemma view_none g : view g -> g VNone = VNone.
Proof. intros [H|H]; rewrite H; reflexivity. Qed.
Lemma view_str g s : view g -> g (VStr s) = VStr s.
Proof. intros [H|H]; rewrite H; reflexivity. Qed.
Lemma view_bytes g s : view g -> g (VBytes s) = VBytes s.
Proof. intros [H|H]; rewrite H; reflexivity. Qed.
Lemma view_idem g v : view g -> g (g v) = g v.
Proof. intros [H|H]; rewrite !H; [reflexivity|apply norm_idem]. Qed.
Lemma view_enc g v : view g -> enc (g v) = enc v.
Proof. intros [H|H]; rewrite H; [reflexivity|apply enc_norm]. Qed.
Lemma view_none_inv g v : view g -> g v = VNone -> v = VNone.
Proof. intros [H|H]; rewrite H; [auto|]. destruct v; cbn [norm]; try discriminate; auto. destruct (is_string_enum e); discriminate. Qed.
Lemma norm_enum v e s : norm v = VEnum e s -> v = VEnum e s.
Proof. destruct v; cbn [norm]; try discriminate; auto. destruct (is_string_enum e0); [discriminate|auto]. Qed.
Lemma view_deenum g v : view g -> deenum (g (deenum v)) = g (deenum v).
Proof.
  intros [H|H]; rewrite H; destruct v; try reflexivity.
Qed.
Lemma deenum_none v : deenum v = VNone -> v = VNone.
Proof. destruct v; cbn; congruence. Qed.
(** validators accept the plain form and the wire form of what they accept *)
Definition vstable (f : validator) : Prop :=
  forall g k w, view g -> f k w = Ok tt -> f k (g (deenum w)) = Ok tt.
Lemma str_of_view g w s : view g -> str_of w = Some s -> str_of (g (deenum w)) = Some s.
Proof.
  intros V H. destruct w; cbn [str_of] in H; try discriminate; cbn [deenum].
  - rewrite view_str by exact V. exact H.
  - destruct (is_string_enum e); [|discriminate]. rewrite view_str by exact V. exact H.
Qed.
Lemma vstable_varchar m : vstable (validate_varchar m).
Proof.
  intros g k w V. unfold validate_varchar. destruct (str_of w) eqn:E; [|discriminate].
  rewrite (str_of_view _ _ _ V E). auto.
Qed.
Lemma vstable_anystr : vstable validate_anystr.
Proof.
  intros g k w V. unfold validate_anystr. destruct (str_of w) eqn:E; [|discriminate].
  rewrite (str_of_view _ _ _ V E). auto.
Qed.
Lemma vstable_version : vstable validate_version.
Proof.
  intros g k w V. unfold validate_version. destruct (str_of w) eqn:E; [|discriminate].
  rewrite (str_of_view _ _ _ V E). auto.
Qed.
Lemma vstable_integer : vstable validate_integer.
Proof. intros g k w [V|V]; destruct w; cbn [validate_integer deenum]; try discriminate; rewrite V; reflexivity. Qed.
Lemma vstable_port : vstable validate_port.
Proof.
  intros g k w [V|V]; destruct w; unfold validate_port; cbn [validate_integer bind deenum]; try discriminate; rewrite V;
    cbn [norm validate_integer bind]; auto.
Qed.
Lemma vstable_boolean : vstable validate_boolean.
Proof. intros g k w [V|V]; destruct w; cbn [validate_boolean deenum]; try discriminate; rewrite V; reflexivity. Qed.
Lemma vstable_dict : vstable validate_dict.
Proof. intros g k w [V|V]; destruct w; cbn [validate_dict deenum]; try discriminate; rewrite V; reflexivity. Qed.
Lemma vstable_ip : vstable validate_ipaddress.
Proof.
  intros g k w V. unfold validate_ipaddress. destruct (ip_ok w) eqn:E; [|discriminate]. intros _.
  enough (ip_ok (g (deenum w)) = true) as -> by reflexivity.
  destruct V as [V|V]; rewrite V; destruct w; cbn [ip_ok deenum norm] in *; congruence.
Qed.
Lemma vstable_check p : (forall g w, view g -> p w = true -> p (g (deenum w)) = true) -> vstable (vcheck p).
Proof.
  intros H g k w V. unfold vcheck, fail_unless. destruct (p w) eqn:E; [|discriminate]. rewrite (H g w V E). auto.
Qed.
Lemma vstable_int_check p : vstable (vcheck (int_check p)).
Proof. apply vstable_check. intros g w [V|V]; rewrite V; destruct w; cbn; auto. Qed.
Lemma vstable_is_bytes : vstable (vcheck is_bytes).
Proof. apply vstable_check. intros g w [V|V]; rewrite V; destruct w; cbn; auto. Qed.
Lemma vstable_is_dict : vstable (vcheck is_dict).
Proof. apply vstable_check. intros g w [V|V]; rewrite V; destruct w; cbn; auto. Qed.
Lemma vstable_is_dict_or c : vstable (vcheck (is_dict_or c)).
Proof. apply vstable_check. intros g w [V|V]; rewrite V; destruct w; cbn; auto. Qed.

Lemma cvalidators_stable c k : Forall vstable (cvalidators c k).
Proof.
  unfold cvalidators. destruct c;
    repeat match goal with |- context [if ?b then _ else _] => destruct b end;
    repeat match goal with |- Forall _ (_ :: _) => apply Forall_cons | |- Forall _ [] => apply Forall_nil end;
    first [apply vstable_anystr | apply vstable_varchar | exact vstable_integer | exact vstable_port | exact vstable_ip
          | exact vstable_boolean | exact vstable_version | exact vstable_dict | exact vstable_is_bytes | exact vstable_is_dict
          | apply vstable_is_dict_or | apply vstable_int_check].
Qed.
Lemma validators_view g c k w : view g ->
  Forall (fun f => f (u k) w = Ok tt) (cvalidators c k) ->
  Forall (fun f => f (u k) (g (deenum w)) = Ok tt) (cvalidators c k).
Proof.
  intros V H. pose proof (cvalidators_stable c k) as S.
  induction H as [|f l Hf Hl IH]; constructor; inv S; [|auto]. apply H1; assumption.
Qed.

(** ** Dictionary form of a container holding exactly its slots *)
Lemma assoc_or_nodup {A} (d : A) k v l : NoDup (map fst l) -> In (k, v) l -> assoc_or d k l = v.
Proof.
  induction l as [|[k' v'] l IH]; cbn [map fst In assoc_or]; intros N H; [easy|]. inv N.
  destruct H as [H|H]; [injection H as -> ->; rewrite String.eqb_refl; reflexivity|].
  destruct (String.eqb_spec k' k); [subst; exfalso; apply H2; apply (in_map fst) in H; exact H|auto].
Qed.
Lemma to_dict_kvs_own c a : map fst a = cslots c ->
  to_dict_kvs c a = mapM (fun kv => do x <- ser_entry c (fst kv) (snd kv); Ok (skey (fst kv), x)) a.
Proof.
  intros H. unfold to_dict_kvs. rewrite <- H, mapM_map. apply mapM_ext. intros [k v] Hin. cbn [fst snd].
  rewrite (assoc_or_nodup _ k (ser_entry c k v)); [reflexivity| |].
  - match goal with |- NoDup ?l => replace l with (map fst a) by (rewrite map_map; reflexivity) end.
    rewrite H. apply cslots_NoDup.
  - apply in_map_iff. exists (k, v). auto.
Qed.
(** [ser_entry] of a container attribute is its dictionary form *)
Lemma ser_entry_obj c k c' a : cser_hook c k = SToDict \/ cser_hook c k = SToDictTruthy ->
  ser_entry c k (VObj c' a) = do kvs <- to_dict_kvs c' a; Ok (VDict DPlain kvs).
Proof. intros [H|H]; cbn [ser_entry]; rewrite H; reflexivity. Qed.

Definition no_self (l : list string) : Prop := forall k, In k l -> k <> "self"%string.
Lemma cslots_no_self c : no_self (cslots c).
Proof.
  intros k Hin ->. assert (E : existsb (String.eqb "self") (cslots c) = true).
  { apply existsb_exists. exists "self"%string. split; [exact Hin|apply String.eqb_refl]. }
  destruct c; vm_compute in E; discriminate.
Qed.

(** keyword view of a dict with slot-name keys *)
Definition kwl (l : list (string * pyval)) : list (ustr * pyval) := map (fun kv => (u (fst kv), snd kv)) l.
Definition kvl (l : list (string * pyval)) : list (pyval * pyval) := map (fun kv => (skey (fst kv), snd kv)) l.
Lemma kwargs_of_kvl l : no_self (map fst l) -> kwargs_of (kvl l) = Ok (kwl l).
Proof.
  induction l as [|[k v] l IH]; intros H; cbn [kvl kwl map fst snd kwargs_of str_of skey]; [reflexivity|].
  destruct (ustr_eqb (u k) (u "self")) eqn:E.
  - apply ustr_eqb_eq, u_inj in E. exfalso. apply (H k); [left; reflexivity|exact E].
  - unfold kvl in IH. rewrite IH; [reflexivity|]. intros x Hx. apply H. right. exact Hx.
Qed.
Lemma kw_get_kwl k l : kw_get (u k) (kwl l) = attr_get k l.
Proof.
  induction l as [|[k' v] l IH]; cbn [kwl map fst snd kw_get attr_get]; [reflexivity|].
  destruct (String.eqb_spec k' k).
  - subst. rewrite ustr_eqb_refl. reflexivity.
  - destruct (ustr_eqb (u k') (u k)) eqn:E; [apply ustr_eqb_eq, u_inj in E; congruence|]. exact IH.
Qed.
Lemma norm_kvl l : map (fun kv => (norm (fst kv), norm (snd kv))) (kvl l) = kvl (map (fun kv => (fst kv, norm (snd kv))) l).
Proof. unfold kvl. rewrite !map_map. reflexivity. Qed.

(** rebuilding: every slot's dictionary entry is taken back by its slot *)
Definition slot_back (c : ccls) (k : string) (x w : pyval) : Prop :=
  (x = VNone /\ crequired c k = false /\ w = VNone) \/
  ((x <> VNone \/ crequired c k = true) /\ Forall (fun f => f (u k) x = Ok tt) (cvalidators c k) /\ converted c k x w).

Lemma cnew_back c (l a : list (string * pyval)) :
  map fst l = cslots c ->
  Forall2 (fun kx kw => fst kw = fst kx /\ slot_back c (fst kx) (snd kx) (snd kw)) l a ->
  cnew c (kwl l) = Ok (VObj c a).
Proof.
  intros Hl HF. apply cnew_iff. split.
  - intros k v Hin. apply in_map_iff in Hin as ([s x] & H & Hin). injection H as <- <-. exists s. split; [|reflexivity].
    rewrite <- Hl. apply (in_map fst) in Hin. exact Hin.
  - exists a. split; [reflexivity|]. split.
    + rewrite <- Hl. clear Hl. induction HF as [|[k x] [k' w] l a [H _] HF IH]; cbn [map fst] in *; congruence.
    + assert (G : forall k w, In (k, w) a -> exists x, In (k, x) l /\ slot_back c k x w).
      { clear Hl. induction HF as [|[k x] [k' w] l a [H1 H2] HF IH]; [easy|]. cbn [fst snd] in *. subst k'.
        intros k0 w0 [H|H]; [injection H as <- <-; exists x; split; [left; reflexivity|exact H2]|].
        destruct (IH _ _ H) as (x0 & Hx & Hb). exists x0. split; [right; exact Hx|exact Hb]. }
      intros k w Hin. destruct (G k w Hin) as (x & Hx & Hb). unfold slot_outcome. rewrite kw_get_kwl.
      rewrite (attr_get_nodup k x l); [exact Hb| |exact Hx]. rewrite Hl. apply cslots_NoDup.
Qed.

Lemma Forall_pick {A B} (P : A -> B -> Prop) (l : list A) :
  Forall (fun a => exists b, P a b) l -> exists m, Forall2 P l m.
Proof.
  induction 1 as [|a l [b Hb] Hl [m Hm]]; [exists []; constructor|]. exists (b :: m). constructor; assumption.
Qed.

(** one slot: its entry, seen through [g], is taken back as [w'], whose entry is
    the same on the wire; if [keep] then [w'] is the original value *)
Definition slot_rt (g : pyval -> pyval) (keep : pyval -> Prop) (c : ccls) (k : string) (w w' : pyval) : Prop :=
  exists x y, ser_entry c k w = Ok x /\ slot_back c k (g x) w' /\ ser_entry c k w' = Ok y /\ norm y = norm x /\
    (keep w -> w' = w).
Definition wirel (l : list (string * pyval)) : list (string * pyval) := map (fun kx => (fst kx, norm (snd kx))) l.
Definition gl (g : pyval -> pyval) (l : list (string * pyval)) : list (string * pyval) :=
  map (fun kx => (fst kx, g (snd kx))) l.

Lemma cont_rt g (keep : string -> pyval -> Prop) (inv : string -> pyval -> Prop) c a :
  map fst a = cslots c ->
  Forall (fun kw => exists w', slot_rt g (keep (fst kw)) c (fst kw) (snd kw) w' /\ inv (fst kw) w') a ->
  exists l a' l', to_dict_kvs c a = Ok (kvl l) /\ map fst l = cslots c /\
    cnew c (kwl (gl g l)) = Ok (VObj c a') /\
    map fst a' = cslots c /\ (forall k w, In (k, w) a' -> inv k w) /\
    to_dict_kvs c a' = Ok (kvl l') /\ wirel l' = wirel l /\
    ((forall k w, In (k, w) a -> keep k w) -> a' = a).
Proof.
  intros Ha HF.
  assert (HF2 : Forall (fun kw => exists p, exists x w' y, p = (x, (w', y)) /\
      ser_entry c (fst kw) (snd kw) = Ok x /\ slot_back c (fst kw) (g x) w' /\ ser_entry c (fst kw) w' = Ok y /\
      norm y = norm x /\ (keep (fst kw) (snd kw) -> w' = snd kw) /\ inv (fst kw) w') a).
  { eapply Forall_impl; [|exact HF]. intros [k w] (w' & (x & y & H1 & H2 & H3 & H4 & H5) & H6).
    exists (x, (w', y)), x, w', y. auto 9. }
  apply Forall_pick in HF2 as (m & HF2).
  set (l := map (fun p => (fst (fst p), fst (snd p))) (combine a m)).
  set (a' := map (fun p => (fst (fst p), fst (snd (snd p)))) (combine a m)).
  set (l' := map (fun p => (fst (fst p), snd (snd (snd p)))) (combine a m)).
  exists l, a', l'.
  assert (Hl : map fst l = map fst a /\ map fst a' = map fst a /\
     mapM (fun kv => do x <- ser_entry c (fst kv) (snd kv); Ok (skey (fst kv), x)) a = Ok (kvl l) /\
     mapM (fun kv => do x <- ser_entry c (fst kv) (snd kv); Ok (skey (fst kv), x)) a' = Ok (kvl l') /\
     wirel l' = wirel l /\
     Forall2 (fun kx kw => fst kw = fst kx /\ slot_back c (fst kx) (snd kx) (snd kw)) (gl g l) a' /\
     (forall k w, In (k, w) a' -> inv k w) /\
     ((forall k w, In (k, w) a -> keep k w) -> a' = a)).
  { subst l a' l'. clear Ha HF. unfold gl, wirel.
    induction HF2 as [|[k w] p a m (x & w' & y & -> & H1 & H2 & H3 & H4 & H5 & H6) HF2 (I1 & I2 & I3 & I4 & IW & I5 & I6 & I7)];
      [repeat split; try constructor; easy|].
    cbn [fst snd] in *. cbn [combine map fst snd mapM kvl].
    rewrite H1, H3. cbn [bind]. rewrite I3, I4, I1, I2. cbn [bind].
    split; [reflexivity|]. split; [reflexivity|]. split; [reflexivity|]. split; [reflexivity|].
    split; [cbn [map fst snd]; f_equal; [f_equal; exact H4|exact IW]|].
    split; [constructor; [cbn [fst snd]; auto|exact I5]|]. split.
    - intros k0 w0 [H|H]; [injection H as <- <-; exact H6|eauto].
    - intros Hk. f_equal; [f_equal; apply H5; apply Hk; left; reflexivity|]. apply I7. intros; apply Hk; right; assumption. }
  destruct Hl as (L1 & L2 & L3 & L4 & LW & L5 & L6 & L7).
  rewrite to_dict_kvs_own by exact Ha. rewrite to_dict_kvs_own by (rewrite L2; exact Ha).
  split; [exact L3|]. split; [rewrite L1; exact Ha|]. split; [|split; [rewrite L2; exact Ha|auto]].
  apply cnew_back; [|exact L5]. unfold gl. rewrite map_map. transitivity (map fst l); [reflexivity|]. rewrite L1. exact Ha.
Qed.

(** ** What containers hold *)
Definition plain_ok (c : ccls) (k : string) (w : pyval) : Prop :=
  (w = VNone /\ crequired c k = false) \/
  ((w <> VNone \/ crequired c k = true) /\ Forall (fun f => f (u k) w = Ok tt) (cvalidators c k)).
Definition wire_plain (w : pyval) : Prop := deenum w = w /\ norm w = w.

Lemma slot_rt_plain g c k w : view g -> cser_hook c k = SNone -> chook c k = None -> plain_ok c k w ->
  exists w', slot_rt g wire_plain c k w w' /\ plain_ok c k w'.
Proof.
  intros V Hs Hh HO. exists (g (deenum w)).
  assert (S : forall w0, ser_entry c k w0 = Ok (deenum w0)).
  { intros w0. destruct w0; cbn [ser_entry]; rewrite Hs; reflexivity. }
  assert (E : norm (g (deenum w)) = norm (deenum w)) by (destruct V as [V|V]; rewrite V; [reflexivity|apply norm_idem]).
  split.
  - exists (deenum w), (g (deenum w)). rewrite !S. rewrite view_deenum by exact V.
    split; [reflexivity|]. split; [|split; [reflexivity|split; [exact E|]]].
    + unfold slot_back. destruct HO as [(-> & Hr)|(Hn & Hv)].
      * left. cbn [deenum]. rewrite view_none by exact V. auto.
      * right. split; [|split; [apply validators_view; assumption|unfold converted; rewrite Hh; reflexivity]].
        destruct Hn as [Hn|Hr]; [left|right; exact Hr].
        intros C; apply view_none_inv in C; [|exact V]; apply deenum_none in C; contradiction.
    + intros [K1 K2]. rewrite K1. destruct V as [V|V]; rewrite V; [reflexivity|exact K2].
  - destruct HO as [(-> & Hr)|(Hn & Hv)].
    + left. cbn [deenum]. rewrite view_none by exact V. auto.
    + right. split; [|apply validators_view; assumption].
      destruct Hn as [Hn|Hr]; [left|right; exact Hr].
      intros C; apply view_none_inv in C; [|exact V]; apply deenum_none in C; contradiction.
Qed.

(** CpuStats slots hold None or a frozen dict of their class *)
Definition cpu_dict (k : string) : dcls := if (k =? "cpu_usage")%string then DCpuUsage else DThrottling.
Definition cpu_ok (k : string) (w : pyval) : Prop :=
  w = VNone \/ exists kvs, w = VDict (cpu_dict k) kvs /\ schema (cpu_dict k) kvs.
Definition wire_dict (w : pyval) : Prop :=
  w = VNone \/ exists d kvs, w = VDict d kvs /\ forall k v, In (k, v) kvs -> (exists t, k = VStr t) /\ norm v = v.

(** texts of keys and viewed values *)
Definition text_kvs (g : pyval -> pyval) (kvs : list (pyval * pyval)) : list (pyval * pyval) :=
  map (fun kv => (VStr (match str_of (fst kv) with Some t => t | None => [] end), g (snd kv))) kvs.
Definition dict_view (g : pyval -> pyval) (w : pyval) : pyval :=
  match w with VDict d kvs => VDict d (text_kvs g kvs) | _ => w end.

Lemma schema_texts d kvs g : schema d kvs -> (forall t, dvalidator d t = None) -> schema d (text_kvs g kvs).
Proof.
  intros HS HV. pose proof (dinv_keys _ _ (schema_dinv _ _ HS)) as HF. destruct HS as [HP _]. split.
  - unfold text_kvs, key_texts. rewrite map_map.
    replace (map _ kvs) with (key_texts kvs); [exact HP|].
    unfold key_texts. apply map_ext_in. intros kv Hin. cbn [fst str_of].
    rewrite Forall_forall in HF. destruct (HF _ Hin) as (y & ->). reflexivity.
  - intros k v t _ _. unfold validated. rewrite HV. exact I.
Qed.

Lemma view_dict g d kvs : view g -> exists d2, g (VDict d kvs) = VDict d2 (map (fun kv => (g (fst kv), g (snd kv))) kvs).
Proof.
  intros [V|V].
  - exists d. rewrite V. f_equal. rewrite <- (map_id kvs) at 1. apply map_ext. intros [k v]. rewrite !V. reflexivity.
  - exists DPlain. rewrite V. cbn [norm]. f_equal. apply map_ext. intros [k v]. rewrite !V. reflexivity.
Qed.
Lemma str_of_view' g k t : view g -> str_of k = Some t -> str_of (g k) = Some t.
Proof.
  intros [V|V] H; rewrite V; [exact H|]. destruct k; cbn [str_of] in H; try discriminate; cbn [norm]; [exact H|].
  destruct (is_string_enum e); [exact H|discriminate].
Qed.
Lemma kwargs_of_texts g d kvs : view g -> dinv d kvs -> no_self (map fst (items d)) ->
  kwargs_of (map (fun kv => (g (fst kv), g (snd kv))) kvs) =
  Ok (map (fun kv => (match str_of (fst kv) with Some t => t | None => [] end, g (snd kv))) kvs).
Proof.
  intros V [_ H] HN. induction kvs as [|[k v] kvs IH]; [reflexivity|]. cbn [map fst snd kwargs_of].
  destruct (H k v) as (t & Ht & (s & Hs & ->) & _); [left; reflexivity|].
  rewrite (str_of_view' _ _ _ V Ht), Ht.
  destruct (ustr_eqb (u s) (u "self")) eqn:E; [apply ustr_eqb_eq, u_inj in E; apply HN in Hs; contradiction|].
  rewrite IH; [reflexivity|]. intros; apply H; right; assumption.
Qed.
Lemma items_no_self d : no_self (map fst (items d)).
Proof.
  intros k Hin ->. assert (E : existsb (String.eqb "self") (map fst (items d)) = true).
  { apply existsb_exists. exists "self"%string. split; [exact Hin|apply String.eqb_refl]. }
  destruct d; vm_compute in E; discriminate.
Qed.
Lemma schema_nonempty d kvs : d <> DPlain -> schema d kvs -> kvs <> [].
Proof.
  intros Hd [HP _] ->. unfold key_texts in HP. cbn [map] in HP. apply Permutation_nil in HP.
  destruct d; try congruence; discriminate.
Qed.

Lemma slot_rt_cpu g k w : view g -> In k (cslots CCpu) -> cpu_ok k w ->
  exists w', slot_rt g wire_dict CCpu k w w' /\ cpu_ok k w'.
Proof.
  intros V Hin HO.
  assert (Hs : cser_hook CCpu k = STruthy) by (destruct Hin as [<-|[<-|[]]]; reflexivity).
  assert (Hh : exists h, chook CCpu k = Some h /\
     h = fun v => if truthy v then do kw <- star_star v; dict_new_kw (cpu_dict k) kw else Ok VNone).
  { destruct Hin as [<-|[<-|[]]]; eexists; split; reflexivity. }
  destruct Hh as (h & Hh & Eh).
  assert (Hv : cvalidators CCpu k = [validate_dict]) by reflexivity.
  assert (Hd : cpu_dict k <> DPlain) by (unfold cpu_dict; destruct (k =? "cpu_usage")%string; discriminate).
  assert (Hdv : forall t, dvalidator (cpu_dict k) t = None) by (intros; unfold cpu_dict; destruct (k =? "cpu_usage")%string; reflexivity).
  destruct HO as [->|(kvs & -> & HS)].
  - exists VNone. split; [|left; reflexivity]. exists VNone, VNone. cbn [ser_entry]. rewrite Hs. cbn [truthy].
    split; [reflexivity|]. split; [left; rewrite view_none by exact V; auto|]. auto.
  - exists (VDict (cpu_dict k) (text_kvs g kvs)). split.
    + exists (VDict (cpu_dict k) kvs), (VDict (cpu_dict k) (text_kvs g kvs)). cbn [ser_entry]. rewrite Hs.
      pose proof (schema_nonempty _ _ Hd HS) as Hne.
      assert (T1 : truthy (VDict (cpu_dict k) kvs) = true) by (destruct kvs; [congruence|reflexivity]).
      assert (T2 : truthy (VDict (cpu_dict k) (text_kvs g kvs)) = true) by (destruct kvs; [congruence|reflexivity]).
      rewrite T1, T2. split; [reflexivity|].
      destruct (view_dict g (cpu_dict k) kvs V) as (d2 & Ed). rewrite Ed.
      split; [|split; [reflexivity|split]].
      * right. split; [left; discriminate|]. rewrite Hv. split; [constructor; [reflexivity|constructor]|].
        unfold converted. rewrite Hh, Eh.
        assert (T3 : truthy (VDict d2 (map (fun kv => (g (fst kv), g (snd kv))) kvs)) = true) by (destruct kvs; [congruence|reflexivity]).
        rewrite T3. cbn [star_star]. rewrite (kwargs_of_texts g (cpu_dict k)) by (auto using schema_dinv, items_no_self).
        cbn [bind]. unfold dict_new_kw. rewrite map_map. cbn [fst snd].
        change (map (fun x => (VStr (match str_of (fst x) with Some t => t | None => [] end), g (snd x))) kvs) with (text_kvs g kvs).
        apply dict_new_again; [exact Hd|apply schema_texts; assumption|].
        intros Hp. unfold cpu_dict in Hp. destruct (k =? "cpu_usage")%string; discriminate.
      * cbn [norm]. f_equal. unfold text_kvs. rewrite map_map. apply map_ext_in. intros [k0 v0] Hi. cbn [fst snd].
        destruct (schema_dinv _ _ HS) as [_ HE]. destruct (HE _ _ Hi) as (t & Ht & _). rewrite Ht. f_equal.
        -- cbn [norm]. destruct k0; cbn [str_of] in Ht; try discriminate; cbn [norm]; [congruence|].
           destruct (is_string_enum e); congruence.
        -- destruct V as [V|V]; rewrite V; [reflexivity|apply norm_idem].
      * intros [HK|(d & kvs0 & HK & Hk)]; [discriminate|]. injection HK as <- <-. f_equal.
        unfold text_kvs. rewrite <- (map_id kvs) at 2. apply map_ext_in. intros [k0 v0] Hi. cbn [fst snd].
        destruct (Hk _ _ Hi) as ((t & ->) & Hn). cbn [str_of]. f_equal.
        destruct V as [V|V]; rewrite V; [reflexivity|exact Hn].
    + right. exists (text_kvs g kvs). split; [reflexivity|]. apply schema_texts; assumption.
Qed.

(** leaf containers *)
Definition is_leaf (c : ccls) : bool := match c with CTaskHeader | CProvider => false | _ => true end.
Definition leaf_attr_ok (c : ccls) (k : string) (w : pyval) : Prop :=
  match c with CCpu => cpu_ok k w | _ => plain_ok c k w end.
Definition leaf_ok (c : ccls) (a : attrs_t) : Prop :=
  map fst a = cslots c /\ forall k w, In (k, w) a -> leaf_attr_ok c k w.
Definition leaf_wire_attr (c : ccls) (w : pyval) : Prop := match c with CCpu => wire_dict w | _ => wire_plain w end.
Definition leaf_wire (c : ccls) (a : attrs_t) : Prop := forall k w, In (k, w) a -> leaf_wire_attr c w.

Lemma leaf_rt g c a : view g -> is_leaf c = true -> leaf_ok c a ->
  exists l a' l', to_dict_kvs c a = Ok (kvl l) /\ map fst l = cslots c /\
    cnew c (kwl (gl g l)) = Ok (VObj c a') /\ leaf_ok c a' /\
    to_dict_kvs c a' = Ok (kvl l') /\ wirel l' = wirel l /\ (leaf_wire c a -> a' = a).
Proof.
  intros V HL [Ha HO].
  destruct (cont_rt g (fun _ => leaf_wire_attr c) (leaf_attr_ok c) c a Ha) as (l & a' & l' & H1 & H2 & H3 & H4 & H5 & H6 & H7 & H8).
  { apply Forall_forall. intros [k w] Hin. cbn [fst snd]. pose proof (HO _ _ Hin) as Hk.
    destruct c; try discriminate HL; cbn [leaf_attr_ok leaf_wire_attr] in *; try (apply slot_rt_plain; auto; fail).
    apply slot_rt_cpu; [exact V| |exact Hk]. rewrite <- Ha. apply (in_map fst) in Hin. exact Hin. }
  exists l, a', l'. repeat (split; [assumption|]). split; [split; [assumption|exact H5]|]. auto.
Qed.

(** ** All containers *)
Definition sub_of (k : string) : ccls :=
  if (k =? "blkio_stats")%string then CBlockIo else if (k =? "cpu_stats")%string then CCpu
  else if (k =? "memory_stats")%string then CMemory else CPid.
Definition market_ok (w : pyval) : Prop := w = VNone \/ exists s, w = VEnum EnMarketType s /\ In s (members EnMarketType).
Definition attr_ok (c : ccls) (k : string) (w : pyval) : Prop :=
  match c with
  | CTaskHeader =>
      if (k =? "task_owner")%string then exists n, w = VObj CNode n /\ leaf_ok CNode n
      else if (k =? "mask")%string then w = VNone \/ exists b, w = VMask b
      else if (k =? "market_type")%string then market_ok w
      else plain_ok c k w
  | CProvider => w = VNone \/ exists a, w = VObj (sub_of k) a /\ leaf_ok (sub_of k) a
  | _ => leaf_attr_ok c k w
  end.
Definition cont_ok (c : ccls) (a : attrs_t) : Prop :=
  map fst a = cslots c /\ forall k w, In (k, w) a -> attr_ok c k w.
Definition wire_attr (c : ccls) (k : string) (w : pyval) : Prop :=
  match c with
  | CTaskHeader =>
      if (k =? "task_owner")%string then match w with VObj c' a => leaf_wire c' a | _ => True end
      else if (k =? "mask")%string then True
      else if (k =? "market_type")%string then True
      else wire_plain w
  | CProvider => match w with VObj c' a => leaf_wire c' a | _ => True end
  | _ => leaf_wire_attr c w
  end.
Definition cont_wire (c : ccls) (a : attrs_t) : Prop := forall k w, In (k, w) a -> wire_attr c k w.

Lemma view_kvl g l : view g -> exists d, g (VDict DPlain (kvl l)) = VDict d (kvl (gl g l)).
Proof.
  intros V. destruct (view_dict g DPlain (kvl l) V) as (d & ->). exists d. f_equal.
  unfold kvl, gl. rewrite !map_map. apply map_ext. intros [k v]. cbn [fst snd]. unfold skey. rewrite view_str by exact V. reflexivity.
Qed.
Lemma norm_wirel l l' : wirel l' = wirel l -> norm (VDict DPlain (kvl l')) = norm (VDict DPlain (kvl l)).
Proof. intros H. cbn [norm]. rewrite !norm_kvl. unfold wirel in H. rewrite H. reflexivity. Qed.
Lemma slots_kwargs c l : map fst l = cslots c -> kwargs_of (kvl l) = Ok (kwl l).
Proof. intros H. apply kwargs_of_kvl. rewrite H. apply cslots_no_self. Qed.
Lemma gl_fst g l : map fst (gl g l) = map fst l.
Proof. unfold gl. rewrite map_map. reflexivity. Qed.

Lemma slot_rt_sub g c k sub a : view g -> is_leaf sub = true -> leaf_ok sub a ->
  cser_hook c k = SToDict \/ cser_hook c k = SToDictTruthy ->
  (forall v, is_dict v = true -> Forall (fun f => f (u k) v = Ok tt) (cvalidators c k)) ->
  (forall d kvs kw o, kvs <> [] -> kwargs_of kvs = Ok kw -> cnew sub kw = Ok o -> converted c k (VDict d kvs) o) ->
  exists a', slot_rt g (fun w => match w with VObj c' a => leaf_wire c' a | _ => True end) c k (VObj sub a) (VObj sub a') /\
    leaf_ok sub a'.
Proof.
  intros V HL HO Hs Hv Hc.
  destruct (leaf_rt g sub a V HL HO) as (l & a' & l' & H1 & H2 & H3 & H4 & H5 & H6 & H7).
  exists a'. split; [|exact H4]. exists (VDict DPlain (kvl l)), (VDict DPlain (kvl l')).
  rewrite !ser_entry_obj by exact Hs. rewrite H1, H5. cbn [bind].
  split; [reflexivity|]. destruct (view_kvl g l V) as (d & Ed). rewrite Ed. split; [|split; [reflexivity|split]].
  - right. split; [left; discriminate|]. split; [apply Hv; reflexivity|].
    eapply Hc; [|apply (slots_kwargs sub); rewrite gl_fst; exact H2|exact H3].
    intros C. assert (L : List.length (kvl (gl g l)) = List.length (cslots sub)).
    { unfold kvl, gl. rewrite !map_length. rewrite <- H2, map_length. reflexivity. }
    rewrite C in L. destruct sub; discriminate.
  - apply norm_wirel, H6.
  - intros HK. rewrite (H7 HK). reflexivity.
Qed.

Lemma attr_rt g c k w : view g -> In k (cslots c) -> attr_ok c k w ->
  exists w', slot_rt g (wire_attr c k) c k w w' /\ attr_ok c k w'.
Proof.
  intros V Hin HO. destruct c.
  - apply slot_rt_plain; auto.
  - cbn [attr_ok] in *.
    destruct (String.eqb_spec k "task_owner") as [->|N1].
    { destruct HO as (n & -> & Hn).
      destruct (slot_rt_sub g CTaskHeader "task_owner" CNode n V eq_refl Hn) as (n' & (x & y & H) & Hn').
      - left; reflexivity.
      - intros v Hd. constructor; [|constructor]. destruct v; try discriminate. reflexivity.
      - intros d kvs kw o Hne Hkw Ho. unfold converted. cbn [chook header_hook String.eqb Ascii.eqb Bool.eqb star_star].
        change (header_hook "task_owner") with (Some (fun v => match v with
                   | VObj CNode _ => Ok v
                   | _ => do kw <- star_star v; node_new kw
                   end)). cbn [star_star]. rewrite Hkw. exact Ho.
      - exists (VObj CNode n'). split; [exists x, y; exact H|]. eauto. }
    destruct (String.eqb_spec k "mask") as [->|N2].
    { destruct HO as [->|[b ->]].
      - exists VNone. split; [|auto]. exists VNone, VNone. cbn. split; [reflexivity|].
        split; [left; rewrite view_none by exact V; auto|]. auto.
      - exists (VMask b). split; [|eauto]. exists (VBytes b), (VBytes b). cbn [ser_entry cser_hook String.eqb].
        split; [reflexivity|]. rewrite view_bytes by exact V.
        split; [|auto]. right. split; [left; discriminate|]. split; [constructor; [reflexivity|constructor]|]. reflexivity. }
    destruct (String.eqb_spec k "market_type") as [->|N3].
    { destruct HO as [->|(s & -> & Hs)].
      - exists VNone. split; [|left; reflexivity]. exists VNone, VNone. split; [reflexivity|].
        split; [left; rewrite view_none by exact V; auto|]. auto.
      - exists (VEnum EnMarketType s). split; [|right; eauto]. exists (VStr (u s)), (VStr (u s)).
        split; [reflexivity|]. rewrite view_str by exact V. split; [|auto].
        right. split; [left; discriminate|]. split; [constructor|]. unfold converted.
        change (chook CTaskHeader "market_type") with
          (Some (fun v => match enum_call EnMarketType v with Some m => Ok m | None => Err (EFieldError (u "market_type")) end)).
        cbv beta. cbn [members In] in Hs. destruct Hs as [<-|[<-|[]]]; reflexivity. }
    assert (Hs : cser_hook CTaskHeader k = SNone).
    { cbn [cser_hook]. destruct (String.eqb_spec k "task_owner"), (String.eqb_spec k "mask"); congruence. }
    assert (Hh : chook CTaskHeader k = None).
    { cbn [chook]. unfold header_hook. destruct (String.eqb_spec k "task_owner"), (String.eqb_spec k "mask"), (String.eqb_spec k "market_type"); congruence. }
    destruct (slot_rt_plain g CTaskHeader k w V Hs Hh HO) as (w' & (x & y & S1 & S2 & S3 & S4 & S5) & HO').
    exists w'. split; [|exact HO']. exists x, y. repeat (split; [assumption|]). intros K. apply S5.
    cbn [wire_attr] in K.
    destruct (String.eqb_spec k "task_owner"), (String.eqb_spec k "mask"), (String.eqb_spec k "market_type"); try congruence.
  - apply slot_rt_plain; auto.
  - apply slot_rt_cpu; auto.
  - apply slot_rt_plain; auto.
  - apply slot_rt_plain; auto.
  - cbn [attr_ok] in *. destruct HO as [->|(a & -> & Ha)].
    + exists VNone. split; [|left; reflexivity]. exists VNone, VNone.
      assert (S : ser_entry CProvider k VNone = Ok VNone).
      { cbn [cslots In] in Hin. destruct Hin as [<-|[<-|[<-|[<-|[]]]]]; reflexivity. }
      rewrite S. split; [reflexivity|]. split; [|auto]. left. rewrite view_none by exact V.
      cbn [cslots In] in Hin. destruct Hin as [<-|[<-|[<-|[<-|[]]]]]; auto.
    + destruct (slot_rt_sub g CProvider k (sub_of k) a V) as (a' & (x & y & H) & Ha'); [|exact Ha| | | |].
      * cbn [cslots In] in Hin. destruct Hin as [<-|[<-|[<-|[<-|[]]]]]; reflexivity.
      * cbn [cslots In] in Hin. destruct Hin as [<-|[<-|[<-|[<-|[]]]]]; auto.
      * intros v Hd. destruct v; try discriminate.
        cbn [cslots In] in Hin. destruct Hin as [<-|[<-|[<-|[<-|[]]]]]; repeat constructor.
      * intros d kvs kw o Hne Hkw Ho. unfold converted.
        assert (T : truthy (VDict d kvs) = true) by (destruct kvs; [congruence|reflexivity]).
        cbn [cslots In] in Hin. destruct Hin as [<-|[<-|[<-|[<-|[]]]]];
          cbn [chook]; unfold provider_hook; cbn [String.eqb Ascii.eqb Bool.eqb]; rewrite T; cbn [star_star]; rewrite Hkw; exact Ho.
      * exists (VObj (sub_of k) a'). split; [exists x, y; exact H|]. right. eauto.
Qed.

(** Round trip of every container, in memory ([g] the identity) and over the wire ([g] = [norm]) *)
Lemma container_rt g c a : view g -> cont_ok c a ->
  exists l a' l', to_dict_kvs c a = Ok (kvl l) /\ map fst l = cslots c /\
    cnew c (kwl (gl g l)) = Ok (VObj c a') /\ cont_ok c a' /\
    to_dict_kvs c a' = Ok (kvl l') /\ wirel l' = wirel l /\ (cont_wire c a -> a' = a).
Proof.
  intros V [Ha HO].
  destruct (cont_rt g (wire_attr c) (attr_ok c) c a Ha) as (l & a' & l' & H1 & H2 & H3 & H4 & H5 & H6 & H7 & H8).
  { apply Forall_forall. intros [k w] Hin. cbn [fst snd]. apply attr_rt; [exact V| |exact (HO _ _ Hin)].
    rewrite <- Ha. apply (in_map fst) in Hin. exact Hin. }
  exists l, a', l'. repeat (split; [assumption|]). split; [split; [assumption|exact H5]|]. auto.
Qed.

(** ** What constructors return *)
Lemma plain_slot_ok c kw k w : In k (cslots c) -> chook c k = None -> slot_outcome c kw k w -> plain_ok c k w.
Proof.
  intros Hin Hh H. unfold slot_outcome in H. unfold plain_ok. destruct (kw_get (u k) kw) as [v|].
  - destruct H as [(-> & Hr & ->)|(Hn & Hv & Hc)]; [auto|]. right. unfold converted in Hc. rewrite Hh in Hc. subst. auto.
  - destruct H as [Hr ->]. destruct c; cbn [cdefault]; auto.
    destruct (k =? "prv_addresses")%string eqn:E1; [apply String.eqb_eq in E1; subst; right; split; [left; discriminate|constructor]|].
    destruct (k =? "port_statuses")%string eqn:E2; [apply String.eqb_eq in E2; subst; right; split; [left; discriminate|constructor]|].
    destruct (k =? "nat_type")%string eqn:E3; [apply String.eqb_eq in E3; subst; right; split; [left; discriminate|constructor]|].
    auto.
Qed.
Lemma dict_new_kw_schema d kw o : d <> DPlain -> dict_new_kw d kw = Ok o -> exists kvs, o = VDict d kvs /\ schema d kvs.
Proof. intros Hd H. unfold dict_new_kw in H. exact (dict_new_schema _ _ _ Hd H). Qed.

Lemma cpu_slot_ok kw k w : In k (cslots CCpu) -> slot_outcome CCpu kw k w -> cpu_ok k w.
Proof.
  intros Hin H. unfold slot_outcome in H.
  assert (Hd : cpu_dict k <> DPlain) by (unfold cpu_dict; destruct (k =? "cpu_usage")%string; discriminate).
  destruct (kw_get (u k) kw) as [v|]; [|destruct H as [_ ->]; left; reflexivity].
  destruct H as [(_ & _ & ->)|(_ & _ & Hc)]; [left; reflexivity|].
  assert (Hh : (if truthy v then do kw <- star_star v; dict_new_kw (cpu_dict k) kw else Ok VNone) = Ok w).
  { unfold converted in Hc. cbn [cslots In] in Hin. destruct Hin as [<-|[<-|[]]]; exact Hc. }
  destruct (truthy v); [|apply Ok_inj in Hh; left; auto].
  apply bind_ok in Hh as (kw' & _ & Hh). right. apply dict_new_kw_schema in Hh; [|exact Hd]. exact Hh.
Qed.
Lemma cnew_leaf_ok c kw o : is_leaf c = true -> cnew c kw = Ok o -> exists a, o = VObj c a /\ leaf_ok c a.
Proof.
  intros HL H. apply cnew_iff in H as (_ & a & -> & Ha & H). exists a. split; [reflexivity|]. split; [exact Ha|].
  intros k w Hin. pose proof (H _ _ Hin) as Ho.
  assert (Hk : In k (cslots c)) by (rewrite <- Ha; apply (in_map fst) in Hin; exact Hin).
  destruct c; try discriminate HL; cbn [leaf_attr_ok]; try (eapply plain_slot_ok; [exact Hk|reflexivity|exact Ho]).
  eapply cpu_slot_ok; eassumption.
Qed.
Lemma enum_call_member e v m : enum_call e v = Some m -> exists s, m = VEnum e s /\ In s (members e).
Proof.
  assert (F : forall t m, option_map (VEnum e) (find (fun m => ustr_eqb (u m) t) (members e)) = Some m ->
     exists s, m = VEnum e s /\ In s (members e)).
  { intros t m0 H. destruct (find _ _) as [s|] eqn:E; [|discriminate]. cbn [option_map] in H. apply Some_inj in H.
    apply find_some in E as [E _]. eauto. }
  unfold enum_call. intros H. destruct v; cbn [str_of] in H; try discriminate; try (eapply F; exact H).
  match type of H with context [ecls_eqb ?e1 e && existsb (String.eqb ?s1) _] => rename e1 into e0, s1 into s end.
  destruct (ecls_eqb e0 e && existsb (String.eqb s) (members e)) eqn:E.
  - apply andb_true_iff in E as [E1 E2]. unfold ecls_eqb in E1. destruct (ecls_eq_dec e0 e) as [->|]; [|discriminate]. apply existsb_exists in E2 as (x & Hx & E2).
    apply String.eqb_eq in E2. apply Some_inj in H. subst. eauto.
  - destruct (is_string_enum e0); [|discriminate]. eapply F; exact H.
Qed.

Lemma cnew_cont_ok c kw o : cnew c kw = Ok o ->
  (forall n, c = CTaskHeader -> kw_get (u "task_owner") kw = Some (VObj CNode n) -> leaf_ok CNode n) ->
  exists a, o = VObj c a /\ cont_ok c a.
Proof.
  intros H HN. destruct (is_leaf c) eqn:HL.
  { destruct (cnew_leaf_ok _ _ _ HL H) as (a & -> & Ha & HO). exists a. split; [reflexivity|]. split; [exact Ha|].
    intros k w Hin. specialize (HO _ _ Hin). destruct c; try discriminate; exact HO. }
  apply cnew_iff in H as (_ & a & -> & Ha & H). exists a. split; [reflexivity|]. split; [exact Ha|].
  intros k w Hin. pose proof (H _ _ Hin) as Ho.
  assert (Hk : In k (cslots c)) by (rewrite <- Ha; apply (in_map fst) in Hin; exact Hin). clear H.
  destruct c; try discriminate HL; cbn [attr_ok].
  - destruct (String.eqb_spec k "task_owner") as [->|N1].
    { unfold slot_outcome in Ho. specialize (fun n => HN n eq_refl).
      destruct (kw_get (u "task_owner") kw) as [v|]; [|destruct Ho; discriminate].
      destruct Ho as [(_ & H & _)|(_ & Hv & Hc)]; [discriminate|]. unfold converted in Hc.
      change (chook CTaskHeader "task_owner") with
        (Some (fun v => match v with VObj CNode _ => Ok v | _ => do kw <- star_star v; node_new kw end)) in Hc. cbv beta in Hc.
      assert (HD : is_dict_or CNode v = true).
      { inversion Hv as [|? ? Hq _]; subst. unfold vcheck, fail_unless in Hq. destruct (is_dict_or CNode v); [reflexivity|discriminate]. }
      destruct v; try discriminate HD.
      - apply bind_ok in Hc as (kw' & _ & Hc). apply (cnew_leaf_ok CNode) in Hc; [|reflexivity]. exact Hc.
      - cbn [is_dict_or] in HD. destruct c; try discriminate. apply Ok_inj in Hc. subst. eauto. }
    destruct (String.eqb_spec k "mask") as [->|N2].
    { unfold slot_outcome in Ho. destruct (kw_get (u "mask") kw) as [v|]; [|destruct Ho as [_ ->]; left; reflexivity].
      destruct Ho as [(_ & _ & ->)|(_ & Hv & Hc)]; [left; reflexivity|].
      assert (HD : is_bytes v = true).
      { inversion Hv as [|? ? Hq _]; subst. unfold vcheck, fail_unless in Hq. destruct (is_bytes v); [reflexivity|discriminate]. }
      destruct v; try discriminate HD. unfold converted in Hc.
      change (chook CTaskHeader "mask") with (Some (fun v => match v with VBytes b => Ok (VMask b) | _ => Ok v end)) in Hc.
      apply Ok_inj in Hc. right. eauto. }
    destruct (String.eqb_spec k "market_type") as [->|N3].
    { unfold slot_outcome in Ho. destruct (kw_get (u "market_type") kw) as [v|]; [|destruct Ho as [_ ->]; left; reflexivity].
      destruct Ho as [(_ & _ & ->)|(_ & Hv & Hc)]; [left; reflexivity|].
      unfold converted in Hc.
      change (chook CTaskHeader "market_type") with
          (Some (fun v => match enum_call EnMarketType v with Some m => Ok m | None => Err (EFieldError (u "market_type")) end)) in Hc.
      cbv beta iota in Hc. destruct (enum_call EnMarketType v) as [m|] eqn:E; [|discriminate]. apply Ok_inj in Hc. subst m.
      right. apply enum_call_member in E. exact E. }
    eapply plain_slot_ok; [exact Hk| |exact Ho].
    cbn [chook]. unfold header_hook. destruct (String.eqb_spec k "task_owner"), (String.eqb_spec k "mask"), (String.eqb_spec k "market_type"); congruence.
  - unfold slot_outcome in Ho. destruct (kw_get (u k) kw) as [v|]; [|destruct Ho as [_ ->]; left; reflexivity].
    destruct Ho as [(_ & _ & ->)|(_ & Hv & Hc)]; [left; reflexivity|].
    assert (Hh : (if truthy v then do kw <- star_star v; cnew (sub_of k) kw else Ok VNone) = Ok w).
    { unfold converted in Hc. cbn [cslots In] in Hk. destruct Hk as [<-|[<-|[<-|[<-|[]]]]]; exact Hc. }
    destruct (truthy v); [|apply Ok_inj in Hh; left; auto].
    apply bind_ok in Hh as (kw' & _ & Hh). apply cnew_leaf_ok in Hh; [right; exact Hh|].
    cbn [cslots In] in Hk. destruct Hk as [<-|[<-|[<-|[<-|[]]]]]; reflexivity.
Qed.

(** ** Task headers *)
Lemma dict_del_kvl k l : dict_del k (kvl l) = kvl (filter (fun kx => negb (fst kx =? k)%string) l).
Proof.
  unfold dict_del, kvl. induction l as [|[k0 x] l IH]; [reflexivity|]. cbn [map filter fst snd].
  rewrite py_eq_skey, IH. destruct (k0 =? k)%string; reflexivity.
Qed.
Lemma filter_wirel (p : string -> bool) l :
  wirel (filter (fun kx => p (fst kx)) l) = filter (fun kx => p (fst kx)) (wirel l).
Proof.
  unfold wirel. induction l as [|[k x] l IH]; [reflexivity|]. cbn [map filter fst snd].
  destruct (p k); cbn [map fst snd]; rewrite IH; reflexivity.
Qed.
Lemma dumps_wirel l l' : wirel l' = wirel l -> dumps (VDict DPlain (kvl l')) = dumps (VDict DPlain (kvl l)).
Proof. intros H. rewrite <- (dumps_norm (VDict DPlain (kvl l'))), (norm_wirel _ _ H), dumps_norm. reflexivity. Qed.
Lemma header_hash_wirel C a a' l l' : to_dict_kvs CTaskHeader a = Ok (kvl l) -> to_dict_kvs CTaskHeader a' = Ok (kvl l') ->
  wirel l' = wirel l -> header_hash C a' = header_hash C a.
Proof.
  intros H1 H2 HW. unfold header_hash. rewrite H1, H2. cbn [bind]. rewrite !dict_del_kvl.
  rewrite (dumps_wirel (filter (fun kx => negb (fst kx =? "signature")%string) l)); [reflexivity|].
  rewrite !(filter_wirel (fun k => negb (k =? "signature")%string)), HW. reflexivity.
Qed.

Lemma attr_get_wirel k l : attr_get k (wirel l) = option_map norm (attr_get k l).
Proof.
  unfold wirel. induction l as [|[k0 x] l IH]; [reflexivity|]. cbn [map attr_get fst snd].
  destruct (k0 =? k)%string; [reflexivity|exact IH].
Qed.
Lemma to_dict_get c a l k : map fst a = cslots c -> to_dict_kvs c a = Ok (kvl l) ->
  match attr_get k a with
  | Some w => exists x, attr_get k l = Some x /\ ser_entry c k w = Ok x
  | None => attr_get k l = None
  end.
Proof.
  intros Ha H. rewrite to_dict_kvs_own in H by exact Ha. clear Ha. revert l H.
  induction a as [|[k0 w] a IH]; cbn [mapM map fst snd]; intros l H.
  - apply Ok_inj in H. destruct l; [reflexivity|discriminate].
  - apply bind_ok in H as (p & Hp & H). apply bind_ok in Hp as (x & Hx & Hp). apply Ok_inj in Hp. subst p.
    apply bind_ok in H as (r & Hr & H). apply Ok_inj in H. destruct l as [|[k1 x1] l]; [discriminate|].
    cbn [kvl map fst snd] in H. assert (E1 : skey k1 = skey k0) by congruence. assert (E2 : x1 = x) by congruence.
    assert (E3 : r = kvl l) by (unfold kvl; congruence). subst r x1.
    assert (k1 = k0). { unfold skey in E1. assert (u k1 = u k0) by congruence. apply u_inj; assumption. } subst k1.
    cbn [attr_get]. destruct (k0 =? k)%string eqn:E; [apply String.eqb_eq in E; subst; eauto|]. apply IH, Hr.
Qed.

Definition sig_shape (w : pyval) : Prop := w = VNone \/ exists b, w = VBytes b.
Lemma attr_get_some k (a : attrs_t) : In k (map fst a) -> exists w, attr_get k a = Some w /\ In (k, w) a.
Proof.
  induction a as [|[k0 w] a IH]; cbn [map fst In attr_get]; [easy|]. intros H.
  destruct (String.eqb_spec k0 k) as [->|N]; [eauto|]. destruct H as [H|H]; [congruence|].
  destruct (IH H) as (w' & ? & ?). eauto.
Qed.
Lemma header_sig_shape a : cont_ok CTaskHeader a ->
  exists w, attr_get "signature" a = Some w /\ sig_shape w.
Proof.
  intros [Ha HO]. destruct (attr_get_some "signature" a) as (w & Hw & Hin); [rewrite Ha; cbn; auto|].
  exists w. split; [exact Hw|]. specialize (HO _ _ Hin).
  change (attr_ok CTaskHeader "signature" w) with (plain_ok CTaskHeader "signature" w) in HO.
  destruct HO as [(-> & _)|(_ & Hv)]; [left; reflexivity|]. right.
  change (cvalidators CTaskHeader "signature") with [vcheck is_bytes] in Hv.
  inversion Hv as [|? ? Hq _]; subst. destruct w; try discriminate Hq. eauto.
Qed.
Lemma header_sig_entry w : ser_entry CTaskHeader "signature" w = Ok (deenum w).
Proof. destruct w; reflexivity. Qed.

Lemma header_verify_wirel C a a' l l' : cont_ok CTaskHeader a -> cont_ok CTaskHeader a' ->
  to_dict_kvs CTaskHeader a = Ok (kvl l) -> to_dict_kvs CTaskHeader a' = Ok (kvl l') -> wirel l' = wirel l ->
  forall pub, header_verify C a' pub = header_verify C a pub.
Proof.
  intros K K' H1 H2 HW pub. unfold header_verify. rewrite (header_hash_wirel C a a' l l' H1 H2 HW).
  replace (attr_get_or_none "signature" a') with (attr_get_or_none "signature" a); [reflexivity|].
  destruct (header_sig_shape _ K) as (w & Hw & Sw). destruct (header_sig_shape _ K') as (w' & Hw' & Sw').
  pose proof (to_dict_get _ _ _ "signature" (proj1 K) H1) as G. pose proof (to_dict_get _ _ _ "signature" (proj1 K') H2) as G'.
  rewrite Hw in G. rewrite Hw' in G'. destruct G as (x & Gx & E), G' as (x' & Gx' & E').
  rewrite header_sig_entry in E, E'. apply Ok_inj in E, E'. subst x x'.
  pose proof (f_equal (attr_get "signature") HW) as P. rewrite !attr_get_wirel, Gx, Gx' in P. cbn [option_map] in P.
  apply Some_inj in P. unfold attr_get_or_none. rewrite Hw, Hw'.
  destruct Sw as [->|[b ->]], Sw' as [->|[b' ->]]; cbn [deenum norm] in P; congruence.
Qed.

(** signing *)
Lemma attr_set_fst k v (a : attrs_t) : In k (map fst a) -> map fst (attr_set k v a) = map fst a.
Proof.
  induction a as [|[k0 w] a IH]; cbn [map fst In attr_set]; [easy|]. intros H.
  destruct (String.eqb_spec k0 k) as [->|N]; [reflexivity|]. cbn [map fst]. rewrite IH; [reflexivity|].
  destruct H as [H|H]; [congruence|exact H].
Qed.
Lemma attr_set_in k v (a : attrs_t) k' w : In (k', w) (attr_set k v a) -> (k' = k /\ w = v) \/ In (k', w) a.
Proof.
  induction a as [|[k0 w0] a IH]; cbn [attr_set In].
  - intros [H|[]]. injection H as <- <-. auto.
  - destruct (String.eqb_spec k0 k) as [->|N]; cbn [In].
    + intros [H|H]; [injection H as <- <-; auto|auto].
    + intros [H|H]; [injection H as <- <-; auto|]. destruct (IH H) as [?|?]; auto.
Qed.
Lemma header_set_sig a b : cont_ok CTaskHeader a -> cont_ok CTaskHeader (attr_set "signature" (VBytes b) a).
Proof.
  intros [Ha HO]. split; [rewrite attr_set_fst; [exact Ha|rewrite Ha; cbn; auto]|].
  intros k w Hin. apply attr_set_in in Hin as [[-> ->]|Hin]; [|auto].
  right. split; [left; discriminate|]. constructor; [reflexivity|constructor].
Qed.
Lemma header_hash_set_sig C a b : cont_ok CTaskHeader a ->
  header_hash C (attr_set "signature" (VBytes b) a) = header_hash C a.
Proof.
  intros [Ha HO]. unfold header_hash.
  rewrite !to_dict_kvs_own; [|exact Ha|rewrite attr_set_fst; [exact Ha|rewrite Ha; cbn; auto]].
  assert (E : forall l, match mapM (fun kv => do x <- ser_entry CTaskHeader (fst kv) (snd kv); Ok (skey (fst kv), x)) l with
     | Ok kvs => exists kvs', mapM (fun kv => do x <- ser_entry CTaskHeader (fst kv) (snd kv); Ok (skey (fst kv), x)) (attr_set "signature" (VBytes b) l) = Ok kvs' /\
        (NoDup (map fst l) -> In "signature"%string (map fst l) -> dict_del "signature" kvs' = dict_del "signature" kvs)
     | Err e => mapM (fun kv => do x <- ser_entry CTaskHeader (fst kv) (snd kv); Ok (skey (fst kv), x)) (attr_set "signature" (VBytes b) l) = Err e
     end).
  { clear. induction l as [|[k w] l IH]; cbn [mapM attr_set fst snd].
    - eexists. split; [reflexivity|]. intros _ [].
    - destruct (String.eqb_spec k "signature") as [->|N].
      + cbn [mapM fst snd]. rewrite !header_sig_entry. cbn [bind deenum].
        destruct (mapM _ l) as [kvs|e]; cbn [bind]; [|reflexivity]. eexists. split; [reflexivity|].
        intros _ _. unfold dict_del. cbn [filter fst]. rewrite py_eq_skey. reflexivity.
      + cbn [mapM fst snd]. destruct (ser_entry CTaskHeader k w) as [x|e]; cbn [bind]; [|reflexivity].
        destruct (mapM _ l) as [kvs|e]; cbn [bind]; [|rewrite IH; reflexivity].
        destruct IH as (kvs' & -> & IH). cbn [bind]. eexists. split; [reflexivity|].
        cbn [map fst In]. intros Hn [Hs|Hs]; [congruence|]. inversion Hn; subst. specialize (IH H2 Hs).
        unfold dict_del in *. cbn [filter fst]. rewrite IH. reflexivity. }
  specialize (E a). destruct (mapM _ a) as [kvs|e]; cbn [bind]; [|rewrite E; reflexivity].
  destruct E as (kvs' & -> & E). cbn [bind]. rewrite E; [reflexivity|rewrite Ha; apply cslots_NoDup|rewrite Ha; cbn; auto].
Qed.
