(** * Tokens, payments and sessions built by the factories (C78) *)
From Verif Require Export HookFacts Grants.
Open Scope Z_scope.

(** ** Messages small enough to be sent, lists of messages included *)
Definition small_part (n : Z) (c : mcls) (k : string) (w : pyval) : Prop :=
  ((exists x, ser_slot c k w = Ok x /\ bnd n x) /\ init_ok c k w /\ val_ok (slot_kind c k) w /\ val_kept (slot_kind c k) w /\
   forall d an il, slot_kind c k = KMsg d an il -> w = VNone /\ an = true) \/
  (exists d an n', slot_kind c k = KMsg d an false /\ fits n' d w /\ 0 <= n' /\ n' + 50000 <= n) \/
  (exists d an l n', slot_kind c k = KMsg d an true /\ w = VList l /\ l <> [] /\ Forall (fits n' d) l /\ 0 <= n' /\ (n' + 5000) * Z.of_nat (List.length l) + 10 <= n).
Lemma fits_wire n d k m : 0 <= n -> fits n d m -> exists x, ser_single wire d k m = Ok x /\ bnd (n + 5000) x.
Proof.
  intros Hn (t & sg & a & s & -> & Ht & Hs & M & _ & S & Bs). unfold ser_single. rewrite mcls_eqb_refl, wire_msg, S.
  cbn [bind]. eexists. split; [reflexivity|]. pose proof (type_range d) as Tr. assert (B1 : vsize (VInt (type_of d)) <= 100) by (apply bnd_int; lia).
  assert (B2 : vsize (VInt t) <= 100) by (apply bnd_int; lia). destruct (sig_bnd sg Hs) as [E3 B3]. destruct Bs as [E4 B4]. split.
  - repeat (first [rewrite encw_list|rewrite encw_tuple]; cbn [forallb]). rewrite E3, E4. reflexivity.
  - remember (VInt (type_of d)) as vt. remember (VInt t) as vn. cbn [vsize map]. unfold zsum. cbn [fold_right]. change (vsize (VBool false)) with 1. lia.
Qed.
Lemma fits_wires n d k l : 0 <= n -> Forall (fits n d) l -> exists r, collect (map (ser_single wire d k) l) = Ok r /\ Forall (bnd (n + 5000)) r /\ List.length r = List.length l.
Proof.
  intros Hn. induction 1 as [|m l H _ (r & R1 & R2 & R3)]; [exists []; repeat constructor|].
  destruct (fits_wire n d k m Hn H) as (x & Hx & Bx). exists (x :: r). cbn [map collect]. rewrite Hx. cbn [bind]. rewrite R1.
  repeat split; [constructor; assumption|cbn; lia].
Qed.
Lemma small_ser n c k w : small_part n c k w -> exists x, ser_slot c k w = Ok x /\ bnd n x.
Proof.
  intros [(H & _)|[(d & an & n' & K & F & H0 & H1)|(d & an & l & n' & K & -> & Ne & F & H0 & H1)]].
  - exact H.
  - destruct (nested_bnd n' c d k an w H0 K F) as (x & Hx & B). exists x. split; [exact Hx|]. eapply bnd_weak; [exact B|lia].
  - destruct (fits_wires n' d k l H0 F) as (r & R1 & R2 & R3). unfold ser_slot, ser_slot_with. rewrite K, R1. cbn [bind]. eexists. split; [reflexivity|].
    pose proof (bnd_list _ _ R2) as [B1 B2]. rewrite R3 in B2. split.
    + rewrite encw_tuple. cbn [forallb]. rewrite B1. reflexivity.
    + remember (VList r) as vl. cbn [vsize map]. unfold zsum. cbn [fold_right]. change (vsize (VBool true)) with 1. lia.
Qed.
Lemma small_mok n c a : map fst a = slot_names c -> (forall k w, In (k, w) a -> small_part n c k w) -> mok c a /\ kept c a.
Proof.
  intros F P. split; constructor.
  - exact F.
  - intros k w Hin. destruct (P k w Hin) as [(_ & I1 & V1 & _)|[(d & an & n' & K & Hf & _)|(d & an & l & n' & K & -> & _)]]; [auto| |].
    + destruct Hf as (t & sg & b & s & -> & _). split; [eapply message_kinds; [exact K|discriminate]|rewrite K; exact I].
    + split; [eapply message_kinds; [exact K|discriminate]|rewrite K; exact I].
  - intros k w d an il Hin K. destruct (P k w Hin) as [(_ & _ & _ & _ & V1)|[(d' & an' & n' & K' & Hf & _)|(d' & an' & l & n' & K' & -> & Ne & Hf & _)]].
    + left. exact (V1 _ _ _ K).
    + assert (d' = d /\ il = false) as (-> & ->) by (split; congruence). destruct Hf as (t & sg & b & s & -> & _ & _ & M & _).
      right. left. split; [reflexivity|]. do 5 eexists. split; [reflexivity|exact M].
    + assert (d' = d /\ il = true) as (-> & ->) by (split; congruence). right. right. split; [reflexivity|]. exists l. split; [reflexivity|]. split; [exact Ne|].
      revert Hf. apply Forall_impl. intros m (t & sg & b & s & -> & _ & _ & M & _). do 5 eexists. split; [reflexivity|exact M].
  - intros k w Hin. destruct (P k w Hin) as [(_ & _ & _ & V1 & _)|[(d & an & n' & K & _)|(d & an & l & n' & K & _)]]; [exact V1| |]; rewrite K; exact I.
  - intros k w d an il ty ts enc sig b Hin K Hm. destruct (P k w Hin) as [(_ & _ & _ & _ & V1)|[(d' & an' & n' & K' & Hf & _)|(d' & an' & l & n' & K' & -> & _ & Hf & _)]].
    + destruct (V1 _ _ _ K) as [-> _]. destruct Hm as [Hm|[]]. discriminate Hm.
    + destruct Hf as (t & sg & b' & s & -> & _ & _ & _ & Kb & _). destruct Hm as [Hm|[]].
      assert (d' = d /\ b' = b) as (-> & ->) by (split; congruence). exact Kb.
    + rewrite Forall_forall in Hf. destruct (Hf _ Hm) as (t & sg & b' & s & Q & _ & _ & _ & Kb & _). assert (d' = d /\ b' = b) as (-> & ->) by (split; congruence). exact Kb.
Qed.

Lemma slots_each n c a : 100 <= n -> map fst a = slot_names c -> (forall k w, In (k, w) a -> exists x, ser_slot c k w = Ok x /\ bnd n x) ->
  exists s, slots c a = Ok s /\ bnd (Z.of_nat (List.length (slot_names c)) * (n + 1200) + 1) s.
Proof.
  intros Hn F H. rewrite <- F, map_length.
  assert (G : exists l, Forall2 (fun kw kx => fst kx = fst kw /\ ser_slot c (fst kw) (snd kw) = Ok (snd kx)) a l /\
     Forall (fun kx => bnd (n + 1100) (VList [skey (fst kx); snd kx])) l /\ List.length l = List.length a).
  { assert (N : forall k, In k (map fst a) -> In k (slot_names c)) by (rewrite F; auto). clear F. induction a as [|[k w] a IH].
    - exists []. repeat constructor.
    - destruct IH as (l & I1 & I2 & I3); [intros; apply H; right; assumption|intros; apply N; right; assumption|].
      destruct (H k w (or_introl eq_refl)) as (x & Hx & [B1 B2]). exists ((k, x) :: l). split; [constructor; auto|]. split; [|cbn; lia].
      constructor; [|exact I2]. cbn [fst snd]. destruct (key_bnd c k (N k (or_introl eq_refl))) as [C1 C2]. split.
      + rewrite encw_list. cbn [forallb]. rewrite C1, B1. reflexivity.
      + remember (skey k) as vk. cbn [vsize map]. unfold zsum. cbn [fold_right]. lia. }
  destruct G as (l & G1 & G2 & G3). exists (pairs l). split; [apply slots_inv; [exact F|]; exists l; auto|].
  unfold pairs. eapply bnd_weak; [apply bnd_list with (n := n + 1100)|].
  - rewrite Forall_forall in *. intros x Hx. apply in_map_iff in Hx as (kx & <- & Hk). exact (G2 _ Hk).
  - rewrite map_length, G3. nia.
Qed.

(** ** Building and signing *)
Definition usable (E : env) (k : bytes) : Prop := k <> [] /\ exists s, secret_of (cr E) k = Some s.
Lemma make_small E n N c a now priv : crypto_ok (cr E) -> c <> MHello -> 100 <= n -> Z.of_nat (List.length (slot_names c)) * (n + 1200) + 1 <= N < 2 ^ 64 ->
  0 <= now < 2 ^ 62 -> map fst a = slot_names c ->
  (forall k w, In (k, w) a -> small_part n c k w) -> (forall k, priv = Some k -> usable E k) ->
  exists m, sign_hook E (VMsg c (VInt (type_of c)) (VInt now) (VBool false) VNone a) priv = Ok m /\ fits N c m.
Proof.
  intros HC NH Hn HN Hnow F P U. destruct (small_mok _ _ _ F P) as [M Kp].
  destruct (slots_each n c a) as (s & Hs & Bs); [lia|exact F|intros k w Hin; apply small_ser; exact (P k w Hin)|].
  assert (Fi : forall sg, a_sig sg -> fits (N) c (VMsg c (VInt (type_of c)) (VInt now) (VBool false) sg a)).
  { intros sg Hg. exists now, sg, a, s. split; [reflexivity|]. split; [exact Hnow|]. split; [exact Hg|]. split; [exact M|]. split; [exact Kp|]. split; [exact Hs|]. eapply bnd_weak; [exact Bs|lia]. }
  destruct priv as [k|]; [|exists (VMsg c (VInt (type_of c)) (VInt now) (VBool false) VNone a); split; [reflexivity|apply Fi; left; reflexivity]].
  destruct (U k eq_refl) as [Ne [sk Hk]].
  assert (Hh : exists h, short_hash E (VMsg c (VInt (type_of c)) (VInt now) (VBool false) VNone a) = Ok h).
  { cbn [short_hash]. unfold payload_of. rewrite Hs. cbn [bind]. destruct (bnd_dumps _ _ Bs) as [p Hp]; [lia|]. rewrite Hp. cbn [bind].
    pose proof (type_range c) as Tr. destruct (bnd_dumps (1 + 1000 * 2) (VList [VInt (type_of c); VInt now])) as [q Hq]; [apply bnd_list; bnds|reflexivity|].
    unfold hash_payload. rewrite Hq. cbn [bind]. destruct c; try congruence; eauto. }
  destruct Hh as [h Hh]. destruct (ecdsa_sign_total (cr E) k h sk HC Hk) as [sg Hsg].
  assert (L : List.length sg = 65%nat) by (destruct (ecdsa_sign_ok _ _ _ _ HC Hsg) as (? & ? & _ & _ & L & _); exact L).
  exists (VMsg c (VInt (type_of c)) (VInt now) (VBool false) (VBytes sg) a). split; [|apply Fi; right; eauto].
  unfold sign_hook. destruct k as [|x k]; [congruence|]. cbn [sign_message]. rewrite Hh. cbn [bind]. rewrite Hsg. reflexivity.
Qed.

(** ** Payments *)
Lemma payment_signed E now given gen k : k <> [] -> payment_factory E now given gen (Some k) = Err (EFieldError (u "subtask_results_accepted_list")).
Proof. destruct k as [|x k]; [congruence|]. reflexivity. Qed.
Definition payment (now : Z) (sg : pyval) (l : pyval) : pyval :=
  VMsg MForcePayment (VInt (type_of MForcePayment)) (VInt now) (VBool false) sg [("subtask_results_accepted_list"%string, l)].
Lemma payment_built E now given gen : payment_factory E now given gen None =
  Ok (payment now VNone (match given, gen with [], [] => VNone | [], _ => VList gen | _, _ => VList given end)).
Proof. destruct given, gen; reflexivity. Qed.
Definition no_list (r : result pyval) : Prop := r = Err (EFieldError (u "subtask_results_accepted_list")).
(** without acceptances it can be neither signed nor dumped, nor can a message holding it *)
Lemma payment_empty E now sg k encf : is_none sg = true -> no_list (sign_message E (payment now sg VNone) k) /\
  snd (serialize E (payment now sg VNone) (Some k) encf) = Err (EFieldError (u "subtask_results_accepted_list")).
Proof. destruct sg; try discriminate. intros _. split; [reflexivity|]. cbn [serialize payment]. rewrite andb_false_r. reflexivity. Qed.
Lemma rejected_empty E now t sg k encf : k <> [] ->
  no_list (payment_rejected_factory E now (payment t sg VNone) (Some k)) /\
  exists m, payment_rejected_factory E now (payment t sg VNone) None = Ok m /\
    snd (serialize E m (Some k) encf) = Err (EFieldError (u "subtask_results_accepted_list")) /\
    snd (serialize E m None encf) = Err (EFieldError (u "subtask_results_accepted_list")).
Proof.
  intros Hk. split; [destruct k as [|x k]; [congruence|]; reflexivity|]. eexists. split; [reflexivity|]. split.
  - cbn [serialize]. rewrite andb_false_r. reflexivity.
  - reflexivity.
Qed.

(** ** Tokens *)
Definition a_file (f : pyval) : Prop :=
  exists path sha size category, a_text path /\ a_text (u "sha1:" ++ sha) /\ 0 <= size < 2 ^ 62 /\
    (forall s, category = Some s -> In s (members EnFileCategory)) /\ file_factory path sha size category = Ok f.
Definition files_ok (files : list pyval) : Prop := (List.length files <= 1000)%nat /\ Forall a_file files.
Definition file_kvs (path sha : ustr) (size : Z) (category : string) : list (pyval * pyval) :=
  [(skey "path", VStr path); (skey "checksum", VStr (u "sha1:" ++ sha)%list); (skey "size", VInt size); (skey "category", VEnum EnFileCategory category)].
Lemma file_made path sha size category : file_factory path sha size category =
  Ok (VDict DFileInfo (file_kvs path sha size (match category with Some s => s | None => "results"%string end))).
Proof. destruct category; reflexivity. Qed.
Lemma file_bnd path sha size s : a_text path -> a_text (u "sha1:" ++ sha) -> 0 <= size < 2 ^ 62 -> In s (members EnFileCategory) ->
  bnd 1000000 (VDict DFileInfo (file_kvs path sha size s)).
Proof.
  intros H1 H2 H3 H4. eapply bnd_weak; [apply bnd_dict with (n := 100000); [reflexivity|]|cbn; lia].
  unfold file_kvs. repeat (apply Forall_cons; [split; cbn [fst snd]|]); try apply Forall_nil; try (eapply bnd_weak; [apply bnd_closed with (n := 1000); reflexivity|lia]).
  - apply bnd_text. exact H1.
  - apply bnd_text. exact H2.
  - eapply bnd_weak; [apply bnd_int; lia|lia].
  - cbn [members In] in H4. destruct H4 as [<-|[<-|[]]]; apply bnd_closed; reflexivity.
Qed.
Lemma file_shape path sha size s : In s (members EnFileCategory) -> exists kvs, VDict DFileInfo (file_kvs path sha size s) = VDict DFileInfo kvs /\ schema DFileInfo kvs /\
  forall k m, In (k, m) kvs -> str_of k = Some (u "category") -> exists s, m = VEnum EnFileCategory s /\ In s (members EnFileCategory).
Proof.
  intros Hs. exists (file_kvs path sha size s). split; [reflexivity|]. split.
  - split; [apply Permutation_refl|]. intros k v t Hin Ht. cbn [file_kvs In] in Hin.
    repeat (destruct Hin as [Hin|Hin]; [injection Hin as <- <-; cbn [str_of skey] in Ht; apply Some_inj in Ht; subst t; first [exact I|reflexivity]|]). destruct Hin.
  - intros k m Hin Ht. cbn [file_kvs In] in Hin.
    repeat (destruct Hin as [Hin|Hin]; [injection Hin as <- <-; try discriminate Ht; eauto|]). destruct Hin.
Qed.
Lemma file_member category s : (forall s, category = Some s -> In s (members EnFileCategory)) ->
  s = match category with Some s => s | None => "results"%string end -> In s (members EnFileCategory).
Proof. intros H ->. destruct category as [s|]; [exact (H s eq_refl)|left; reflexivity]. Qed.
Definition token_attrs (id url : ustr) (client : bytes) (op : string) (files : list pyval) : attrs_t :=
  [("subtask_id", VStr id); ("token_expiration_deadline", VInt 1800); ("storage_cluster_address", VStr url);
   ("authorized_client_public_key", VBytes client); ("operation", VEnum EnFTTOperation op); ("files", VList files)]%string.
Lemma token_parts id url client op files : a_text id -> a_text url -> (List.length client <= 200)%nat -> In op (members EnFTTOperation) -> files_ok files ->
  forall k w, In (k, w) (token_attrs id url client op files) -> small_part (2 ^ 31) MFileTransferToken k w.
Proof.
  intros H1 H2 H3 H4 [H5 H6] k w Hin. left. cbn [token_attrs In] in Hin.
  destruct Hin as [Hin|[Hin|[Hin|[Hin|[Hin|[Hin|[]]]]]]]; injection Hin as <- <-.
  - split; [eexists; split; [reflexivity|eapply bnd_weak; [apply bnd_text; exact H1|lia]]|]. repeat split; try exact I; try reflexivity; discriminate.
  - split; [eexists; split; [reflexivity|eapply bnd_weak; [apply bnd_int; lia|lia]]|]. repeat split; try exact I; try reflexivity; discriminate.
  - split; [eexists; split; [reflexivity|eapply bnd_weak; [apply bnd_text; exact H2|lia]]|]. repeat split; try exact I; try reflexivity; discriminate.
  - split; [eexists; split; [reflexivity|eapply bnd_weak; [apply bnd_bytes; exact H3|lia]]|]. repeat split; try exact I; try reflexivity; discriminate.
  - split; [eexists; split; [reflexivity|]|].
    + cbn [members In] in H4. destruct H4 as [<-|[<-|[]]]; (eapply bnd_weak; [apply bnd_closed with (n := 1000); reflexivity|lia]).
    + split; [exact I|]. split; [right; exists op; auto|]. split; [exact I|discriminate].
  - split; [eexists; split; [reflexivity|]|].
    + cbn [enum_value]. eapply bnd_weak; [apply bnd_list with (n := 1000000)|nia]. revert H6. apply Forall_impl. intros f (path & sha & size & cat & P1 & P2 & P3 & P4 & P5).
      rewrite file_made in P5. apply Ok_inj in P5. subst f. apply file_bnd; try assumption. eapply file_member; [exact P4|reflexivity].
    + split; [exact I|]. split; [|split; [exact I|discriminate]]. exists files. split; [reflexivity|]. revert H6. apply Forall_impl. intros f (path & sha & size & cat & P1 & P2 & P3 & P4 & P5).
      rewrite file_made in P5. apply Ok_inj in P5. subst f. apply file_shape. eapply file_member; [exact P4|reflexivity].
Qed.
Lemma fits_small n N c a now sg : c <> MHello -> 100 <= n -> Z.of_nat (List.length (slot_names c)) * (n + 1200) + 1 <= N -> 0 <= now < 2 ^ 62 -> a_sig sg ->
  map fst a = slot_names c -> (forall k w, In (k, w) a -> small_part n c k w) -> fits N c (VMsg c (VInt (type_of c)) (VInt now) (VBool false) sg a).
Proof.
  intros NH Hn HN Hnow Hg F P. destruct (small_mok _ _ _ F P) as [M Kp].
  destruct (slots_each n c a) as (s & Hs & Bs); [lia|exact F|intros k w Hin; apply small_ser; exact (P k w Hin)|].
  exists now, sg, a, s. split; [reflexivity|]. split; [exact Hnow|]. split; [exact Hg|]. split; [exact M|]. split; [exact Kp|]. split; [exact Hs|]. eapply bnd_weak; [exact Bs|lia].
Qed.
(** a token came from its factory *)
Definition made_token (E : env) (m : pyval) : Prop :=
  exists now id url client files up down p, clock now /\ a_text id /\ a_text url /\ (List.length client <= 200)%nat /\ files_ok files /\
    token_factory E now id url client files up down p = Ok m.
Lemma token_total E now id url client files up down p : crypto_ok (cr E) -> clock now -> a_text id -> a_text url -> (List.length client <= 200)%nat -> files_ok files ->
  (forall k, p = Some k -> usable E k) -> exists m, token_factory E now id url client files up down p = Ok m /\ made_token E m.
Proof.
  intros HC Hc H1 H2 H3 H4 U. unfold clock in Hc.
  destruct (make_small E (2 ^ 31) (2 ^ 40) MFileTransferToken (token_attrs id url client "upload" files) now p) as (m & Hm & _); try assumption; try discriminate; try reflexivity; try (cbn; lia).
  { apply token_parts; try assumption. left. reflexivity. }
  assert (R : exists m', token_factory E now id url client files up down p = Ok m').
  { unfold token_factory. change (reply E now MFileTransferToken _ p) with
      (sign_hook E (VMsg MFileTransferToken (VInt (type_of MFileTransferToken)) (VInt now) (VBool false) VNone (token_attrs id url client "upload" files)) p).
    rewrite Hm. apply sign_hook_attrs in Hm as [sg ->]. destruct up, down; eexists; reflexivity. }
  destruct R as [m' R]. exists m'. split; [exact R|]. exists now, id, url, client, files, up, down, p. auto 10.
Qed.
Lemma token_fits E m : crypto_ok (cr E) -> made_token E m -> fits (2 ^ 40) MFileTransferToken m.
Proof.
  intros HC (now & id & url & client & files & up & down & p & Hc & H1 & H2 & H3 & H4 & H). unfold clock in Hc. unfold token_factory in H. apply bind_ok in H as (m1 & Hm & H).
  change (reply E now MFileTransferToken _ p) with
      (sign_hook E (VMsg MFileTransferToken (VInt (type_of MFileTransferToken)) (VInt now) (VBool false) VNone (token_attrs id url client "upload" files)) p) in Hm.
  assert (Sg : exists sg, a_sig sg /\ m1 = VMsg MFileTransferToken (VInt (type_of MFileTransferToken)) (VInt now) (VBool false) sg (token_attrs id url client "upload" files)).
  { destruct p as [[|x k]|]; [exists VNone; split; [left; reflexivity|apply Ok_inj in Hm; symmetry; exact Hm]| |exists VNone; split; [left; reflexivity|apply Ok_inj in Hm; symmetry; exact Hm]].
    cbn [sign_hook sign_message] in Hm. apply bind_ok in Hm as (h & Hh & Hm). apply bind_ok in Hm as (g & Hg & Hm). apply Ok_inj in Hm. exists (VBytes g). split; [|symmetry; exact Hm].
    right. exists g. split; [reflexivity|]. destruct (ecdsa_sign_ok _ _ _ _ HC Hg) as (? & ? & _ & _ & L & _). exact L. }
  destruct Sg as (sg & Hg & ->).
  assert (T : forall op, In op (members EnFTTOperation) -> fits (2 ^ 40) MFileTransferToken (VMsg MFileTransferToken (VInt (type_of MFileTransferToken)) (VInt now) (VBool false) sg (token_attrs id url client op files))).
  { intros op Ho. apply (fits_small (2 ^ 31)); try assumption; try discriminate; try reflexivity; try (cbn; lia). apply token_parts; assumption. }
  assert (m = VMsg MFileTransferToken (VInt (type_of MFileTransferToken)) (VInt now) (VBool false) sg (token_attrs id url client (if down then "download" else "upload")%string files)) as ->.
  { destruct up, down; cbv [set_attr bind] in H; apply Ok_inj in H; symmetry; exact H. }
  apply T. destruct down; [right; left|left]; reflexivity.
Qed.

(** ** The Concent's replies with a token *)
Inductive granted (E : env) (priv : owner -> bytes) (pk rk : bytes) : mcls -> pyval -> Prop :=
| gr_verify now s t m : clock now -> made_up E priv pk rk MSubtaskResultsVerify s -> made_token E t ->
    ack_verify_factory E now s t (Some (priv OConcent)) = Ok m -> granted E priv pk rk MAckSubtaskResultsVerify m
| gr_upload now g t m : clock now -> made_up E priv pk rk MForceGetTaskResult g -> made_token E t ->
    upload_factory E now g t (Some (priv OConcent)) = Ok m -> granted E priv pk rk MForceGetTaskResultUpload m
| gr_download now g t m : clock now -> made_up E priv pk rk MForceGetTaskResult g -> made_token E t ->
    download_factory E now g t (Some (priv OConcent)) = Ok m -> granted E priv pk rk MForceGetTaskResultDownload m.
Section Granted.
Variables (E : env) (priv : owner -> bytes) (pk rk ck : bytes).
Hypothesis HC : crypto_ok (cr E).
Hypothesis KP : key_pairs (cr E) priv pk rk ck.
Hypothesis NE : forall o, priv o <> [].

Lemma token_part c k t n : 2 ^ 40 <= n -> slot_kind c k = KMsg MFileTransferToken false false -> made_token E t -> part E priv pk rk n c k t.
Proof.
  intros Hn K T. right. exists MFileTransferToken, false. split; [exact K|]. split; [|discriminate].
  destruct (token_fits E t HC T) as (t' & sg & a & s & -> & H1 & H2 & H3 & H4 & H5 & H6). exists t', sg, a, s. repeat (split; [first [reflexivity|assumption]|]). eapply bnd_weak; [exact H6|exact Hn].
Qed.
Lemma with_token c k k' d x t now : is_task_message c = true -> c <> MTaskToCompute -> slot_names c = [k; k'] -> slot_kind c k = KMsg d false false ->
  slot_kind c k' = KMsg MFileTransferToken false false -> task_id_providers c = [k] -> expected_owners c = [OConcent] ->
  clock now -> made_up E priv pk rk d x -> lim d <= 2 ^ 55 -> made_token E t ->
  exists m, sign_hook E (VMsg c (VInt (type_of c)) (VInt now) (VBool false) VNone [(k, x); (k', t)]) (Some (priv OConcent)) = Ok m /\ good E priv pk rk (2 ^ 60) c m.
Proof.
  intros T N S K K' TP EO Hc Hx Hl Ht. unfold clock in Hc. pose proof (made_up_good E priv pk rk ck d x HC KP NE Hx) as G.
  assert (Gx : good E priv pk rk (2 ^ 55) d x).
  { destruct G as [(t' & sg & a & s & -> & H1 & H2 & H3 & H4 & H5 & H6) G2]. split; [|exact G2]. exists t', sg, a, s. repeat (split; [first [reflexivity|assumption]|]). eapply bnd_weak; [exact H6|exact Hl]. }
  change (2 ^ 60) with (32 * 2 ^ 55). apply (make_reply E priv pk rk ck (2 ^ 55) c [(k, x); (k', t)] OConcent now); try assumption; try lia.
  - symmetry. exact S.
  - rewrite EO. left. reflexivity.
  - intros j w Hin. cbn [In] in Hin. destruct Hin as [Hin|[Hin|[]]]; injection Hin as <- <-.
    + right. exists d, false. auto.
    + apply token_part; [lia|assumption|assumption].
  - exists k, x. rewrite TP. split; [left; reflexivity|]. split; [left; reflexivity|]. destruct (good_message _ _ _ _ _ _ _ Gx) as (? & ? & ? & ? & ? & ->). discriminate.
Qed.
Lemma granted_total now t : clock now -> made_token E t ->
  (forall s, made_up E priv pk rk MSubtaskResultsVerify s -> exists m, ack_verify_factory E now s t (Some (priv OConcent)) = Ok m /\ good E priv pk rk (2 ^ 60) MAckSubtaskResultsVerify m) /\
  (forall g, made_up E priv pk rk MForceGetTaskResult g -> exists m, upload_factory E now g t (Some (priv OConcent)) = Ok m /\ good E priv pk rk (2 ^ 60) MForceGetTaskResultUpload m) /\
  (forall g, made_up E priv pk rk MForceGetTaskResult g -> exists m, download_factory E now g t (Some (priv OConcent)) = Ok m /\ good E priv pk rk (2 ^ 60) MForceGetTaskResultDownload m).
Proof.
  intros Hc Ht. pose proof Ht as Ht'. apply token_fits in Ht' as (t' & sg & a & s' & Et & _); [|exact HC].
  repeat split.
  - intros s Hs. pose proof (made_up_good E priv pk rk ck _ s HC KP NE Hs) as G. destruct (good_message _ _ _ _ _ _ _ G) as (? & ? & ? & ? & ? & Es).
    destruct (with_token MAckSubtaskResultsVerify "subtask_results_verify" "file_transfer_token" MSubtaskResultsVerify s t now) as (m & Hm & Gm); try assumption; try reflexivity; try discriminate.
    exists m. split; [|exact Gm]. rewrite <- Hm. subst s t. reflexivity.
  - intros g Hg. pose proof (made_up_good E priv pk rk ck _ g HC KP NE Hg) as G. destruct (good_message _ _ _ _ _ _ _ G) as (? & ? & ? & ? & ? & Eg).
    destruct (with_token MForceGetTaskResultUpload "force_get_task_result" "file_transfer_token" MForceGetTaskResult g t now) as (m & Hm & Gm); try assumption; try reflexivity; try discriminate.
    exists m. split; [|exact Gm]. rewrite <- Hm. subst g t. reflexivity.
  - intros g Hg. pose proof (made_up_good E priv pk rk ck _ g HC KP NE Hg) as G. destruct (good_message _ _ _ _ _ _ _ G) as (? & ? & ? & ? & ? & Eg).
    destruct (with_token MForceGetTaskResultDownload "force_get_task_result" "file_transfer_token" MForceGetTaskResult g t now) as (m & Hm & Gm); try assumption; try reflexivity; try discriminate.
    exists m. split; [|exact Gm]. rewrite <- Hm. subst g t. reflexivity.
Qed.
Lemma granted_good c m : granted E priv pk rk c m -> good E priv pk rk (2 ^ 60) c m.
Proof.
  intros [now s t m' Hc Hs Ht Hm|now g t m' Hc Hg Ht Hm|now g t m' Hc Hg Ht Hm]; destruct (granted_total now t Hc Ht) as (T1 & T2 & T3).
  - destruct (T1 s Hs) as (x & Hx & G). assert (x = m') by congruence. subst x. exact G.
  - destruct (T2 g Hg) as (x & Hx & G). assert (x = m') by congruence. subst x. exact G.
  - destruct (T3 g Hg) as (x & Hx & G). assert (x = m') by congruence. subst x. exact G.
Qed.
Lemma granted_class c m : granted E priv pk rk c m -> is_task_message c = true /\ forall ty ts enc sig a, vet E c (VMsg c ty ts enc sig a) = Ok tt.
Proof. intros []; split; reflexivity. Qed.
End Granted.
Lemma good_delivered E E' now priv pk rk ck n c ty t enc sig a key ct pub : let m := VMsg c ty (VInt t) enc sig a in cr E' = cr E -> crypto_ok (cr E) -> key_pairs (cr E) priv pk rk ck ->
  good E priv pk rk n c m -> n < 2 ^ 64 -> is_task_message c = true -> vet E c m = Ok tt ->
  1262304000 < t < 32819212800 -> (ct = true -> now - 600000000 <= t * 1000000 <= now + 300000000) ->
  (forall s, slots c a = Ok s -> (vdepth s < cdepth E')%nat) ->
  (forall k, pub = Some k -> k <> [] -> verify_signature E m (VBytes k) = Ok tt) -> key_given key = false ->
  exists bs m2, serialize E m key None = (m, Ok bs) /\ deserialize E' now bs (fun b => Ok b) ct pub = Ok m2 /\ verify_owners E' m2 (VBytes pk) (VBytes rk) (VBytes ck) = Ok tt.
Proof.
  intros m HE HC KP [(t' & sg & a' & s & Em & _ & Hs & M & Kp & S & B) Hon] Hn T Hv HT HN W P K.
  specialize (Hon T). unfold m in *. clear m.
  assert (ty = VInt (type_of c) /\ t' = t /\ enc = VBool false /\ sg = sig /\ a' = a) as (-> & -> & -> & -> & ->) by (repeat split; congruence). clear Em.
  destruct (honest_signature _ _ _ _ _ _ _ _ _ _ HC Hon) as (g & -> & L).
  destruct (bnd_dumps _ _ B) as [p Hp]; [exact Hn|].
  assert (Sz : exists bs, serialize E (VMsg c (VInt (type_of c)) (VInt t) (VBool false) (VBytes g) a) key None = (VMsg c (VInt (type_of c)) (VInt t) (VBool false) (VBytes g) a, Ok bs)).
  { unfold serialize. rewrite K. unfold payload_of. rewrite S. cbn [bind]. rewrite Hp. cbn [andb is_none bind]. rewrite andb_false_r.
    unfold pack_header. rewrite (type_fits c). unfold pack_u64. replace ((0 <=? t) && (t <? 2 ^ 64)) with true by lia. cbn [bind].
    destruct c; try discriminate T; eexists; reflexivity. }
  destruct Sz as [bs Sz]. exists bs.
  destruct (honest_delivered E E' now priv pk rk ck c t (VBool false) (VBytes g) a key None (VMsg c (VInt (type_of c)) (VInt t) (VBool false) (VBytes g) a) bs ct (fun b => Ok b) pub
    HE HC KP Hon HT HN) as (m2 & D & O).
  - intros s' Hs'. assert (s' = s) by congruence. subst s'. split; [destruct B as [B _]; apply encw_iff in B; tauto|]. exact (W _ S).
  - intros q _ f x Q. discriminate Q.
  - exact Sz.
  - intros k Hk Nk _. exact (P k Hk Nk).
  - exact Hv.
  - exists m2. auto.
Qed.

(** ** Messages that are not task messages *)
Inductive sent (E : env) (priv : owner -> bytes) (pk rk : bytes) : mcls -> pyval -> Prop :=
| se_token m : made_token E m -> sent E priv pk rk MFileTransferToken m
| se_payment now l m : clock now -> l <> [] -> (List.length l <= 1000)%nat -> Forall (made_up E priv pk rk MSubtaskResultsAccepted) l ->
    payment_factory E now l [] None = Ok m -> sent E priv pk rk MForcePayment m
| se_committed now paid key account amount actor p m : clock now -> clock paid -> a_text key -> a_text account -> 0 <= amount < 2 ^ 62 -> In actor (members EnActor) ->
    (forall k, p = Some k -> usable E k) -> committed_factory E now paid key account amount actor p = Ok m -> sent E priv pk rk MForcePaymentCommitted m
| se_rejected now f p m : clock now -> sent E priv pk rk MForcePayment f -> (forall k, p = Some k -> usable E k) ->
    payment_rejected_factory E now f p = Ok m -> sent E priv pk rk MForcePaymentRejected m
| se_authorization now client p m : clock now -> (List.length client <= 200)%nat -> (forall k, p = Some k -> usable E k) ->
    authorization_factory E now client p = Ok m -> sent E priv pk rk MClientAuthorization m
| se_want now name conn name' p m : clock now -> a_name name -> a_name name' -> a_text conn -> (forall k, p = Some k -> usable E k) ->
    want_session_factory E now name conn name' p = Ok m -> sent E priv pk rk MWantToStartTaskSession m
| se_set now key name conn name' p m : clock now -> a_name name -> a_name name' -> a_text key -> a_text conn -> (forall k, p = Some k -> usable E k) ->
    set_session_factory E now key name conn name' p = Ok m -> sent E priv pk rk MSetTaskSession m.
Lemma node_slot c k name n : slot_kind c k = KNode -> init_ok c k (VObj CNode (node_attrs default_key name)) -> a_name name -> 10000000 <= n ->
  small_part n c k (VObj CNode (node_attrs default_key name)).
Proof.
  intros K I0 Hn Hb. left. rewrite K. split; [|split; [exact I0|split; [|split; [|discriminate]]]].
  - unfold ser_slot, ser_slot_with. rewrite K. cbn [ser_plain truthy]. rewrite node_dict. eexists. split; [reflexivity|].
    eapply bnd_weak; [apply bnd_dict with (n := 1000); [reflexivity|]|cbn; lia].
    unfold node_attrs. cbn [map fst snd]. repeat (apply Forall_cons; [split; cbn [fst snd]|]); try apply Forall_nil; try (eapply bnd_weak; [apply bnd_closed with (n := 1000); reflexivity|lia]).
    apply bnd_str. exact Hn.
  - right. exists (node_attrs default_key name). split; [reflexivity|].
    destruct (cnew_cont_ok CNode [(u "key", VStr default_key); (u "node_name", VStr name)] (VObj CNode (node_attrs default_key name))) as (a & Ea & Ha); [exact (node_made default_key name eq_refl)|discriminate|].
    assert (a = node_attrs default_key name) by congruence. subst a. exact Ha.
  - intros j w Hin. cbn [node_attrs In] in Hin. repeat (destruct Hin as [Hin|Hin]; [injection Hin as <- <-; first [reflexivity|exact I|repeat split]|]). destruct Hin.
Qed.
Lemma fits_more n c m : n <= 2 ^ 62 -> fits n c m -> fits (2 ^ 62) c m.
Proof. intros Hn (t & sg & a & s & -> & H1 & H2 & H3 & H4 & H5 & H6). exists t, sg, a, s. repeat (split; [first [reflexivity|assumption]|]). eapply bnd_weak; [exact H6|exact Hn]. Qed.
Lemma committed_total E now paid key account amount actor p : crypto_ok (cr E) -> clock now -> clock paid -> a_text key -> a_text account -> 0 <= amount < 2 ^ 62 -> In actor (members EnActor) ->
  (forall k, p = Some k -> usable E k) -> exists m, committed_factory E now paid key account amount actor p = Ok m /\ fits (2 ^ 62) MForcePaymentCommitted m.
Proof.
  intros HC Hc Hp Hk Ha Ham Hac U. unfold clock in *.
  destruct (make_small E 1000000 (2 ^ 40) MForcePaymentCommitted [("payment_ts", VInt paid); ("task_owner_key", VStr key); ("provider_eth_account", VStr account); ("amount_paid", VInt amount);
    ("recipient_type", VEnum EnActor actor); ("amount_pending", VNone)]%string now p) as (m' & Hm' & G); try assumption; try discriminate; try lia; try reflexivity; try (lazymatch goal with |- ex _ => fail | _ => cbn; lia end); [|].
  - intros k w Hin. cbn [In] in Hin. left. repeat (destruct Hin as [Hin|Hin]; [injection Hin as <- <-|]); try contradiction.
    all: split; [eexists; split; [reflexivity|]|split; [exact I|split; [first [exact I|right; exists actor; auto]|split; [first [reflexivity|exact I]|discriminate]]]].
    + eapply bnd_weak; [apply bnd_int; lia|lia].
    + eapply bnd_weak; [apply bnd_text; assumption|lia].
    + eapply bnd_weak; [apply bnd_text; assumption|lia].
    + eapply bnd_weak; [apply bnd_int; lia|lia].
    + cbn [members In] in Hac. destruct Hac as [<-|[<-|[]]]; apply bnd_closed; reflexivity.
    + apply bnd_closed; reflexivity.
  - exists m'. split; [rewrite <- Hm'; reflexivity|]. eapply fits_more; [|exact G]. lia.
Qed.
Lemma payment_rejected_total E now f p : crypto_ok (cr E) -> clock now -> fits (2 ^ 60 + 2 ^ 30) MForcePayment f -> (forall k, p = Some k -> usable E k) ->
  exists m, payment_rejected_factory E now f p = Ok m /\ fits (2 ^ 62) MForcePaymentRejected m.
Proof.
  intros HC Hc IH U. unfold clock in *.
  destruct (make_small E (2 ^ 60 + 2 ^ 31) (2 ^ 62) MForcePaymentRejected [("force_payment", f); ("reason", VEnum EnForcePaymentRejected "no unsettled tasks found")]%string now p) as (m' & Hm' & G);
    try assumption; try discriminate; try lia; try reflexivity; try (change (Z.of_nat (List.length (slot_names MForcePaymentRejected))) with 2; lia); [|].
  - intros k w Hin. cbn [In] in Hin. destruct Hin as [Hin|[Hin|[]]]; injection Hin as <- <-.
    + right. left. exists MForcePayment, false, (2 ^ 60 + 2 ^ 30). split; [reflexivity|]. split; [exact IH|lia].
    + left. split; [eexists; split; [reflexivity|eapply bnd_weak; [apply bnd_closed with (n := 1000); reflexivity|lia]]|]. split; [exact I|]. split; [right; eexists; split; [reflexivity|left; reflexivity]|]. split; [exact I|discriminate].
  - exists m'. split; [|exact G]. rewrite <- Hm'. destruct IH as (t & sg & a & s & -> & _). reflexivity.
Qed.
Lemma authorization_total E now client p : crypto_ok (cr E) -> clock now -> (List.length client <= 200)%nat -> (forall k, p = Some k -> usable E k) ->
  exists m, authorization_factory E now client p = Ok m /\ fits (2 ^ 62) MClientAuthorization m.
Proof.
  intros HC Hc L U. unfold clock in *.
  destruct (make_small E 1000000 (2 ^ 40) MClientAuthorization [("client_public_key", VBytes client)]%string now p) as (m' & Hm' & G); try assumption; try discriminate; try lia; try reflexivity; try (lazymatch goal with |- ex _ => fail | _ => cbn; lia end); [|].
  - intros k w [Hin|[]]. injection Hin as <- <-. left. split; [eexists; split; [reflexivity|eapply bnd_weak; [apply bnd_bytes; assumption|lia]]|]. split; [exact I|]. split; [exact I|]. split; [reflexivity|discriminate].
  - exists m'. split; [rewrite <- Hm'; reflexivity|]. eapply fits_more; [|exact G]. lia.
Qed.
Lemma want_total E now name conn name' p : crypto_ok (cr E) -> clock now -> a_name name -> a_name name' -> a_text conn -> (forall k, p = Some k -> usable E k) ->
  exists m, want_session_factory E now name conn name' p = Ok m /\ fits (2 ^ 62) MWantToStartTaskSession m.
Proof.
  intros HC Hc N1 N2 T1 U. unfold clock in *. unfold want_session_factory. rewrite !(node_made default_key) by reflexivity. cbn [bind].
  destruct (make_small E 10000000 (2 ^ 40) MWantToStartTaskSession [("node_info", VObj CNode (node_attrs default_key name)); ("conn_id", VStr conn); ("super_node_info", VObj CNode (node_attrs default_key name'))]%string now p)
    as (m' & Hm' & G); try assumption; try discriminate; try lia; try reflexivity; try (lazymatch goal with |- ex _ => fail | _ => cbn; lia end); [|].
  - intros k w Hin. cbn [In] in Hin. destruct Hin as [Hin|[Hin|[Hin|[]]]]; injection Hin as <- <-; try (apply node_slot; [reflexivity|exact I|assumption|lia]).
    left. split; [eexists; split; [reflexivity|eapply bnd_weak; [apply bnd_text; assumption|lia]]|]. split; [exact I|]. split; [exact I|]. split; [reflexivity|discriminate].
  - exists m'. split; [rewrite <- Hm'; reflexivity|]. eapply fits_more; [|exact G]. lia.
Qed.
Lemma set_total E now key name conn name' p : crypto_ok (cr E) -> clock now -> a_name name -> a_name name' -> a_text key -> a_text conn -> (forall k, p = Some k -> usable E k) ->
  exists m, set_session_factory E now key name conn name' p = Ok m /\ fits (2 ^ 62) MSetTaskSession m.
Proof.
  intros HC Hc N1 N2 T0 T1 U. unfold clock in *. unfold set_session_factory. rewrite !(node_made default_key) by reflexivity. cbn [bind].
  destruct (make_small E 10000000 (2 ^ 40) MSetTaskSession [("key_id", VStr key); ("node_info", VObj CNode (node_attrs default_key name)); ("conn_id", VStr conn); ("super_node_info", VObj CNode (node_attrs default_key name'))]%string now p)
    as (m' & Hm' & G); try assumption; try discriminate; try lia; try reflexivity; try (lazymatch goal with |- ex _ => fail | _ => cbn; lia end); [|].
  - intros k w Hin. cbn [In] in Hin. destruct Hin as [Hin|[Hin|[Hin|[Hin|[]]]]]; injection Hin as <- <-; try (apply node_slot; [reflexivity|exact I|assumption|lia]).
    all: left; (split; [eexists; split; [reflexivity|eapply bnd_weak; [apply bnd_text; assumption|lia]]|]); (split; [exact I|]); (split; [exact I|]); (split; [reflexivity|discriminate]).
  - exists m'. split; [rewrite <- Hm'; reflexivity|]. eapply fits_more; [|exact G]. lia.
Qed.
Lemma sent_form E priv pk rk ck c m : crypto_ok (cr E) -> key_pairs (cr E) priv pk rk ck -> (forall o, priv o <> []) -> sent E priv pk rk c m -> fits (2 ^ 62) c m /\ (c = MForcePayment -> fits (2 ^ 60 + 2 ^ 30) c m).
Proof.
  intros HC KP NE H.
  assert (X : forall n c (P : result pyval) m, (exists m, P = Ok m /\ fits n c m) -> P = Ok m -> fits n c m) by (intros n d P x (y & Hy & G) Hx; assert (y = x) by congruence; subst y; exact G).
  induction H as [m Ht|now l m Hc Ne L Fl Hm|now paid key account amount actor p m Hc Hp Hk Ha Ham Hac U Hm|now f p m Hc Hf IH U Hm|now client p m Hc L U Hm|
    now name conn name' p m Hc N1 N2 T1 U Hm|now key name conn name' p m Hc N1 N2 T0 T1 U Hm].
  - split; [eapply fits_more; [|apply (token_fits E m HC Ht)]; lia|discriminate].
  - assert (G : fits (2 ^ 60 + 2 ^ 30) MForcePayment m).
    { rewrite payment_built in Hm. destruct l as [|x0 l0]; [congruence|]. apply Ok_inj in Hm. subst m. remember (x0 :: l0) as l.
      unfold clock in Hc. apply (fits_small (2 ^ 60 + 2 ^ 24)); try discriminate; try lia; try reflexivity; [left; reflexivity|].
      intros k w [Hin|[]]. injection Hin as <- <-. right. right. exists MSubtaskResultsAccepted, false, l, (2 ^ 50). split; [reflexivity|]. split; [reflexivity|]. split; [exact Ne|].
      split; [|split; [lia|]].
      - revert Fl. apply Forall_impl. intros x Hx. exact (proj1 (made_up_good E priv pk rk ck _ x HC KP NE Hx)).
      - assert ((2 ^ 50 + 5000) * Z.of_nat (List.length l) <= (2 ^ 50 + 5000) * 1000) by (apply Z.mul_le_mono_nonneg_l; lia). lia. }
    split; [eapply fits_more; [|exact G]; lia|intros _; exact G].
  - split; [|discriminate]. eapply X; [|exact Hm]. apply committed_total; assumption.
  - split; [|discriminate]. eapply X; [|exact Hm]. apply payment_rejected_total; auto. apply IH. reflexivity.
  - split; [|discriminate]. eapply X; [|exact Hm]. apply authorization_total; assumption.
  - split; [|discriminate]. eapply X; [|exact Hm]. apply want_total; assumption.
  - split; [|discriminate]. eapply X; [|exact Hm]. apply set_total; assumption.
Qed.

(** ** Sending them *)
Lemma small_delivered E E' now n c t sg v a s key ct pub : let m := VMsg c (VInt (type_of c)) (VInt t) (VBool false) sg (full c v a) in
  cr E' = cr E -> crypto_ok (cr E) -> is_task_message c = false -> signs c = true ->
  mok c a -> slots c a = Ok s -> bnd n s -> n < 2 ^ 64 -> a_sig sg -> hello_ok E' c v -> (vdepth s < cdepth E')%nat ->
  1262304000 < t < 32819212800 -> (ct = true -> now - 600000000 <= t * 1000000 <= now + 300000000) ->
  (key_given key = true -> sg = VNone /\ exists k, key = Some k /\ usable E k) ->
  exists m' bs, serialize E m key None = (m', Ok bs) /\
    (forall k, key = Some k -> k <> [] -> exists sk p, secret_of (cr E) k = Some sk /\ pub_of (cr E) sk = Some p /\ verify_signature E m' (VBytes p) = Ok tt) /\
    ((forall k, pub = Some k -> k <> [] -> verify_signature E m' (VBytes k) = Ok tt) ->
     exists a', arrives c a a' /\ deserialize E' now bs (fun b => Ok b) ct pub = Ok (VMsg c (VInt (type_of c)) (VInt t) (VBool false) (sig_of m') (full c v a'))).
Proof.
  intros m HE HC T Sg M S B Hn Hs HH D HT HN K. assert (F : map fst a = slot_names c) by (inversion M; assumption).
  destruct (bnd_dumps _ _ B Hn) as [p Hp].
  assert (P : payload_of c (full c v a) = Ok p) by (rewrite payload_full by exact F; unfold payload_of; rewrite S; exact Hp).
  assert (Hh : exists h, hash_payload E c (VInt (type_of c)) (VInt t) (full c v a) p = Ok h).
  { pose proof (type_range c) as Tr. destruct (bnd_dumps (1 + 1000 * 2) (VList [VInt (type_of c); VInt t])) as [q Hq]; [apply bnd_list; bnds|reflexivity|].
    unfold hash_payload. rewrite Hq. cbn [bind]. destruct c; eauto. rewrite version_full by exact F. cbn [bind]. eauto. }
  destruct Hh as [h Hh].
  assert (Sz : exists g bs, List.length g = 65%nat /\ serialize E m key None = (VMsg c (VInt (type_of c)) (VInt t) (VBool false) (VBytes g) (full c v a), Ok bs) /\
    forall k, key = Some k -> k <> [] -> ecdsa_sign (cr E) k h = Ok g).
  { assert (Fin : forall g, exists bs, (do h <- pack_header (type_of c) (VInt t) (VBool false); do v0 <- (match c with MHello => do v0 <- version_bytes (full c v a); Ok (pack32p v0) | _ => Ok [] end); Ok (h ++ g ++ p ++ v0)) = Ok bs).
    { intros g. unfold pack_header. rewrite (type_fits c). unfold pack_u64. replace ((0 <=? t) && (t <? 2 ^ 64)) with true by lia. cbn [bind].
      destruct c; try (eexists; reflexivity). rewrite version_full by exact F. eexists; reflexivity. }
    unfold m, serialize. rewrite P. destruct (key_given key) eqn:Kg.
    - destruct (K eq_refl) as (-> & k & -> & [Nk [sk Hk]]). destruct (ecdsa_sign_total (cr E) k h sk HC Hk) as [g Hg]. destruct (Fin g) as [bs Hbs].
      exists g, bs. split; [destruct (ecdsa_sign_ok _ _ _ _ HC Hg) as (? & ? & _ & _ & L & _); exact L|]. split; [|intros k' Q _; assert (k' = k) by congruence; subst k'; exact Hg].
      cbn [truthy andb is_none]. rewrite Sg. cbn [andb]. rewrite Hh. cbn [bind]. rewrite Hg. cbn [bind]. rewrite andb_false_r. f_equal. exact Hbs.
    - cbn [andb]. destruct Hs as [->|(g & -> & L)].
      + destruct (Fin (zeros SIG_LEN)) as [bs Hbs]. exists (zeros SIG_LEN), bs. split; [reflexivity|]. split; [|intros k -> Nk; destruct k; [congruence|discriminate Kg]].
        cbn [is_none]. rewrite andb_false_r. f_equal. exact Hbs.
      + destruct (Fin g) as [bs Hbs]. exists g, bs. split; [exact L|]. split; [|intros k -> Nk; destruct k; [congruence|discriminate Kg]].
        cbn [is_none]. rewrite andb_false_r. f_equal. exact Hbs. }
  destruct Sz as (g & bs & L & Sz & Sk). eexists _, bs. split; [exact Sz|]. split.
  - intros k Hk Nk. specialize (Sk k Hk Nk).
    assert (Sm : sign_message E (VMsg c (VInt (type_of c)) (VInt t) (VBool false) VNone (full c v a)) k = Ok (VMsg c (VInt (type_of c)) (VInt t) (VBool false) (VBytes g) (full c v a))).
    { cbn [sign_message short_hash]. rewrite P. cbn [bind]. rewrite Hh. cbn [bind]. rewrite Sk. reflexivity. }
    destruct (sign_verifies _ _ _ _ HC Sm) as (sk & q & c1 & t1 & t2 & t3 & t4 & t5 & t6 & K1 & K2 & _ & _ & _ & _ & V). eauto.
  - intros Pk. destruct (trip_any E E' now c t (VBool false) sg v a key None (VMsg c (VInt (type_of c)) (VInt t) (VBool false) (VBytes g) (full c v a)) bs ct (fun b => Ok b) pub) as (a' & A1 & _ & _ & A4);
      try assumption.
    + intros s0 ->. destruct Hs as [Hs|(g0 & Hs & L0)]; [discriminate Hs|]. injection Hs as ->. exact L0.
    + intros s' Hs'. assert (s' = s) by congruence. subst s'. split; [destruct B as [B _]; apply encw_iff in B; tauto|exact D].
    + intros q _ f x Q. discriminate Q.
    + intros k Q Nk _. exact (Pk k Q Nk).
    + unfold vet. rewrite T. reflexivity.
    + exists a'. split; [exact A1|]. rewrite A4. cbn [given sig_of]. rewrite andb_false_r. reflexivity.
Qed.
Lemma sent_class E priv pk rk c m : sent E priv pk rk c m -> c <> MHello /\ is_task_message c = false /\ signs c = true.
Proof. intros []; repeat split; discriminate. Qed.
Lemma sent_delivered E E' now priv pk rk ck c ty t enc sg a key ct pub : let m := VMsg c ty (VInt t) enc sg a in
  cr E' = cr E -> crypto_ok (cr E) -> key_pairs (cr E) priv pk rk ck -> (forall o, priv o <> []) -> sent E priv pk rk c m ->
  (forall s, slots c a = Ok s -> (vdepth s < cdepth E')%nat) -> 1262304000 < t < 32819212800 -> (ct = true -> now - 600000000 <= t * 1000000 <= now + 300000000) ->
  (key_given key = true -> sg = VNone /\ exists k, key = Some k /\ usable E k) ->
  exists m' bs, serialize E m key None = (m', Ok bs) /\
    (forall k, key = Some k -> k <> [] -> exists sk p, secret_of (cr E) k = Some sk /\ pub_of (cr E) sk = Some p /\ verify_signature E m' (VBytes p) = Ok tt) /\
    ((forall k, pub = Some k -> k <> [] -> verify_signature E m' (VBytes k) = Ok tt) ->
     exists a', arrives c a a' /\ deserialize E' now bs (fun b => Ok b) ct pub = Ok (VMsg c (VInt (type_of c)) (VInt t) (VBool false) (sig_of m') a')).
Proof.
  intros m HE HC KP NE H W HT HN K. destruct (sent_form E priv pk rk ck c m HC KP NE H) as [(t' & sg' & a0 & s & Em & _ & Hs & M & _ & S & B) _].
  destruct (sent_class _ _ _ _ _ _ H) as (NH & T & Sg). unfold m in *.
  assert (ty = VInt (type_of c) /\ t' = t /\ enc = VBool false /\ sg' = sg /\ a0 = a) as (-> & -> & -> & -> & ->) by (repeat split; congruence). clear Em.
  assert (HH : hello_ok E' c []) by (intros Q; congruence).
  pose proof (small_delivered E E' now _ c t sg [] a s key ct pub HE HC T Sg M S B eq_refl Hs HH (W s S) HT HN K) as R. cbv zeta in R.
  rewrite (full_not_hello c [] a NH) in R. destruct R as (m' & bs & R1 & R2 & R3). exists m', bs. split; [exact R1|]. split; [exact R2|]. intros Pk.
  destruct (R3 Pk) as (a' & A & D). exists a'. split; [exact A|]. rewrite D, full_not_hello by exact NH. reflexivity.
Qed.

Lemma granted_accepted E priv pk rk ck c m now : crypto_ok (cr E) -> key_pairs (cr E) priv pk rk ck -> (forall o, priv o <> []) -> granted E priv pk rk c m ->
  verify_owners E m (VBytes pk) (VBytes rk) (VBytes ck) = Ok tt /\ clone_message E now m None None = Ok m.
Proof.
  intros HC KP NE H. pose proof (granted_good E priv pk rk ck HC KP NE c m H) as G. destruct (granted_class _ _ _ _ _ _ H) as [T _]. split.
  - eapply honest_accepted; try eassumption. apply G. exact T.
  - eapply clone_good; [exact G|]. destruct H; discriminate.
Qed.
Lemma granted_delivered E E' now priv pk rk ck c ty t enc sig a key ct pub : let m := VMsg c ty (VInt t) enc sig a in cr E' = cr E -> crypto_ok (cr E) -> key_pairs (cr E) priv pk rk ck -> (forall o, priv o <> []) ->
  granted E priv pk rk c m -> 1262304000 < t < 32819212800 -> (ct = true -> now - 600000000 <= t * 1000000 <= now + 300000000) ->
  (forall s, slots c a = Ok s -> (vdepth s < cdepth E')%nat) ->
  (forall k, pub = Some k -> k <> [] -> verify_signature E m (VBytes k) = Ok tt) -> key_given key = false ->
  exists bs m2, serialize E m key None = (m, Ok bs) /\ deserialize E' now bs (fun b => Ok b) ct pub = Ok m2 /\ verify_owners E' m2 (VBytes pk) (VBytes rk) (VBytes ck) = Ok tt.
Proof.
  intros m HE HC KP NE H HT HN W P K. destruct (granted_class _ _ _ _ _ _ H) as [T V].
  apply (good_delivered E E' now priv pk rk ck (2 ^ 60) c ty t enc sig a key ct pub); try assumption; [|lia|apply V].
  apply (granted_good E priv pk rk ck); assumption.
Qed.
Lemma all_total E priv pk rk ck : crypto_ok (cr E) -> key_pairs (cr E) priv pk rk ck -> (forall o, priv o <> []) ->
  (forall now id url client files up down p, clock now -> a_text id -> a_text url -> (List.length client <= 200)%nat -> files_ok files -> (forall k, p = Some k -> usable E k) ->
     exists m, token_factory E now id url client files up down p = Ok m) /\
  (forall now t, clock now -> made_token E t ->
     (forall s, made_up E priv pk rk MSubtaskResultsVerify s -> exists m, ack_verify_factory E now s t (Some (priv OConcent)) = Ok m) /\
     (forall g, made_up E priv pk rk MForceGetTaskResult g ->
        (exists m, upload_factory E now g t (Some (priv OConcent)) = Ok m) /\ (exists m, download_factory E now g t (Some (priv OConcent)) = Ok m))) /\
  (forall now paid key account amount actor p, clock now -> clock paid -> a_text key -> a_text account -> 0 <= amount < 2 ^ 62 -> In actor (members EnActor) ->
     (forall k, p = Some k -> usable E k) -> exists m, committed_factory E now paid key account amount actor p = Ok m) /\
  (forall now f p, clock now -> sent E priv pk rk MForcePayment f -> (forall k, p = Some k -> usable E k) -> exists m, payment_rejected_factory E now f p = Ok m) /\
  (forall now client p, clock now -> (List.length client <= 200)%nat -> (forall k, p = Some k -> usable E k) -> exists m, authorization_factory E now client p = Ok m) /\
  (forall now key name conn name' p, clock now -> a_name name -> a_name name' -> a_text key -> a_text conn -> (forall k, p = Some k -> usable E k) ->
     (exists m, want_session_factory E now name conn name' p = Ok m) /\ (exists m, set_session_factory E now key name conn name' p = Ok m)).
Proof.
  intros HC KP NE. assert (X : forall (Q : pyval -> Prop) (P : result pyval), (exists m, P = Ok m /\ Q m) -> exists m, P = Ok m) by (intros Q P (m & H & _); eauto).
  repeat split; intros; eapply X.
  - apply token_total; assumption.
  - apply (granted_total E priv pk rk ck HC KP NE now t H H0). assumption.
  - apply (granted_total E priv pk rk ck HC KP NE now t H H0). assumption.
  - apply (granted_total E priv pk rk ck HC KP NE now t H H0). assumption.
  - apply committed_total; assumption.
  - apply payment_rejected_total; try assumption. apply (sent_form E priv pk rk ck); auto.
  - apply authorization_total; assumption.
  - apply want_total; assumption.
  - apply set_total; assumption.
Qed.
Lemma recipients E now paid key account amount x p m :
  (committed_to_provider E now paid key account amount x p = Ok m -> getattr "recipient_type" m = Ok (VEnum EnActor "provider")) /\
  (committed_to_requestor E now paid key account amount x p = Ok m -> getattr "recipient_type" m = Ok (VEnum EnActor "requestor")).
Proof.
  split; intros H.
  - change (committed_to_provider E now paid key account amount x p) with
      (sign_hook E (VMsg MForcePaymentCommitted (VInt (type_of MForcePaymentCommitted)) (VInt now) (VBool false) VNone [("payment_ts", VInt paid); ("task_owner_key", VStr key); ("provider_eth_account", VStr account); ("amount_paid", VInt amount);
       ("recipient_type", VEnum EnActor "provider"); ("amount_pending", VNone)]%string) p) in H.
    apply sign_hook_attrs in H as [sg ->]. reflexivity.
  - change (committed_to_requestor E now paid key account amount x p) with
      (sign_hook E (VMsg MForcePaymentCommitted (VInt (type_of MForcePaymentCommitted)) (VInt now) (VBool false) VNone [("payment_ts", VInt paid); ("task_owner_key", VStr key); ("provider_eth_account", VStr account); ("amount_paid", VInt amount);
       ("recipient_type", VEnum EnActor "requestor"); ("amount_pending", VNone)]%string) p) in H.
    apply sign_hook_attrs in H as [sg ->]. reflexivity.
Qed.

(** ** Greetings and peers *)
Definition hello_attrs (rand proto : Z) (name : ustr) : attrs_t :=
  [("rand_val", VInt rand); ("proto_id", VInt proto); ("node_info", VObj CNode (node_attrs default_key name)); ("port", VNone); ("client_ver", VNone);
   ("solve_challenge", VNone); ("challenge", VNone); ("difficulty", VNone); ("metadata", VNone)]%string.
Lemma hello_built E now rand proto name p : hello_factory E now rand proto name p =
  sign_hook E (VMsg MHello (VInt 0) (VInt now) (VBool false) VNone (full MHello (our_version E) (hello_attrs rand proto name))) p.
Proof. unfold hello_factory. rewrite (node_made default_key) by reflexivity. cbn [bind]. reflexivity. Qed.
Lemma hello_parts rand proto name : 0 <= rand < 2 ^ 62 -> 0 <= proto < 2 ^ 62 -> a_name name ->
  forall k w, In (k, w) (hello_attrs rand proto name) -> small_part 10000000 MHello k w.
Proof.
  intros H1 H2 H3 k w Hin. cbn [hello_attrs In] in Hin.
  repeat (destruct Hin as [Hin|Hin]; [injection Hin as <- <-|]); try contradiction; try (apply node_slot; [reflexivity|exact I|assumption|lia]).
  all: left; split; [eexists; split; [reflexivity|]|split; [exact I|split; [exact I|split; [reflexivity|discriminate]]]].
  all: first [eapply bnd_weak; [apply bnd_int; lia|lia] | eapply bnd_weak; [apply bnd_closed with (n := 1000); reflexivity|lia]].
Qed.
Lemma hello_total E now rand proto name p : crypto_ok (cr E) -> clock now -> 0 <= rand < 2 ^ 62 -> 0 <= proto < 2 ^ 62 -> a_name name ->
  (forall k, p = Some k -> usable E k) ->
  exists sg, a_sig sg /\ (p = None -> sg = VNone) /\
    hello_factory E now rand proto name p = Ok (VMsg MHello (VInt 0) (VInt now) (VBool false) sg (full MHello (our_version E) (hello_attrs rand proto name))).
Proof.
  intros HC Hc H1 H2 H3 U. unfold clock in Hc. rewrite hello_built. destruct p as [k|]; [|exists VNone; split; [left; reflexivity|split; reflexivity]].
  destruct (U k eq_refl) as [Ne [sk Hk]]. pose proof (hello_parts rand proto name H1 H2 H3) as P.
  destruct (slots_each 10000000 MHello (hello_attrs rand proto name)) as (s & Hs & Bs); [lia|reflexivity|intros j w Hin; apply small_ser; exact (P j w Hin)|].
  assert (F : map fst (hello_attrs rand proto name) = slot_names MHello) by reflexivity.
  assert (Hh : exists h, short_hash E (VMsg MHello (VInt 0) (VInt now) (VBool false) VNone (full MHello (our_version E) (hello_attrs rand proto name))) = Ok h).
  { cbn [short_hash]. rewrite payload_full by exact F. unfold payload_of. rewrite Hs. cbn [bind]. destruct (bnd_dumps _ _ Bs) as [q Hq]; [reflexivity|]. rewrite Hq. cbn [bind].
    destruct (bnd_dumps (1 + 1000 * 2) (VList [VInt 0; VInt now])) as [r Hr]; [apply bnd_list; bnds|reflexivity|].
    unfold hash_payload. rewrite Hr. cbn [bind]. rewrite version_full by exact F. cbn [bind]. eauto. }
  destruct Hh as [h Hh]. destruct (ecdsa_sign_total (cr E) k h sk HC Hk) as [sg Hsg].
  exists (VBytes sg). split; [right; exists sg; split; [reflexivity|destruct (ecdsa_sign_ok _ _ _ _ HC Hsg) as (? & ? & _ & _ & L & _); exact L]|]. split; [discriminate|].
  unfold sign_hook. destruct k as [|x k]; [congruence|]. cbn [sign_message]. rewrite Hh. cbn [bind]. rewrite Hsg. reflexivity.
Qed.
Lemma hello_delivered E E' now now' rand proto name p key ct pub : crypto_ok (cr E) -> cr E' = cr E -> clock now -> 0 <= rand < 2 ^ 62 -> 0 <= proto < 2 ^ 62 -> a_name name ->
  (forall k, p = Some k -> usable E k) -> (forall k, key = Some k -> k <> [] -> usable E k) -> p = None \/ key_given key = false ->
  Forall (fun x => 0 <= x < 128) (our_version E) -> (List.length (our_version E) <= 31)%nat -> verify_version (our_version E') (our_version E) = Ok tt ->
  (10 < cdepth E')%nat -> 1262304000 < now < 32819212800 -> (ct = true -> now' - 600000000 <= now * 1000000 <= now' + 300000000) ->
  exists m m' bs, hello_factory E now rand proto name p = Ok m /\ serialize E m key None = (m', Ok bs) /\
    ((forall k, pub = Some k -> k <> [] -> verify_signature E m' (VBytes k) = Ok tt) ->
     exists a', arrives MHello (hello_attrs rand proto name) a' /\
       deserialize E' now' bs (fun b => Ok b) ct pub = Ok (VMsg MHello (VInt 0) (VInt now) (VBool false) (sig_of m') (full MHello (our_version E) a'))).
Proof.
  intros HC HE Hc H1 H2 H3 U U' One V1 V2 V3 D HT HN. destruct (hello_total E now rand proto name p HC Hc H1 H2 H3 U) as (sg & Hg & Sn & Hm).
  pose proof (hello_parts rand proto name H1 H2 H3) as P. destruct (small_mok _ _ _ (eq_refl : map fst (hello_attrs rand proto name) = slot_names MHello) P) as [M _].
  destruct (slots_each 10000000 MHello (hello_attrs rand proto name)) as (s & Hs & Bs); [lia|reflexivity|intros j w Hin; apply small_ser; exact (P j w Hin)|].
  destruct (small_delivered E E' now' _ MHello now sg (our_version E) (hello_attrs rand proto name) s key ct pub HE HC eq_refl eq_refl M Hs Bs eq_refl Hg) as (m' & bs & R1 & _ & R2); try assumption.
  - intros _. auto.
  - unfold slots in Hs. cbn [hello_attrs slot_names map attr_get] in Hs. vm_compute in Hs. apply Ok_inj in Hs. subst s. cbn. lia.
  - intros Kg. destruct One as [->|One]; [|congruence]. split; [apply Sn; reflexivity|]. destruct key as [[|x k]|]; try discriminate Kg. exists (x :: k). split; [reflexivity|]. apply U'; [reflexivity|discriminate].
  - exists (VMsg MHello (VInt 0) (VInt now) (VBool false) sg (full MHello (our_version E) (hello_attrs rand proto name))), m', bs. split; [exact Hm|]. split; [exact R1|]. exact R2.
Qed.
Definition peer_kvs (address : ustr) (port : Z) (name : ustr) : list (pyval * pyval) :=
  [(skey "address", VStr address); (skey "port", VInt port); (skey "node", VObj CNode (node_attrs default_key name))].
Lemma peer_built address port name : peer_factory address port name =
  if ip_ok (VStr address) then if (0 <? port) && (port <? 65535) then Ok (VDict DPeer (peer_kvs address port name)) else Err (EFieldError (u "port"))
  else Err (EFieldError (u "address")).
Proof.
  unfold peer_factory. rewrite (node_made default_key) by reflexivity. cbn [bind]. unfold dict_new_kw, dict_new. cbn [map fst snd dset_all].
  set (n := VObj CNode (node_attrs default_key name)).
  assert (S1 : dset DPeer [] (VStr (u "address")) (VStr address) = if ip_ok (VStr address) then Ok [(skey "address", VStr address)] else Err (EFieldError (u "address"))).
  { change (dset DPeer [] (VStr (u "address")) (VStr address)) with (do _ <- validate_ipaddress (u "address") (VStr address); Ok [(skey "address", VStr address)]).
    unfold validate_ipaddress. destruct (ip_ok (VStr address)); reflexivity. }
  assert (S2 : forall l, l = [(skey "address", VStr address)] -> dset DPeer l (VStr (u "port")) (VInt port) =
    if (0 <? port) && (port <? 65535) then Ok (l ++ [(skey "port", VInt port)]) else Err (EFieldError (u "port"))).
  { intros l ->. change (dset DPeer [(skey "address", VStr address)] (VStr (u "port")) (VInt port)) with
      (do _ <- validate_port (u "port") (VInt port); Ok ([(skey "address", VStr address)] ++ [(skey "port", VInt port)])).
    unfold validate_port. cbn [validate_integer bind]. change (2 ^ 16 - 1) with 65535. destruct ((0 <? port) && (port <? 65535)); reflexivity. }
  rewrite S1. destruct (ip_ok (VStr address)); [|reflexivity]. cbn [bind]. rewrite S2 by reflexivity. destruct ((0 <? port) && (port <? 65535)); [|reflexivity].
  reflexivity.
Qed.
Lemma peer_iff address port name : (exists p, peer_factory address port name = Ok p) <-> validate_ipaddress (u "address") (VStr address) = Ok tt /\ 1 <= port <= 65534.
Proof.
  rewrite peer_built. unfold validate_ipaddress. destruct (ip_ok (VStr address)).
  - destruct ((0 <? port) && (port <? 65535)) eqn:Q; (split; [intros [p H]|intros [_ H]]); try discriminate; [split; [reflexivity|lia]|eauto|lia].
  - split; [intros [p H]|intros [H _]]; discriminate.
Qed.
(** peers from the factory can be sent *)
Lemma peers_sendable l : Forall (fun p => exists address port name, peer_factory address port name = Ok p) l -> mok MPeers [("peers"%string, VList l)].
Proof.
  intros H. constructor; [reflexivity| |].
  - intros k w [Hin|[]]. injection Hin as <- <-. split; [exact I|]. exists l. split; [reflexivity|].
    revert H. apply Forall_impl. intros p (address & port & name & H). rewrite peer_built in H. destruct (ip_ok (VStr address)) eqn:Q1; [|discriminate].
    destruct ((0 <? port) && (port <? 65535)) eqn:Q2; [|discriminate]. apply Ok_inj in H. subst p. eexists. split; [reflexivity|].
    pose proof (peer_built address port name) as B. rewrite Q1, Q2 in B. unfold peer_factory in B. rewrite (node_made default_key) in B by reflexivity. cbn [bind] in B.
    apply dict_new_kw_schema in B; [|discriminate]. destruct B as (kvs & Ek & Sc). assert (kvs = peer_kvs address port name) by congruence. subst kvs. split; [exact Sc|].
    intros k n Hin Hk. cbn [peer_kvs In] in Hin. destruct Hin as [Hin|[Hin|[Hin|[]]]]; injection Hin as <- <-; try discriminate Hk.
    eexists. split; [reflexivity|].
    destruct (cnew_cont_ok CNode [(u "key", VStr default_key); (u "node_name", VStr name)] (VObj CNode (node_attrs default_key name))) as (a & Ea & Ha); [exact (node_made default_key name eq_refl)|discriminate|].
    assert (a = node_attrs default_key name) by congruence. subst a. exact Ha.
  - intros k w d an il [Hin|[]] K. injection Hin as <- <-. discriminate K.
Qed.
