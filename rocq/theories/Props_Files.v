(** * Property theorems: received FileTransferTokens (C51) *)
From Verif Require Import FilesFacts Samples.

(** ** C51 *)
(** the files of a received token, on its own or inside another message: either the slot
    was left out and looking a file up fails, or each of them is a FileInfo of a known
    category and the lookup finds the first one of the category asked for, if any *)
Theorem C51_received :
  forall E now bs decf ct pub m t, deserialize E now bs decf ct pub = Ok m ->
  t = m \/ (exists c ty ts enc sig a k, m = VMsg c ty ts enc sig a /\ attr_get k a = Some t) ->
  forall ty ts enc sig a, t = VMsg MFileTransferToken ty ts enc sig a ->
  (attr_get "files" a = Some VNone /\ forall cat, get_file_info t cat = Err ETypeError) \/
  exists l, attr_get "files" a = Some (VList l) /\ Forall (fun f => exists s, In s (members EnFileCategory) /\ filed s f) l /\
    forall s, In s (members EnFileCategory) ->
    (Forall (fun f => ~ filed s f) l /\ get_file_info t (VEnum EnFileCategory s) = Ok VNone) \/
    exists pre f post, l = pre ++ f :: post /\ Forall (fun g => ~ filed s g) pre /\ filed s f /\ get_file_info t (VEnum EnFileCategory s) = Ok f.
Proof. exact received_files. Qed.
Print Assumptions C51_received.
(** and it is for upload or for download, or its operation was left out *)
Theorem C51_operation :
  forall E now bs decf ct pub m t, deserialize E now bs decf ct pub = Ok m ->
  t = m \/ (exists c ty ts enc sig a k, m = VMsg c ty ts enc sig a /\ attr_get k a = Some t) ->
  forall ty ts enc sig a, t = VMsg MFileTransferToken ty ts enc sig a ->
  exists b b', is_upload t = Ok b /\ is_download t = Ok b' /\ (b && b' = false) /\ (b || b' = false <-> attr_get "operation" a = Some VNone).
Proof. exact received_operation. Qed.
Print Assumptions C51_operation.

(** a token from the Concent with three files, two of one category; one without files
    and operation, accepted all the same; and one whose file has a category of its own,
    refused *)
Definition a_file (path cat : string) : pyval := Samples.get VNone (dict_new DFileInfo (VDict DPlain
  [(skey "path", VStr (u path)); (skey "checksum", VStr (u "sha1:0")); (skey "size", VInt 3); (skey "category", VEnum EnFileCategory cat)])).
Definition full_token : pyval := Eval vm_compute in signed conc_key (make now0 MFileTransferToken
  [("operation", VEnum EnFTTOperation "upload"); ("files", VList [a_file "a" "resources"; a_file "b" "results"; a_file "c" "results"])]%string).
Definition got_token : pyval := Eval vm_compute in Samples.get VNone (load0 (Some (pub conc_key)) (dump0 full_token)).
(** the frame of the token with another payload, signed by the Concent *)
Definition token_frame (payload : bytes) : bytes :=
  firstn 11 (dump0 full_token) ++
  Samples.get [] (match full_token with
    | VMsg c ty ts _ _ a => do h <- hash_payload E0 c ty ts a payload;
        match sign_rec toy conc_key (sha3_256 toy h) with Some s => Ok s | None => Err EValueError end
    | _ => Err EValueError end) ++ payload.
Definition bare_token : bytes := Eval vm_compute in token_frame (Samples.get [] (dumps (VDict DPlain []))).
Definition got_bare : pyval := Eval vm_compute in Samples.get VNone (load0 (Some (pub conc_key)) bare_token).
Theorem C51_lookup_refuted :
  exists E now bs m k, crypto_ok (cr E) /\ deserialize E now bs (fun b => Ok b) true (Some k) = Ok m /\
    (exists ty ts enc sig a, m = VMsg MFileTransferToken ty ts enc sig a) /\
    (forall cat, get_file_info m cat = Err ETypeError) /\ is_upload m = Ok false /\ is_download m = Ok false.
Proof.
  exists E0, (now0 * 1000000), bare_token, got_bare, (pub conc_key). split; [exact toy_ok|]. split; [vm_compute; reflexivity|].
  split; [do 5 eexists; reflexivity|]. split; [intros cat; reflexivity|]. split; vm_compute; reflexivity.
Qed.
Print Assumptions C51_lookup_refuted.
Example C51_ex_received :
  load0 (Some (pub conc_key)) (dump0 full_token) = Ok got_token /\
  (exists ty ts enc sig a, got_token = VMsg MFileTransferToken ty ts enc sig a) /\
  (do f <- get_file_info got_token (VEnum EnFileCategory "results");
   Ok (match f with VDict DFileInfo kvs => dict_get (skey "path") kvs | _ => None end)) = Ok (Some (VStr (u "b"))) /\
  is_upload got_token = Ok true /\
  load0 (Some (pub conc_key)) (token_frame (Samples.get [] (dumps (VDict DPlain [(skey "files", VList [VDict DPlain [(skey "category", VStr (u "other"))]])])))) =
    Err (EFieldError (u "category")) /\
  (do m <- load0 (Some (pub conc_key)) (token_frame (Samples.get [] (dumps (VDict DPlain [(skey "files", VList [VDict DPlain []])]))));
   do f <- get_file_info m (VEnum EnFileCategory "results"); Ok (is_none f)) = Ok false.
Proof.
  split; [vm_compute; reflexivity|]. split; [do 5 eexists; reflexivity|]. split; [vm_compute; reflexivity|].
  split; [vm_compute; reflexivity|]. split; vm_compute; reflexivity.
Qed.
