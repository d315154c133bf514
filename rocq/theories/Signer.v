(** Signer.v - model of /repo/src/signer.rs and of the signer part of
    /repo/src/signing_block/source_stamp.rs (lines 207-386).

    [SystemTime::now()] is the parameter [now]: [Some secs] since the Unix
    epoch, or [None] if the clock is before the epoch. *)
From Verif Require Import Base Utils Algorithms Common SchemeV2 SourceStamp SigningBlock.
Open Scope N_scope.

(** src/signer.rs:21-30 [struct ModuleSignerConfig], 34-56 [new],
    [with_cert_chain]. *)
Record signer_config := mkConfig {
  sc_key : private_key; sc_cert : bytes; sc_algo : algorithms; sc_chain : list bytes }.
Definition config_new (k : private_key) (cert : bytes) (a : algorithms) : signer_config :=
  mkConfig k cert a [].

(** [signed_data_bytes.get(4..).ok_or("Invalid signed data")?]
    (src/signer.rs:108, 214; src/signing_block/source_stamp.rs:296). *)
Definition get_from_4 (b : bytes) : option bytes :=
  if len b <? 4 then None else Some (dropN 4 b).

(** The pairs given to [sign_with_digests] (src/signer.rs:147-151, 246-250;
    src/signing_block/source_stamp.rs:337-341). *)
Definition digests_of_pairs (l : list (algorithms * bytes)) : digests :=
  digests_new (map (fun p => digest_new (fst p) (snd p)) l).

(** src/signer.rs:92-134 [V2Signer::sign]. *)
Definition v2_sign (C : crypto) (cfg : signer_config) (d : digests) : res scheme_v2 :=
  let certificates := certs_new (cert_new (sc_cert cfg) :: map cert_new (sc_chain cfg)) in
  let sd := sd_new d certificates (attrs_new []) in
  do data <- of_option EInvalidSignedData (get_from_4 (sd_to_u8 sd));
  do sig <- algo_sign C (sc_algo cfg) (sc_key cfg) data;
  let sigs := sigs_new [sig_new (sc_algo cfg) sig] in
  do pub <- public_key_der C (sc_key cfg);
  Ok (v2_new (signers_new [signer_new sd sigs (pub_new pub)])).

(** src/signer.rs:143-153 [V2Signer::sign_with_digests]. *)
Definition v2_sign_pairs (C : crypto) (cfg : signer_config) (l : list (algorithms * bytes))
  : res scheme_v2 := v2_sign C cfg (digests_of_pairs l).

(** src/signer.rs:200-204: the timestamp attribute ([to_le_bytes] of a u64). *)
Definition time_attr (secs : N) : attribute :=
  let data := le 8 secs in mkAttr (4 + len data) STAMP_TIME_ATTR_ID data.

(** src/signer.rs:193-205: the attribute list. *)
Definition stamp_attrs (now : option N) (timestamp : bool) : res (list attribute) :=
  if timestamp then
    do secs <- of_option EClock now;
    Ok [time_attr secs]
  else Ok [].

(** src/signer.rs:185-236 [SourceStampSigner::sign]. *)
Definition stamp_sign (C : crypto) (now : option N) (timestamp : bool) (cfg : signer_config)
    (d : digests) : res source_stamp :=
  let certificates := certs_new [cert_new (sc_cert cfg)] in
  do attrs <- stamp_attrs now timestamp;
  let sd := std_new d certificates (attrs_new attrs) in
  do data <- of_option EInvalidSignedData (get_from_4 (std_to_u8 sd));
  do sig <- algo_sign C (sc_algo cfg) (sc_key cfg) data;
  let sigs := sigs_new [sig_new (sc_algo cfg) sig] in
  do pub <- public_key_der C (sc_key cfg);
  Ok (ss_new (sb_new sd sigs (pub_new pub))).

(** src/signer.rs:242-252 [SourceStampSigner::sign_with_digests]. *)
Definition stamp_sign_pairs (C : crypto) (now : option N) (timestamp : bool) (cfg : signer_config)
    (l : list (algorithms * bytes)) : res source_stamp :=
  stamp_sign C now timestamp cfg (digests_of_pairs l).

(** [Vec::resize(n, 0)]. *)
Definition resize (n : N) (b : bytes) : bytes := takeN n b ++ zeros (n - len b).

(** src/signing_block/source_stamp.rs:209-218 [struct SourceStampSignerConfig], built by [new]
    (223-235) or by the builder (362-385, timestamp on by default). *)
Record old_stamp_config := mkOldConfig {
  oc_key : private_key; oc_cert : bytes; oc_algo : algorithms; oc_timestamp : bool }.
Definition builder_new (k : private_key) (cert : bytes) (a : algorithms) : old_stamp_config :=
  mkOldConfig k cert a true.
Definition builder_timestamp (b : old_stamp_config) (enabled : bool) : old_stamp_config :=
  mkOldConfig (oc_key b) (oc_cert b) (oc_algo b) enabled.

(** src/signing_block/source_stamp.rs:262-319 [SourceStampSigner::sign]. *)
Definition old_stamp_sign (C : crypto) (now : option N) (cfg : old_stamp_config)
    (d : digests) : res source_stamp :=
  let certificates := certs_new [cert_new (oc_cert cfg)] in
  do attrs <-
    (if oc_timestamp cfg then
       do secs <- of_option EClock now;
       let timestamp_bytes := resize 8 (le 8 secs) in
       Ok [mkAttr (4 + len timestamp_bytes) STAMP_TIME_ATTR_ID timestamp_bytes]
     else Ok []);
  let sd := std_new d certificates (attrs_new attrs) in
  do data <- of_option EInvalidSignedData (get_from_4 (std_to_u8 sd));
  do sig <- algo_sign C (oc_algo cfg) (oc_key cfg) data;
  let sigs := sigs_new [sig_new (oc_algo cfg) sig] in
  do pub <- public_key_der C (oc_key cfg);
  Ok (ss_new (sb_new sd sigs (pub_new pub))).

(** src/signing_block/source_stamp.rs:333-343 [sign_with_digests]. *)
Definition old_stamp_sign_pairs (C : crypto) (now : option N) (cfg : old_stamp_config)
    (l : list (algorithms * bytes)) : res source_stamp :=
  old_stamp_sign C now cfg (digests_of_pairs l).

(** src/signer.rs:256-265 [struct ModuleSigner]. *)
Record module_signer := mkModuleSigner {
  ms_v2 : option signer_config; ms_stamp : option signer_config;
  ms_timestamp : bool; ms_padding : bool }.

(** src/signer.rs:269-314: constructors and options. *)
Definition ms_v2_only (c : signer_config) : module_signer := mkModuleSigner (Some c) None true true.
Definition ms_with_stamp (c s : signer_config) : module_signer :=
  mkModuleSigner (Some c) (Some s) true true.
Definition ms_stamp_only (s : signer_config) : module_signer :=
  mkModuleSigner None (Some s) true true.
Definition ms_set_timestamp (m : module_signer) (b : bool) : module_signer :=
  mkModuleSigner (ms_v2 m) (ms_stamp m) b (ms_padding m).
Definition ms_set_padding (m : module_signer) (b : bool) : module_signer :=
  mkModuleSigner (ms_v2 m) (ms_stamp m) (ms_timestamp m) b.

(** src/signer.rs:320-331 [required_algorithms]; [Vec::contains] uses the derived
    equality. *)
Definition required_algorithms (m : module_signer) : list algorithms :=
  let algos := match ms_v2 m with Some v2 => [sc_algo v2] | None => [] end in
  match ms_stamp m with
  | Some s => if existsb (algo_eqb (sc_algo s)) algos then algos else algos ++ [sc_algo s]
  | None => algos
  end.

(** src/signer.rs:450-465 [clone_private_key]. *)
Definition clone_private_key (C : crypto) (k : private_key) : res private_key :=
  match k with
  | EcdsaP256 k => do k' <- of_option EKeyClone (p256_clone C k); Ok (EcdsaP256 k')
  | EcdsaP384 k => do k' <- of_option EKeyClone (p384_clone C k); Ok (EcdsaP384 k')
  end.

(** src/signer.rs:349-354, 362-367, 412-417: the configuration with a cloned key. *)
Definition clone_config (C : crypto) (c : signer_config) : res signer_config :=
  do k <- clone_private_key C (sc_key c);
  Ok (mkConfig k (sc_cert c) (sc_algo c) (sc_chain c)).

(** src/signer.rs:379-384, 437-443. *)
Definition ms_finish (p : profile) (m : module_signer) (l : list value) : res signing_block :=
  if ms_padding m then block_new_with_padding p l else block_new l.

(** src/signer.rs:344-385 [ModuleSigner::sign]. *)
Definition ms_sign (p : profile) (C : crypto) (now : option N) (m : module_signer) (d : digests)
  : res signing_block :=
  do blocks <-
    match ms_v2 m with
    | Some c => do c <- clone_config C c; do v <- v2_sign C c d; Ok [V2Block v]
    | None => Ok []
    end;
  do blocks <-
    match ms_stamp m with
    | Some c =>
        do c <- clone_config C c;
        do s <- stamp_sign C now (ms_timestamp m) c d;
        Ok (blocks ++ [StampBlk s])
    | None => Ok blocks
    end;
  match blocks with
  | [] => Err ENoSigner
  | _ :: _ => ms_finish p m blocks
  end.

(** src/signer.rs:427-430, the [filter] of [add_source_stamp]. *)
Definition keep_for_stamp (v : value) : bool :=
  match v with
  | StampBlk _ => false
  | _ => negb (value_id v =? VERITY_PADDING_BLOCK_ID)
  end.

(** src/signer.rs:399-444 [ModuleSigner::add_source_stamp]. *)
Definition ms_add_source_stamp (p : profile) (C : crypto) (now : option N) (m : module_signer)
    (existing : signing_block) (d : digests) : res signing_block :=
  do c <- of_option ENoSigner (ms_stamp m);
  do c <- clone_config C c;
  do s <- stamp_sign C now (ms_timestamp m) c d;
  ms_finish p m (filter keep_for_stamp (bk_content existing) ++ [StampBlk s]).
