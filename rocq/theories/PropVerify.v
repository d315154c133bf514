(** PropVerify.v - properties C34-C48: signing and verification, and the whole
    way from a module file to a verdict (C50, C51 at the level of the library).

    Vocabulary: VerifySpec.v and SignSpec.v.  [C] is the cryptographic library,
    [K] the certificate library, [now]/[clk] clock readings; [crypto_ok C] says
    that what a key signs its public key accepts.  [configured K roots] are the
    trusted roots after adding [roots] one by one; [Some ctx] are computed
    digests. *)
From Verif Require Import Base BaseFacts Utils Algorithms Common SchemeV2 SourceStamp Utf8 ElfInfo
  SigningBlock Wire Built Spec PropBlockFacts Zip Digest Module Signable ZipSpec RegionSpec ZipFacts DigestFacts ModuleFacts
  ModuleProps RawFacts Toy Signer Verifier ModuleVerify VerifySpec VerifyFacts SignSpec SignFacts VerifyProps
  EndToEnd ToyVerify.
From Coq Require Import Strings.String.
Open Scope N_scope.

(** * C34 - V2 signing *)
Theorem C34_contents : forall C cfg l v, v2_sign_pairs C cfg l = Ok v -> exists s sig pub,
  sns_data (v2_signers v) = [s] /\
  map (fun d => (dg_algo d, dg_digest d)) (dgs_data (sd_digests (sn_data s))) = l /\
  map ct_data (cts_data (sd_certs (sn_data s))) = sc_cert cfg :: sc_chain cfg /\
  ats_data (sd_attrs (sn_data s)) = [] /\
  map (fun g => (sg_algo g, sg_data g)) (sgs_data (sn_sigs s)) = [(sc_algo cfg, sig)] /\
  pk_data (sn_key s) = pub /\ public_key_der C (sc_key cfg) = Ok pub /\
  (crypto_ok C -> accepted C (sc_algo cfg) pub (v2_message s) sig).
Proof. exact v2_contents. Qed.
Print Assumptions C34_contents.

Theorem C34_succeeds_iff : forall C cfg d,
  (exists v, v2_sign C cfg d = Ok v) <->
  matches (sc_algo cfg) (sc_key cfg) /\ exists pub, public_key_der C (sc_key cfg) = Ok pub.
Proof. exact v2_sign_ok. Qed.
Print Assumptions C34_succeeds_iff.

(** A block whose only signer is that one: signature and content flags are set
    with the right digest, trust is decided by the roots, any other digest is
    an error. *)
Theorem C34_verifies : forall C K now roots ctx cfg d v b pub dg, crypto_ok C ->
  v2_sign C cfg d = Ok v -> v2_signers_of b = sns_data (v2_signers v) ->
  public_key_der C (sc_key cfg) = Ok pub -> spki_of K (sc_cert cfg) = Some pub ->
  stored_digest (dgs_data d) (sc_algo cfg) dg ->
  (computed ctx (sc_algo cfg) dg -> exists r,
     verify_v2_with_digest C K now (configured K roots) b (Some ctx) = VOk r /\
     vr_signature_valid r = true /\ vr_digest_valid r = true /\
     (vr_trusted r = true <-> trusted K now roots (sc_cert cfg) (sc_chain cfg))) /\
  (~ computed ctx (sc_algo cfg) dg ->
     verify_v2_with_digest C K now (configured K roots) b (Some ctx) = VErr (VMultiSigner [SEDigest])).
Proof. exact v2_sign_verifies. Qed.
Print Assumptions C34_verifies.

Example C34_example : crypto_ok toyC /\
  (exists v, v2_sign_pairs toyC cfg1 ex_pairs = Ok v /\ v2_signers_of both_block = sns_data (v2_signers v)) /\
  (exists pub, public_key_der toyC (sc_key cfg1) = Ok pub /\ spki_of toyK (sc_cert cfg1) = Some pub) /\
  (exists dg, stored_digest (dgs_data (digests_of_pairs ex_pairs)) (sc_algo cfg1) dg /\
     computed ex_ctx (sc_algo cfg1) dg /\ ~ computed ex_ctx_wrong (sc_algo cfg1) dg).
Proof.
  split; [apply toy_crypto_ok|]. split.
  { eexists. split; [vm_compute; reflexivity|vm_compute; reflexivity]. }
  split; [eexists; split; reflexivity|]. exists (bstr "digest-256"). split.
  { apply (pairs_stored ex_pairs); [now left|]. intros d' [[= <-]|[H|[]]]; [reflexivity|discriminate]. }
  split; [vm_compute; reflexivity|vm_compute; discriminate].
Qed.

(** * C35 - stamp signing *)
Theorem C35_contents : forall C now ts cfg l v, stamp_sign_pairs C now ts cfg l = Ok v -> exists sig pub,
  let b := ss_block v in
  map (fun d => (dg_algo d, dg_digest d)) (dgs_data (st_digests (sb_data b))) = l /\
  map ct_data (cts_data (st_certs (sb_data b))) = [sc_cert cfg] /\
  map (fun a => (at_id a, at_data a)) (ats_data (st_attrs (sb_data b))) =
    (match (if ts then now else None) with Some t => [(STAMP_TIME_ATTR_ID, le 8 t)] | None => [] end) /\
  map (fun g => (sg_algo g, sg_data g)) (sgs_data (sb_sigs b)) = [(sc_algo cfg, sig)] /\
  pk_data (sb_key b) = pub /\ public_key_der C (sc_key cfg) = Ok pub /\
  (crypto_ok C -> accepted C (sc_algo cfg) pub (stamp_message b) sig).
Proof. exact stamp_contents. Qed.
Print Assumptions C35_contents.

Theorem C35_succeeds_iff : forall C now ts cfg d,
  (exists v, stamp_sign C now ts cfg d = Ok v) <->
  matches (sc_algo cfg) (sc_key cfg) /\ (exists pub, public_key_der C (sc_key cfg) = Ok pub) /\
  (ts = true -> now <> None).
Proof. exact stamp_sign_ok. Qed.
Print Assumptions C35_succeeds_iff.

Theorem C35_verifies : forall C K now clk ts roots ctx cfg d v b rest pub dg, crypto_ok C ->
  stamp_sign C clk ts cfg d = Ok v -> stamps_of b = ss_block v :: rest ->
  public_key_der C (sc_key cfg) = Ok pub -> spki_of K (sc_cert cfg) = Some pub ->
  stored_digest (dgs_data d) (sc_algo cfg) dg ->
  (computed ctx (sc_algo cfg) dg -> exists r,
     verify_source_stamp_with_digest C K now (configured K roots) b (Some ctx) = VOk r /\
     vr_signature_valid r = true /\ vr_digest_valid r = true /\
     (vr_trusted r = true <-> trusted K now roots (sc_cert cfg) [])) /\
  (~ computed ctx (sc_algo cfg) dg ->
     verify_source_stamp_with_digest C K now (configured K roots) b (Some ctx) =
       VErr (VMultiSigner [SEDigest])).
Proof. exact stamp_sign_verifies. Qed.
Print Assumptions C35_verifies.

(** The two signer types (and the builder) make the same stamp. *)
Theorem C35_same_apis : forall C now ts k cert a chain l,
  old_stamp_sign_pairs C now (mkOldConfig k cert a ts) l = stamp_sign_pairs C now ts (mkConfig k cert a chain) l /\
  old_stamp_sign_pairs C now (builder_timestamp (builder_new k cert a) ts) l =
    stamp_sign_pairs C now ts (mkConfig k cert a chain) l.
Proof. intros. split; [apply old_stamp_same|apply builder_same]. Qed.
Print Assumptions C35_same_apis.

Example C35_example : (exists v, stamp_sign_pairs toyC (Some 500) true cfg2 ex_pairs = Ok v /\
    stamps_of both_block = [ss_block v] /\ len (ats_data (st_attrs (sb_data (ss_block v)))) = 1) /\
  (exists v, stamp_sign_pairs toyC None false cfg2 ex_pairs = Ok v) /\
  (exists pub, public_key_der toyC (sc_key cfg2) = Ok pub /\ spki_of toyK (sc_cert cfg2) = Some pub) /\
  (exists dg, stored_digest (dgs_data (digests_of_pairs ex_pairs)) (sc_algo cfg2) dg /\ computed ex_ctx (sc_algo cfg2) dg).
Proof.
  split. { eexists. split; [vm_compute; reflexivity|split; vm_compute; reflexivity]. }
  split. { eexists. vm_compute; reflexivity. }
  split; [eexists; split; reflexivity|]. exists (bstr "digest-512"). split.
  { apply (pairs_stored ex_pairs); [right; now left|]. intros d' [H|[[= <-]|[]]]; [discriminate|reflexivity]. }
  vm_compute; reflexivity.
Qed.

(** * C36 - algorithm and key must match *)
Theorem C36_sign_iff : forall C a k data,
  (exists s, algo_sign C a k data = Ok s) <-> matches a k.
Proof. exact algo_sign_ok. Qed.
Print Assumptions C36_sign_iff.
Theorem C36_signers_fail : forall C cfg now ts d, ~ matches (sc_algo cfg) (sc_key cfg) ->
  v2_sign C cfg d = Err EKeyMismatch /\
  ((ts = true -> now <> None) -> stamp_sign C now ts cfg d = Err EKeyMismatch).
Proof. exact mismatch_fails. Qed.
Print Assumptions C36_signers_fail.
Theorem C36_unknown_never_verifies : forall C u key data sig,
  algo_verify C (Unknown u) key data sig = Err EUnknownAlgorithm.
Proof. reflexivity. Qed.
Print Assumptions C36_unknown_never_verifies.
Theorem C36_unknown_signer_never_valid : forall C K now roots b ctx r s,
  verify_v2_with_digest C K now roots b ctx = VOk r -> In s (v2_signers_of b) ->
  Exists (fun g => exists u, sg_algo g = Unknown u) (sgs_data (sn_sigs s)) -> vr_signature_valid r = false.
Proof. exact unknown_not_valid. Qed.
Print Assumptions C36_unknown_signer_never_valid.
Theorem C36_accepted_iff : forall C a key data sig,
  algo_verify C a key data sig = Ok tt <-> accepted C a key data sig.
Proof. exact algo_verify_iff. Qed.
Print Assumptions C36_accepted_iff.
Example C36_example : ~ matches (sc_algo cfg_bad) (sc_key cfg_bad) /\ matches (sc_algo cfg1) (sc_key cfg1).
Proof. split; [intros []|exact I]. Qed.

(** * C37 - required algorithms *)
Theorem C37_required : forall m,
  NoDup (required_algorithms m) /\
  (forall a, In a (required_algorithms m) <->
     exists c, (ms_v2 m = Some c \/ ms_stamp m = Some c) /\ sc_algo c = a).
Proof. exact required_spec. Qed.
Print Assumptions C37_required.
Example C37_example : required_algorithms signer12 = [ECDSA_SHA2_256; ECDSA_SHA2_512] /\
  required_algorithms (ms_with_stamp cfg1 cfg1) = [ECDSA_SHA2_256].
Proof. split; reflexivity. Qed.

(** * C38 - adding a stamp *)
Theorem C38_content : forall p C now m b d b', crypto_ok C ->
  ms_add_source_stamp p C now m b d = Ok b' -> exists cfg s pad,
  ms_stamp m = Some cfg /\ stamp_sign C now (ms_timestamp m) cfg d = Ok s /\
  bk_content b' = filter other_value (bk_content b) ++ [StampBlk s] ++ pad /\
  (pad = [] \/ exists n, ms_padding m = true /\ pad = [BaseBlock (raw_new VERITY_PADDING_BLOCK_ID (zeros n))]).
Proof. exact add_stamp_other. Qed.
Print Assumptions C38_content.

(** [id_ok]: a V2 value carries the V2 identifier.  True of every parsed and of
    every library-built block. *)
Theorem C38_results : forall p C now m b d b' cfg s, crypto_ok C ->
  ms_add_source_stamp p C now m b d = Ok b' -> ms_stamp m = Some cfg ->
  stamp_sign C now (ms_timestamp m) cfg d = Ok s -> Forall id_ok (bk_content b) ->
  stamps_of b' = [ss_block s] /\ v2_signers_of b' = v2_signers_of b.
Proof. exact add_stamp_results. Qed.
Print Assumptions C38_results.
Theorem C38_v2_outcome : forall p C C' K now now' m b d b' roots ctx, crypto_ok C ->
  ms_add_source_stamp p C now m b d = Ok b' -> Forall id_ok (bk_content b) ->
  verify_v2_with_digest C' K now' roots b' ctx = verify_v2_with_digest C' K now' roots b ctx.
Proof. exact add_stamp_v2_same. Qed.
Print Assumptions C38_v2_outcome.
Theorem C38_parsed_blocks : forall p f b, len f < U64 ->
  m_get_signing_block p (module_new f) f = Ok b -> Forall id_ok (bk_content b).
Proof. exact parsed_id_ok. Qed.
Print Assumptions C38_parsed_blocks.
Theorem C38_built_blocks : forall l, Forall built_value l -> Forall id_ok l.
Proof. exact built_id_ok. Qed.
Print Assumptions C38_built_blocks.
(** If the existing values were built by the library, so is the new block. *)
Theorem C38_readable : forall p q C now m b l b' pre, crypto_ok C -> Forall (fun x => canonical (fst x)) l ->
  Forall built_value (bk_content b) ->
  ms_add_source_stamp p C now m b (digests_of_pairs l) = Ok b' ->
  len (pre ++ block_to_u8 b') < U64 -> from_u8 q (pre ++ block_to_u8 b') = Ok b'.
Proof. exact add_stamp_readable. Qed.
Print Assumptions C38_readable.
Example C38_example : crypto_ok toyC /\ Forall id_ok (bk_content both_block) /\
  (exists b', ms_add_source_stamp Debug toyC (Some 7) (ms_stamp_only cfg2) both_block (digests_of_pairs ex_pairs) = Ok b' /\
     len (bk_content b') = 3) /\ Forall (fun x : algorithms * bytes => canonical (fst x)) ex_pairs.
Proof.
  split; [apply toy_crypto_ok|]. split; [vm_compute; repeat constructor|].
  split; [|repeat constructor]. eexists. split; [vm_compute; reflexivity|vm_compute; reflexivity].
Qed.

(** * C39 - wire format of a signed block *)
Theorem C39_layout : forall p C now m l b, crypto_ok C ->
  ms_sign p C now m (digests_of_pairs l) = Ok b -> exists v s pad,
  block_to_u8 b = block_layout (v ++ s ++ pad) /\
  match ms_v2 m with
  | None => v = []
  | Some c => exists sig pub,
      let msg := v2_signed_layout l (sc_cert c :: sc_chain c) in
      v = v2_pair msg (sc_algo c) sig pub /\
      algo_sign C (sc_algo c) (sc_key c) msg = Ok sig /\ public_key_der C (sc_key c) = Ok pub
  end /\
  match ms_stamp m with
  | None => s = []
  | Some c => exists sig pub,
      let msg := stamp_signed_layout l (sc_cert c) (if ms_timestamp m then now else None) in
      s = stamp_pair msg (sc_algo c) sig pub /\
      algo_sign C (sc_algo c) (sc_key c) msg = Ok sig /\ public_key_der C (sc_key c) = Ok pub
  end /\
  (pad = [] \/ exists n, ms_padding m = true /\ pad = pair VERITY_PADDING_BLOCK_ID (zeros n)).
Proof. exact ms_sign_layout. Qed.
Print Assumptions C39_layout.
Theorem C39_readable : forall p q C now m l b pre, crypto_ok C -> Forall (fun x => canonical (fst x)) l ->
  ms_sign p C now m (digests_of_pairs l) = Ok b ->
  len (pre ++ block_to_u8 b) < U64 -> from_u8 q (pre ++ block_to_u8 b) = Ok b.
Proof. exact ms_sign_readable. Qed.
Print Assumptions C39_readable.
Theorem C39_padded : forall p C now m l b, crypto_ok C -> Forall (fun x => canonical (fst x)) l ->
  ms_padding m = true -> ms_sign p C now m (digests_of_pairs l) = Ok b -> len (block_to_u8 b) mod 4096 = 0.
Proof. exact ms_sign_padded. Qed.
Print Assumptions C39_padded.
Example C39_example :
  ms_sign Debug toyC (Some 500) signer12 (digests_of_pairs ex_pairs) = Ok both_block /\
  len (block_to_u8 both_block) = 4096 /\ len (bk_content both_block) = 3.
Proof. split; [|split]; vm_compute; reflexivity. Qed.

(** * C40, C41 - is_valid *)
Theorem C40_sound : forall C K now roots b ctx,
  is_valid (verify_all_with_digest C K now (configured K roots) b (Some ctx)) = true ->
  Forall (v2_signer_good C K now roots (computed ctx)) (v2_signers_of b) /\
  match stamps_of b with [] => True | s :: _ => stamp_good C K now roots (computed ctx) s end.
Proof. intros. now apply is_valid_iff. Qed.
Print Assumptions C40_sound.
(** The whole way from the file. *)
Theorem C40_file : forall p C K now ds f roots r, len f < U64 ->
  m_verify_with_roots p C K now ds (module_new f) f (configured K roots) = Ok r ->
  is_valid r = true -> exists b, m_get_signing_block p (module_new f) f = Ok b /\
     let D := fun a d => m_digest p C (ds a) (module_new f) f a = Ok d in
     Forall (v2_signer_good C K now roots D) (v2_signers_of b) /\
     match stamps_of b with [] => True | s :: _ => stamp_good C K now roots D s end.
Proof. intros p C K now ds f roots r Hf H. now apply module_valid_iff. Qed.
Print Assumptions C40_file.
Theorem C41_complete : forall C K now roots b ctx,
  Forall (v2_signer_good C K now roots (computed ctx)) (v2_signers_of b) ->
  match stamps_of b with [] => True | s :: _ => stamp_good C K now roots (computed ctx) s end ->
  is_valid (verify_all_with_digest C K now (configured K roots) b (Some ctx)) = true.
Proof. intros. now apply is_valid_iff. Qed.
Print Assumptions C41_complete.
Theorem C41_file : forall p C K now ds f roots r b, len f < U64 ->
  m_verify_with_roots p C K now ds (module_new f) f (configured K roots) = Ok r ->
  m_get_signing_block p (module_new f) f = Ok b ->
  let D := fun a d => m_digest p C (ds a) (module_new f) f a = Ok d in
  Forall (v2_signer_good C K now roots D) (v2_signers_of b) ->
  match stamps_of b with [] => True | s :: _ => stamp_good C K now roots D s end -> is_valid r = true.
Proof. intros p C K now ds f roots r b Hf H Hb D H1 H2. apply (module_valid_iff _ _ _ _ _ _ _ _ Hf H). eauto. Qed.
Print Assumptions C41_file.
Example C40_example :
  is_valid (verify_all_with_digest toyC toyK (Some 500) (configured toyK [root_cert]) both_block (Some ex_ctx)) = true /\
  is_valid (verify_all_with_digest toyC toyK (Some 500) (configured toyK [root_cert]) both_block (Some ex_ctx_wrong)) = false /\
  is_valid (verify_all_with_digest toyC toyK (Some 5000) (configured toyK [root_cert]) both_block (Some ex_ctx)) = false /\
  is_valid (verify_all_with_digest toyC toyK (Some 500) (configured toyK []) both_block (Some ex_ctx)) = false /\
  len (v2_signers_of both_block) = 1 /\ len (stamps_of both_block) = 1.
Proof. split; [|split; [|split; [|split; [|split]]]]; vm_compute; reflexivity. Qed.
Example C40_file_example : exists r,
  m_verify_with_roots Debug toyC toyK (Some 500) (fun _ _ => full_reads) (module_new zip_signed) zip_signed
    (configured toyK [root_cert]) = Ok r /\ is_valid r = true /\ has_v2 r = true /\ has_source_stamp r = true.
Proof. eexists. split; [vm_compute; reflexivity|]. split; [|split]; vm_compute; reflexivity. Qed.

(** * C42 - one bad signer *)
Theorem C42_error : forall C K now roots b ctx,
  Exists (v2_signer_bad C K (computed ctx)) (v2_signers_of b) -> exists failures,
  verify_v2_with_digest C K now roots b (Some ctx) = VErr (VMultiSigner failures) /\ failures <> [].
Proof. exact c42. Qed.
Print Assumptions C42_error.
(** Any other defect: no result has all four flags. *)
Theorem C42_no_full_flags : forall C K now roots b ctx r,
  verify_v2_with_digest C K now (configured K roots) b (Some ctx) = VOk r ->
  Exists (fun s => ~ v2_signer_good C K now roots (computed ctx) s) (v2_signers_of b) ->
  vr_signature_valid r && vr_digest_valid r && vr_chain_valid r && vr_trusted r = false.
Proof. exact c42_flags. Qed.
Print Assumptions C42_no_full_flags.
Example C42_example :
  Exists (v2_signer_bad toyC toyK (computed ex_ctx)) (v2_signers_of forged_block) /\
  len (v2_signers_of forged_block) = 2.
Proof.
  split; [|vm_compute; reflexivity].
  assert (E : v2_signers_of forged_block = good_signers ++ [forged]) by (vm_compute; reflexivity).
  rewrite E. apply Exists_exists. exists forged. split; [apply in_or_app; right; now left|].
  left. exists [], (sig_new ECDSA_SHA2_256 (bstr "forged")), []. split; [reflexivity|]. split.
  - constructor; [|constructor]. intros N. inversion N as [|x l H _]. apply H. reflexivity.
  - left. intros A. apply algo_verify_iff in A. vm_compute in A. discriminate.
Qed.
(** A bad signature whose algorithm has no digest entry is not an error: the
    result is Ok with the signature flag off. *)
Theorem C42_missing_digest_refuted :
  (exists r, verify_v2_with_digest toyC toyK (Some 500) (configured toyK [root_cert]) no_digest_block (Some ex_ctx) = VOk r /\
     vr_signature_valid r = false) /\
  Exists (fun s => Exists (fun g => ~ accepted toyC (sg_algo g) (pk_data (sn_key s)) (v2_message s) (sg_data g))
    (sgs_data (sn_sigs s))) (v2_signers_of no_digest_block).
Proof.
  split; [eexists; split; vm_compute; reflexivity|].
  assert (E : v2_signers_of no_digest_block = [no_digest_signer]) by (vm_compute; reflexivity).
  rewrite E. constructor. constructor. intros A. apply algo_verify_iff in A. vm_compute in A. discriminate.
Qed.
Print Assumptions C42_missing_digest_refuted.

(** * C43 - no digests *)
Theorem C43_v2 : forall C K now roots b r,
  verify_v2_with_digest C K now roots b None = VOk r ->
  vr_digest_valid r = false /\ Forall (fun s => sr_digest_valid s = false) (vr_signers r).
Proof. exact c43_v2. Qed.
Print Assumptions C43_v2.
Theorem C43_stamp : forall C K now roots b r,
  verify_source_stamp C K now roots b = VOk r ->
  vr_digest_valid r = false /\ Forall (fun s => sr_digest_valid s = false) (vr_signers r).
Proof. exact c43_stamp. Qed.
Print Assumptions C43_stamp.
Theorem C43_never_valid : forall C K now roots b,
  v2_signers_of b <> [] \/ stamps_of b <> [] ->
  is_valid (verify_all_with_digest C K now roots b None) = false.
Proof. exact c43_all. Qed.
Print Assumptions C43_never_valid.
Example C43_example : (exists r, verify_v2_with_digest toyC toyK (Some 500) (configured toyK [root_cert]) both_block None = VOk r /\
    vr_signature_valid r = true /\ vr_trusted r = true) /\
  (exists r, verify_source_stamp toyC toyK (Some 500) (configured toyK [root_cert]) both_block = VOk r) /\
  v2_signers_of both_block <> [].
Proof.
  split; [eexists; split; [vm_compute; reflexivity|split; vm_compute; reflexivity]|].
  split; [eexists; vm_compute; reflexivity|vm_compute; discriminate].
Qed.

(** * C44 - does is_valid imply that something was verified?  No. *)
Theorem C44_refuted : forall C K now ds roots,
  let f := with_block ex_zip (block_to_u8 empty_block) in
  exists r, m_verify_with_roots Debug C K now ds (module_new f) f roots = Ok r /\
    is_valid r = true /\ has_v2 r = false /\ has_source_stamp r = false.
Proof. intros. eexists. split; [vm_compute; reflexivity|split; [|split]; vm_compute; reflexivity]. Qed.
Print Assumptions C44_refuted.
(** Exactly the blocks without any signer. *)
Theorem C44_nothing_refuted : forall C K now roots b ctx, v2_signers_of b = [] -> stamps_of b = [] ->
  is_valid (verify_all_with_digest C K now roots b ctx) = true.
Proof. exact c44_nothing. Qed.
Print Assumptions C44_nothing_refuted.
Theorem C44_present : forall C K now roots b ctx,
  (has_v2 (verify_all_with_digest C K now roots b ctx) = true <-> v2_signers_of b <> []) /\
  (has_source_stamp (verify_all_with_digest C K now roots b ctx) = true <-> stamps_of b <> []).
Proof. intros. split; [apply has_v2_iff|apply has_stamp_iff]. Qed.
Print Assumptions C44_present.
Theorem C44_some_signer : forall C K now roots b ctx,
  let a := verify_all_with_digest C K now (configured K roots) b (Some ctx) in
  is_valid a = true -> has_v2 a = true \/ has_source_stamp a = true ->
  (exists s, In s (v2_signers_of b) /\ v2_signer_good C K now roots (computed ctx) s) \/
  (exists s, In s (stamps_of b) /\ stamp_good C K now roots (computed ctx) s).
Proof. exact c44_some. Qed.
Print Assumptions C44_some_signer.

(** * C45 - does signature_valid imply that a signature was checked?  No. *)
Theorem C45_refuted :
  sgs_data (sn_sigs no_sigs) = [] /\ v2_signers_of no_sigs_block = [no_sigs] /\
  exists r, verify_v2_with_digest toyC toyK (Some 500) (configured toyK [root_cert]) no_sigs_block (Some ex_ctx) = VOk r /\
    vr_signature_valid r = true /\ vr_trusted r = true /\ vr_digest_valid r = false.
Proof.
  split; [reflexivity|]. split; [vm_compute; reflexivity|]. eexists. split; [vm_compute; reflexivity|].
  split; [|split]; vm_compute; reflexivity.
Qed.
Print Assumptions C45_refuted.
(** It holds for results that also have [digest_valid]; and all signatures
    present were accepted. *)
Theorem C45_signers : forall C K now roots b ctx r,
  verify_v2_with_digest C K now roots b ctx = VOk r ->
  Forall2 (fun s r => sr_signature_valid r = true ->
      Forall (fun g => accepted C (sg_algo g) (pk_data (sn_key s)) (v2_message s) (sg_data g))
        (sgs_data (sn_sigs s)) /\
      (sr_digest_valid r = true -> sgs_data (sn_sigs s) <> [])) (v2_signers_of b) (vr_signers r).
Proof. exact c45_v2. Qed.
Print Assumptions C45_signers.
Theorem C45_stamp : forall C K now roots b ctx r,
  verify_source_stamp_with_digest C K now roots b ctx = VOk r -> exists s rest,
  stamps_of b = s :: rest /\
  (vr_signature_valid r = true ->
      Forall (fun g => accepted C (sg_algo g) (pk_data (sb_key s)) (stamp_message s) (sg_data g))
        (sgs_data (sb_sigs s)) /\
      (vr_digest_valid r = true -> sgs_data (sb_sigs s) <> [])).
Proof. exact c45_stamp. Qed.
Print Assumptions C45_stamp.

(** * C46 - the certificate is for the signing key *)
Theorem C46_v2 : forall C K now roots b ctx r,
  verify_v2_with_digest C K now roots b ctx = VOk r ->
  Forall2 (fun s r =>
    sr_cert r = hd_error (map ct_data (cts_data (sd_certs (sn_data s)))) /\
    (sr_signature_valid r = true ->
     forall cert, sr_cert r = Some cert -> spki_of K cert = Some (pk_data (sn_key s))))
    (v2_signers_of b) (vr_signers r).
Proof. exact c46_v2_binding. Qed.
Print Assumptions C46_v2.
Theorem C46_stamp : forall C K now roots b ctx r,
  verify_source_stamp_with_digest C K now roots b ctx = VOk r -> exists s rest,
  stamps_of b = s :: rest /\
  vr_cert r = hd_error (map ct_data (cts_data (st_certs (sb_data s)))) /\
  (vr_signature_valid r = true -> forall cert, vr_cert r = Some cert -> spki_of K cert = Some (pk_data (sb_key s))).
Proof. exact c46_stamp_binding. Qed.
Print Assumptions C46_stamp.
Example C46_example : exists r,
  verify_v2_with_digest toyC toyK (Some 500) (configured toyK [root_cert]) both_block (Some ex_ctx) = VOk r /\
  vr_signature_valid r = true /\ vr_cert r = Some leaf_cert.
Proof. eexists. split; [vm_compute; reflexivity|split; vm_compute; reflexivity]. Qed.

(** * C47, C48 - trust and chain structure *)
Theorem C47_iff : forall K now roots leaf inter chain_valid is_trusted w,
  verify_chain K now (configured K roots) leaf inter = (chain_valid, is_trusted, w) ->
  (is_trusted = true <-> trusted K now roots leaf inter) /\
  (chain_valid = true <-> trusted K now roots leaf inter \/
                 (issuer_unknown K now roots leaf inter /\ linked K (leaf :: inter))).
Proof. exact chain_valid_iff. Qed.
Print Assumptions C47_iff.
Theorem C47_no_roots : forall K now leaf inter, ~ trusted K now [] leaf inter.
Proof. exact no_roots_untrusted. Qed.
Print Assumptions C47_no_roots.
Theorem C47_reports : forall C K now roots b ctx r,
  verify_v2_with_digest C K now (configured K roots) b ctx = VOk r ->
  Forall2 (fun s r =>
    (sr_trusted r = true -> sr_chain_valid r = true /\ exists leaf rest,
       map ct_data (cts_data (sd_certs (sn_data s))) = leaf :: rest /\ trusted K now roots leaf rest) /\
    (sr_chain_valid r = true -> exists leaf rest,
       map ct_data (cts_data (sd_certs (sn_data s))) = leaf :: rest /\
       (trusted K now roots leaf rest \/ (issuer_unknown K now roots leaf rest /\ linked K (leaf :: rest)))))
    (v2_signers_of b) (vr_signers r) /\
  (vr_trusted r = true -> Forall (fun x => sr_trusted x = true) (vr_signers r) /\ vr_signers r <> []).
Proof. exact c47_v2. Qed.
Print Assumptions C47_reports.
Theorem C47_stamp_reports : forall C K now roots b ctx r,
  verify_source_stamp_with_digest C K now (configured K roots) b ctx = VOk r -> vr_trusted r = true ->
  vr_chain_valid r = true /\ exists s rest leaf certs, stamps_of b = s :: rest /\
     map ct_data (cts_data (st_certs (sb_data s))) = leaf :: certs /\ trusted K now roots leaf [].
Proof. exact c47_stamp. Qed.
Print Assumptions C47_stamp_reports.
(** Roots added as PEM, and the built-in ones, are configured roots too. *)
Theorem C47_pem_roots : forall K roots pem r, add_root_pem K (configured K roots) pem = Some r ->
  exists cert, pem_parse K pem = Some (CERTIFICATE_TAG, cert) /\ r = configured K (roots ++ [cert]).
Proof. exact pem_root. Qed.
Print Assumptions C47_pem_roots.
Theorem C47_builtin_roots : forall K builtin,
  roots_with_builtin K builtin = configured K
    (match pem_parse K builtin with
     | Some (tag, cert) => if beq tag CERTIFICATE_TAG then [cert] else []
     | None => []
     end).
Proof. exact builtin_roots. Qed.
Print Assumptions C47_builtin_roots.
Example C47_example :
  verify_chain toyK (Some 500) (configured toyK [root_cert]) leaf_cert [inter_cert] = (true, true, None) /\
  verify_chain toyK (Some 5000) (configured toyK [root_cert]) leaf_cert [inter_cert] = (false, false, Some WExpired) /\
  verify_chain toyK (Some 500) (configured toyK [bstr "QQother"]) leaf_cert [inter_cert] = (true, false, Some WUnknownIssuer) /\
  verify_chain toyK (Some 500) (configured toyK []) leaf_cert [inter_cert] = (true, false, Some WNoRoots).
Proof. split; [|split; [|split]]; vm_compute; reflexivity. Qed.

Theorem C48_structure : forall K now roots leaf inter, issuer_unknown K now roots leaf inter ->
  exists w, verify_chain K now (configured K roots) leaf inter =
    (validate_chain_structure K leaf inter, false, Some w) /\
  (validate_chain_structure K leaf inter = true <-> linked K (leaf :: inter)).
Proof. exact c48. Qed.
Print Assumptions C48_structure.
Example C48_example : issuer_unknown toyK (Some 500) [] leaf_cert [inter_cert; root_cert] /\
  linked toyK [leaf_cert; inter_cert; root_cert] /\ ~ linked toyK [leaf_cert; root_cert].
Proof.
  split; [now left|]. split.
  - intros before c d after E. destruct before as [|x [|y [|z before]]].
    + injection E as <- <- _. do 4 eexists. repeat split; reflexivity.
    + injection E as _ <- <- _. do 4 eexists. repeat split; reflexivity.
    + discriminate.
    + destruct before; discriminate.
  - intros L. destruct (L [] leaf_cert root_cert [] eq_refl) as (a & b & c & d & E1 & E2 & E3).
    vm_compute in E1, E2. injection E1 as <- <-. injection E2 as <- <-. discriminate.
Qed.

(** * C50 (library): sign, write, verify *)
Theorem C50_library : forall p q r u C K clk now ds1 ds2 roots z m l b out, crypto_ok C ->
  zip_ok z [] -> unsigned z -> (forall a, fills (ds1 a)) -> (forall a, fills (ds2 a)) ->
  Forall (fun x => canonical (fst x)) l ->
  (forall a d, In (a, d) l -> m_digest p C (ds1 a) (module_new (plain z)) (plain z) a = Ok d) ->
  (forall a, In a (required_algorithms m) -> exists d, In (a, d) l) ->
  ms_sign q C clk m (digests_of_pairs l) = Ok b ->
  zip_ok z (block_to_u8 b) -> zip_small z (block_to_u8 b) ->
  s_write_with_signature r (module_new (plain z)) (plain z) b = (out, Ok tt) ->
  (forall c, ms_v2 m = Some c \/ ms_stamp m = Some c -> certified C K c) ->
  exists res, m_verify_with_roots u C K now ds2 (module_new out) out (configured K roots) = Ok res /\
  (has_v2 res = true <-> ms_v2 m <> None) /\ (has_source_stamp res = true <-> ms_stamp m <> None) /\
  (is_valid res = true <->
     (forall c, ms_v2 m = Some c -> trusted K now roots (sc_cert c) (sc_chain c)) /\
     (forall c, ms_stamp m = Some c -> trusted K now roots (sc_cert c) [])).
Proof. exact sign_write_verify. Qed.
Print Assumptions C50_library.
Example C50_library_example :
  ms_sign Debug toyC (Some 500) signer12 (digests_of_pairs zip_pairs) = Ok zip_block /\
  s_write_with_signature Debug (module_new (plain ex_zip)) (plain ex_zip) zip_block = (zip_signed, Ok tt) /\
  zip_ok ex_zip (block_to_u8 zip_block) /\ zip_small ex_zip (block_to_u8 zip_block) /\
  (forall c, ms_v2 signer12 = Some c \/ ms_stamp signer12 = Some c -> certified toyC toyK c) /\
  (forall a, In a (required_algorithms signer12) -> exists d, In (a, d) zip_pairs).
Proof.
  split; [vm_compute; reflexivity|]. split; [vm_compute; reflexivity|].
  split; [apply zip_ok_short; [apply ex_zip_ok|reflexivity|vm_compute; reflexivity]|].
  split; [vm_compute; reflexivity|]. split.
  - intros c [[= <-]|[= <-]]; [apply certified1|apply certified2].
  - intros a [<-|[<-|[]]]; eexists; [left|right; left]; reflexivity.
Qed.

(** * C51 (library): two accepted files with the same signatures *)
Theorem C51_library : forall p q C K1 K2 now1 now2 ds1 ds2 f1 f2 roots1 roots2 r1 r2 b1 b2 e1 e2,
  hash_sized C -> (forall a, fills (ds1 a)) -> (forall a, fills (ds2 a)) ->
  len f1 < 2 ^ 63 -> len f2 < 2 ^ 63 ->
  m_verify_with_roots p C K1 now1 ds1 (module_new f1) f1 (configured K1 roots1) = Ok r1 -> is_valid r1 = true ->
  m_verify_with_roots q C K2 now2 ds2 (module_new f2) f2 (configured K2 roots2) = Ok r2 -> is_valid r2 = true ->
  m_get_signing_block p (module_new f1) f1 = Ok b1 -> m_get_signing_block q (module_new f2) f2 = Ok b2 ->
  bk_content b2 = bk_content b1 -> v2_signers_of b1 <> [] \/ stamps_of b1 <> [] ->
  find_eocd f1 (len f1) = Ok e1 -> p = Debug \/ eo_cd_offset e1 <= eo_off e1 ->
  find_eocd f2 (len f2) = Ok e2 -> q = Debug \/ eo_cd_offset e2 <= eo_off e2 ->
  (exists a, (a = ECDSA_SHA2_256 \/ a = ECDSA_SHA2_512) /\ module_clash p q (hash C a) f1 e1 f2 e2) \/ same_outside_block p q f1 f2 e1 e2.
Proof. exact tamper. Qed.
Print Assumptions C51_library.
