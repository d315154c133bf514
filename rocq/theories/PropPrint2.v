(** PropPrint2.v - C83: what each result line of the verify command means.

    [verify_prints verbose ...] (Print.v) are the lines printed; [results ... v2 stamp]
    (PrintSpec.v) are the verifier's reports on the module signature and on the source
    stamp; [failed_checks], [reaches_stamp] and [refusal_line] are defined there too. *)
From Verif Require Import Base BaseFacts Utils Algorithms Common SchemeV2 SourceStamp Utf8 ElfInfo
  SigningBlock Zip Digest Module Signable ZipSpec Toy Signer Verifier ModuleVerify VerifySpec SignSpec EndToEnd
  ToyVerify Keystore Elf Cli CliSpec ToyCli Print PrintSpec PrintFacts PrintFacts2 PropPrint.
From Coq Require Import Strings.String.
Open Scope N_scope.

(** * Before the verifier *)
(** "Signing block found", the custom root, and the digests: printed exactly if the file has a block, the roots are
    known ([prepared]) and the digest for the algorithm can be computed. *)
Theorem C83_block_found : forall verbose p C K builtin now ds s file root,
  In (Out LBlockFound) (fst (verify_prints verbose p C K builtin now ds s file root)) <->
  exists f b, fs_read s file = Some f /\ m_get_signing_block p (module_new f) f = Ok b.
Proof. exact prints_block_found. Qed.
Print Assumptions C83_block_found.
Theorem C83_custom_root : forall verbose p C K builtin now ds s file root r,
  In (Out (LCustomRoot r)) (fst (verify_prints verbose p C K builtin now ds s file root)) <->
  root = Some r /\ exists f, prepared p K builtin s file root f.
Proof. exact prints_custom_root. Qed.
Print Assumptions C83_custom_root.
Theorem C83_digests : forall verbose p C K builtin now ds s file root a,
  (In (Out (LComputed a)) (fst (verify_prints verbose p C K builtin now ds s file root)) <->
   verbose = true /\ exists f o256, prepared p K builtin s file root f /\ digest_known p C ds f ECDSA_SHA2_256 o256 /\
     In a [ECDSA_SHA2_256; ECDSA_SHA2_512] /\ exists d, digest_known p C ds f a (Some d)) /\
  (In (Out (LNotComputed a)) (fst (verify_prints verbose p C K builtin now ds s file root)) <->
   verbose = true /\ exists f o256, prepared p K builtin s file root f /\ digest_known p C ds f ECDSA_SHA2_256 o256 /\
     In a [ECDSA_SHA2_256; ECDSA_SHA2_512] /\ digest_known p C ds f a None).
Proof. exact prints_digest. Qed.
Print Assumptions C83_digests.
Theorem C83_no_digests : forall verbose p C K builtin now ds s file root,
  In (Errs LNoDigests) (fst (verify_prints verbose p C K builtin now ds s file root)) <->
  exists f, prepared p K builtin s file root f /\ digest_known p C ds f ECDSA_SHA2_256 None /\ digest_known p C ds f ECDSA_SHA2_512 None.
Proof. exact prints_no_digests. Qed.
Print Assumptions C83_no_digests.
Theorem C83_digests_computed : forall verbose p C K builtin now ds s file root,
  In (Out LDigestsComputed) (fst (verify_prints verbose p C K builtin now ds s file root)) <->
  exists v2 stamp, results p C K builtin now ds s file root v2 stamp.
Proof. exact prints_digests_computed. Qed.
Print Assumptions C83_digests_computed.

(** * The module signature *)
(** "V2 signature verification passed" says no more than that all signatures are valid: the lines that follow may
    refuse the file. *)
Theorem C83_passed : forall verbose p C K builtin now ds s file root,
  In (Out LV2Passed) (fst (verify_prints verbose p C K builtin now ds s file root)) <->
  exists r stamp, results p C K builtin now ds s file root (VOk r) stamp /\ vr_signature_valid r = true.
Proof. exact prints_passed. Qed.
Print Assumptions C83_passed.
Theorem C83_signers_verified : forall verbose p C K builtin now ds s file root n,
  In (Out (LSignersVerified n)) (fst (verify_prints verbose p C K builtin now ds s file root)) <->
  exists r stamp, results p C K builtin now ds s file root (VOk r) stamp /\ vr_signature_valid r = true /\ n = len (vr_signers r).
Proof. exact prints_count. Qed.
Print Assumptions C83_signers_verified.
(** The message of refusal names the first check that fails, in the order signature, digest, chain, trust. *)
Theorem C83_refusal : forall verbose p C K builtin now ds s file root f,
  In (Errs (refusal_line f)) (fst (verify_prints verbose p C K builtin now ds s file root)) <->
  exists r stamp, results p C K builtin now ds s file root (VOk r) stamp /\ hd_error (failed_checks r) = Some f.
Proof. exact prints_refusal. Qed.
Print Assumptions C83_refusal.
Theorem C83_v2_failed : forall verbose p C K builtin now ds s file root,
  In (Errs LV2Failed) (fst (verify_prints verbose p C K builtin now ds s file root)) <->
  exists errors stamp, results p C K builtin now ds s file root (VErr (VMultiSigner errors)) stamp.
Proof. exact prints_v2_failed. Qed.
Print Assumptions C83_v2_failed.
(** The certificates shown are those of the report, those of the chain with --verbose only and in order. *)
Theorem C83_certificates : forall verbose p C K builtin now ds s file root c,
  In (Out (LCertificate 4 c)) (fst (verify_prints verbose p C K builtin now ds s file root)) <->
  exists r stamp g, results p C K builtin now ds s file root (VOk r) stamp /\ vr_signature_valid r = true /\ In g (vr_signers r) /\ sr_cert g = Some c.
Proof. exact prints_certificate. Qed.
Print Assumptions C83_certificates.
Theorem C83_chains : forall verbose p C K builtin now ds s file root n,
  In (Out (LChain n)) (fst (verify_prints verbose p C K builtin now ds s file root)) <->
  exists r stamp g, results p C K builtin now ds s file root (VOk r) stamp /\ vr_signature_valid r = true /\ In g (vr_signers r) /\
    sr_chain g <> [] /\ n = len (sr_chain g).
Proof. exact prints_chain. Qed.
Print Assumptions C83_chains.
Theorem C83_chain_certificates : forall verbose p C K builtin now ds s file root i c,
  In (Out (LChainCert i c)) (fst (verify_prints verbose p C K builtin now ds s file root)) <->
  exists r stamp g, results p C K builtin now ds s file root (VOk r) stamp /\ vr_signature_valid r = true /\ In g (vr_signers r) /\
    verbose = true /\ nth_error (sr_chain g) (N.to_nat i) = Some c.
Proof. exact prints_chain_cert. Qed.
Print Assumptions C83_chain_certificates.
(** Warnings: all of the report's with the number of the signer, and with --verbose those of each signer. *)
Theorem C83_warnings : forall verbose p C K builtin now ds s file root o w,
  In (Out (LWarning 4 o w)) (fst (verify_prints verbose p C K builtin now ds s file root)) <->
  exists r stamp n, results p C K builtin now ds s file root (VOk r) stamp /\ vr_signature_valid r = true /\ o = Some n /\ In (n, w) (vr_warnings r).
Proof. exact prints_warning. Qed.
Print Assumptions C83_warnings.
Theorem C83_errors : forall verbose p C K builtin now ds s file root o w,
  In (Errs (LWarning 4 o w)) (fst (verify_prints verbose p C K builtin now ds s file root)) <->
  exists r stamp n, results p C K builtin now ds s file root (VOk r) stamp /\ vr_signature_valid r = false /\ o = Some n /\ In (n, w) (vr_warnings r).
Proof. exact prints_error. Qed.
Print Assumptions C83_errors.
Theorem C83_signer_warnings : forall verbose p C K builtin now ds s file root o w,
  In (Out (LWarning 6 o w)) (fst (verify_prints verbose p C K builtin now ds s file root)) <->
  exists r stamp g, results p C K builtin now ds s file root (VOk r) stamp /\ vr_signature_valid r = true /\ In g (vr_signers r) /\
    verbose = true /\ o = None /\ In w (sr_warnings g).
Proof. exact prints_signer_warning. Qed.
Print Assumptions C83_signer_warnings.

(** * The source stamp *)
(** "Source Stamp verification FAILED: ..." names exactly the checks that fail, and the four results are printed. *)
Theorem C83_stamp_reasons : forall verbose p C K builtin now ds s file root l,
  In (Errs (LStampFailed l)) (fst (verify_prints verbose p C K builtin now ds s file root)) <->
  exists v2 r, results p C K builtin now ds s file root v2 (VOk r) /\ reaches_stamp v2 /\ ~ passes r /\ l = failed_checks r.
Proof. exact prints_stamp_reasons. Qed.
Print Assumptions C83_stamp_reasons.
Theorem C83_stamp_flags : forall verbose p C K builtin now ds s file root f v,
  In (Errs (LField 2 f v)) (fst (verify_prints verbose p C K builtin now ds s file root)) <->
  exists v2 r, results p C K builtin now ds s file root v2 (VOk r) /\ reaches_stamp v2 /\ ~ passes r /\ reported f r = v.
Proof. exact prints_stamp_flags. Qed.
Print Assumptions C83_stamp_flags.
Theorem C83_stamp_tampered : forall verbose p C K builtin now ds s file root,
  In (Errs LStampTampered) (fst (verify_prints verbose p C K builtin now ds s file root)) <->
  exists v2 r, results p C K builtin now ds s file root v2 (VOk r) /\ reaches_stamp v2 /\ vr_digest_valid r = false.
Proof. exact prints_stamp_tampered. Qed.
Print Assumptions C83_stamp_tampered.
Theorem C83_stamp_untrusted : forall verbose p C K builtin now ds s file root,
  In (Errs LStampUntrusted) (fst (verify_prints verbose p C K builtin now ds s file root)) <->
  exists v2 r, results p C K builtin now ds s file root v2 (VOk r) /\ reaches_stamp v2 /\ vr_trusted r = false.
Proof. exact prints_stamp_untrusted. Qed.
Print Assumptions C83_stamp_untrusted.
Theorem C83_stamp_warnings : forall verbose p C K builtin now ds s file root n w,
  In (Errs (LWarning 2 (Some n) w)) (fst (verify_prints verbose p C K builtin now ds s file root)) <->
  exists v2 r, results p C K builtin now ds s file root v2 (VOk r) /\ reaches_stamp v2 /\ ~ passes r /\ In (n, w) (vr_warnings r).
Proof. exact prints_stamp_notes. Qed.
Print Assumptions C83_stamp_warnings.
Theorem C83_stamp_certificate : forall verbose p C K builtin now ds s file root c,
  In (Out (LCertificate 2 c)) (fst (verify_prints verbose p C K builtin now ds s file root)) <->
  exists v2 r, results p C K builtin now ds s file root v2 (VOk r) /\ reaches_stamp v2 /\ passes r /\ vr_cert r = Some c.
Proof. exact prints_stamp_certificate. Qed.
Print Assumptions C83_stamp_certificate.
Theorem C83_stamp_not_found : forall verbose p C K builtin now ds s file root,
  In (Out LStampNotFound) (fst (verify_prints verbose p C K builtin now ds s file root)) <->
  exists v2, results p C K builtin now ds s file root v2 (VErr VNoSignature) /\ reaches_stamp v2.
Proof. exact prints_stamp_none. Qed.
Print Assumptions C83_stamp_not_found.
Theorem C83_stamp_error : forall verbose p C K builtin now ds s file root e,
  In (Errs (LStampError e)) (fst (verify_prints verbose p C K builtin now ds s file root)) <->
  exists v2 l, results p C K builtin now ds s file root v2 (VErr (VMultiSigner l)) /\ reaches_stamp v2 /\ In e l.
Proof. exact prints_stamp_error. Qed.
Print Assumptions C83_stamp_error.
(** "WARNING: Source Stamp present but verification failed!" *)
Theorem C83_stamp_present : forall verbose p C K builtin now ds s file root,
  In (Errs LStampWarning) (fst (verify_prints verbose p C K builtin now ds s file root)) <->
  exists v2 e, results p C K builtin now ds s file root v2 (VErr e) /\ reaches_stamp v2 /\ e <> VNoSignature.
Proof. exact prints_stamp_warning. Qed.
Print Assumptions C83_stamp_present.

(** * What the messages about tampering mean *)
(** "Digest mismatch: file content may have been tampered" is not printed for a digest that differs but for a signer
    without any signature. *)
Theorem C83_mismatch_means : forall verbose p C K builtin now ds s file root,
  In (Errs LDigestMismatch) (fst (verify_prints verbose p C K builtin now ds s file root)) ->
  exists f b, fs_read s file = Some f /\ m_get_signing_block p (module_new f) f = Ok b /\
    Exists (fun g => sgs_data (sn_sigs g) = []) (v2_signers_of b).
Proof. exact prints_mismatch_means. Qed.
Print Assumptions C83_mismatch_means.
(** "Module content may have been tampered with!" is printed for a stamp none of whose signatures comes with a
    digest. *)
Theorem C83_tampered_means : forall verbose p C K builtin now ds s file root,
  In (Errs LStampTampered) (fst (verify_prints verbose p C K builtin now ds s file root)) ->
  exists f b t rest, fs_read s file = Some f /\ m_get_signing_block p (module_new f) f = Ok b /\ stamps_of b = t :: rest /\
    Forall (fun g => no_digest (dgs_data (st_digests (sb_data t))) (sg_algo g)) (sgs_data (sb_sigs t)).
Proof. exact prints_tampered_means. Qed.
Print Assumptions C83_tampered_means.
(** The messages for other errors of the verifier are never printed. *)
Theorem C83_never : forall verbose p C K builtin now ds s file root e,
  ~ In (Errs (LV2FailedWith e)) (fst (verify_prints verbose p C K builtin now ds s file root)) /\
  ~ In (Errs (LStampErrorWith e)) (fst (verify_prints verbose p C K builtin now ds s file root)).
Proof. exact prints_never. Qed.
Print Assumptions C83_never.

(** * Examples *)
Definition stderr_of (o : list said * res unit) : list said := filter on_stderr (fst o).
Definition verify_toy (s : fs) (root : option Cli.path) : list said * res unit :=
  verify_prints true Debug toyC toyK [] (Some 500) fr2 s (bstr "in") root.
(** A file signed as usual and verified without roots: refused as untrusted, with one warning per signer. *)
Example C83_untrusted :
  let o := verify_toy (file_of (bk_content zip_block)) None in
  In (Out LV2Passed) (fst o) /\ In (Out (LSignersVerified 1)) (fst o) /\ stderr_of o = [Errs LUntrusted] /\
  In (Out (LWarning 4 (Some 1) WNoRoots)) (fst o) /\ In (Out (LWarning 6 None WNoRoots)) (fst o) /\
  In (Out (LCertificate 4 leaf_cert)) (fst o) /\ In (Out (LChainCert 0 inter_cert)) (fst o).
Proof. vm_compute. repeat split; auto 40. Qed.
(** A signer without signatures: "Digest mismatch". *)
Example C83_no_signatures :
  let o := verify_toy (file_of [V2Block (v2_new (signers_new [no_sigs]))]) (Some (bstr "root")) in
  In (Out LV2Passed) (fst o) /\ stderr_of o = [Errs LDigestMismatch].
Proof. vm_compute. auto 20. Qed.
(** A signature without digest: "V2 signature invalid" and the reason. *)
Example C83_no_digest :
  stderr_of (verify_toy (file_of [V2Block (v2_new (signers_new [no_digest_signer]))]) (Some (bstr "root"))) =
  [Errs LV2Invalid; Errs LErrors; Errs (LWarning 4 (Some 1) (WNoDigest ECDSA_SHA2_256))].
Proof. vm_compute. reflexivity. Qed.
(** A stamp alone, verified without roots. *)
Example C83_stamp_without_roots :
  stderr_of (verify_toy stamp_alone None) =
  [Errs (LStampFailed [FTrusted]); Errs (LField 2 FSignature true); Errs (LField 2 FDigest true);
   Errs (LField 2 FChain true); Errs (LField 2 FTrusted false); Errs LStampUntrusted; Errs (LWarning 2 (Some 1) WNoRoots)].
Proof. vm_compute. reflexivity. Qed.
(** A stamp without signatures: "Module content may have been tampered with!". *)
Definition stamp_without_sigs : fs :=
  file_of [StampBlk (ss_new (sb_new (std_new (digests_of_pairs zip_pairs) (certs_new [cert_new (bstr "ZSkey2")]) (attrs_new []))
    (sigs_new []) (pub_new (bstr "key2"))))].
Example C83_stamp_no_signatures :
  stderr_of (verify_toy stamp_without_sigs (Some (bstr "root"))) =
  [Errs (LStampFailed [FDigest]); Errs (LField 2 FSignature true); Errs (LField 2 FDigest false);
   Errs (LField 2 FChain true); Errs (LField 2 FTrusted true); Errs LStampTampered; Errs (LWarning 2 (Some 1) WStampNoDigest)].
Proof. vm_compute. reflexivity. Qed.
(** Digests that differ from those of the file: neither of the two messages about tampering. *)
Example C83_wrong_digest :
  stderr_of (verify_toy (file_of (filter (fun v => match v with V2Block _ => true | _ => false end) (bk_content both_block))) (Some (bstr "root"))) =
    [Errs LV2Failed; Errs (LFailedSigner 1 SEDigest)] /\
  stderr_of (verify_toy (file_of (filter (fun v => match v with StampBlk _ => true | _ => false end) (bk_content both_block))) (Some (bstr "root"))) =
    [Errs LStampErrors; Errs (LStampError SEDigest); Errs LStampWarning].
Proof. vm_compute. split; reflexivity. Qed.
