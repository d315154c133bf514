(** PropReport.v - C72: the verification report, in full.

    Vocabulary: ReportSpec.v ([v2_entry], [stamp_entry], [summary],
    [v2_failure], [stamp_failure], [numbered_signers]) and VerifySpec.v.
    [verify_v2_with_digest C K now roots b ctx] is the verifier's function of that
    name on the block [b]; [ctx] are the computed digests, if any. *)
From Verif Require Import Base Utils Algorithms Common SchemeV2 SourceStamp SigningBlock Signer Verifier SignSpec
  VerifySpec ReportSpec ReportFacts Toy ToyVerify.
From Coq Require Import Strings.String.
Open Scope N_scope.

(** A successful report has one entry per signer, in order, and says about each
    exactly what [v2_entry] demands. *)
Theorem C72_report : forall C K now roots b ctx r,
  verify_v2_with_digest C K now (configured K roots) b ctx = VOk r ->
  Forall2 (fun p e => v2_entry C K now roots ctx (fst p) (snd p) e) (numbered_signers b) (vr_signers r) /\ summary r.
Proof. exact v2_report_ok. Qed.
Print Assumptions C72_report.
Theorem C72_stamp_report : forall C K now roots b ctx r,
  verify_source_stamp_with_digest C K now (configured K roots) b ctx = VOk r ->
  exists s rest e, stamps_of b = s :: rest /\ vr_signers r = [e] /\ stamp_entry C K now roots ctx s e /\ summary r.
Proof. exact stamp_report_ok. Qed.
Print Assumptions C72_stamp_report.
(** There is a report exactly if there are signers and none fails. *)
Theorem C72_report_iff : forall C K now roots b ctx,
  (exists r, verify_v2_with_digest C K now roots b ctx = VOk r) <->
  v2_signers_of b <> [] /\ Forall (fun s => v2_failure C K ctx s None) (v2_signers_of b).
Proof. exact v2_ok_iff. Qed.
Print Assumptions C72_report_iff.
Theorem C72_stamp_report_iff : forall C K now roots b ctx,
  (exists r, verify_source_stamp_with_digest C K now roots b ctx = VOk r) <->
  exists s rest, stamps_of b = s :: rest /\ stamp_failure C K ctx s None.
Proof. exact stamp_ok_iff. Qed.
Print Assumptions C72_stamp_report_iff.
(** Otherwise the error lists the failures of the failing signers, in order, one
    each. *)
Theorem C72_failures : forall C K now roots b ctx fs,
  verify_v2_with_digest C K now roots b ctx = VErr (VMultiSigner fs) ->
  exists each, Forall2 (v2_failure C K ctx) (v2_signers_of b) each /\
    fs = flat_map (fun o => match o with Some e => [e] | None => [] end) each /\ fs <> [].
Proof. exact v2_failures_ok. Qed.
Print Assumptions C72_failures.
Theorem C72_stamp_failures : forall C K now roots b ctx fs,
  verify_source_stamp_with_digest C K now roots b ctx = VErr (VMultiSigner fs) ->
  exists s rest e, stamps_of b = s :: rest /\ fs = [e] /\ stamp_failure C K ctx s (Some e).
Proof. exact stamp_failures_ok. Qed.
Print Assumptions C72_stamp_failures.
(** [NoSignature] means exactly that there is none; there are no other errors. *)
Theorem C72_no_signature : forall C K now roots b ctx,
  (verify_v2_with_digest C K now roots b ctx = VErr VNoSignature <-> v2_signers_of b = []) /\
  (verify_source_stamp_with_digest C K now roots b ctx = VErr VNoSignature <-> stamps_of b = []).
Proof. exact no_signature_iff. Qed.
Print Assumptions C72_no_signature.
Theorem C72_errors : forall C K now roots b ctx,
  (forall e, verify_v2_with_digest C K now roots b ctx = VErr e -> e = VNoSignature \/ exists fs, e = VMultiSigner fs) /\
  (forall e, verify_source_stamp_with_digest C K now roots b ctx = VErr e -> e = VNoSignature \/ exists fs, e = VMultiSigner fs).
Proof. exact three_outcomes. Qed.
Print Assumptions C72_errors.

(** Three signers in two V2 values: positions 0, 1, 0 and warnings 1, 2, 3. *)
Definition three_signers : signing_block :=
  get_ok dummy_block (block_new [V2Block (v2_new (signers_new (good_signers ++ [no_digest_signer])));
                                 V2Block (v2_new (signers_new good_signers))]).
Example C72_report_example : exists r,
  verify_v2_with_digest toyC toyK (Some 500) (configured toyK []) three_signers None = VOk r /\
  map sr_index (vr_signers r) = [0; 1; 0] /\ vr_cert r = Some leaf_cert /\ vr_chain r = [inter_cert] /\
  vr_warnings r = [(1, WNoContext); (1, WNoRoots); (2, WNoDigest ECDSA_SHA2_256); (2, WNoRoots);
                   (3, WNoContext); (3, WNoRoots)].
Proof.
  eexists. split; [ vm_compute; reflexivity | ]. split; [ vm_compute; reflexivity | ].
  split; [ vm_compute; reflexivity | ]. split; vm_compute; reflexivity.
Qed.
Example C72_stamp_example : exists r,
  verify_source_stamp_with_digest toyC toyK (Some 500) (configured toyK [root_cert]) both_block (Some ex_ctx) = VOk r /\
  vr_cert r = Some (bstr "ZSkey2") /\ vr_warnings r = [].
Proof. eexists. split; [ vm_compute; reflexivity | ]. split; vm_compute; reflexivity. Qed.
Example C72_failures_example : exists e,
  verify_v2_with_digest toyC toyK (Some 500) (configured toyK [root_cert]) forged_block (Some ex_ctx_wrong) =
    VErr (VMultiSigner [SEDigest; SESignature e]) /\
  verify_source_stamp_with_digest toyC toyK (Some 500) (configured toyK [root_cert]) both_block (Some [(0x0202, [])]) =
    VErr (VMultiSigner [SEDigest]) /\
  verify_source_stamp toyC toyK (Some 500) (configured toyK []) forged_block = VErr VNoSignature.
Proof. eexists. split; [ vm_compute; reflexivity | ]. split; vm_compute; reflexivity. Qed.
