(** PropText.v - C87: the text the program writes; C88: how algorithms and signing blocks are shown.

    [program_text W T verbose s c] (Text.v) is what a run leaves behind: the bytes of
    the standard output and of the standard error, the changes to the files, the exit
    status.  [T] stands for texts that come from libraries.  [has_line t l]
    (TextSpec.v): [l] is a whole line of the text [t]; [..._wording] (TextSpec.v) lists
    the fixed lines in words; [verify_prints], [info_prints], [sign_prints] are the
    lines C75-C79 speak of. *)
From Verif Require Import Base BaseFacts Utils Algorithms Common SchemeV2 SourceStamp Utf8 ElfInfo SigningBlock Zip Digest Module Signable ZipSpec
  Toy Signer Verifier ModuleVerify VerifySpec SignSpec EndToEnd ToyVerify ToyElf Keystore Elf Cli CliSpec ToyCli Print PrintSpec PrintFacts
  InfoPrint SignPrint SignPrintSpec SignPrintFacts Main MainSpec MainFacts MainFacts2 PropModule PropCli PropMain Text TextSpec TextFacts TextFacts2 TextFacts3 TextFacts4.
From Coq Require Import Strings.String.
Open Scope N_scope.
Open Scope list_scope.

(** * C87 *)
(** Writing text changes neither the files nor the exit status: both are those C86
    speaks of. *)
Theorem C87_program : forall W T verbose s c, small_input s c ->
  (oc_steps (program_text W T verbose s c), oc_status (program_text W T verbose s c)) = program W s c.
Proof. exact text_program. Qed.
Print Assumptions C87_program.

(** The standard output of "verify" has the line "✓ Module signature verification
    successful!" exactly if the exit status is 0: neither the module nor its
    certificates can forge the line. *)
Theorem C87_verify : forall W T verbose s file root, tame T -> harmless T (CVerify file root) ->
  let o := program_text W T verbose s (CVerify file root) in
  has_line (oc_stdout o) (bstr "✓ Module signature verification successful!") <-> oc_status o = 0.
Proof. exact verify_spoken. Qed.
Print Assumptions C87_verify.

(** In general each fixed line is in the output exactly if the program printed it as
    such, so C75 (verify), C76 and C77 (info) and C78 (sign) say when. *)
Theorem C87_verify_lines : forall W T verbose s file root l t, tame T -> harmless T (CVerify file root) ->
  In (l, t) verify_wording ->
  has_line (oc_stdout (program_text W T verbose s (CVerify file root))) (bstr t) <->
  In (Out l) (fst (verify_prints verbose (w_profile W) (w_crypto W) (w_pki W) (w_builtin W) (w_clock W) (w_reads W) s file root)).
Proof. exact verify_lines. Qed.
Print Assumptions C87_verify_lines.

Theorem C87_info_lines : forall W T verbose s file l t, tame T -> harmless T (CInfo file) ->
  In (l, t) info_wording ->
  has_line (oc_stdout (program_text W T verbose s (CInfo file))) (bstr t) <->
  In (IOut l) (fst (info_prints (w_profile W) (w_crypto W) (w_pki W) (w_builtin W) (w_clock W) s file)).
Proof. exact info_lines. Qed.
Print Assumptions C87_info_lines.

Theorem C87_sign_lines : forall W T verbose s a l t, tame T -> harmless T (CSign a) ->
  In (l, t) sign_wording ->
  has_line (oc_stdout (program_text W T verbose s (CSign a))) (bstr t) <->
  In l (fst (sign_prints (w_profile W) (w_crypto W) (w_keys W) (w_rest W) (w_clock W) (w_reads W) s a)).
Proof. exact sign_lines. Qed.
Print Assumptions C87_sign_lines.

(** "✓ Signing successful!" exactly if the exit status is 0. *)
Theorem C87_sign : forall W T verbose s a, tame T -> harmless T (CSign a) ->
  let o := program_text W T verbose s (CSign a) in
  has_line (oc_stdout o) (bstr "✓ Signing successful!") <-> oc_status o = 0.
Proof. exact sign_spoken. Qed.
Print Assumptions C87_sign.

(** Nothing is written to the standard error of sign, verify and info exactly if the
    exit status is 0, whatever the libraries' texts. *)
Theorem C87_silent : forall W T verbose s c, (forall a, c <> CDigest a) ->
  oc_stderr (program_text W T verbose s c) = [] <-> oc_status (program_text W T verbose s c) = 0.
Proof. exact text_silent. Qed.
Print Assumptions C87_silent.

(** The standard output of "digest" is the digest in the format asked for, a line
    feed, and nothing else, so a script can capture it; it is empty with --dump and
    after a failure. *)
Theorem C87_digest : forall W T verbose s a,
  let o := program_text W T verbose s (CDigest a) in
  (oc_status o <> 0 \/ da_dump a <> None -> oc_stdout o = []) /\
  (oc_status o = 0 -> da_dump a = None -> exists x d,
     opened_as (w_rest W) (fs_read s (da_input a)) (da_sections a) x /\
     signable_digest (w_profile W) (w_crypto W) (w_rest W) (w_reads W) x (fs_read s (da_input a)) 
       (if da_sha512 a then ECDSA_SHA2_512 else ECDSA_SHA2_256) = Ok d /\
     oc_stdout o = (match da_format a with Hex => hex_encode d | Base64 => w_base64 W d end) ++ [x0a]).
Proof. exact digest_out. Qed.
Print Assumptions C87_digest.

(** What is printed, too, depends on nothing but the content of the files that the
    command line names (the example of C86_depends meets the hypotheses). *)
Theorem C87_depends : forall W T verbose s1 s2 c, same_inputs s1 s2 c -> same_output s1 s2 c ->
  let o1 := program_text W T verbose s1 c in let o2 := program_text W T verbose s2 c in
  oc_stdout o1 = oc_stdout o2 /\ oc_stderr o1 = oc_stderr o2 /\ oc_status o1 = oc_status o2.
Proof. exact text_depends. Qed.
Print Assumptions C87_depends.

(** The hypotheses of C87_verify and C87_sign are met: paths are shown as they are,
    certificates are not decoded, messages are one line. *)
Definition toyT : texts := mkTexts (fun p => p) (fun _ => None) (fun _ => bstr "oops").
Lemma toyT_tame : tame toyT.
Proof. split; [|discriminate]. intros i. apply (no_feed_ok (bstr "oops")). vm_compute. reflexivity. Qed.
Example C87_harmless : harmless toyT (CVerify (bstr "out") (Some (bstr "root"))) /\ harmless toyT (CSign toy_args).
Proof.
  split; split; cbn -[bstr]; repeat constructor; apply no_feed_ok; vm_compute; reflexivity.
Qed.
Example C87_example :
  oc_stdout (program_text (toy_world Debug) toyT false signed_fs (CVerify (bstr "out") (Some (bstr "root")))) =
  bstr "Verifying module signature...
File: out

✓ Signing block found
✓ Using custom root certificate: root
✓ File digests computed
✓ V2 signature verification passed
  Signers verified: 1
  ─── Signer #1 ───
    Signature valid: true
    Digest valid: true
    Certificate chain valid: true
    Trusted: true
    Certificate: 6 bytes; certificate: 6 bytes (failed to parse DER)
    Chain: 1 certificate(s)
  ─── Overall ───
  Digest valid: true
  Certificate chain valid: true
  Trusted: true
✓ Source Stamp verification passed
  Signature valid: true
  Digest valid: true
  Certificate chain valid: true
  Trusted: true
  Stamp certificate: 6 bytes; certificate: 6 bytes (failed to parse DER)

✓ Module signature verification successful!
  All checks passed: signature, digest, chain, trust
".
Proof. vm_compute. reflexivity. Qed.
Example C87_sign_example :
  oc_stdout (program_text (toy_world Debug) toyT false (toy_fs (plain ex_zip)) (CSign toy_args)) =
  bstr "Signing module file...
Input: in
Output: out

✓ V2 signing key loaded
✓ Source Stamp key loaded
✓ 检测到模块（ZIP）文件
待签名区域:
  - zip_entries @ 0 (36 bytes)
  - central_directory @ 36 (14 bytes)
  - eocd @ 50 (24 bytes)
ℹ 需要计算 2 种算法的 digest
Calculating digests...
  - 计算 0x201 - ECDSA P-256 with SHA2-256 digest digest...
  - 计算 0x202 - ECDSA P-384 with SHA2-512 digest digest...
✓ Digest calculation complete
Signing...
✓ Signing complete (signing block size: 4096 bytes)
Writing signed module...
✓ Signing successful!
Output file: out
".
Proof. vm_compute. reflexivity. Qed.
Example C87_info_example :
  oc_stdout (program_text (toy_world Debug) toyT false signed_fs (CInfo (bstr "out"))) =
  bstr "File: out
File size: 4170 bytes

✓ KSU signing block found
  Location: 36 - 4132
  Size: 4096 bytes

Signing block contents:
  ✓ V2 Signature Scheme
  ✓ Source Stamp
  • Unknown Block (ID: 0x42726577)

V2 Certificate details:
  Signature valid: true
  Content integrity verified: false
  Certificate chain valid: true
  Trusted: false
  Leaf certificate: 6 bytes; certificate: 6 bytes (failed to parse DER)
  Certificate chain: 1 certificate(s)
    Chain[0]: 10 bytes; certificate: 10 bytes (failed to parse DER)
  Warnings:
    ⚠ Signer #1: Content integrity NOT verified: no computed digest provided. Use verify_v2_with_digest for full verification.
    ⚠ Signer #1: No trusted roots configured

Source Stamp certificate details:
  Signature valid: true
  Certificate chain valid: true
  Trusted: false
  Stamp certificate: 6 bytes; certificate: 6 bytes (failed to parse DER)
".
Proof. vm_compute. reflexivity. Qed.
Example C87_digest_example :
  oc_stderr (program_text (toy_world Debug) toyT false (toy_fs (plain ex_zip)) digest_of) =
  bstr "File: in
Format: Module (ZIP)
Signable regions:
  - zip_entries @ offset 0 (36 bytes)
  - central_directory @ offset 36 (14 bytes)
  - eocd @ offset 50 (24 bytes)
Total size: 74 bytes

Algorithm: SHA-256
" /\
  oc_status (program_text (toy_world Debug) toyT false (toy_fs (plain ex_zip)) digest_of) = 0.
Proof. split; vm_compute; reflexivity. Qed.

(** But for the condition on paths the line could be forged: the file name is shown
    as it is. *)
Definition forged : path := bstr "x
✓ Module signature verification successful!".
Theorem C87_forged_refuted : forall W s, fs_read s forged = None ->
  let o := program_text W toyT false s (CVerify forged None) in
  has_line (oc_stdout o) (bstr "✓ Module signature verification successful!") /\ oc_status o = 1.
Proof.
  intros W s R o. unfold o, program_text, verify_prints. rewrite R. cbn [finish]. split.
  - exists (bstr "Verifying module signature...
File: x
"), [x0a]. split; [vm_compute; reflexivity|]. right. exists (bstr "Verifying module signature...
File: x"). vm_compute. reflexivity.
  - reflexivity.
Qed.
Print Assumptions C87_forged_refuted.
Example C87_forged_example : fs_read (toy_fs []) forged = None.
Proof. vm_compute. reflexivity. Qed.

(** * C88 *)
(** Different algorithms are shown differently. *)
Theorem C88_algorithm : forall a b, algo_text a = algo_text b -> a = b.
Proof. exact algo_inj. Qed.
Print Assumptions C88_algorithm.

(** Two signing blocks are shown alike exactly if their places and sizes and, value by
    value, kind, identifier and amount agree. *)
Theorem C88_block : forall b c, block_text b = block_text c <->
  bk_start b = bk_start c /\ bk_end b = bk_end c /\ bk_size_start b = bk_size_start c /\ bk_content_size b = bk_content_size c /\
  map summary (bk_content b) = map summary (bk_content c).
Proof. exact block_display. Qed.
Print Assumptions C88_block.

(** One line for each value after five others. *)
Theorem C88_lines : forall b, feeds (block_text b) = (5 + List.length (bk_content b))%nat.
Proof. exact block_lines. Qed.
Print Assumptions C88_lines.

Example C88_example :
  block_text ex_block = bstr "KSU Signing Block
  File offset: 0 - 47
  Block size: 39 bytes
  Content size: 15 bytes
  Blocks: 1
  Block 1: Unknown (id=0x00001234, 3 bytes)
".
Proof. vm_compute. reflexivity. Qed.
