(** Text.v - the text that the commands write: the wording of the lines of Print.v,
    InfoPrint.v and SignPrint.v, src/cli/cert.rs, src/main.rs:9, and the [Display]
    implementations they use.

    Text that comes from elsewhere is a parameter: how the system displays a path,
    the debug output of the certificate parser, and the messages of errors.  Such
    a message may be any text, and a different one in every line. *)
From Coq Require Import Strings.String Decimal Hexadecimal.
From Verif Require Import Base Utils Algorithms Common SchemeV2 SourceStamp ElfInfo SigningBlock Module Signable Signer Verifier
  Keystore Cli Print InfoPrint SignPrint Main.
Open Scope N_scope.
Open Scope list_scope.

Record texts := mkTexts {
  tx_path : Cli.path -> bytes;                                     (* Path::display *)
  tx_x509 : bytes -> option (bytes * bytes * bytes * bytes);       (* Certificate::from_der; {:?} of subject, issuer, dates *)
  tx_message : nat -> bytes }.                                     (* of an error, in the line with this number *)

(** [{}] of an unsigned number. *)
Fixpoint dec_digits (u : Decimal.uint) : bytes :=
  match u with
  | Decimal.Nil => []
  | Decimal.D0 u => x30 :: dec_digits u | Decimal.D1 u => x31 :: dec_digits u | Decimal.D2 u => x32 :: dec_digits u
  | Decimal.D3 u => x33 :: dec_digits u | Decimal.D4 u => x34 :: dec_digits u | Decimal.D5 u => x35 :: dec_digits u
  | Decimal.D6 u => x36 :: dec_digits u | Decimal.D7 u => x37 :: dec_digits u | Decimal.D8 u => x38 :: dec_digits u
  | Decimal.D9 u => x39 :: dec_digits u
  end.
Definition dec (n : N) : bytes := dec_digits (N.to_uint n).

(** [{:x}] and, with leading zeros up to a width, [{:04x}] and [{:08x}]. *)
Fixpoint hex_digits (u : Hexadecimal.uint) : bytes :=
  match u with
  | Hexadecimal.Nil => []
  | Hexadecimal.D0 u => x30 :: hex_digits u | Hexadecimal.D1 u => x31 :: hex_digits u | Hexadecimal.D2 u => x32 :: hex_digits u
  | Hexadecimal.D3 u => x33 :: hex_digits u | Hexadecimal.D4 u => x34 :: hex_digits u | Hexadecimal.D5 u => x35 :: hex_digits u
  | Hexadecimal.D6 u => x36 :: hex_digits u | Hexadecimal.D7 u => x37 :: hex_digits u | Hexadecimal.D8 u => x38 :: hex_digits u
  | Hexadecimal.D9 u => x39 :: hex_digits u
  | Hexadecimal.Da u => x61 :: hex_digits u | Hexadecimal.Db u => x62 :: hex_digits u | Hexadecimal.Dc u => x63 :: hex_digits u
  | Hexadecimal.Dd u => x64 :: hex_digits u | Hexadecimal.De u => x65 :: hex_digits u | Hexadecimal.Df u => x66 :: hex_digits u
  end.
Definition hex (n : N) : bytes := hex_digits (N.to_hex_uint n).
Definition hex_width (w : nat) (n : N) : bytes := repeat x30 (w - List.length (hex n)) ++ hex n.

(** [{}] of a bool, and [join]. *)
Definition yesno (b : bool) : bytes := if b then bstr "true" else bstr "false".
Fixpoint join (sep : bytes) (l : list bytes) : bytes :=
  match l with [] => [] | [x] => x | x :: l => x ++ sep ++ join sep l end.

(** src/signing_block/algorithms.rs:54-64. *)
Definition algo_text (a : algorithms) : bytes :=
  bstr "0x" ++ hex (u32_of_algo a) ++ bstr " - " ++
  match a with
  | ECDSA_SHA2_256 => bstr "ECDSA P-256 with SHA2-256 digest"
  | ECDSA_SHA2_512 => bstr "ECDSA P-384 with SHA2-512 digest"
  | Unknown u => bstr "Unknown algorithm: 0x" ++ hex_width 4 u
  end.

(** src/cli/cert.rs:6-24 [describe_certificate]. *)
Definition describe_certificate (T : texts) (cert : bytes) : bytes :=
  match tx_x509 T cert with
  | Some (subject, issuer, not_before, not_after) =>
      bstr "subject=" ++ subject ++ bstr " | issuer=" ++ issuer ++ bstr " | not_before=" ++ not_before ++
      bstr " | not_after=" ++ not_after
  | None => bstr "certificate: " ++ dec (len cert) ++ bstr " bytes (failed to parse DER)"
  end.
(** src/cli/verify.rs:142-146 and others: the size and the description. *)
Definition certificate_text (T : texts) (cert : bytes) : bytes :=
  dec (len cert) ++ bstr " bytes; " ++ describe_certificate T cert.
(** src/cli/cert.rs:27-40 [describe_chain]: one certificate. *)
Definition chain_text (T : texts) (i : N) (cert : bytes) : bytes :=
  bstr "Chain[" ++ dec i ++ bstr "]: " ++ certificate_text T cert.

(** src/verifier.rs:435, 452, 489-509, 717, 744, 892, 899. *)
Definition warning_text (T : texts) (i : nat) (w : warning) : bytes :=
  match w with
  | WNoDigest a => bstr "No digest found for algorithm " ++ algo_text a
  | WNoContext => bstr "Content integrity NOT verified: no computed digest provided. Use verify_v2_with_digest for full verification."
  | WStampNoContext => bstr "Source Stamp content integrity NOT verified: no computed digest provided."
  | WStampNoDigest => bstr "No matching digest found in Source Stamp for verification."
  | WNoRoots => bstr "No trusted roots configured"
  | WParseEe => bstr "Failed to parse end-entity certificate: " ++ tx_message T i
  | WExpired => bstr "Certificate has expired"
  | WNotYetValid => bstr "Certificate is not yet valid"
  | WUnknownIssuer => bstr "Unknown issuer - certificate not signed by trusted root"
  | WNoEku => bstr "Certificate does not have codeSigning EKU"
  | WChainFailed => bstr "Chain verification failed: " ++ tx_message T i
  end.
(** src/verifier.rs:259: in the warnings of the whole result. *)
Definition numbered_warning (T : texts) (i : nat) (n : option N) (w : warning) : bytes :=
  match n with Some n => bstr "Signer #" ++ dec n ++ bstr ": " | None => [] end ++ warning_text T i w.
(** src/verifier.rs:692, 726, 738, 758; 845, 860, 878, 918. *)
Definition signer_error_text (T : texts) (i : nat) (stamp : bool) (e : signer_error) : bytes :=
  match e with
  | SEInvalidSignedData => bstr "Invalid signed data"
  | SESignature _ => bstr "Signature verification failed: " ++ tx_message T i
  | SEDigest => (if stamp then bstr "Source Stamp digest mismatch" else bstr "Digest mismatch") ++
                bstr ": stored digest doesn't match computed file content"
  | SEBinding => bstr "Public key binding failed: " ++ tx_message T i
  end.
(** src/verifier.rs:41-73, the constructors that are built. *)
Definition verify_error_text (T : texts) (i : nat) (stamp : bool) (e : verify_error) : bytes :=
  match e with
  | VNoSignature => bstr "No signature found"
  | VInvalidSignature _ => bstr "Invalid signature: " ++ tx_message T i
  | VMultiSigner l => bstr "Multiple signer verification failed: " ++ join (bstr "; ") (map (signer_error_text T i stamp) l)
  end.

Definition field_name (f : field) : bytes :=
  match f with
  | FSignature => bstr "Signature valid" | FDigest => bstr "Digest valid"
  | FChain => bstr "Certificate chain valid" | FTrusted => bstr "Trusted"
  end.
(** src/cli/verify.rs:236-247. *)
Definition reason_text (f : field) : bytes :=
  match f with
  | FSignature => bstr "signature invalid" | FDigest => bstr "digest mismatch (content integrity)"
  | FChain => bstr "certificate chain invalid" | FTrusted => bstr "certificate not trusted"
  end.
Definition blanks (level : N) : bytes := repeat x20 (N.to_nat level).
Definition algo_name (a : algorithms) : bytes :=
  match a with ECDSA_SHA2_256 => bstr "SHA2-256" | ECDSA_SHA2_512 => bstr "SHA2-512" | Unknown _ => [] end.

(** src/cli/verify.rs: the text of the line with the number [i].  A warning of the
    whole result is marked differently on the standard error (175, 197). *)
Definition verify_line (T : texts) (i : nat) (x : said) : bytes :=
  match (match x with Out l | Errs l => l end) with
  | LVerifying => bstr "Verifying module signature..."
  | LFile p => bstr "File: " ++ tx_path T p
  | LBlank => []
  | LBlockFound => bstr "✓ Signing block found"
  | LCustomRoot p => bstr "✓ Using custom root certificate: " ++ tx_path T p
  | LComputed a => bstr "✓ Computed " ++ algo_name a ++ bstr " digest"
  | LNotComputed a => bstr "⚠ Could not compute " ++ algo_name a ++ bstr " digest: " ++ tx_message T i
  | LNoDigests => bstr "✗ Could not compute any digests for verification"
  | LDigestsComputed => bstr "✓ File digests computed"
  | LV2NotFound => bstr "ℹ V2 signature not found"
  | LV2Failed => bstr "✗ V2 signature verification failed:"
  | LFailedSigner n e => bstr "  Signer #" ++ dec n ++ bstr ": " ++ signer_error_text T i false e
  | LV2FailedWith e => bstr "✗ V2 signature verification failed: " ++ verify_error_text T i false e
  | LV2Passed => bstr "✓ V2 signature verification passed"
  | LSignersVerified n => bstr "  Signers verified: " ++ dec n
  | LSigner n => bstr "  ─── Signer #" ++ dec n ++ bstr " ───"
  | LField level f b => blanks level ++ field_name f ++ bstr ": " ++ yesno b
  | LCertificate level c =>
      (if level =? 2 then bstr "  Stamp certificate: " else bstr "    Certificate: ") ++ certificate_text T c
  | LChain n => bstr "    Chain: " ++ dec n ++ bstr " certificate(s)"
  | LChainCert j c => bstr "      " ++ chain_text T j c
  | LWarnings level => blanks level ++ bstr "Warnings:"
  | LWarning level n w =>
      blanks level ++ (match x with Errs _ => if level =? 4 then bstr "• " else bstr "⚠ " | Out _ => bstr "⚠ " end) ++
      numbered_warning T i n w
  | LOverall => bstr "  ─── Overall ───"
  | LDigestMismatch => bstr "✗ Digest mismatch: file content may have been tampered"
  | LChainInvalid => bstr "✗ Certificate chain invalid"
  | LUntrusted => bstr "✗ Untrusted certificate: not signed by trusted root"
  | LV2Invalid => bstr "✗ V2 signature invalid"
  | LErrors => bstr "  Errors:"
  | LStampPassed => bstr "✓ Source Stamp verification passed"
  | LStampFailed l => bstr "⚠ Source Stamp verification FAILED: " ++ join (bstr ", ") (map reason_text l)
  | LStampTampered => bstr "  ⚠ WARNING: Module content may have been tampered with!"
  | LStampUntrusted => bstr "  ⚠ WARNING: Certificate is not signed by a trusted root!"
  | LStampNotFound => bstr "ℹ Source Stamp not found"
  | LStampErrors => bstr "✗ Source Stamp verification failed:"
  | LStampError e => bstr "  ✗ " ++ signer_error_text T i true e
  | LStampErrorWith e => bstr "✗ Source Stamp verification error: " ++ verify_error_text T i true e
  | LStampWarning => bstr "⚠ WARNING: Source Stamp present but verification failed!"
  | LV2ButStamp => bstr "⚠ Module V2 signature verified, but Source Stamp verification FAILED!"
  | LV2Checks => bstr "  V2 checks passed: signature, digest, chain, trust"
  | LStampMay => bstr "  Source Stamp: VERIFICATION FAILED - may indicate tampering"
  | LSuccess => bstr "✓ Module signature verification successful!"
  | LAllChecks => bstr "  All checks passed: signature, digest, chain, trust"
  end.

(** src/cli/info.rs. *)
Definition info_field_name (f : field) : bytes :=
  match f with FDigest => bstr "Content integrity verified" | _ => field_name f end.
Definition info_line (T : texts) (i : nat) (x : isaid) : bytes :=
  match (match x with IOut l | IErr l => l end) with
  | IFile p => bstr "File: " ++ tx_path T p
  | IFileSize n => bstr "File size: " ++ dec n ++ bstr " bytes"
  | IBlank => []
  | IFound => bstr "✓ KSU signing block found"
  | ILocation a b => bstr "  Location: " ++ dec a ++ bstr " - " ++ dec b
  | IBlockSize n => bstr "  Size: " ++ dec n ++ bstr " bytes"
  | IContents => bstr "Signing block contents:"
  | IV2 => bstr "  ✓ V2 Signature Scheme"
  | IStamp => bstr "  ✓ Source Stamp"
  | IElf n => bstr "  ✓ ELF Section Info (" ++ dec n ++ bstr " section(s))"
  | IUnknown id => bstr "  • Unknown Block (ID: 0x" ++ hex id ++ bstr ")"
  | IV2Details => bstr "V2 Certificate details:"
  | IField f b => bstr "  " ++ info_field_name f ++ bstr ": " ++ yesno b
  | ILeaf c => bstr "  Leaf certificate: " ++ certificate_text T c
  | IChain n => bstr "  Certificate chain: " ++ dec n ++ bstr " certificate(s)"
  | IChainCert j c => bstr "    " ++ chain_text T j c
  | INoChain => bstr "  Certificate chain: none (self-signed or single cert)"
  | IWarnings => bstr "  Warnings:"
  | IWarning n w => bstr "    ⚠ " ++ numbered_warning T i (Some n) w
  | IUnavailable e => bstr "ℹ V2 certificate info unavailable: " ++ verify_error_text T i false e
  | IStampDetails => bstr "Source Stamp certificate details:"
  | IStampCert c => bstr "  Stamp certificate: " ++ certificate_text T c
  | ICannotParse => bstr "✗ Error: Cannot parse KSU signing block"
  | IParseError _ => bstr "  Details: " ++ tx_message T i
  end.

(** src/cli/sign.rs. *)
Definition sign_line (T : texts) (i : nat) (x : sline) : bytes :=
  match x with
  | SStart => bstr "Signing module file..."
  | SInput p => bstr "Input: " ++ tx_path T p
  | SOutput p => bstr "Output: " ++ tx_path T p
  | SBlank => []
  | SKey => bstr "✓ V2 signing key loaded"
  | SStampKey => bstr "✓ Source Stamp key loaded"
  | SFormat FModule => bstr "✓ 检测到模块（ZIP）文件"
  | SFormat FElf => bstr "✓ 检测到 ELF 文件"
  | SRegions => bstr "待签名区域:"
  | SRegion g => bstr "  - " ++ rg_name g ++ bstr " @ " ++ dec (rg_offset g) ++ bstr " (" ++ dec (rg_size g) ++ bstr " bytes)"
  | SAlgorithms n => bstr "ℹ 需要计算 " ++ dec n ++ bstr " 种算法的 digest"
  | SCalculating => bstr "Calculating digests..."
  | SDigest a => bstr "  - 计算 " ++ algo_text a ++ bstr " digest..."
  | SDigested => bstr "✓ Digest calculation complete"
  | SSigning => bstr "Signing..."
  | SBlock n => bstr "✓ Signing complete (signing block size: " ++ dec n ++ bstr " bytes)"
  | SWriting => bstr "Writing signed module..."
  | SSuccess => bstr "✓ Signing successful!"
  | SOutputFile p => bstr "Output file: " ++ tx_path T p
  end.

(** src/cli/digest.rs. *)
Definition digest_line (T : texts) (i : nat) (x : dline) : bytes :=
  match x with
  | DFile p => bstr "File: " ++ tx_path T p
  | DFormat FModule => bstr "Format: Module (ZIP)"
  | DFormat FElf => bstr "Format: ELF"
  | DRegions => bstr "Signable regions:"
  | DRegion g => bstr "  - " ++ rg_name g ++ bstr " @ offset " ++ dec (rg_offset g) ++ bstr " (" ++ dec (rg_size g) ++ bstr " bytes)"
  | DTotal n => bstr "Total size: " ++ dec n ++ bstr " bytes"
  | DBlank => []
  | DDumped n p => bstr "Dumped " ++ dec n ++ bstr " bytes to " ++ tx_path T p
  | DAlgorithm sha512 => bstr "Algorithm: " ++ (if sha512 then bstr "SHA-512" else bstr "SHA-256")
  | DDigest t => t
  end.

(** Where a line goes. *)
Definition said_out (x : said) : bool := match x with Out _ => true | Errs _ => false end.
Definition isaid_out (x : isaid) : bool := match x with IOut _ => true | IErr _ => false end.
Definition dline_out (x : dline) : bool := match x with DDigest _ => true | _ => false end.

(** The text of the lines that go to one stream: [println!] and [eprintln!] end
    each with a line feed. *)
Fixpoint text_of {A} (render : nat -> A -> bytes) (keep : A -> bool) (i : nat) (l : list A) : bytes :=
  match l with
  | [] => []
  | x :: l => (if keep x then render i x ++ [x0a] else []) ++ text_of render keep (S i) l
  end.

(** What a command leaves behind: standard output, standard error, the changes to
    the file system, the exit status. *)
Record outcome := mkOutcome { oc_stdout : bytes; oc_stderr : bytes; oc_steps : list step; oc_status : N }.

(** src/main.rs:8-11; after a panic the runtime prints a message. *)
Definition last_words (T : texts) (i : nat) (r : res unit) : bytes :=
  match r with
  | Ok _ => []
  | Err _ => bstr "Error: " ++ tx_message T i ++ [x0a]
  | Panic => bstr "thread 'main' panicked at " ++ tx_message T i ++ [x0a]
  end.
Definition finish {A} (T : texts) (render : nat -> A -> bytes) (out : A -> bool) (l : list A) (steps : list step) (r : res unit)
  : outcome :=
  mkOutcome (text_of render out 0 l)
    (text_of render (fun x => negb (out x)) 0 l ++ last_words T (List.length l) r) steps (exit_status r).

(** The whole program (src/main.rs, src/cli/mod.rs:53-61); [verbose] is an option
    of verify. *)
Definition program_text (W : world) (T : texts) (verbose : bool) (s : fs) (c : command) : outcome :=
  match c with
  | CSign a =>
      let '(l, (steps, r)) :=
        sign_prints (w_profile W) (w_crypto W) (w_keys W) (w_rest W) (w_clock W) (w_reads W) s a in
      finish T (sign_line T) (fun _ => true) l steps r
  | CVerify file root =>
      let '(l, r) := verify_prints verbose (w_profile W) (w_crypto W) (w_pki W) (w_builtin W) (w_clock W) (w_reads W) s file root in
      finish T (verify_line T) said_out l [] r
  | CInfo file =>
      let '(l, r) := info_prints (w_profile W) (w_crypto W) (w_pki W) (w_builtin W) (w_clock W) s file in
      finish T (info_line T) isaid_out l [] r
  | CDigest a =>
      let '(l, (steps, r)) :=
        digest_prints (w_profile W) (w_crypto W) (w_rest W) (w_base64 W) (w_reads W) s a in
      finish T (digest_line T) dline_out l steps r
  end.

(** * [Display] of the signing block *)

(** src/signing_block/mod.rs:735-773. *)
Definition value_text (v : value) : bytes :=
  match v with
  | V2Block b => bstr "V2 Signature (id=0x" ++ hex_width 8 (v2_id b) ++ bstr ", " ++ dec (len (sns_data (v2_signers b))) ++ bstr " signers)"
  | StampBlk b => bstr "Source Stamp (id=0x" ++ hex_width 8 (ss_id b) ++ bstr ")"
  | ElfBlock i => bstr "ELF Section Info (id=0x" ++ hex_width 8 (ei_id i) ++ bstr ", " ++ dec (len (ei_sections i)) ++ bstr " sections)"
  | BaseBlock r =>
      (if rw_id r =? VERITY_PADDING_BLOCK_ID then bstr "Verity Padding" else bstr "Unknown") ++
      bstr " (id=0x" ++ hex_width 8 (rw_id r) ++ bstr ", " ++ dec (len (rw_data r)) ++ bstr " bytes)"
  end.
(** src/signing_block/mod.rs:715-733. *)
Fixpoint values_text (i : N) (l : list value) : bytes :=
  match l with
  | [] => []
  | v :: l => bstr "  Block " ++ dec i ++ bstr ": " ++ value_text v ++ [x0a] ++ values_text (i + 1) l
  end.
Definition block_text (b : signing_block) : bytes :=
  bstr "KSU Signing Block" ++ [x0a] ++
  bstr "  File offset: " ++ dec (bk_start b) ++ bstr " - " ++ dec (bk_end b) ++ [x0a] ++
  bstr "  Block size: " ++ dec (bk_size_start b) ++ bstr " bytes" ++ [x0a] ++
  bstr "  Content size: " ++ dec (bk_content_size b) ++ bstr " bytes" ++ [x0a] ++
  bstr "  Blocks: " ++ dec (len (bk_content b)) ++ [x0a] ++
  values_text 1 (bk_content b).
