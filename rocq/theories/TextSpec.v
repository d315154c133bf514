(** TextSpec.v - vocabulary of C87 and C88: lines of a text, and the wording. *)
From Coq Require Import Strings.String.
From Verif Require Import Base Utf8 Verifier Cli CliSpec Print InfoPrint SignPrint Main MainSpec Text.
Open Scope N_scope.
Open Scope list_scope.

(** No line feed. *)
Definition one_line (t : bytes) : Prop := ~ In x0a t.
(** [l] is one of the lines of the text, from a beginning of a line to its end. *)
Definition has_line (t l : bytes) : Prop :=
  exists a b, t = a ++ l ++ x0a :: b /\ (a = [] \/ exists a', a = a' ++ [x0a]).

(** The texts that come from libraries have no line feed: this is so for the debug
    output of names and dates of certificates (bytes are shown as numbers) and for
    the messages of errors. *)
Record tame (T : texts) : Prop := {
  tame_message : forall i, one_line (tx_message T i);
  tame_x509 : forall c s i b a, tx_x509 T c = Some (s, i, b, a) -> one_line s /\ one_line i /\ one_line b /\ one_line a }.
(** Neither have the paths and names of sections on the command line that are shown. *)
Definition shown_paths (c : command) : list path :=
  match c with
  | CSign a => [sa_input a; sa_output a]
  | CVerify file root => file :: optional root
  | CInfo file => [file]
  | CDigest a => da_input a :: optional (da_dump a)
  end.
Definition shown_sections (c : command) : list rstring :=
  match c with CSign a => sa_sections a | CDigest a => da_sections a | _ => [] end.
Definition harmless (T : texts) (c : command) : Prop :=
  Forall (fun q => one_line (tx_path T q)) (shown_paths c) /\ Forall (fun n => scalars n /\ ~ In 10 n) (shown_sections c).

(** The number of lines of a text. *)
Fixpoint feeds (t : bytes) : nat := match t with [] => O | x :: t => ((if Byte.eqb x x0a then 1 else 0) + feeds t)%nat end.

(** Where the model of the lines of "info" is that of the command: files below 2^64 bytes. *)
Definition small_input (s : fs) (c : command) : Prop :=
  match c with CInfo file => forall f, fs_read s file = Some f -> len f < U64 | _ => True end.

(** The words of the program. *)
Open Scope string_scope.
Definition verify_wording : list (line * string) :=
  [(LVerifying, "Verifying module signature..."); (LBlockFound, "✓ Signing block found");
   (LComputed Algorithms.ECDSA_SHA2_256, "✓ Computed SHA2-256 digest"); (LComputed Algorithms.ECDSA_SHA2_512, "✓ Computed SHA2-512 digest");
   (LDigestsComputed, "✓ File digests computed"); (LV2NotFound, "ℹ V2 signature not found");
   (LV2Passed, "✓ V2 signature verification passed"); (LOverall, "  ─── Overall ───");
   (LField 2 FDigest true, "  Digest valid: true"); (LField 2 FDigest false, "  Digest valid: false");
   (LField 2 FChain true, "  Certificate chain valid: true"); (LField 2 FChain false, "  Certificate chain valid: false");
   (LField 2 FTrusted true, "  Trusted: true"); (LField 2 FTrusted false, "  Trusted: false");
   (LField 4 FTrusted true, "    Trusted: true"); (LField 4 FTrusted false, "    Trusted: false");
   (LWarnings 2, "  Warnings:"); (LStampPassed, "✓ Source Stamp verification passed");
   (LStampNotFound, "ℹ Source Stamp not found");
   (LV2ButStamp, "⚠ Module V2 signature verified, but Source Stamp verification FAILED!");
   (LV2Checks, "  V2 checks passed: signature, digest, chain, trust");
   (LStampMay, "  Source Stamp: VERIFICATION FAILED - may indicate tampering");
   (LSuccess, "✓ Module signature verification successful!");
   (LAllChecks, "  All checks passed: signature, digest, chain, trust")].
Definition info_wording : list (iline * string) :=
  [(IFound, "✓ KSU signing block found"); (IContents, "Signing block contents:"); (IV2, "  ✓ V2 Signature Scheme");
   (IStamp, "  ✓ Source Stamp"); (IV2Details, "V2 Certificate details:");
   (IField FSignature true, "  Signature valid: true"); (IField FSignature false, "  Signature valid: false");
   (IField FDigest true, "  Content integrity verified: true"); (IField FDigest false, "  Content integrity verified: false");
   (IField FChain true, "  Certificate chain valid: true"); (IField FChain false, "  Certificate chain valid: false");
   (IField FTrusted true, "  Trusted: true"); (IField FTrusted false, "  Trusted: false");
   (INoChain, "  Certificate chain: none (self-signed or single cert)"); (IWarnings, "  Warnings:");
   (IStampDetails, "Source Stamp certificate details:")].
Definition sign_wording : list (sline * string) :=
  [(SStart, "Signing module file..."); (SKey, "✓ V2 signing key loaded"); (SStampKey, "✓ Source Stamp key loaded");
   (SFormat Signable.FModule, "✓ 检测到模块（ZIP）文件"); (SFormat Signable.FElf, "✓ 检测到 ELF 文件");
   (SRegions, "待签名区域:"); (SCalculating, "Calculating digests..."); (SDigested, "✓ Digest calculation complete");
   (SSigning, "Signing..."); (SWriting, "Writing signed module..."); (SSuccess, "✓ Signing successful!")].

(** What the display of a signing block shows of each of its values: its kind, its
    identifier and how much it holds. *)
Inductive kind := KV2 | KStamp | KElf | KOther.
Definition summary (v : SigningBlock.value) : kind * N * N :=
  match v with
  | SigningBlock.V2Block b => (KV2, SchemeV2.v2_id b, len (SchemeV2.sns_data (SchemeV2.v2_signers b)))
  | SigningBlock.StampBlk b => (KStamp, SourceStamp.ss_id b, 0)
  | SigningBlock.ElfBlock i => (KElf, ElfInfo.ei_id i, len (ElfInfo.ei_sections i))
  | SigningBlock.BaseBlock r => (KOther, SigningBlock.rw_id r, len (SigningBlock.rw_data r))
  end.
