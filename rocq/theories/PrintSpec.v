(** PrintSpec.v - vocabulary of C75. *)
From Verif Require Import Base Utils Algorithms SigningBlock Module Signer Verifier ModuleVerify Cli Print.
Open Scope N_scope.

(** The digest of the file for [a] is known to be [d], or cannot be computed. *)
Definition digest_known p C ds (f : bytes) (a : algorithms) (o : option bytes) : Prop :=
  match o with
  | Some d => m_digest p C (ds a) (module_new f) f a = Ok d
  | None => exists e, m_digest p C (ds a) (module_new f) f a = Err e
  end.
Definition entry_of (a : algorithms) (o : option bytes) : context :=
  match o with Some d => [(u32_of_algo a, d)] | None => [] end.

(** The command gets as far as checking signatures, and the results are [v2] for
    the module signature and [stamp] for the source stamp. *)
Definition results p C K builtin now ds (s : fs) file root (v2 stamp : vres) : Prop :=
  exists f b roots o256 o512, fs_read s file = Some f /\ m_get_signing_block p (module_new f) f = Ok b /\
    cli_roots K builtin s root = Ok roots /\
    digest_known p C ds f ECDSA_SHA2_256 o256 /\ digest_known p C ds f ECDSA_SHA2_512 o512 /\
    let ctx := entry_of ECDSA_SHA2_512 o512 ++ entry_of ECDSA_SHA2_256 o256 in
    ctx <> [] /\
    v2 = verify_v2_with_digest C K now roots b (Some ctx) /\
    stamp = verify_source_stamp_with_digest C K now roots b (Some ctx).

(** What a report says. *)
Definition reported (f : field) (r : verify_result) : bool :=
  match f with FSignature => vr_signature_valid r | FDigest => vr_digest_valid r
  | FChain => vr_chain_valid r | FTrusted => vr_trusted r end.
Definition passes (r : verify_result) : Prop := forall f, reported f r = true.
Definition signer_reported (f : field) (r : signer_result) : bool :=
  match f with FSignature => sr_signature_valid r | FDigest => sr_digest_valid r
  | FChain => sr_chain_valid r | FTrusted => sr_trusted r end.

(** Lines that are only printed with --verbose. *)
Definition detail (x : said) : bool :=
  match x with
  | Out (LComputed _) | Out (LNotComputed _) | Out (LChainCert _ _) | Out (LWarnings 4) | Out (LWarning 6 _ _) => true
  | _ => false
  end.
(** The lines about single signers: the heading and the four results. *)
Definition about_signer (x : said) : bool :=
  match x with Out (LSigner _) => true | Out (LField 4 _ _) => true | _ => false end.
Definition on_stderr (x : said) : bool := match x with Errs _ => true | Out _ => false end.
Definition failed_signer (x : said) : bool := match x with Errs (LFailedSigner _ _) => true | _ => false end.
(** The command goes on to the source stamp. *)
Definition reaches_stamp (v2 : vres) : Prop := v2 = VErr VNoSignature \/ exists q, v2 = VOk q /\ passes q.
(** The four checks, in the order in which they are named, and those that failed. *)
Definition checks : list field := [FSignature; FDigest; FChain; FTrusted].
Definition failed_checks (r : verify_result) : list field := filter (fun f => negb (reported f r)) checks.
(** The message for a module signature that fails a check: "V2 signature invalid", "Digest mismatch: file content
    may have been tampered", "Certificate chain invalid", "Untrusted certificate". *)
Definition refusal_line (f : field) : line :=
  match f with FSignature => LV2Invalid | FDigest => LDigestMismatch | FChain => LChainInvalid | FTrusted => LUntrusted end.
(** The file [f] is read, has a signing block, and the roots are known. *)
Definition prepared p (K : pki) builtin (s : fs) file root (f : bytes) : Prop :=
  fs_read s file = Some f /\ (exists b, m_get_signing_block p (module_new f) f = Ok b) /\ exists roots, cli_roots K builtin s root = Ok roots.
