(** Print.v - what the verify command prints: /repo/src/cli/verify.rs, line by line.

    A line is a constructor with the values that are printed in it; the wording,
    the description of a certificate (src/cli/cert.rs) and the messages of errors
    are not modelled.  Each line goes to the standard output ([Out]) or to the
    standard error ([Errs]).  The last line on standard error, "Error: ..."
    (src/main.rs:9), is printed for every [Err] and is not repeated here. *)
From Verif Require Import Base Utils Algorithms SigningBlock Module Signer Verifier ModuleVerify Cli.
Open Scope N_scope.

Inductive field := FSignature | FDigest | FChain | FTrusted.

(** [level]: the number of blanks before the text. *)
Inductive line :=
| LVerifying | LFile (p : Cli.path) | LBlank                                   (* 28-30 *)
| LBlockFound                                                                  (* 40 *)
| LCustomRoot (p : Cli.path)                                                   (* 52 *)
| LComputed (a : algorithms) | LNotComputed (a : algorithms)                   (* 68, 73, 83, 88 *)
| LNoDigests | LDigestsComputed                                                (* 94, 98 *)
| LV2NotFound                                                                  (* 104, 204 *)
| LV2Failed | LFailedSigner (n : N) (e : signer_error)                         (* 108-110 *)
| LV2FailedWith (e : verify_error)                                             (* 115 *)
| LV2Passed | LSignersVerified (n : N) | LSigner (n : N)                       (* 129-135 *)
| LField (level : N) (f : field) (b : bool)                                    (* 136-139, 168-170, 222-225, 253-256 *)
| LCertificate (level : N) (cert : bytes)                                      (* 142-146, 227-231 *)
| LChain (n : N) | LChainCert (i : N) (cert : bytes)                           (* 150-153 *)
| LWarnings (level : N)                                                        (* 159, 173 *)
| LWarning (level : N) (n : option N) (w : warning)                            (* 161, 175, 197, 267 *)
| LOverall                                                                     (* 167 *)
| LDigestMismatch | LChainInvalid | LUntrusted                                 (* 181-189 *)
| LV2Invalid | LErrors                                                         (* 193-195 *)
| LStampPassed                                                                 (* 221 *)
| LStampFailed (reasons : list field)                                          (* 249-252 *)
| LStampTampered | LStampUntrusted                                             (* 259-262 *)
| LStampNotFound                                                               (* 274 *)
| LStampErrors | LStampError (e : signer_error) | LStampErrorWith (e : verify_error)  (* 277-285 *)
| LStampWarning                                                                (* 281, 286 *)
| LV2ButStamp | LV2Checks | LStampMay                                          (* 302-304 *)
| LSuccess | LAllChecks.                                                       (* 308-309 *)
Inductive said := Out (l : line) | Errs (l : line).

(** A computation that prints. *)
Definition wbind {A B} (m : list said * res A) (k : A -> list said * res B) : list said * res B :=
  match m with
  | (l, Ok a) => (l ++ fst (k a), snd (k a))
  | (l, Err e) => (l, Err e)
  | (l, Panic) => (l, Panic)
  end.
Definition say (l : list said) : list said * res unit := (l, Ok tt).
Definition when (b : bool) (l : list said) : list said := if b then l else [].
Definition nonempty {A} (l : list A) : bool := match l with [] => false | _ => true end.
Fixpoint numbered {A} (i : N) (l : list A) : list (N * A) :=
  match l with [] => [] | x :: l => (i, x) :: numbered (i + 1) l end.

(** src/cli/verify.rs:63-76, 78-91. *)
Definition out_digest (verbose : bool) p C ds (m : module) (file : bytes) (a : algorithms) (ctx : context)
  : list said * res context :=
  match m_digest p C (ds a) m file a with
  | Ok d => (when verbose [Out (LComputed a)], Ok (add_digest ctx (u32_of_algo a) d))
  | Err _ => (when verbose [Out (LNotComputed a)], Ok ctx)
  | Panic => ([], Panic)
  end.

(** src/cli/verify.rs:101-118: [None]: no V2 signature. *)
Definition out_v2_result (v2 : vres) : list said * res (option verify_result) :=
  match v2 with
  | VOk r => ([], Ok (Some r))
  | VErr VNoSignature => ([Out LV2NotFound], Ok None)
  | VErr (VMultiSigner errors) =>
      (Errs LV2Failed :: map (fun e => Errs (LFailedSigner (fst e + 1) (snd e))) (numbered 0 errors), Err (ECli 10))
  | VErr e => ([Errs (LV2FailedWith e)], Err (ECli 10))
  end.

(** src/cli/verify.rs:133-164: one signer. *)
Definition out_signer (verbose : bool) (x : signer_result) : list said :=
  [Out (LSigner (sr_index x + 1)); Out (LField 4 FSignature (sr_signature_valid x));
   Out (LField 4 FDigest (sr_digest_valid x)); Out (LField 4 FChain (sr_chain_valid x));
   Out (LField 4 FTrusted (sr_trusted x))] ++
  match sr_cert x with Some c => [Out (LCertificate 4 c)] | None => [] end ++
  when (nonempty (sr_chain x))
    (Out (LChain (len (sr_chain x))) ::
     when verbose (map (fun e => Out (LChainCert (fst e) (snd e))) (numbered 0 (sr_chain x)))) ++
  when (nonempty (sr_warnings x) && verbose)
    (Out (LWarnings 4) :: map (fun w => Out (LWarning 6 None w)) (sr_warnings x)).

(** src/cli/verify.rs:125-206. *)
Definition out_v2 (verbose : bool) (v2 : option verify_result) : list said * res unit :=
  match v2 with
  | None => ([Out LV2NotFound], Ok tt)
  | Some r =>
      if vr_signature_valid r then
        let l := [Out LV2Passed; Out (LSignersVerified (len (vr_signers r)))] ++
                 flat_map (out_signer verbose) (vr_signers r) ++
                 [Out LOverall; Out (LField 2 FDigest (vr_digest_valid r));
                  Out (LField 2 FChain (vr_chain_valid r)); Out (LField 2 FTrusted (vr_trusted r))] ++
                 when (nonempty (vr_warnings r))
                   (Out (LWarnings 2) :: map (fun w => Out (LWarning 4 (Some (fst w)) (snd w))) (vr_warnings r)) in
        if negb (vr_digest_valid r) then (l ++ [Errs LDigestMismatch], Err (ECli 11))
        else if negb (vr_chain_valid r) then (l ++ [Errs LChainInvalid], Err (ECli 12))
        else if negb (vr_trusted r) then (l ++ [Errs LUntrusted], Err (ECli 13))
        else (l, Ok tt)
      else
        (Errs LV2Invalid ::
         when (nonempty (vr_warnings r))
           (Errs LErrors :: map (fun w => Errs (LWarning 4 (Some (fst w)) (snd w))) (vr_warnings r)),
         Err (ECli 10))
  end.

Definition all_valid (r : verify_result) : bool :=
  vr_signature_valid r && vr_digest_valid r && vr_chain_valid r && vr_trusted r.
(** src/cli/verify.rs:235-247, 314-326: what is wrong. *)
Definition reasons (r : verify_result) : list field :=
  (if vr_signature_valid r then [] else [FSignature]) ++ (if vr_digest_valid r then [] else [FDigest]) ++
  (if vr_chain_valid r then [] else [FChain]) ++ (if vr_trusted r then [] else [FTrusted]).

(** src/cli/verify.rs:210-292: the lines, and whether the stamp failed. *)
Definition out_stamp (stamp : vres) : list said * bool :=
  match stamp with
  | VOk r =>
      if all_valid r then
        ([Out LStampPassed; Out (LField 2 FSignature (vr_signature_valid r)); Out (LField 2 FDigest (vr_digest_valid r));
          Out (LField 2 FChain (vr_chain_valid r)); Out (LField 2 FTrusted (vr_trusted r))] ++
         match vr_cert r with Some c => [Out (LCertificate 2 c)] | None => [] end, false)
      else
        ([Errs (LStampFailed (reasons r));
          Errs (LField 2 FSignature (vr_signature_valid r)); Errs (LField 2 FDigest (vr_digest_valid r));
          Errs (LField 2 FChain (vr_chain_valid r)); Errs (LField 2 FTrusted (vr_trusted r))] ++
         when (negb (vr_digest_valid r)) [Errs LStampTampered] ++
         when (negb (vr_trusted r)) [Errs LStampUntrusted] ++
         map (fun w => Errs (LWarning 2 (Some (fst w)) (snd w))) (vr_warnings r), true)
  | VErr VNoSignature => ([Out LStampNotFound], false)
  | VErr (VMultiSigner errors) => (Errs LStampErrors :: map (fun e => Errs (LStampError e)) errors ++ [Errs LStampWarning], true)
  | VErr e => ([Errs (LStampErrorWith e); Errs LStampWarning], true)
  end.

(** src/cli/verify.rs:294-331.  [ECli 18]: line 328, [ECli 9]: line 330. *)
Definition out_end (v2 : option verify_result) (stamp_failed : bool) : list said * res unit :=
  match v2 with
  | Some r =>
      if all_valid r then
        if stamp_failed then ([Out LBlank; Out LV2ButStamp; Out LV2Checks; Out LStampMay], Err (ECli 14))
        else ([Out LBlank; Out LSuccess; Out LAllChecks], Ok tt)
      else ([Out LBlank], Err (ECli 18))
  | None => ([Out LBlank], Err (ECli 9))
  end.

(** src/cli/verify.rs:27-332 [execute]: the lines printed and the exit status. *)
Definition verify_prints (verbose : bool) (p : profile) (C : crypto) (K : pki) (builtin : bytes) (now : option N)
    (ds : algorithms -> nat -> nat -> N) (s : fs) (file : Cli.path) (root : option Cli.path) : list said * res unit :=
  wbind (say [Out LVerifying; Out (LFile file); Out LBlank]) (fun _ =>
  wbind ([], of_option (ECli 15) (fs_read s file)) (fun f =>
  let m := module_new f in
  wbind ([], map_err (fun _ => ECli 16) (m_get_signing_block p m f)) (fun b =>
  wbind (say [Out LBlockFound]) (fun _ =>
  wbind ([], cli_roots K builtin s root) (fun roots =>
  wbind (say (match root with Some r => [Out (LCustomRoot r)] | None => [] end)) (fun _ =>
  wbind (out_digest verbose p C ds m f ECDSA_SHA2_256 ctx_new) (fun ctx =>
  wbind (out_digest verbose p C ds m f ECDSA_SHA2_512 ctx) (fun ctx =>
  match ctx with
  | [] => ([Errs LNoDigests], Err (ECli 17))
  | _ =>
      wbind (say [Out LDigestsComputed]) (fun _ =>
      wbind (out_v2_result (verify_v2_with_digest C K now roots b (Some ctx))) (fun v2 =>
      let stamp := out_stamp (verify_source_stamp_with_digest C K now roots b (Some ctx)) in
      wbind (out_v2 verbose v2) (fun _ =>
      wbind (say (fst stamp)) (fun _ => out_end v2 (snd stamp)))))
  end)))))))).
