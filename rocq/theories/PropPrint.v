(** PropPrint.v - C75: what the verify command prints.

    [verify_prints verbose ...] (Print.v) are the lines printed and the exit status;
    [results ... v2 stamp] (PrintSpec.v) says that the command got as far as checking signatures
    and what the verifier reported: C72 says what a report means. *)
From Verif Require Import Base BaseFacts Utils Algorithms Common SchemeV2 SourceStamp Utf8 ElfInfo
  SigningBlock Zip Digest Module Signable ZipSpec Toy Signer Verifier ModuleVerify VerifySpec SignSpec EndToEnd
  ToyVerify Keystore Elf Cli CliSpec ToyCli Print PrintSpec PrintFacts.
From Coq Require Import Strings.String.
Open Scope N_scope.

(** Printing does not change the exit status, verbose or not. *)
Theorem C75_status : forall verbose p C K builtin now ds s file root,
  snd (verify_prints verbose p C K builtin now ds s file root) = cli_verify p C K builtin now ds s file root.
Proof. exact prints_verdict. Qed.
Print Assumptions C75_status.

(** "Module signature verification successful!" is printed exactly if the exit status is 0. It is
    then the end of the output and nothing was written to the standard error. *)
Theorem C75_success : forall verbose p C K builtin now ds s file root,
  In (Out LSuccess) (fst (verify_prints verbose p C K builtin now ds s file root)) <->
  cli_verify p C K builtin now ds s file root = Ok tt.
Proof. exact prints_success. Qed.
Print Assumptions C75_success.
Theorem C75_success_end : forall verbose p C K builtin now ds s file root,
  cli_verify p C K builtin now ds s file root = Ok tt ->
  exists before, fst (verify_prints verbose p C K builtin now ds s file root) = before ++ [Out LBlank; Out LSuccess; Out LAllChecks] /\
    Forall (fun x => on_stderr x = false) before.
Proof. exact prints_success_shape. Qed.
Print Assumptions C75_success_end.

(** --verbose only adds details. *)
Theorem C75_verbose : forall p C K builtin now ds s file root,
  fst (verify_prints false p C K builtin now ds s file root) =
  filter (fun x => negb (detail x)) (fst (verify_prints true p C K builtin now ds s file root)).
Proof. exact prints_verbose. Qed.
Print Assumptions C75_verbose.

(** The lines about single signers are those of the report, in its order, and are printed if
    all signatures are valid. *)
Theorem C75_signers : forall verbose p C K builtin now ds s file root v2 stamp,
  results p C K builtin now ds s file root v2 stamp ->
  filter about_signer (fst (verify_prints verbose p C K builtin now ds s file root)) =
  match v2 with
  | VOk r =>
      if vr_signature_valid r then
        flat_map (fun x => Out (LSigner (sr_index x + 1)) ::
          map (fun f => Out (LField 4 f (signer_reported f x))) [FSignature; FDigest; FChain; FTrusted]) (vr_signers r)
      else []
  | VErr _ => []
  end.
Proof. exact prints_signers. Qed.
Print Assumptions C75_signers.

(** "Digest valid", "Certificate chain valid" and "Trusted" of the whole: a value is printed
    exactly if the V2 report has it and its signatures are valid, or if there is no V2 signature
    and the stamp passes ([true]). *)
Theorem C75_overall : forall verbose p C K builtin now ds s file root f v, f <> FSignature ->
  (In (Out (LField 2 f v)) (fst (verify_prints verbose p C K builtin now ds s file root)) <->
   exists v2 stamp, results p C K builtin now ds s file root v2 stamp /\
     ((exists r, v2 = VOk r /\ vr_signature_valid r = true /\ reported f r = v) \/
      (v2 = VErr VNoSignature /\ v = true /\ exists r, stamp = VOk r /\ passes r))).
Proof. exact prints_field. Qed.
Print Assumptions C75_overall.

(** "Source Stamp verification passed": the stamp passes all four checks and there is no V2
    signature or it passes too (in the first case the exit status is not 0). *)
Theorem C75_stamp_passed : forall verbose p C K builtin now ds s file root,
  In (Out LStampPassed) (fst (verify_prints verbose p C K builtin now ds s file root)) <->
  exists v2 r, results p C K builtin now ds s file root v2 (VOk r) /\ passes r /\
    (v2 = VErr VNoSignature \/ exists q, v2 = VOk q /\ passes q).
Proof. exact prints_stamp. Qed.
Print Assumptions C75_stamp_passed.
(** "V2 signature verified, but Source Stamp verification FAILED!": exactly if the V2 signature
    passes and there is a stamp that does not. *)
Theorem C75_stamp_failed : forall verbose p C K builtin now ds s file root,
  In (Out LV2ButStamp) (fst (verify_prints verbose p C K builtin now ds s file root)) <->
  exists q stamp, results p C K builtin now ds s file root (VOk q) stamp /\ passes q /\
    stamp <> VErr VNoSignature /\ (forall r, stamp = VOk r -> ~ passes r).
Proof. exact prints_stamp_failed. Qed.
Print Assumptions C75_stamp_failed.

(** If signers fail, the k-th line "Signer #k" is about the k-th FAILING signer. *)
Theorem C75_failed_signers : forall verbose p C K builtin now ds s file root errors stamp,
  results p C K builtin now ds s file root (VErr (VMultiSigner errors)) stamp ->
  forall k, nth_error (filter failed_signer (fst (verify_prints verbose p C K builtin now ds s file root))) k =
    match nth_error errors k with Some e => Some (Errs (LFailedSigner (N.of_nat k + 1) e)) | None => None end.
Proof. exact prints_failed. Qed.
Print Assumptions C75_failed_signers.

(** Without V2 signature this is said twice. *)
Theorem C75_not_found : forall verbose p C K builtin now ds s file root stamp,
  results p C K builtin now ds s file root (VErr VNoSignature) stamp ->
  filter (fun x => match x with Out LV2NotFound => true | _ => false end) (fst (verify_prints verbose p C K builtin now ds s file root)) =
    [Out LV2NotFound; Out LV2NotFound].
Proof. exact prints_not_found. Qed.
Print Assumptions C75_not_found.

(** * Examples *)
Example C75_example :
  fst (verify_prints false Debug toyC toyK [] (Some 500) fr2 signed_fs (bstr "out") (Some (bstr "root"))) =
  [Out LVerifying; Out (LFile (bstr "out")); Out LBlank; Out LBlockFound; Out (LCustomRoot (bstr "root"));
   Out LDigestsComputed; Out LV2Passed; Out (LSignersVerified 1); Out (LSigner 1);
   Out (LField 4 FSignature true); Out (LField 4 FDigest true); Out (LField 4 FChain true); Out (LField 4 FTrusted true);
   Out (LCertificate 4 leaf_cert); Out (LChain 1); Out LOverall;
   Out (LField 2 FDigest true); Out (LField 2 FChain true); Out (LField 2 FTrusted true);
   Out LStampPassed; Out (LField 2 FSignature true); Out (LField 2 FDigest true); Out (LField 2 FChain true);
   Out (LField 2 FTrusted true); Out (LCertificate 2 (bstr "ZSkey2")); Out LBlank; Out LSuccess; Out LAllChecks].
Proof. vm_compute. reflexivity. Qed.

(** A file with a good and a bad signer, in this order. *)
Definition file_of (l : list value) : fs :=
  toy_fs (with_block ex_zip (block_to_u8 (get_ok dummy_block (block_new l)))).
Definition second_bad : fs :=
  file_of [V2Block (v2_new (signers_new (v2_signers_of zip_block ++ [forged])))].
Definition stamp_alone : fs :=
  file_of (filter (fun v => match v with StampBlk _ => true | _ => false end) (bk_content zip_block)).

(** The number printed is not the position of the signer: here the second one is bad and "Signer #1"
    is printed. *)
Theorem C75_signer_number_refuted : exists p C K builtin now ds s file root f b g1 g2 e,
  fs_read s file = Some f /\ m_get_signing_block p (module_new f) f = Ok b /\ v2_signers_of b = [g1; g2] /\
  (exists roots, cli_roots K builtin s root = Ok (configured K roots) /\
    v2_signer_good C K now roots (fun a d => m_digest p C (ds a) (module_new f) f a = Ok d) g1) /\
  filter failed_signer (fst (verify_prints false p C K builtin now ds s file root)) = [Errs (LFailedSigner 1 e)].
Proof.
  exists Debug, toyC, toyK, [], (Some 500), fr2, second_bad, (bstr "in"), (Some (bstr "root")).
  eexists _, _, _, _, _. split; [vm_compute; reflexivity|]. split; [vm_compute; reflexivity|]. split; [vm_compute; reflexivity|].
  split; [|vm_compute; reflexivity]. exists [root_cert]. split; [vm_compute; reflexivity|].
  split; [discriminate|]. split.
  - repeat constructor.
    + eexists _, _. split; [vm_compute; reflexivity|]. split; vm_compute; reflexivity.
    + eexists. split; [|vm_compute; reflexivity]. exists []. eexists _, _. split; [reflexivity|]. split; [reflexivity|]. split; [reflexivity|constructor].
  - eexists _, _. split; [reflexivity|]. split; [vm_compute; reflexivity|]. right. split; [discriminate|]. split; vm_compute; reflexivity.
Qed.
Print Assumptions C75_signer_number_refuted.

(** With a stamp alone, "Source Stamp verification passed" and "Trusted: true" are printed and the
    command fails. *)
Example C75_stamp_alone :
  let o := verify_prints false Debug toyC toyK [] (Some 500) fr2 stamp_alone (bstr "in") (Some (bstr "root")) in
  snd o = Err (ECli 9) /\ In (Out LStampPassed) (fst o) /\ In (Out (LField 2 FTrusted true)) (fst o).
Proof. vm_compute. intuition auto. Qed.
