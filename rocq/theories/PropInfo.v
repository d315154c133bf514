(** PropInfo.v - property C77: what the info command prints.

    Vocabulary: InfoSpec.v (Wire.v for the format, ReportSpec.v for failures,
    VerifySpec.v and CliSpec.v for trust).  [info_prints] gives the lines printed,
    on the standard output ([IOut]) or the standard error ([IErr]), and the exit
    status. *)
From Verif Require Import Base BaseFacts Utils Algorithms Common SchemeV2 SourceStamp Utf8 ElfInfo SigningBlock Wire
  Zip Digest Module Signable ZipSpec Toy Signer Verifier ModuleVerify VerifySpec SignSpec EndToEnd ToyVerify ReportSpec
  Keystore Elf ElfSpec ToyElf Cli CliSpec ToyCli Print PropPrint InfoPrint InfoSpec InfoFacts.
From Coq Require Import Strings.String Lia.
Open Scope N_scope.

(** The exit status is 0 exactly if a block is found, whatever its signatures are
    worth. *)
Theorem C77_status : forall p C K builtin now s file, (forall f, fs_read s file = Some f -> len f < U64) ->
  (snd (info_prints p C K builtin now s file) = Ok tt <->
   exists f b, fs_read s file = Some f /\ from_reader p f (len f) 0 = Ok b) /\
  snd (info_prints p C K builtin now s file) = (do _ <- cli_info p C K builtin now s file; Ok tt).
Proof.
  intros p C K builtin now s file H. split; [|now apply info_status]. rewrite info_status by exact H. unfold cli_info. split.
  - intros E. apply bind_Ok in E as (o & E & _). apply bind_Ok in E as (f & F & E). apply bind_Ok in E as (b & B & _).
    exists f, b. split; [destruct (fs_read s file); [|discriminate]; injection F as ->; reflexivity|exact B].
  - intros (f & b & F & B). rewrite F. cbn [of_option bind]. rewrite B. reflexivity.
Qed.
Print Assumptions C77_status.

(** The sizes and the location are those of the bytes that end with the last
    magic of the file, and there is one line for each entry of that block, in
    order, that says what its id is. *)
Theorem C77_contents : forall p C K builtin now s file f out, fs_read s file = Some f -> len f < U64 ->
  info_prints p C K builtin now s file = (out, Ok tt) ->
  exists pre entries post, f = pre ++ block_bytes entries ++ post /\
    (forall x y, f = x ++ MAGIC ++ y -> len (x ++ MAGIC) <= len (pre ++ block_bytes entries)) /\
    In (IOut (IFileSize (len f))) out /\
    In (IOut (ILocation (len pre) (len (pre ++ block_bytes entries)))) out /\
    In (IOut (IBlockSize (len (block_bytes entries)))) out /\
    Forall2 tells entries (filter about_entry out).
Proof. exact info_contents. Qed.
Print Assumptions C77_contents.

(** It never says that the content is verified. *)
Theorem C77_no_integrity : forall p C K builtin now s file,
  ~ In (IOut (IField FDigest true)) (fst (info_prints p C K builtin now s file)).
Proof. exact info_no_integrity. Qed.
Print Assumptions C77_no_integrity.

(** There is a V2 section exactly if there are V2 signers and none fails; what
    its values mean. *)
Theorem C77_v2 : forall p C K builtin now s file f b out roots, fs_read s file = Some f -> len f < U64 ->
  from_reader p f (len f) 0 = Ok b -> info_prints p C K builtin now s file = (out, Ok tt) ->
  roots_given K builtin s None roots ->
  ((exists sg dg ch tr, v2_section out sg dg ch tr) <->
   v2_signers_of b <> [] /\ Forall (fun s => v2_failure C K None s None) (v2_signers_of b)) /\
  forall sg dg ch tr, v2_section out sg dg ch tr ->
    dg = false /\
    (sg = true <-> Forall (fun s =>
       Forall (fun g => accepted C (sg_algo g) (pk_data (sn_key s)) (v2_message s) (sg_data g) /\
                        ~ no_digest (dgs_data (sd_digests (sn_data s))) (sg_algo g)) (sgs_data (sn_sigs s))) (v2_signers_of b)) /\
    (tr = true <-> Forall (fun s => exists leaf rest, map ct_data (cts_data (sd_certs (sn_data s))) = leaf :: rest /\
       trusted K now roots leaf rest) (v2_signers_of b)).
Proof. exact info_v2_section. Qed.
Print Assumptions C77_v2.

(** There is a stamp section exactly if there is a stamp and the first one does
    not fail; it always says that the signature is valid. *)
Theorem C77_stamp : forall p C K builtin now s file f b out roots, fs_read s file = Some f -> len f < U64 ->
  from_reader p f (len f) 0 = Ok b -> info_prints p C K builtin now s file = (out, Ok tt) ->
  roots_given K builtin s None roots ->
  ((exists sg ch tr, stamp_section out sg ch tr) <->
   exists x rest, stamps_of b = x :: rest /\ stamp_failure C K None x None) /\
  forall sg ch tr, stamp_section out sg ch tr ->
    sg = true /\ exists x others, stamps_of b = x :: others /\
    Forall (fun g => accepted C (sg_algo g) (pk_data (sb_key x)) (stamp_message x) (sg_data g)) (sgs_data (sb_sigs x)) /\
    (tr = true <-> exists leaf rest, map ct_data (cts_data (st_certs (sb_data x))) = leaf :: rest /\
       trusted K now roots leaf []).
Proof. exact info_stamp_section. Qed.
Print Assumptions C77_stamp.

(** The rest of the file does not matter: files with the same bytes at the
    location printed give the same lines but for name, size and location. *)
Theorem C77_block_only : forall p q C K builtin now s1 s2 file1 file2 f1 f2 pre1 pre2 post1 post2 raw out1 out2,
  fs_read s1 file1 = Some f1 -> fs_read s2 file2 = Some f2 -> len f1 < U64 -> len f2 < U64 ->
  info_prints p C K builtin now s1 file1 = (out1, Ok tt) -> info_prints q C K builtin now s2 file2 = (out2, Ok tt) ->
  f1 = pre1 ++ raw ++ post1 -> f2 = pre2 ++ raw ++ post2 ->
  In (IOut (ILocation (len pre1) (len (pre1 ++ raw)))) out1 ->
  In (IOut (ILocation (len pre2) (len (pre2 ++ raw)))) out2 ->
  filter (fun x => negb (about_file x)) out1 = filter (fun x => negb (about_file x)) out2.
Proof. exact info_block_only. Qed.
Print Assumptions C77_block_only.

(** The example archive signed by both keys; the trusted root is built in. *)
Example C77_example :
  info_prints Debug toyC toyK (x50 :: root_cert) (Some 500) signed_fs (bstr "out") =
  ([IOut (IFile (bstr "out")); IOut (IFileSize 4170); IOut IBlank; IOut IFound; IOut (ILocation 36 4132);
    IOut (IBlockSize 4096); IOut IBlank; IOut IContents; IOut IV2; IOut IStamp;
    IOut (IUnknown 0x42726577);
    IOut IBlank; IOut IV2Details; IOut (IField FSignature true); IOut (IField FDigest false);
    IOut (IField FChain true); IOut (IField FTrusted true); IOut (ILeaf leaf_cert); IOut (IChain 1);
    IOut (IChainCert 0 inter_cert); IOut IWarnings; IOut (IWarning 1 WNoContext);
    IOut IBlank; IOut IStampDetails; IOut (IField FSignature true); IOut (IField FChain true);
    IOut (IField FTrusted true); IOut (IStampCert (bstr "ZSkey2"))], Ok tt).
Proof. vm_compute. reflexivity. Qed.
Example C77_hypotheses : exists f b,
  fs_read signed_fs (bstr "out") = Some f /\ len f < U64 /\ from_reader Debug f (len f) 0 = Ok b /\
  roots_given toyK (x50 :: root_cert) signed_fs None [root_cert].
Proof. do 2 eexists. split; [vm_compute; reflexivity|]. split; [vm_compute; reflexivity|]. split; vm_compute; reflexivity. Qed.

(** "Signature valid" and "Trusted" do not mean that the file is the signed one:
    the first byte of the module is changed, info prints the same, verify fails. *)
Definition tampered_fs : fs :=
  toy_fs (match fs_read signed_fs (bstr "out") with Some (_ :: f) => x51 :: f | _ => [] end).
Theorem C77_tampered_refuted :
  (let '(out, r) := info_prints Debug toyC toyK (x50 :: root_cert) (Some 500) tampered_fs (bstr "in") in
   r = Ok tt /\ v2_section out true false true true /\ stamp_section out true true true) /\
  (exists e, cli_verify Debug toyC toyK (x50 :: root_cert) (Some 500) fr2 tampered_fs (bstr "in") None = Err e) /\
  cli_verify Debug toyC toyK (x50 :: root_cert) (Some 500) fr2 signed_fs (bstr "out") None = Ok tt.
Proof.
  split; [|split; [eexists; vm_compute; reflexivity|vm_compute; reflexivity]].
  assert (H : exists a b c, info_prints Debug toyC toyK (x50 :: root_cert) (Some 500) tampered_fs (bstr "in") =
    (a ++ [IOut IV2Details; IOut (IField FSignature true); IOut (IField FDigest false); IOut (IField FChain true); IOut (IField FTrusted true)] ++
     b ++ [IOut IStampDetails; IOut (IField FSignature true); IOut (IField FChain true); IOut (IField FTrusted true)] ++ c, Ok tt)).
  { exists [IOut (IFile (bstr "in")); IOut (IFileSize 4170); IOut IBlank; IOut IFound; IOut (ILocation 36 4132);
            IOut (IBlockSize 4096); IOut IBlank; IOut IContents; IOut IV2; IOut IStamp; IOut (IUnknown 0x42726577); IOut IBlank],
      [IOut (ILeaf leaf_cert); IOut (IChain 1); IOut (IChainCert 0 inter_cert); IOut IWarnings; IOut (IWarning 1 WNoContext); IOut IBlank],
      [IOut (IStampCert (bstr "ZSkey2"))]. vm_compute. reflexivity. }
  destruct H as (a & b & c & ->). split; [reflexivity|]. split.
  - exists a, (b ++ [IOut IStampDetails; IOut (IField FSignature true); IOut (IField FChain true); IOut (IField FTrusted true)] ++ c). reflexivity.
  - exists (a ++ [IOut IV2Details; IOut (IField FSignature true); IOut (IField FDigest false); IOut (IField FChain true); IOut (IField FTrusted true)] ++ b), c.
    rewrite <- !app_assoc. reflexivity.
Qed.
Print Assumptions C77_tampered_refuted.

(** A mark in the list of contents does not mean that the signature is valid: a
    forged V2 signature is listed, and the status is 0. *)
Theorem C77_mark_refuted : exists l,
  info_prints Debug toyC toyK (x50 :: root_cert) (Some 500) second_bad (bstr "in") = (l, Ok tt) /\
  In (IOut IV2) l /\ ~ In (IOut IV2Details) l /\
  exists e, In (IOut (IUnavailable (VMultiSigner [SESignature e]))) l.
Proof.
  exists (fst (info_prints Debug toyC toyK (x50 :: root_cert) (Some 500) second_bad (bstr "in"))).
  split; [vm_compute; reflexivity|].
  let l := eval vm_compute in (fst (info_prints Debug toyC toyK (x50 :: root_cert) (Some 500) second_bad (bstr "in"))) in
  replace (fst (info_prints Debug toyC toyK (x50 :: root_cert) (Some 500) second_bad (bstr "in"))) with l by (vm_compute; reflexivity).
  cbn [In]. split; [tauto|]. split; [intuition discriminate|]. eexists. repeat (first [left; reflexivity | right]).
Qed.
Print Assumptions C77_mark_refuted.
