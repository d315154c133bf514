(** PropInfo2.v - property C77, continued: every line of the info command, and the
    condition under which it is printed ([info_line], InfoSpec.v). *)
From Verif Require Import Base BaseFacts Utils Algorithms Common SchemeV2 SourceStamp Utf8 ElfInfo SigningBlock Wire
  Zip Digest Module Signable ZipSpec Toy Signer Verifier ModuleVerify VerifySpec SignSpec EndToEnd ToyVerify ReportSpec
  Keystore Elf ElfSpec ToyElf Cli CliSpec ToyCli Print PrintSpec PropPrint InfoPrint InfoSpec InfoFacts InfoFacts2 PropInfo.
From Coq Require Import Strings.String Lia.
Open Scope N_scope.

Theorem C77_lines : forall p C K builtin now s file x, (forall f, fs_read s file = Some f -> len f < U64) ->
  In x (fst (info_prints p C K builtin now s file)) <-> info_line p C K builtin now s file x.
Proof. exact info_lines. Qed.
Print Assumptions C77_lines.

(** The standard error is used exactly if the file can be read and holds no block;
    it then gives the reason, and the standard output only the name and the size.
    A file that cannot be read gives no output but the final message. *)
Theorem C77_failure : forall p C K builtin now s file f e, fs_read s file = Some f -> len f < U64 ->
  (In (IErr (IParseError e)) (fst (info_prints p C K builtin now s file)) <-> from_reader p f (len f) 0 = Err e) /\
  (from_reader p f (len f) 0 = Err e ->
   info_prints p C K builtin now s file =
   ([IOut (IFile file); IOut (IFileSize (len f)); IOut IBlank; IErr ICannotParse; IErr (IParseError e)], Err e)) /\
  (forall l, In (IErr l) (fst (info_prints p C K builtin now s file)) -> exists e', from_reader p f (len f) 0 = Err e').
Proof.
  intros p C K builtin now s file f e F Hl.
  assert (H : forall g, fs_read s file = Some g -> len g < U64) by (intros g G; congruence).
  split; [|split].
  - rewrite (info_lines _ _ _ _ _ _ _ _ H). split.
    + intros (g & G & [E|[E|[E|[(d & D & [E|E])|(b & B & E)]]]]); try discriminate.
      * injection E as <-. congruence.
      * inversion E.
    + intros E. exists f. split; [exact F|]. do 3 right. left. eauto.
  - intros E. unfold info_prints. rewrite F, E. reflexivity.
  - intros l. rewrite (info_lines _ _ _ _ _ _ _ _ H).
    intros (g & G & [E|[E|[E|[(d & D & E)|(b & B & E)]]]]); try discriminate; [|inversion E].
    exists d. congruence.
Qed.
Print Assumptions C77_failure.
Theorem C77_unreadable : forall p C K builtin now s file,
  fs_read s file = None <-> fst (info_prints p C K builtin now s file) = [].
Proof.
  intros p C K builtin now s file. unfold info_prints. destruct (fs_read s file) as [f|]; [|split; reflexivity].
  split; [discriminate|]. destruct (from_reader p f (len f) 0) as [b|e|]; try discriminate.
  cbv zeta. destruct (uadd p (bk_size_start b) 8); discriminate.
Qed.
Print Assumptions C77_unreadable.

(** An archive without a block. *)
Example C77_failure_example : exists e,
  info_prints Debug toyC toyK (x50 :: root_cert) (Some 500) (toy_fs (plain ex_zip)) (bstr "in") =
  ([IOut (IFile (bstr "in")); IOut (IFileSize (len (plain ex_zip))); IOut IBlank; IErr ICannotParse; IErr (IParseError e)], Err e).
Proof. eexists. vm_compute. reflexivity. Qed.
(** The conditions hold for lines of each kind. *)
Example C77_lines_example :
  Forall (info_line Debug toyC toyK (x50 :: root_cert) (Some 500) signed_fs (bstr "out"))
    [IOut (ILocation 36 4132); IOut IV2; IOut (ILeaf leaf_cert); IOut (IChainCert 0 inter_cert);
     IOut (IWarning 1 WNoContext); IOut (IStampCert (bstr "ZSkey2"))] /\
  ~ info_line Debug toyC toyK (x50 :: root_cert) (Some 500) signed_fs (bstr "out") (IOut (ILeaf inter_cert)).
Proof.
  assert (H : forall f, fs_read signed_fs (bstr "out") = Some f -> len f < U64).
  { destruct C77_hypotheses as (f & b & F & L & _). intros g G. rewrite F in G. injection G as <-. exact L. }
  split.
  - rewrite Forall_forall. intros x Hx. apply C77_lines; [exact H|]. rewrite C77_example. cbn [fst].
    cbn [In] in Hx. decompose [or] Hx; try contradiction; subst x; repeat (first [left; reflexivity | right]).
  - intros L. apply C77_lines in L; [|exact H]. rewrite C77_example in L. cbn [fst In] in L. clear H; decompose [or] L; try contradiction; discriminate.
Qed.
