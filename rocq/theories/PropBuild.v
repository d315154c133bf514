(** PropBuild.v - C89: debug and release builds, and when "sign" crashes.

    [pick_build p W] (BuildSpec.v) is the world [W] with the program built with
    ([Debug]) or without ([Release]) overflow checks.  [program_text] (Text.v) is what
    a run leaves behind: text, changes to the files, exit status. *)
From Verif Require Import Base BaseFacts Utils Algorithms Common SchemeV2 SourceStamp Utf8 ElfInfo SigningBlock Zip Digest Module Signable ZipSpec Spec Wire
  Toy Signer Verifier ModuleVerify VerifySpec SignSpec EndToEnd ToyVerify ToyElf Keystore Elf Cli CliSpec ToyCli Print InfoPrint SignPrint
  Main MainSpec PropModule PropMain Text TextSpec PropText BuildSpec BuildFacts BuildFacts2.
From Coq Require Import Strings.String.
Open Scope N_scope.
Open Scope list_scope.

(** * C89 *)
(** For every command line and every file system the two builds behave alike, or the
    debug build crashes.  Then the release build printed the same and went on. *)
Theorem C89_builds : forall W T verbose s c,
  let d := program_text (pick_build Debug W) T verbose s c in
  let r := program_text (pick_build Release W) T verbose s c in
  d = r \/ oc_status d = 101 /\ exists more, oc_stdout r = oc_stdout d ++ more.
Proof. exact builds. Qed.
Print Assumptions C89_builds.

(** "sign" crashes exactly in three situations: a debug build stops on the module,
    as in C86; a debug build cannot pad the block; the ELF writer runs out of address
    space. *)
Theorem C89_sign_crash : forall W s a, (forall f, fs_read s (sa_input a) = Some f -> len f < 2 ^ 63) ->
  snd (program W s (CSign a)) = 101 <->
  w_profile W = Debug /\ (early_stop W s a \/ gap_stop W s a) \/ writer_stop W s a.
Proof. intros W s a H. rewrite (proj2 (proj2 (C86_status W s _))). now apply sign_panic. Qed.
Print Assumptions C89_sign_crash.

(** A release build reports that the block cannot be padded, and touches nothing. *)
Theorem C89_gap_release : forall W s a, gap_stop W s a ->
  execute (pick_build Release W) s (CSign a) = ([], Err EPaddingGap).
Proof. exact gap_release. Qed.
Print Assumptions C89_gap_release.

(** The block cannot be padded exactly if, without padding, it would end 1 to 11
    bytes before a multiple of 4096. *)
Theorem C89_gap : forall C clk m l b, crypto_ok C -> Forall (fun p => canonical (fst p)) l -> ms_padding m = true ->
  ms_sign Release C clk (ms_set_padding m false) (digests_of_pairs l) = Ok b ->
  (ms_sign Release C clk m (digests_of_pairs l) = Err EPaddingGap <-> 0 < pad_bytes (len (block_to_u8 b)) < 12).
Proof. exact gap_length. Qed.
Print Assumptions C89_gap.

(** ** Examples *)
Definition long_cert (n : N) : bytes := leaf_cert ++ [x0a] ++ repeat x41 (N.to_nat n).
(** A certificate chain of an unlucky length: the debug build crashes, the release
    build reports an error; with five bytes more or seven less both succeed. *)
Definition unlucky : N := 3651.
Example C89_gap_example :
  map (fun n => (snd (program (toy_world Debug) (cert_fs (plain ex_zip) (long_cert n)) (CSign toy_args)),
                 snd (program (toy_world Release) (cert_fs (plain ex_zip) (long_cert n)) (CSign toy_args))))
    [unlucky - 7; unlucky; unlucky + 5] = [(0, 0); (101, 1); (0, 0)].
Proof. vm_compute. reflexivity. Qed.
Example C89_gap_stop_example : gap_stop (toy_world Debug) (cert_fs (plain ex_zip) (long_cert unlucky)) toy_args.
Proof.
  unfold gap_stop, gathered. do 4 eexists. split; [split; [vm_compute; reflexivity|]; split; [reflexivity|]|].
  - split; [eexists; split; vm_compute; reflexivity|]. split; [eexists; vm_compute; reflexivity|vm_compute; reflexivity].
  - vm_compute. reflexivity.
Qed.
(** The other two situations: a module whose block declares two sizes, and an ELF
    file with an absurd alignment (also in a release build). *)
Example C89_crash_example :
  snd (program (toy_world Debug) (toy_fs differ_zip) (CSign toy_args)) = 101 /\
  snd (program (toy_world Release) (toy_fs differ_zip) (CSign toy_args)) = 1 /\
  snd (program (toy_world Release) (toy_fs (toy_plain x64 (2 ^ 63))) (CSign toy_args)) = 101.
Proof. repeat split; vm_compute; reflexivity. Qed.
(** Alike, and not alike: the debug build has printed less. *)
Example C89_builds_example :
  (let d := program_text (pick_build Debug (toy_world Debug)) toyT true (toy_fs (plain ex_zip)) digest_of in
   let r := program_text (pick_build Release (toy_world Debug)) toyT true (toy_fs (plain ex_zip)) digest_of in
   d = r /\ oc_status d = 0 /\ 0 < len (oc_stdout d)) /\
  (let d := program_text (pick_build Debug (toy_world Debug)) toyT true (toy_fs past_zip) (CSign toy_args) in
   let r := program_text (pick_build Release (toy_world Debug)) toyT true (toy_fs past_zip) (CSign toy_args) in
   oc_status d = 101 /\ oc_status r = 1 /\ 0 < len (oc_stdout d) < len (oc_stdout r)).
Proof. repeat split; vm_compute; reflexivity. Qed.
