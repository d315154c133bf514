(** PropMain.v - property C86: the program as a whole.

    Vocabulary: MainSpec.v, CliSpec.v, VerifySpec.v. *)
From Verif Require Import Base BaseFacts Utils Algorithms Common Utf8 ElfInfo SigningBlock Zip Digest Module Signable ZipSpec Spec Elf ElfSpec
  Toy Signer Verifier ModuleVerify VerifySpec SignSpec EndToEnd ToyVerify ToyElf Keystore Cli CliSpec CliFacts CliProps CliProps2 CliProps3 CliProps4 ToyCli
  Main MainSpec MainFacts MainFacts2 PropModule PropCli.
From Coq Require Import Strings.String.
Open Scope N_scope.

(** * C86 *)
(** verify, info and digest without --dump never write. *)
Theorem C86_read_only : forall W s c, output_of c = None -> fst (program W s c) = [].
Proof. intros W s c H. rewrite program_execute. pose proof (execute_touch W s c) as T. rewrite H in T. exact T. Qed.
Print Assumptions C86_read_only.

(** However and wherever a command is interrupted, files other than its output
    are as before. *)
Theorem C86_other_files : forall W s c s' q, reached s (fst (program W s c)) s' ->
  (forall o, output_of c = Some o -> fs_file s q <> fs_file s o) -> fs_read s' q = fs_read s q.
Proof. exact other_files. Qed.
Print Assumptions C86_other_files.

(** The exit status, whether anything is written, and the bytes of the output
    depend on nothing but the content of the files that the command line names. *)
Theorem C86_depends : forall W s1 s2 c, same_inputs s1 s2 c -> same_output s1 s2 c ->
  snd (program W s1 c) = snd (program W s2 c) /\
  (fst (program W s1 c) = [] <-> fst (program W s2 c) = []) /\
  forall o, output_of c = Some o -> fst (program W s1 c) <> [] ->
    fs_data (run s1 (fst (program W s1 c))) (fs_file s1 o) = fs_data (run s2 (fst (program W s2 c))) (fs_file s2 o).
Proof. exact depends. Qed.
Print Assumptions C86_depends.

(** The exit status is 0, 1 or 101; it is 0 exactly if the command succeeded and
    101 exactly if it crashed. *)
Theorem C86_status : forall W s c,
  (snd (program W s c) = 0 <-> snd (execute W s c) = Ok tt) /\
  (snd (program W s c) = 1 <-> exists e, snd (execute W s c) = Err e) /\
  (snd (program W s c) = 101 <-> snd (execute W s c) = Panic).
Proof.
  intros W s c. rewrite program_execute. cbn [snd]. destruct (snd (execute W s c)) as [[]|e|]; cbn [exit_status].
  - repeat split; try discriminate; try reflexivity. intros (e & H); discriminate.
  - repeat split; try discriminate; eauto.
  - repeat split; try discriminate; try reflexivity. intros (e & H); discriminate.
Qed.
Print Assumptions C86_status.

(** "verify" returns 0 exactly if the file carries a V2 signature and all
    signatures are good and trusted. *)
Theorem C86_verify_zero : forall W s file root,
  snd (program W s (CVerify file root)) = 0 <->
  exists f b roots, fs_read s file = Some f /\ m_get_signing_block (w_profile W) (module_new f) f = Ok b /\
    roots_given (w_pki W) (w_builtin W) s root roots /\
    let D := fun a d => m_digest (w_profile W) (w_crypto W) (w_reads W a) (module_new f) f a = Ok d in
    v2_signers_of b <> [] /\ Forall (v2_signer_good (w_crypto W) (w_pki W) (w_clock W) roots D) (v2_signers_of b) /\
    match stamps_of b with [] => True | st :: _ => stamp_good (w_crypto W) (w_pki W) (w_clock W) roots D st end.
Proof. intros W s file root. rewrite (proj1 (C86_status W s _)). exact (C49_exit_status _ _ _ _ _ _ s file root). Qed.
Print Assumptions C86_verify_zero.

(** "sign" returns 0, then "verify" of its output returns 0 exactly if the
    certificates chain to the root; the two runs may be in different builds and
    at different times. *)
Theorem C86_sign_verify : forall W V s a z signer root pem r,
  w_crypto W = w_crypto V -> crypto_ok (w_crypto V) -> (forall x, fills (w_reads W x)) -> (forall x, fills (w_reads V x)) ->
  fs_read s (sa_input a) = Some (plain z) -> zip_ok z [] -> unsigned z -> (forall t, plain z <> ELFMAG ++ t) ->
  (forall blk, len blk <= 16392 -> zip_ok z blk /\ zip_small z blk) ->
  fs_file s (sa_output a) <> fs_file s (sa_input a) -> fs_can_read s (sa_output a) = true ->
  fs_read s root = Some pem -> fs_file s root <> fs_file s (sa_output a) ->
  pem_parse (w_pki V) pem = Some (CERTIFICATE_TAG, r) ->
  cli_signer (w_keys W) s a = Ok signer ->
  (forall c, ms_v2 signer = Some c \/ ms_stamp signer = Some c -> certified (w_crypto V) (w_pki V) c) ->
  snd (program W s (CSign a)) = 0 ->
  (snd (program V (run s (fst (program W s (CSign a)))) (CVerify (sa_output a) (Some root))) = 0 <->
     (forall c, ms_v2 signer = Some c -> trusted (w_pki V) (w_clock V) [r] (sc_cert c) (sc_chain c)) /\
     (forall c, ms_stamp signer = Some c -> trusted (w_pki V) (w_clock V) [r] (sc_cert c) [])).
Proof.
  intros W V s a z signer root pem r HC. intros. rewrite (proj1 (C86_status V _ _)).
  match goal with H : snd (program W s (CSign a)) = 0 |- _ => rewrite (proj1 (C86_status W s _)) in H; rename H into Z end.
  rewrite program_execute. cbn [fst]. cbn [execute] in *. rewrite HC in *.
  destruct (cli_sign _ _ _ _ _ _ _ _) as (steps & res) eqn:E. cbn [fst snd] in *. subst res.
  eapply (C50_sign_verify (w_profile W) (w_profile V) (w_crypto V) (w_pki V) (w_keys W) (w_rest W) (w_builtin V) (w_clock W) (w_clock V)
    (w_reads W) (w_reads V) s a z steps signer root pem r); eauto.
Qed.
Print Assumptions C86_sign_verify.

(** ** Crashes *)
(** Release builds of verify, info and digest never crash.  A debug build of
    "verify" crashes on a module whose block declares two sizes or, once it has a
    root certificate, whose block is behind the end record; *)
Theorem C86_verify_crash : forall W s file root, (forall f, fs_read s file = Some f -> len f < 2 ^ 63) ->
  snd (program W s (CVerify file root)) = 101 <->
  w_profile W = Debug /\ exists f, fs_read s file = Some f /\
    (stops_block f \/ stops_signed f /\ exists roots, roots_given (w_pki W) (w_builtin W) s root roots).
Proof. intros W s file root H. rewrite (proj2 (proj2 (C86_status W s _))). now apply verify_panic. Qed.
Print Assumptions C86_verify_crash.

(** "info" if the last block declares two sizes; *)
Theorem C86_info_crash : forall W s file, (forall f, fs_read s file = Some f -> len f < 2 ^ 64) ->
  snd (program W s (CInfo file)) = 101 <->
  w_profile W = Debug /\ exists f, fs_read s file = Some f /\ sizes_differ f 0.
Proof. intros W s file H. rewrite (proj2 (proj2 (C86_status W s _))). now apply info_panic. Qed.
Print Assumptions C86_info_crash.

(** "digest" as well if there is no block and the directory is behind the end
    record, and for ELF files if the sizes of the sections add up to 2^64. *)
Theorem C86_digest_crash : forall W s a, (forall f, fs_read s (da_input a) = Some f -> len f < 2 ^ 63) ->
  snd (program W s (CDigest a)) = 101 <->
  w_profile W = Debug /\ exists f x y, fs_read s (da_input a) = Some f /\ signable_open (w_rest W) (Some f) = Ok x /\
    choose_sections x (da_sections a) = Ok y /\
    match y with
    | SModule _ => stops_block f \/ stops_signed f \/ stops_unsigned f
    | SElf g => exists l, elf_digest_regions (w_rest W) g = Ok l /\ 2 ^ 64 <= sizes l
    end.
Proof. intros W s a H. rewrite (proj2 (proj2 (C86_status W s _))). now apply digest_panic. Qed.
Print Assumptions C86_digest_crash.

(** A release build of "sign" crashes at most for ELF files with absurd sizes. *)
Theorem C86_sign_crash : forall W s a, w_profile W = Release ->
  (forall f, fs_read s (sa_input a) = Some f -> len f < 2 ^ 63) -> snd (program W s (CSign a)) = 101 ->
  exists t e sh, fs_read s (sa_input a) = Some (ELFMAG ++ t) /\ elf_parse (w_rest W) (ELFMAG ++ t) = Ok e /\ shstrtab_header e = Some sh /\
    (2 ^ 59 < len (ELFMAG ++ t) \/ 2 ^ 62 < sh_addralign sh \/
     exists x b, cli_sign_block Release (w_crypto W) (w_keys W) (w_rest W) (w_clock W) (w_reads W) s a = Ok (x, b) /\ 2 ^ 59 < len (block_to_u8 b)).
Proof. intros W s a HP Hl H. rewrite (proj2 (proj2 (C86_status W s _))) in H. now apply (sign_release W s a HP Hl H). Qed.
Print Assumptions C86_sign_crash.

(** ** Examples *)
Definition toy_world (p : profile) : world := mkWorld p toyC toyKL toyK (fun b => b) all_ok [] (Some 500) fr2.

(** The world in which the example module is signed and verified. *)
Lemma sign_program : forall p s a, fst (program (toy_world p) s (CSign a)) = fst (cli_sign p toyC toyKL all_ok (Some 500) fr2 s a) /\
  snd (program (toy_world p) s (CSign a)) = exit_status (snd (cli_sign p toyC toyKL all_ok (Some 500) fr2 s a)).
Proof. intros. rewrite program_execute. split; reflexivity. Qed.
Example C86_example :
  snd (program (toy_world Debug) (toy_fs (plain ex_zip)) (CSign toy_args)) = 0 /\
  run (toy_fs (plain ex_zip)) (fst (program (toy_world Debug) (toy_fs (plain ex_zip)) (CSign toy_args))) = signed_fs.
Proof. split; [vm_compute; reflexivity|]. rewrite (proj1 (sign_program _ _ _)). exact eq_refl. Qed.
Example C86_verify_example :
  snd (program (toy_world Debug) signed_fs (CVerify (bstr "out") (Some (bstr "root")))) = 0 /\
  snd (program (toy_world Debug) signed_fs (CVerify (bstr "out") None)) = 1.
Proof. split; vm_compute; reflexivity. Qed.

(** Two file systems that differ in everything the command line does not name. *)
Definition other_fs (data : bytes) : fs :=
  mkFs (fun p => file_no p + 100) (fun n => if n =? 102 then None else if n <? 100 then Some (bstr "x") else fs_data (toy_fs data) (n - 100))
    (fun _ => true) (fun _ => true).
Example C86_depends_example : forall data,
  same_inputs (toy_fs data) (other_fs data) (CSign toy_args) /\ same_output (toy_fs data) (other_fs data) (CSign toy_args) /\
  fs_read (toy_fs data) (bstr "out") <> fs_read (other_fs data) (bstr "out").
Proof.
  intros data. split; [repeat constructor|]. split; [|discriminate].
  intros o [= <-]. split; [reflexivity|]. repeat (constructor; [split; vm_compute; discriminate|]). constructor.
Qed.

(** Debug builds crash, release builds do not. *)
Definition differ_zip : bytes :=
  let b := le 8 99 ++ le 8 24 ++ MAGIC in b ++ end_record ex_zip (len b).
Definition digest_of : command := CDigest (mkDigestArgs (bstr "in") false None [] Hex).
Example C86_crash_example :
  snd (program (toy_world Debug) (toy_fs differ_zip) (CVerify (bstr "in") None)) = 101 /\
  snd (program (toy_world Release) (toy_fs differ_zip) (CVerify (bstr "in") None)) = 1 /\
  snd (program (toy_world Debug) (toy_fs differ_zip) (CInfo (bstr "in"))) = 101 /\
  snd (program (toy_world Release) (toy_fs differ_zip) (CInfo (bstr "in"))) = 1 /\
  snd (program (toy_world Debug) (toy_fs past_zip) digest_of) = 101 /\
  snd (program (toy_world Release) (toy_fs past_zip) digest_of) = 0.
Proof. repeat split; vm_compute; reflexivity. Qed.
