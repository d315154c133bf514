(** PropNoElfCli.v - C95: the command-line tool in builds with and without ELF support.

    [program] is the default build, [program_n] (NoElfCli.v) a build without the cargo
    feature [elf]; both yield what is done to the files and the exit status.
    NoElfCliSpec.v: [starts_elf f]; [disputed p f], [disputed_info p f]: the block that
    sign, digest and verify, respectively info, find in [f] has a value that claims to
    be a section list and is none; [holds s p P]: [P] holds of what can be read at [p]. *)
From Verif Require Import Base BaseFacts Utils Algorithms Common SchemeV2 SourceStamp ElfInfo Wire SigningBlock Zip Digest Module Signable ZipSpec
  Toy Signer Verifier ModuleVerify VerifySpec ToyVerify Utf8 Keystore Elf ToyElf Cli ToyCli Main MainFacts PropMain NoElf NoElfSpec NoElfFacts PropNoElf
  NoElfCli NoElfCliSpec NoElfCliFacts.
From Coq Require Import Strings.String.
Open Scope N_scope.
Open Scope list_scope.

(** * C95 *)
Lemma alike_program (x y : list step * res unit) : alike_results x y ->
  (let '(l, r) := y in (l, exit_status r)) = (let '(l, r) := x in (l, exit_status r)).
Proof. destruct x as [l r], y as [l' r']. intros [E [E'|(e & e' & E' & E'')]]; cbn [fst snd] in *; subst; reflexivity. Qed.

(** sign and digest do the same to the files and exit alike, unless the file starts
    like an ELF file or is disputed. *)
Theorem C95_sign : forall W s a,
  holds s (sa_input a) (fun f => len f < 2 ^ 64 /\ ~ starts_elf f /\ ~ disputed (w_profile W) f) ->
  program_n W s (CSign a) = program W s (CSign a).
Proof. intros W s a H. unfold program, program_n, execute, execute_n. apply alike_program, sign_alike, H. Qed.
Print Assumptions C95_sign.
(** The digest printed is the same, too. *)
Theorem C95_digest : forall W s a,
  holds s (da_input a) (fun f => len f < 2 ^ 64 /\ ~ starts_elf f /\ ~ disputed (w_profile W) f) ->
  program_n W s (CDigest a) = program W s (CDigest a) /\
  forall out, snd (cli_digest (w_profile W) (w_crypto W) (w_rest W) (w_base64 W) (w_reads W) s a) = Ok out <->
              snd (cli_digest_n (w_profile W) (w_crypto W) (w_base64 W) (w_reads W) s a) = Ok out.
Proof.
  intros W s a H. pose proof (digest_alike _ (w_crypto W) (w_rest W) (w_base64 W) (w_reads W) s a H) as A.
  unfold program, program_n, execute, execute_n.
  destruct (cli_digest _ _ _ _ _ _ _) as [l r], (cli_digest_n _ _ _ _ _ _) as [l' r'].
  destruct A as [E [E'|(e & e' & E' & E'')]]; cbn [fst snd] in *; subst; split; try reflexivity. intros out. split; discriminate.
Qed.
Print Assumptions C95_digest.

(** verify: whatever the default build accepts the other accepts as well, and they
    differ on disputed files only. *)
Theorem C95_verify : forall W s file root, holds s file (fun f => len f < 2 ^ 64) ->
  (snd (program W s (CVerify file root)) = 0 -> snd (program_n W s (CVerify file root)) = 0) /\
  (holds s file (fun f => ~ disputed (w_profile W) f) -> program_n W s (CVerify file root) = program W s (CVerify file root)).
Proof.
  intros W s file root H. unfold program, program_n, execute, execute_n. cbn [snd]. split.
  - intros V. rewrite verify_more; [reflexivity|exact H|]. destruct (cli_verify _ _ _ _ _ _ _ _ _) as [[]|?|]; [reflexivity|discriminate..].
  - intros D. rewrite verify_alike'; [reflexivity|]. intros f F. split; [now apply H|now apply D].
Qed.
Print Assumptions C95_verify.

(** info: what the default build displays the other displays as well, with the section
    lists as unknown values; they differ on disputed files only. *)
Theorem C95_info : forall W s file, holds s file (fun f => len f < 2 ^ 64) ->
  (forall o, cli_info (w_profile W) (w_crypto W) (w_pki W) (w_builtin W) (w_clock W) s file = Ok o ->
     exists o', cli_info_n (w_profile W) (w_crypto W) (w_pki W) (w_builtin W) (w_clock W) s file = Ok o' /\
       same_block (io_block o) (io_block o') /\ io_v2 o' = io_v2 o /\ io_stamp o' = io_stamp o) /\
  (holds s file (fun f => ~ disputed_info (w_profile W) f) -> program_n W s (CInfo file) = program W s (CInfo file)).
Proof.
  intros W s file H. pose proof (info_alike (w_profile W) (w_crypto W) (w_pki W) (w_builtin W) (w_clock W) s file H) as A.
  unfold program, program_n, execute, execute_n.
  destruct (cli_info _ _ _ _ _ _ _) as [o|e|], (cli_info_n _ _ _ _ _ _ _) as [o'|e'|]; try contradiction; split; try discriminate; try reflexivity.
  - intros ? [= <-]. exists o'. split; [reflexivity|exact A].
  - intros D. destruct A as (f & F & A). destruct (D f F A).
Qed.
Print Assumptions C95_info.

(** A disputed file makes every command of the default build fail, without a change
    to any file. *)
Theorem C95_disputed : forall W s input f, fs_read s input = Some f -> len f < 2 ^ 64 ->
  (disputed (w_profile W) f ->
     (forall root, program W s (CVerify input root) = ([], 1)) /\
     (~ starts_elf f -> (forall a, sa_input a = input -> program W s (CSign a) = ([], 1)) /\
                        (forall a, da_input a = input -> program W s (CDigest a) = ([], 1)))) /\
  (disputed_info (w_profile W) f -> program W s (CInfo input) = ([], 1)).
Proof.
  intros W s input f F Hl. unfold program, execute. split; [intros D; split; [|intros NE; split]|intros D].
  - intros root. now rewrite (verify_disputed _ _ _ _ _ _ _ _ _ f F Hl D).
  - intros a <-. destruct (sign_disputed (w_profile W) (w_crypto W) (w_keys W) (w_rest W) (w_clock W) (w_reads W) s a f F Hl NE D) as [e ->]. reflexivity.
  - intros a <-. destruct (digest_disputed (w_profile W) (w_crypto W) (w_rest W) (w_base64 W) (w_reads W) s a f F Hl NE D) as [e ->]. reflexivity.
  - destruct (info_disputed (w_profile W) (w_crypto W) (w_pki W) (w_builtin W) (w_clock W) s input f F Hl D) as [e ->]. reflexivity.
Qed.
Print Assumptions C95_disputed.

(** The build without ELF support refuses --elf-section, and files that start like an
    ELF file and have no end record of an archive, without a change to any file. *)
Theorem C95_sections : forall W s,
  (forall a, sa_sections a <> [] -> program_n W s (CSign a) = ([], 1)) /\
  (forall a, da_sections a <> [] -> program_n W s (CDigest a) = ([], 1)).
Proof.
  intros W s. unfold program_n, execute_n. split; intros a S.
  - destruct (sign_sections_n (w_profile W) (w_crypto W) (w_keys W) (w_clock W) (w_reads W) s a S) as [e ->]. reflexivity.
  - destruct (digest_sections_n (w_profile W) (w_crypto W) (w_base64 W) (w_reads W) s a S) as [e ->]. reflexivity.
Qed.
Print Assumptions C95_sections.
Theorem C95_elf : forall W s input f, fs_read s input = Some f -> starts_elf f -> (forall e, find_eocd f (len f) <> Ok e) ->
  (forall a, sa_input a = input -> program_n W s (CSign a) = ([], 1)) /\
  (forall a, da_input a = input -> program_n W s (CDigest a) = ([], 1)).
Proof.
  intros W s input f F E N. unfold program_n, execute_n. split; intros a <-.
  - destruct (sign_elf_n (w_profile W) (w_crypto W) (w_keys W) (w_clock W) (w_reads W) s a f F E N) as [e ->]. reflexivity.
  - destruct (digest_elf_n (w_profile W) (w_crypto W) (w_base64 W) (w_reads W) s a f F E N) as [e ->]. reflexivity.
Qed.
Print Assumptions C95_elf.

(** ** Examples *)
(** The example module is signed and accepted by both builds; it is neither ELF nor
    disputed. *)
Lemma not_ok {A} (x : res A) : match x with Ok _ => false | _ => true end = true -> forall a, x <> Ok a.
Proof. destruct x; [discriminate|intros _ ?; discriminate..]. Qed.
Example C95_example :
  (let s := toy_fs (plain ex_zip) in
   holds s (bstr "in") (fun f => len f < 2 ^ 64 /\ ~ starts_elf f /\ ~ disputed Debug f) /\
   snd (program (toy_world Debug) s (CSign toy_args)) = 0) /\
  snd (program_n (toy_world Debug) signed_fs (CVerify (bstr "out") (Some (bstr "root")))) = 0.
Proof.
  split; [split|]; [|vm_compute; reflexivity..]. intros f [= <-]. split; [vm_compute; reflexivity|]. split.
  - intros [t E]. discriminate E.
  - intros (c & E & _). revert E. apply not_ok. vm_compute. reflexivity.
Qed.
(** The disputed module: the default build refuses it everywhere; the other accepts it
    and signs it again, and then both accept it. *)
Definition disputed_fs : fs := toy_fs (with_list bad_list).
Definition repaired_fs : fs := run disputed_fs (fst (program_n (toy_world Debug) disputed_fs (CSign toy_args))).
Definition statuses (prog : world -> fs -> command -> list step * N) : list N :=
  map (fun c => snd (prog (toy_world Debug) disputed_fs c))
    [CSign toy_args; CVerify (bstr "in") (Some (bstr "root")); CInfo (bstr "in"); CDigest (mkDigestArgs (bstr "in") false None [] Hex)].
Lemma ok_some {A} (P : A -> Prop) (x : res A) (b : A -> bool) : match x with Ok a => b a | _ => false end = true -> (forall a, b a = true -> P a) -> exists a, x = Ok a /\ P a.
Proof. destruct x as [a|e|]; [|discriminate..]. intros B H. exists a. auto. Qed.
Definition ends_with_bad (c : signing_block) : bool :=
  match bk_content c with [_; _; BaseBlock r] => (rw_id r =? ELF_SECTION_INFO_BLOCK_ID) && beq (rw_data r) [x01] | _ => false end.
Lemma ends_bad c : ends_with_bad c = true -> Exists no_list (bk_content c).
Proof.
  unfold ends_with_bad. destruct (bk_content c) as [|x [|y [|[r| | |] [|]]]]; try discriminate. intros [I D]%andb_prop.
  right. right. left. exists r. split; [reflexivity|]. split; [now apply N.eqb_eq|]. apply beq_eq in D. rewrite D.
  intros i [used [more [E [raws [_ [-> _]]]]]]. discriminate E.
Qed.
Example C95_disputed_example :
  disputed Debug (with_list bad_list) /\ disputed_info Debug (with_list bad_list) /\
  statuses program = [1; 1; 1; 1] /\ statuses program_n = [0; 0; 0; 0] /\
  snd (program (toy_world Debug) repaired_fs (CVerify (bstr "out") (Some (bstr "root")))) = 0.
Proof.
  split; [apply (ok_some _ _ ends_with_bad); [vm_compute; reflexivity|exact ends_bad]|].
  split; [apply (ok_some _ _ ends_with_bad); [vm_compute; reflexivity|exact ends_bad]|].
  split; [vm_compute; reflexivity|]. split; vm_compute; reflexivity.
Qed.
(** The ELF file that the default build signs. *)
Example C95_elf_example : let s := toy_fs (el_data toy64) in
  fs_read s (bstr "in") = Some (el_data toy64) /\ starts_elf (el_data toy64) /\ (forall e, find_eocd (el_data toy64) (len (el_data toy64)) <> Ok e) /\
  snd (program (toy_world Debug) s (CSign toy_args)) = 0 /\ program_n (toy_world Debug) s (CSign toy_args) = ([], 1).
Proof.
  intros s. split; [reflexivity|]. split; [exists (dropN 4 (el_data toy64)); vm_compute; reflexivity|].
  split; [apply not_ok; vm_compute; reflexivity|]. split; vm_compute; reflexivity.
Qed.
