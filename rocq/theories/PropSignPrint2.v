(** PropSignPrint2.v - C78 and C79: every line of the sign and digest commands,
    and their order; C56: the option --elf-section.

    Vocabulary: SignPrintSpec.v ([sign_said], [digest_said]: the condition of every
    line; [sign_script], [digest_script]: the lines of a complete run in order;
    [opened_as]: how the file is opened with the option --elf-section). *)
From Verif Require Import Base BaseFacts Utils Algorithms Common Utf8 ElfInfo SigningBlock
  Spec Zip Digest Module Signable ZipSpec Toy Signer Verifier VerifySpec SignSpec ToyVerify
  Keystore Elf ElfSpec ToyElf Cli CliSpec ToyCli PropElf PropCli Base64 SignPrint SignPrintSpec SignPrintFacts SignPrintFacts2 OptionFacts PropSignPrint.
From Coq Require Import Strings.String Sorting.Permutation.
Open Scope N_scope.

(** * C78 *)
Theorem C78_lines : forall p C L rest clk ds s a y,
  In y (fst (sign_prints p C L rest clk ds s a)) <-> sign_said p C L rest clk ds s a y.
Proof. exact sign_progress. Qed.
Print Assumptions C78_lines.
(** The lines are those of a complete run up to the point where it failed. *)
Theorem C78_order : forall p C L rest clk ds s a,
  exists stamp f regions algos n later, sign_script a stamp f regions algos n = fst (sign_prints p C L rest clk ds s a) ++ later /\
    (snd (cli_sign p C L rest clk ds s a) = Ok tt <-> later = []).
Proof. exact sign_order. Qed.
Print Assumptions C78_order.
(** A run that fails because of the stamp key and one that fails at the file. *)
Example C78_lines_example :
  let a k f := mkSignArgs f (bstr "out") key1 k [] in
  fst (sign_prints Debug toyC toyKL all_ok (Some 500) fr2 (toy_fs (plain ex_zip)) (a (mkKeyArgs None (Some (bstr "none")) (Some (bstr "cert2")) None) (bstr "in"))) =
    [SStart; SInput (bstr "in"); SOutput (bstr "out"); SBlank; SKey] /\
  fst (sign_prints Debug toyC toyKL all_ok (Some 500) fr2 (toy_fs (plain ex_zip)) (a key2 (bstr "none"))) =
    [SStart; SInput (bstr "none"); SOutput (bstr "out"); SBlank; SKey; SStampKey].
Proof. split; vm_compute; reflexivity. Qed.

(** * C79 *)
Theorem C79_lines : forall p C rest base64 ds s a y,
  In y (fst (digest_prints p C rest base64 ds s a)) <-> digest_said p C rest base64 ds s a y.
Proof. exact digest_progress. Qed.
Print Assumptions C79_lines.
Theorem C79_order : forall p C rest base64 ds s a,
  exists f regions total text later, digest_script a f regions total text = fst (digest_prints p C rest base64 ds s a) ++ later /\
    ((exists o, snd (cli_digest p C rest base64 ds s a) = Ok o) <-> later = []).
Proof. exact digest_order. Qed.
Print Assumptions C79_order.
(** The debug build stops after the region with which the sum overflows. *)
Example C79_lines_example :
  let a := mkDigestArgs (bstr "in") false None [str ".text"; str ".rodata"] Hex in
  len (pick dregion_line (fst (digest_prints Debug toyC all_ok b64_encode fr2 (toy_fs toy_wrap) a))) = 2 /\
  pick total_line (fst (digest_prints Debug toyC all_ok b64_encode fr2 (toy_fs toy_wrap) a)) = [] /\
  In (DAlgorithm false) (fst (digest_prints Release toyC all_ok b64_encode fr2 (toy_fs toy_wrap) a)).
Proof. cbv zeta. split; [vm_compute; reflexivity|]. split; [vm_compute; reflexivity|]. vm_compute. auto 10. Qed.

(** * C56 - the option *)
(** How the commands open a file.  Without the option ".text" and ".rodata" are
    selected; a module is only opened without it. *)
Theorem C56_opened : forall rest file l x, opened_as rest (Some file) l x <->
  match x with
  | SModule m => m = module_new file /\ l = [] /\ detect_file_format file = Ok FModule
  | SElf f => el_data f = file /\ (exists t, file = ELFMAG ++ t) /\ (exists e, elf_parse rest file = Ok e) /\
      match l with
      | [] => el_signed f = [str ".text"; str ".rodata"]
      | _ => el_signed f <> [] /\ (exists ts, Forall2 trimmed l ts /\ el_signed f = filter nonempty ts) /\
             Forall (fun s => ~ Forall2 same_letter (utf8_enc s) KSU_SIGN_SECTION) (el_signed f)
      end
  end.
Proof. exact opened_exact. Qed.
Print Assumptions C56_opened.
Theorem C56_module_sign : forall p C L rest clk ds s a file,
  fs_read s (sa_input a) = Some file -> (forall t, file <> ELFMAG ++ t) -> sa_sections a <> [] ->
  exists e, cli_sign p C L rest clk ds s a = ([], Err e).
Proof. exact sign_module_option. Qed.
Print Assumptions C56_module_sign.
Theorem C56_module_digest : forall p C rest base64 ds s a file,
  fs_read s (da_input a) = Some file -> (forall t, file <> ELFMAG ++ t) -> da_sections a <> [] ->
  exists e, cli_digest p C rest base64 ds s a = ([], Err e).
Proof. exact digest_module_option. Qed.
Print Assumptions C56_module_digest.
(** The regions of an ELF file are exactly the sections named by the option. *)
Theorem C56_regions : forall rest p file l x regions, opened_as rest (Some file) l x -> signable_regions p rest x (Some file) = Ok regions ->
  (exists t, file = ELFMAG ++ t) ->
  exists e names, elf_parse rest file = Ok e /\ Permutation (map rg_name regions) (map utf8_enc names) /\
    match l with [] => names = [str ".text"; str ".rodata"] | _ => exists ts, Forall2 trimmed l ts /\ names = filter nonempty ts end /\
    Forall (fun g => exists s, first_named e (rg_name g) s /\ rg_offset g = sh_offset s /\ rg_size g = sh_size s /\ sh_type s <> SHT_NOBITS /\ sh_size s <> 0) regions.
Proof. exact digested_names. Qed.
Print Assumptions C56_regions.
Example C56_option_example :
  let a f l := mkDigestArgs f false None l Hex in
  let go file l := digest_prints Debug toyC all_ok b64_encode fr2 (toy_fs file) (a (bstr "in") l) in
  (exists e, snd (snd (go (plain ex_zip) [str ".text"])) = Err e) /\
  map rg_name (pick dregion_line (fst (go (el_data toy64) [str " .text "; str ""]))) = [bstr ".text"] /\
  map rg_name (pick dregion_line (fst (go (el_data toy64) []))) = [bstr ".text"; bstr ".rodata"].
Proof. cbv zeta. split; [eexists; vm_compute; reflexivity|]. split; vm_compute; reflexivity. Qed.
