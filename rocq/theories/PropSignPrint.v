(** PropSignPrint.v - properties C78 and C79: what the sign and digest commands print.

    Vocabulary: SignPrintSpec.v ([pick f lines]: the values in the lines of one
    kind), RegionSpec.v, ZipSpec.v, ElfSpec.v and CliSpec.v.  [sign_prints] and
    [digest_prints] give the lines, the effects on the file system and the exit
    status. *)
From Verif Require Import Base BaseFacts Utils Algorithms Common SchemeV2 SourceStamp Utf8 ElfInfo SigningBlock Wire
  Spec Zip Digest Module Signable ZipSpec RegionSpec Toy Signer Verifier VerifySpec SignSpec ToyVerify
  Keystore Elf ElfSpec ToyElf Cli CliSpec ToyCli PropElf PropCli Base64 SignPrint SignPrintSpec SignPrintFacts.
From Coq Require Import Strings.String Lia.
Open Scope N_scope.

(** * C78 - sign *)
(** Success is announced exactly if the exit status is 0, in the last lines.
    Nothing has been written if the line before the writing is missing. *)
Theorem C78_status : forall p C L rest clk ds s a lines steps r,
  sign_prints p C L rest clk ds s a = (lines, (steps, r)) ->
  cli_sign p C L rest clk ds s a = (steps, r) /\
  (In SSuccess lines <-> r = Ok tt) /\
  (r = Ok tt -> exists l, lines = l ++ [SSuccess; SOutputFile (sa_output a)]) /\
  (~ In SWriting lines -> steps = [] /\ r <> Ok tt).
Proof. exact sign_print_status. Qed.
Print Assumptions C78_status.

(** The keys and the algorithms: a stamp key is announced exactly if there is
    one, and a digest is announced once for every algorithm of a key. *)
Theorem C78_keys : forall p C L rest clk ds s a lines steps,
  sign_prints p C L rest clk ds s a = (lines, (steps, Ok tt)) ->
  exists signer, cli_signer L s a = Ok signer /\ In SKey lines /\ (In SStampKey lines <-> ms_stamp signer <> None) /\
    NoDup (pick digest_line lines) /\
    (forall x, In x (pick digest_line lines) <-> exists c, (ms_v2 signer = Some c \/ ms_stamp signer = Some c) /\ sc_algo c = x) /\
    pick count_line lines = [len (pick digest_line lines)].
Proof. exact sign_print_keys. Qed.
Print Assumptions C78_keys.

(** The regions of a module are all of the file but the bytes between the
    content and the directory (the old signing block). *)
Theorem C78_regions : forall p C L rest clk ds s a lines steps file e,
  sign_prints p C L rest clk ds s a = (lines, (steps, Ok tt)) -> fs_read s (sa_input a) = Some file ->
  (forall t, file <> ELFMAG ++ t) -> len file < 2 ^ 63 -> find_eocd file (len file) = Ok e ->
  p = Debug \/ eo_cd_offset e <= eo_off e ->
  exists content mid cdr h off t, regions_of p file e content mid cdr h off t /\
    pick format_line lines = [FModule] /\
    pick region_line lines =
      [mkRegion (bstr "zip_entries") 0 (len content);
       mkRegion (bstr "central_directory") (len (content ++ mid)) (len cdr);
       mkRegion (bstr "eocd") (len (content ++ mid ++ cdr)) (len (h ++ off ++ t))].
Proof. exact sign_print_regions. Qed.
Print Assumptions C78_regions.

(** The size announced is that of the block in the output: the output is the
    unsigned archive with so many bytes inserted, whether or not the input was
    signed. *)
Theorem C78_module : forall p C L rest clk ds s a lines steps z file out, crypto_ok C ->
  sign_prints p C L rest clk ds s a = (lines, (steps, Ok tt)) -> fs_read s (sa_input a) = Some file ->
  (forall t, file <> ELFMAG ++ t) -> zip_ok z [] ->
  (file = plain z /\ unsigned z) \/
  (exists b0, built_block b0 /\ file = with_block z (block_to_u8 b0) /\ zip_ok z (block_to_u8 b0) /\ zip_small z (block_to_u8 b0)) ->
  fs_file s (sa_output a) <> fs_file s (sa_input a) ->
  fs_data (run s steps) (fs_file s (sa_output a)) = Some out ->
  exists b, built_block b /\ out = with_block z (block_to_u8 b) /\ pick block_line lines = [len (block_to_u8 b)].
Proof. exact sign_print_module. Qed.
Print Assumptions C78_module.

(** ELF files: the size announced is that of the section in the output, and the
    regions announced are those listed in the block, if it can be read at all
    (C57). *)
Theorem C78_elf : forall p C L rest clk ds s a lines steps t e out,
  crypto_ok C -> Forall scalars (sa_sections a) ->
  fs_read s (sa_input a) = Some (ELFMAG ++ t) -> elf_parse rest (ELFMAG ++ t) = Ok e -> well_named (ELFMAG ++ t) e ->
  sign_prints p C L rest clk ds s a = (lines, (steps, Ok tt)) ->
  fs_data (run s steps) (fs_file s (sa_output a)) = Some out -> fits_class e (len out) -> rest out = true ->
  pick format_line lines = [FElf] /\
  exists e' sh sec, elf_parse rest out = Ok e' /\ first_named e' KSU_SIGN_SECTION sh /\ contents out sh = Some sec /\
    pick block_line lines = [len sec] /\
    (len sec <= 16392 -> forall q names, exists b i, elf_get_signing_block rest q (mkElfFile out names) = Ok (Some b) /\
       In (ElfBlock i) (bk_content b) /\ map listed (ei_sections i) = pick region_line lines).
Proof. exact sign_print_elf. Qed.
Print Assumptions C78_elf.

(** A module and an ELF file that are signed; the lines of both runs. *)
Example C78_example :
  let m := sign_prints Debug toyC toyKL all_ok (Some 500) fr2 (toy_fs (plain ex_zip)) toy_args in
  let e := sign_prints Debug toyC toyKL all_ok (Some 500) fr2 (toy_fs (el_data toy64)) toy_args in
  snd (snd m) = Ok tt /\ snd (snd e) = Ok tt /\
  pick block_line (fst m) = [4096] /\ pick block_line (fst e) = [4160] /\
  pick count_line (fst m) = [2] /\ In SStampKey (fst m) /\
  pick region_line (fst m) = [mkRegion (bstr "zip_entries") 0 36; mkRegion (bstr "central_directory") 36 14; mkRegion (bstr "eocd") 50 24] /\
  pick region_line (fst e) = [mkRegion (bstr ".text") 89 14; mkRegion (bstr ".rodata") 103 14].
Proof.
  cbv zeta. do 5 (split; [vm_compute; reflexivity|]). split; [vm_compute; auto 10|]. split; vm_compute; reflexivity.
Qed.

Example C78_hypotheses :
  (let s := toy_fs (plain ex_zip) in
   fs_read s (sa_input toy_args) = Some (plain ex_zip) /\ (forall t, plain ex_zip <> ELFMAG ++ t) /\ zip_ok ex_zip [] /\ unsigned ex_zip /\
   len (plain ex_zip) < 2 ^ 63 /\ (exists e, find_eocd (plain ex_zip) (len (plain ex_zip)) = Ok e) /\
   fs_file s (sa_output toy_args) <> fs_file s (sa_input toy_args)) /\
  (exists t, el_data toy64 = ELFMAG ++ t) /\ fs_read (toy_fs (el_data toy64)) (sa_input toy_args) = Some (el_data toy64) /\
  elf_parse all_ok (el_data toy64) = Ok toy64_elf /\ well_named (el_data toy64) toy64_elf /\ Forall scalars (sa_sections toy_args) /\
  fits_class toy64_elf (len elf_out) /\ len elf_out = 4928.
Proof.
  split.
  - cbv zeta. split; [reflexivity|]. split; [discriminate|]. split; [apply ex_zip_ok|]. split; [apply ex_unsigned|].
    split; [vm_compute; reflexivity|]. split; [eexists; vm_compute; reflexivity|vm_compute; discriminate].
  - split; [eexists; reflexivity|]. split; [reflexivity|]. split; [vm_compute; reflexivity|]. split; [exact PropElf.toy64_named|].
    split; [constructor|]. split; vm_compute; reflexivity.
Qed.

Lemma announced : forall p C L rest clk ds s a n bo, fs_file s (sa_output a) = n ->
  snd (cli_sign p C L rest clk ds s a) = Ok tt ->
  fs_data (run s (fst (cli_sign p C L rest clk ds s a))) n = Some bo ->
  let '(lines, (steps, r)) := sign_prints p C L rest clk ds s a in
  r = Ok tt /\ In SSuccess lines /\ fs_data (run s steps) (fs_file s (sa_output a)) = Some bo.
Proof.
  intros p C L rest clk ds s a n bo En R1 R2. destruct (sign_prints p C L rest clk ds s a) as [lines [steps r]] eqn:E.
  destruct (C78_status _ _ _ _ _ _ _ _ _ _ _ E) as (S1 & S2 & _). rewrite S1 in R1, R2. cbn [fst snd] in R1, R2. subst n.
  split; [exact R1|]. split; [now apply S2|exact R2].
Qed.
Lemma big_run_eq : big_run = cli_sign Debug toyC toyKL all_ok (Some 500) fr2 big_fs toy_args.
Proof. reflexivity. Qed.
(** Success is also announced for an ELF file whose new signature cannot be
    read. *)
Theorem C78_success_refuted :
  let '(lines, (steps, r)) := sign_prints Debug toyC toyKL all_ok (Some 500) fr2 big_fs toy_args in
  r = Ok tt /\ In SSuccess lines /\ fs_data (run big_fs steps) (fs_file big_fs (sa_output toy_args)) = Some big_out /\
  forall q names, elf_get_signing_block all_ok q (mkElfFile big_out names) = Err EeValue.
Proof.
  destruct C57_refuted as (R1 & R2 & R3). rewrite big_run_eq in R1, R2.
  pose proof (announced Debug toyC toyKL all_ok (Some 500) fr2 big_fs toy_args 2 big_out eq_refl R1 R2) as A.
  destruct (sign_prints Debug toyC toyKL all_ok (Some 500) fr2 big_fs toy_args) as [lines [steps r]].
  destruct A as (A1 & A2 & A3). split; [exact A1|]. split; [exact A2|]. split; [exact A3|exact R3].
Qed.
Print Assumptions C78_success_refuted.

(** * C79 - digest *)
(** The status; a digest is printed exactly if one is computed, and the number of
    bytes dumped exactly if the dump is complete. *)
Theorem C79_status : forall p C rest base64 ds s a lines steps r,
  digest_prints p C rest base64 ds s a = (lines, (steps, r)) ->
  fst (cli_digest p C rest base64 ds s a) = steps /\
  (r = Ok tt <-> exists o, snd (cli_digest p C rest base64 ds s a) = Ok o) /\
  (r = Panic <-> snd (cli_digest p C rest base64 ds s a) = Panic) /\
  pick text_line lines = match snd (cli_digest p C rest base64 ds s a) with Ok (Some t) => [t] | _ => [] end /\
  (pick dumped_line lines <> [] <-> r = Ok tt /\ da_dump a <> None).
Proof. exact digest_print_status. Qed.
Print Assumptions C79_status.

(** The dump is the bytes of the regions listed, in that order, and both numbers
    printed are its length (modulo 2^64). *)
Theorem C79_dump : forall p C rest base64 ds s a lines steps file out,
  digest_prints p C rest base64 ds s a = (lines, (steps, Ok tt)) -> fs_read s (da_input a) = Some file ->
  da_dump a = Some out -> fs_file s (da_input a) <> fs_file s out ->
  exists dump, fs_data (run s steps) (fs_file s out) = Some dump /\
    Forall (region_in file) (pick dregion_line lines) /\ dump = region_bytes file (pick dregion_line lines) /\
    pick total_line lines = [len dump mod 2 ^ 64] /\ pick dumped_line lines = [(len dump mod 2 ^ 64, out)].
Proof. exact digest_print_dump. Qed.
Print Assumptions C79_dump.

(** The total of a run that succeeds is the sum of the sizes listed, modulo 2^64
    in the release build. *)
Theorem C79_total : forall p C rest base64 ds s a lines steps,
  digest_prints p C rest base64 ds s a = (lines, (steps, Ok tt)) ->
  pick total_line lines = [sizes (pick dregion_line lines) mod 2 ^ 64] /\
  (p = Debug -> sizes (pick dregion_line lines) < 2 ^ 64).
Proof.
  intros p C rest base64 ds s a lines steps H.
  destruct (digest_print_regions _ _ _ _ _ _ _ _ _ H) as (x & y & l & _ & _ & _ & -> & -> & E & _). auto.
Qed.
Print Assumptions C79_total.

(** A signed module that is dumped. *)
Example C79_example :
  let '(lines, (steps, r)) := digest_prints Debug toyC all_ok b64_encode fr2 (toy_fs ex_signed) (dump_to (bstr "out")) in
  r = Ok tt /\ pick total_line lines = [74] /\ pick dumped_line lines = [(74, bstr "out")] /\
  len (pick dregion_line lines) = 3 /\ 74 < len ex_signed.
Proof. vm_compute. repeat split. Qed.

(** An ELF file with two sections of 2^63 bytes each, according to its headers. *)
Definition toy_wrap : bytes :=
  toy_elf x64 toy_names toy_text 1 [mkShdr 1 1 0 0 0 (2 ^ 63) 0 0 1 0; mkShdr 7 1 0 0 0 (2 ^ 63) 0 0 1 0].
(** A release build prints their total as 0, and a digest; a debug build stops. *)
Theorem C79_total_refuted :
  let a := mkDigestArgs (bstr "in") false None [str ".text"; str ".rodata"] Hex in
  let go p := digest_prints p toyC all_ok b64_encode fr2 (toy_fs toy_wrap) a in
  snd (snd (go Release)) = Ok tt /\ pick total_line (fst (go Release)) = [0] /\ pick text_line (fst (go Release)) <> [] /\
  snd (snd (go Debug)) = Panic.
Proof.
  cbv zeta. split; [vm_compute; reflexivity|]. split; [vm_compute; reflexivity|]. split; [vm_compute; discriminate|vm_compute; reflexivity].
Qed.
Print Assumptions C79_total_refuted.
