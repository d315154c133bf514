(** PropHistory.v - property C85: signing an ELF file again and again.

    Vocabulary: HistorySpec.v, ElfSpec.v. *)
From Verif Require Import Base BaseFacts Utils Algorithms Common Utf8 ElfInfo SigningBlock Digest Signable ZipSpec Spec Elf ElfSpec
  Verifier VerifySpec Signer Keystore Cli CliSpec HistorySpec HistoryFacts Toy ToyVerify ToyElf ToyCli PropModule PropVerify PropElf PropCli.
From Coq Require Import Strings.String.
Open Scope N_scope.

(** * C85 *)
(** The sections of the first file, and one signature section however often it
    was signed. *)
Theorem C85_sections : forall rest e start bs out,
  elf_parse rest start = Ok e -> well_named start e -> history rest e start bs out -> bs <> [] ->
  exists e', elf_parse rest out = Ok e' /\
   map (section_name e') (ef_sections e') =
    map (section_name e) (ef_sections e) ++
    match find_section_index e KSU_SIGN_SECTION with Some _ => [] | None => [Some KSU_SIGN_SECTION] end /\
   forall i s, nth_error (ef_sections e) i = Some s -> find_section_index e KSU_SIGN_SECTION <> Some i ->
     i <> N.to_nat (eh_shstrndx (ef_header e)) ->
     nth_error (ef_sections e') i = Some s /\ (plain_section start e s -> contents out s = contents start s).
Proof. exact history_sections. Qed.
Print Assumptions C85_sections.

(** The last signature is the one that is read. *)
Theorem C85_last : forall rest e start bs b out p names,
  elf_parse rest start = Ok e -> well_named start e -> built_block b ->
  history rest e start (bs ++ [b]) out -> elf_get_signing_block rest p (mkElfFile out names) = Ok (Some b).
Proof. exact history_last. Qed.
Print Assumptions C85_last.

Theorem C85_digest : forall rest e start bs out C a names,
  elf_parse rest start = Ok e -> well_named start e -> history rest e start bs out ->
  Forall (ordinary e start) names ->
  elf_digest rest C (mkElfFile out names) a = elf_digest rest C (mkElfFile start names) a /\
  resolved_sections rest (mkElfFile out names) = resolved_sections rest (mkElfFile start names).
Proof. exact history_digest. Qed.
Print Assumptions C85_digest.

(** All earlier blocks are still in the file, at different places: it grows with
    every signature. *)
Theorem C85_old_blocks : forall rest e start bs out,
  elf_parse rest start = Ok e -> well_named start e -> history rest e start bs out ->
  len start + total bs <= len out /\
  forall l1 b l2, bs = l1 ++ b :: l2 -> exists off, len start + total l1 <= off /\
    get_range out off (off + len (block_to_u8 b)) = Some (block_to_u8 b).
Proof. exact history_old. Qed.
Print Assumptions C85_old_blocks.

(** The sign command, run in place. *)
Theorem C85_in_place : forall rest e file s0 start n s,
  fs_read s0 file = Some start -> elf_parse rest start = Ok e -> well_named start e ->
  signed_in_place rest e file s0 n s ->
  exists bs out, fs_read s file = Some out /\ history rest e start bs out /\ List.length bs = n /\
    len start + 4096 * N.of_nat n <= len out.
Proof. exact in_place_grows. Qed.
Print Assumptions C85_in_place.

(** ** Examples *)
Example C85_example :
  elf_parse all_ok (el_data toy64) = Ok toy64_elf /\ well_named (el_data toy64) toy64_elf /\
  history all_ok toy64_elf (el_data toy64) [ex_block; ex_block2] resigned64 /\ built_block ex_block2 /\ ex_block <> ex_block2 /\
  Forall (ordinary toy64_elf (el_data toy64)) [str ".text"; str ".rodata"].
Proof.
  split; [exact toy64_parse|]. split; [exact toy64_named|]. split.
  - apply (again all_ok toy64_elf (el_data toy64) [ex_block] toy64_signed [] ex_block2 resigned64); [|vm_compute; reflexivity|exact I|reflexivity].
    apply (again all_ok toy64_elf (el_data toy64) [] (el_data toy64) (el_signed toy64) ex_block toy64_signed); [constructor| |exact I|reflexivity].
    exact toy64_write.
  - split; [exact ex_block2_built|]. split; [vm_compute; discriminate|].
    pose proof toy_ordinary as H. inversion H as [|? ? H1 H2]; subst. inversion H2 as [|? ? H3 H4]; subst.
    apply Forall_cons; [assumption|apply Forall_cons; [assumption|apply Forall_nil]].
Qed.

(** Two runs in place, with the keys of C50. *)
Definition here_args : sign_args := mkSignArgs (bstr "in") (bstr "in") key1 key2 [].
Definition sign_here (s : fs) : fs := run s (fst (cli_sign Debug toyC toyKL all_ok (Some 500) fr2 s here_args)).
Definition elf_fs : fs := toy_fs (el_data toy64).
Lemma sign_here_run s : cli_sign Debug toyC toyKL all_ok (Some 500) fr2 s here_args =
  (fst (cli_sign Debug toyC toyKL all_ok (Some 500) fr2 s here_args), snd (cli_sign Debug toyC toyKL all_ok (Some 500) fr2 s here_args)).
Proof. apply surjective_pairing. Qed.
Lemma sign_here_step n s : signed_in_place all_ok toy64_elf (bstr "in") elf_fs n s ->
  snd (cli_sign Debug toyC toyKL all_ok (Some 500) fr2 s here_args) = Ok tt ->
  match fs_read (sign_here s) (bstr "in") with Some _ => true | None => false end = true ->
  signed_in_place all_ok toy64_elf (bstr "in") elf_fs (S n) (sign_here s).
Proof.
  intros H1 H2 H3. destruct (fs_read (sign_here s) (bstr "in")) as [out|] eqn:E; [|discriminate].
  eapply (one_more all_ok toy64_elf (bstr "in") elf_fs n s Debug toyC toyKL (Some 500) fr2 here_args _ out H1 (toy_crypto_ok _));
    try reflexivity; [exact (Forall_nil _)| |exact E].
  rewrite sign_here_run, H2. reflexivity.
Qed.
Example C85_in_place_example : signed_in_place all_ok toy64_elf (bstr "in") elf_fs 2 (sign_here (sign_here elf_fs)) /\
  fs_read elf_fs (bstr "in") = Some (el_data toy64) /\
  match fs_read (sign_here (sign_here elf_fs)) (bstr "in") with Some out => 8192 <? len out | None => false end = true.
Proof.
  split; [|split; [reflexivity|vm_compute; reflexivity]].
  apply sign_here_step; [apply sign_here_step; [constructor| |]| |]; vm_compute; reflexivity.
Qed.
