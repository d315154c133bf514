(** PropElfVerify.v - properties C81 and C82: checking the signatures of ELF
    files with the library.

    Vocabulary: ElfVerifySpec.v, ElfSpec.v, VerifySpec.v, SignSpec.v, CliSpec.v. *)
From Verif Require Import Base BaseFacts Utils Algorithms Common SchemeV2 SourceStamp Utf8 ElfInfo
  SigningBlock Zip ZipSpec Digest Module Signable Signer SignSpec Verifier VerifySpec EndToEnd Elf ElfSpec Cli CliSpec IgnoredSpec Unified
  ElfVerifySpec ElfVerifyFacts Toy ToyVerify ToyElf ToyCli PropVerify PropElf PropCli.
From Coq Require Import Permutation Strings.String.
Open Scope N_scope.

(** * C81 *)
(** What the sign command writes for an ELF file, if it can be read back (C57),
    lists the signed sections; a caller who computes the digests of the sections
    listed and verifies gets a valid result exactly if the certificates are
    trusted. *)
Theorem C81_end_to_end : forall p q C L K rest clk now ds roots s a t e steps out signer chosen names b,
  crypto_ok C -> Forall scalars (sa_sections a) ->
  fs_read s (sa_input a) = Some (ELFMAG ++ t) -> elf_parse rest (ELFMAG ++ t) = Ok e -> well_named (ELFMAG ++ t) e ->
  cli_sign p C L rest clk ds s a = (steps, Ok tt) ->
  fs_data (run s steps) (fs_file s (sa_output a)) = Some out -> fits_class e (len out) -> rest out = true ->
  asked (sa_sections a) chosen -> Forall (ordinary e (ELFMAG ++ t)) chosen ->
  cli_signer L s a = Ok signer ->
  (forall c, ms_v2 signer = Some c \/ ms_stamp signer = Some c -> certified C K c) ->
  elf_get_signing_block rest q (mkElfFile out names) = Ok (Some b) ->
  exists i, section_lists b = [i] /\ Permutation (listed_names i) chosen /\
    set_signed_sections (mkElfFile out names) (listed_names i) = Ok (mkElfFile out (listed_names i)) /\
    (forall x, exists d, elf_digest rest C (mkElfFile out (listed_names i)) x = Ok d) /\
    forall ctx,
      (forall c, ms_v2 signer = Some c \/ ms_stamp signer = Some c ->
         exists d, elf_digest rest C (mkElfFile out (listed_names i)) (sc_algo c) = Ok d /\ computed ctx (sc_algo c) d) ->
      let r := verify_all_with_digest C K now (configured K roots) b (Some ctx) in
      has_v2 r = true /\ (has_source_stamp r = true <-> ms_stamp signer <> None) /\
      (is_valid r = true <->
         (forall c, ms_v2 signer = Some c -> trusted K now roots (sc_cert c) (sc_chain c)) /\
         (forall c, ms_stamp signer = Some c -> trusted K now roots (sc_cert c) [])).
Proof. exact elf_end_to_end. Qed.
Print Assumptions C81_end_to_end.
(** The two digests of some sections. *)
Definition both_digests (C : crypto) (file : bytes) (names : list rstring) : context :=
  match elf_digest all_ok C (mkElfFile file names) ECDSA_SHA2_256, elf_digest all_ok C (mkElfFile file names) ECDSA_SHA2_512 with
  | Ok d, Ok d' => add_digest (add_digest ctx_new (u32_of_algo ECDSA_SHA2_256) d) (u32_of_algo ECDSA_SHA2_512) d'
  | _, _ => ctx_new
  end.
Definition valid_with (C : crypto) (K : pki) (now : option N) (roots : list bytes) (file : bytes) (names : list rstring) : bool :=
  match elf_get_signing_block all_ok Debug (mkElfFile file names) with
  | Ok (Some b) => match section_lists b with
                   | [i] => is_valid (verify_all_with_digest C K now (configured K roots) b (Some (both_digests C file (listed_names i))))
                   | _ => false
                   end
  | _ => false
  end.
Example C81_example :
  crypto_ok toyC /\
  fs_read (toy_fs (el_data toy64)) (sa_input toy_args) = Some (ELFMAG ++ dropN 4 (el_data toy64)) /\
  elf_parse all_ok (ELFMAG ++ dropN 4 (el_data toy64)) = Ok toy64_elf /\
  well_named (el_data toy64) toy64_elf /\
  snd elf_run = Ok tt /\ fs_data (run (toy_fs (el_data toy64)) (fst elf_run)) 2 = Some elf_out /\
  fits_class toy64_elf (len elf_out) /\
  asked (sa_sections toy_args) [str ".text"; str ".rodata"] /\
  Forall (ordinary toy64_elf (el_data toy64)) [str ".text"; str ".rodata"] /\
  cli_signer toyKL (toy_fs (el_data toy64)) toy_args = Ok signer12 /\
  (forall c, ms_v2 signer12 = Some c \/ ms_stamp signer12 = Some c -> certified toyC toyK c) /\
  valid_with toyC toyK (Some 500) [root_cert] elf_out [] = true /\
  valid_with toyC toyK (Some 500) [] elf_out [] = false.
Proof.
  split; [apply toy_crypto_ok|]. split; [vm_compute; reflexivity|]. split; [vm_compute; reflexivity|]. split; [exact toy64_named|].
  split; [vm_compute; reflexivity|]. split; [vm_compute; reflexivity|]. split; [vm_compute; reflexivity|]. split; [reflexivity|].
  split; [pose proof toy_ordinary as H; inversion H as [|? ? H1 H2]; subst; inversion H2 as [|? ? H3 H4]; subst; apply Forall_cons; [assumption|apply Forall_cons; [assumption|apply Forall_nil]]|].
  split; [reflexivity|]. split; [intros c [[= <-]|[= <-]]; [exact certified1|exact certified2]|].
  split; vm_compute; reflexivity.
Qed.

(** The verify command is for modules: it accepts no file without a ZIP end
    record, so no ELF file that has none. *)
Theorem C81_command : forall p C K builtin now ds s file root, cli_verify p C K builtin now ds s file root = Ok tt ->
  exists f e, fs_read s file = Some f /\ find_eocd f (len f) = Ok e.
Proof. exact verify_needs_record. Qed.
Print Assumptions C81_command.
Theorem C81_command_refuted :
  elf_is_signed all_ok Debug (mkElfFile toy64_signed []) = true /\
  cli_verify Debug toyC toyK [] (Some 500) fr2 (toy_fs toy64_signed) (bstr "in") (Some (bstr "root")) = Err (ECli 16).
Proof. split; vm_compute; reflexivity. Qed.
Print Assumptions C81_command_refuted.

(** * C82 *)
(** Two files that are both found valid, with digests of the sections [names1]
    and [names2], and that have a V2 signer in common: the signed contents are
    the same, or two different hashed messages have the same hash. *)
Theorem C82_contents : forall rest1 rest2 C K1 K2 now1 now2 roots1 roots2 f1 f2 names1 names2 b1 b2 ctx1 ctx2 sg,
  hash_sized C ->
  of_sections rest1 C f1 names1 ctx1 -> of_sections rest2 C f2 names2 ctx2 ->
  is_valid (verify_all_with_digest C K1 now1 (configured K1 roots1) b1 (Some ctx1)) = true ->
  is_valid (verify_all_with_digest C K2 now2 (configured K2 roots2) b2 (Some ctx2)) = true ->
  In sg (v2_signers_of b1) -> In sg (v2_signers_of b2) ->
  exists t1 t2, resolved_sections rest1 (mkElfFile f1 names1) = Ok t1 /\ resolved_sections rest2 (mkElfFile f2 names2) = Ok t2 /\
  ((exists a c1 c2, (a = ECDSA_SHA2_256 \/ a = ECDSA_SHA2_512) /\ section_chunks f1 t1 c1 /\ section_chunks f2 t2 c2 /\
      clash (hash C a) (tree_messages (hash C a) c1) (tree_messages (hash C a) c2)) \/
   (flat_map (section_bytes f1) t1 = flat_map (section_bytes f2) t2 /\
    (Forall (fun t => 0 < len (section_bytes f1 t) <= 1024 * 1024) t1 ->
     Forall (fun t => 0 < len (section_bytes f2 t) <= 1024 * 1024) t2 ->
     map (section_bytes f1) t1 = map (section_bytes f2) t2))).
Proof. exact elf_tamper. Qed.
Print Assumptions C82_contents.
(** What the block says about the sections is not protected: the result does not
    depend on it. *)
Theorem C82_list : forall C K now roots b1 b2 ctx, signature_values (bk_content b1) = signature_values (bk_content b2) ->
  verify_all_with_digest C K now roots b1 (Some ctx) = verify_all_with_digest C K now roots b2 (Some ctx).
Proof. exact all_same. Qed.
Print Assumptions C82_list.
(** The signed file and the file it was made from, which has no signature, with
    the same block: both are found valid. *)
Definition the_block (r : res (option signing_block)) : signing_block := match r with Ok (Some b) => b | _ => both_block end.
Definition elf_block_out : signing_block := the_block (elf_get_signing_block all_ok Debug (mkElfFile elf_out [])).
Lemma both_of_sections C file names d d' :
  elf_digest all_ok C (mkElfFile file names) ECDSA_SHA2_256 = Ok d -> elf_digest all_ok C (mkElfFile file names) ECDSA_SHA2_512 = Ok d' ->
  of_sections all_ok C file names (both_digests C file names).
Proof.
  intros H1 H2 a x K. unfold computed, both_digests. rewrite H1, H2. destruct K as [-> | ->]; cbn.
  - intros [= <-]. exact H1.
  - intros [= <-]. exact H2.
Qed.
Definition other_list : signing_block :=
  mkBlock (bk_start elf_block_out) (bk_end elf_block_out) (bk_size_start elf_block_out) (bk_content_size elf_block_out)
    (map (fun v => match v with ElfBlock i => ElfBlock (info_from_tuples [(str ".data", 1, 2)]) | _ => v end) (bk_content elf_block_out))
    (bk_size_end elf_block_out) (bk_magic elf_block_out).
Example C82_example : hash_sized toyC /\
  of_sections all_ok toyC elf_out [str ".text"; str ".rodata"] (both_digests toyC elf_out [str ".text"; str ".rodata"]) /\
  of_sections all_ok toyC (el_data toy64) [str ".rodata"; str ".text"] (both_digests toyC (el_data toy64) [str ".rodata"; str ".text"]) /\
  is_valid (verify_all_with_digest toyC toyK (Some 500) (configured toyK [root_cert]) elf_block_out
    (Some (both_digests toyC elf_out [str ".text"; str ".rodata"]))) = true /\
  is_valid (verify_all_with_digest toyC toyK (Some 500) (configured toyK [root_cert]) elf_block_out
    (Some (both_digests toyC (el_data toy64) [str ".rodata"; str ".text"]))) = true /\
  len (v2_signers_of elf_block_out) = 1 /\ beq elf_out (el_data toy64) = false /\
  signature_values (bk_content other_list) = signature_values (bk_content elf_block_out) /\
  map listed_names (section_lists other_list) = [[str ".data"]] /\
  map listed_names (section_lists elf_block_out) = [[str ".text"; str ".rodata"]].
Proof.
  split; [split; exists 32; (split; [reflexivity|apply toy_hash_len])|].
  split; [eapply both_of_sections; vm_compute; reflexivity|]. split; [eapply both_of_sections; vm_compute; reflexivity|].
  repeat (split; [vm_compute; reflexivity|]). vm_compute. reflexivity.
Qed.
