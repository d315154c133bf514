(** PropElf.v - properties C53, C54, C55, C56 and C68: ELF files.

    [rest] is the part of the external ELF parser's checks that is not modelled
    (program headers, symbols, ...): any predicate on the file.  Vocabulary in
    ElfSpec.v; the examples' files in ToyElf.v. *)
From Coq Require Import Permutation Sorted.
From Verif Require Import Base BaseFacts Algorithms Utf8 SigningBlock Digest Signable Elf ElfSpec ElfProps ElfProps2 ElfProps3
  ZipSpec Spec ModuleFacts Toy ToyElf PropModule.
From Coq Require Import Strings.String.
Open Scope N_scope.

(** * C53 *)

(** Every byte of the original file is where it was, except the fields of the
    file header that describe the section header table. *)
Theorem C53_bytes : forall rest f b out e,
  elf_write_with_signature rest f b = Ok out -> elf_parse rest (el_data f) = Ok e ->
  len (el_data f) + len (block_to_u8 b) <= len out /\
  forall i, i < len (el_data f) -> ~ rewritten (cx_class (ef_ctx e)) i ->
    nth_error out (N.to_nat i) = nth_error (el_data f) (N.to_nat i).
Proof. exact c53_bytes. Qed.
Print Assumptions C53_bytes.
(** The output has the sections of the input under the same names, with the same
    headers and contents; only the signature section is added or replaced, and
    the name table may be extended by its name. *)
Theorem C53_sections : forall rest f b out e,
  elf_write_with_signature rest f b = Ok out -> elf_parse rest (el_data f) = Ok e ->
  well_named (el_data f) e -> fits_class e (len out) -> rest out = true ->
  exists e', elf_parse rest out = Ok e' /\
   map (section_name e') (ef_sections e') =
    map (section_name e) (ef_sections e) ++
    match find_section_index e KSU_SIGN_SECTION with Some _ => [] | None => [Some KSU_SIGN_SECTION] end /\
   (forall i s, nth_error (ef_sections e) i = Some s -> find_section_index e KSU_SIGN_SECTION <> Some i ->
     i <> N.to_nat (eh_shstrndx (ef_header e)) ->
     nth_error (ef_sections e') i = Some s /\ (plain_section (el_data f) e s -> contents out s = contents (el_data f) s)) /\
   (exists s t s', shstrtab_header e = Some s /\ contents (el_data f) s = Some t /\ shstrtab_header e' = Some s' /\
     s' = with_table s (sh_offset s') (sh_size s') /\
     contents out s' = Some (match find_section_index e KSU_SIGN_SECTION with Some _ => t | None => t ++ KSU_SIGN_SECTION ++ [x00] end)).
Proof. exact c53_sections. Qed.
Print Assumptions C53_sections.
(** Section names are the NUL-terminated strings of the name table. *)
Theorem C53_names : forall rest data e s n, elf_parse rest data = Ok e -> well_named data e ->
  eh_shstrndx (ef_header e) <> SHN_XINDEX -> In s (ef_sections e) -> section_name e s = Some n ->
  exists h t, shstrtab_header e = Some h /\ contents data h = Some t /\ c_string t (sh_name s) n.
Proof. exact section_c_string. Qed.
Print Assumptions C53_names.
(** The block is read back, also from a file that was signed before. *)
Theorem C53_reads_back : forall rest f b out e p signed, built_block b ->
  elf_write_with_signature rest f b = Ok out -> elf_parse rest (el_data f) = Ok e ->
  well_named (el_data f) e -> fits_class e (len out) -> rest out = true ->
  elf_get_signing_block rest p (mkElfFile out signed) = Ok (Some b).
Proof. exact c53_block. Qed.
Print Assumptions C53_reads_back.

Ltac named_tac := do 2 eexists; split; [reflexivity|]; split; [vm_compute; reflexivity|];
  split; [discriminate|]; split; [vm_compute; reflexivity|]; split; [vm_compute; discriminate|];
  split; [repeat constructor; vm_compute; reflexivity|vm_compute; discriminate].
Lemma toy64_named : well_named (el_data toy64) toy64_elf.
Proof. named_tac. Qed.
Lemma toy32_named : well_named (el_data toy32) toy32_elf.
Proof. named_tac. Qed.
Lemma toy64_write : elf_write_with_signature all_ok toy64 ex_block = Ok toy64_signed.
Proof. vm_compute. reflexivity. Qed.
Lemma toy32_write : elf_write_with_signature all_ok toy32 ex_block = Ok toy32_signed.
Proof. vm_compute. reflexivity. Qed.
Lemma toy64_parse : elf_parse all_ok (el_data toy64) = Ok toy64_elf.
Proof. vm_compute. reflexivity. Qed.
Lemma toy32_parse : elf_parse all_ok (el_data toy32) = Ok toy32_elf.
Proof. vm_compute. reflexivity. Qed.
(** A 64-bit little-endian and a 32-bit big-endian file; the first is also
    signed a second time. *)
Example C53_example :
  built_block ex_block /\
  (elf_write_with_signature all_ok toy64 ex_block = Ok toy64_signed /\
   elf_parse all_ok (el_data toy64) = Ok toy64_elf /\ well_named (el_data toy64) toy64_elf /\
   fits_class toy64_elf (len toy64_signed) /\ find_section_index toy64_elf KSU_SIGN_SECTION = None) /\
  (elf_write_with_signature all_ok toy32 ex_block = Ok toy32_signed /\
   elf_parse all_ok (el_data toy32) = Ok toy32_elf /\ well_named (el_data toy32) toy32_elf /\
   fits_class toy32_elf (len toy32_signed) /\ cx_class (ef_ctx toy32_elf) = Class32) /\
  (elf_write_with_signature all_ok (mkElfFile toy64_signed []) ex_block2 = Ok resigned64 /\
   exists e, elf_parse all_ok toy64_signed = Ok e /\ well_named toy64_signed e /\
     find_section_index e KSU_SIGN_SECTION = Some 4%nat /\
     elf_get_signing_block all_ok Debug (mkElfFile resigned64 []) = Ok (Some ex_block2)).
Proof.
  split; [exact ex_block_built|]. split; [|split].
  - split; [exact toy64_write|]. split; [exact toy64_parse|]. split; [exact toy64_named|]. split; reflexivity.
  - split; [exact toy32_write|]. split; [exact toy32_parse|]. split; [exact toy32_named|]. split; reflexivity.
  - split; [vm_compute; reflexivity|]. eexists. split; [vm_compute; reflexivity|]. split; [named_tac|].
    split; [vm_compute; reflexivity|vm_compute; reflexivity].
Qed.

(** Without a well-formed name table the claim fails.  The last name is not
    terminated: signing renames that section. *)
Definition cut_names : bytes := takeN (len toy_names - 1) toy_names.
Definition toy_cut : elf_file :=
  mkElfFile (toy_elf x64 cut_names (toy_text ++ toy_rodata) 1 [text_at x64 cut_names; rodata_at x64 cut_names]) [].
Theorem C53_names_refuted : exists out e e', elf_write_with_signature all_ok toy_cut ex_block = Ok out /\
  elf_parse all_ok (el_data toy_cut) = Ok e /\ elf_parse all_ok out = Ok e' /\
  nth_error (map (section_name e) (ef_sections e)) 3 = Some (Some (bstr ".shstrtab")) /\
  nth_error (map (section_name e') (ef_sections e')) 3 = Some (Some (bstr ".shstrtab.ksu_sign")).
Proof.
  do 3 eexists. split; [vm_compute; reflexivity|]. split; [vm_compute; reflexivity|]. split; [vm_compute; reflexivity|].
  split; [vm_compute; reflexivity|vm_compute; reflexivity].
Qed.
Print Assumptions C53_names_refuted.
(** A section without a name (its name offset is the size of the name table)
    becomes ".ksu_sign", and is what is read back. *)
Definition toy_evil : elf_file :=
  mkElfFile (toy_elf x64 toy_names (block_to_u8 ex_block2) 1
    [mkShdr (len toy_names) 1 0 0 (64 + len toy_names) (len (block_to_u8 ex_block2)) 0 0 1 0]) [].
Theorem C53_reads_back_refuted : built_block ex_block /\ ex_block <> ex_block2 /\
  exists out, elf_get_signing_block all_ok Release toy_evil = Ok None /\
  elf_write_with_signature all_ok toy_evil ex_block = Ok out /\
  elf_get_signing_block all_ok Release (mkElfFile out []) = Ok (Some ex_block2).
Proof.
  split; [exact ex_block_built|]. split; [vm_compute; discriminate|].
  eexists. split; [vm_compute; reflexivity|]. split; [vm_compute; reflexivity|vm_compute; reflexivity].
Qed.
Print Assumptions C53_reads_back_refuted.

(** * C54 *)
Theorem C54_digest_unchanged : forall rest f b out e C a signed,
  elf_write_with_signature rest f b = Ok out -> elf_parse rest (el_data f) = Ok e ->
  well_named (el_data f) e -> fits_class e (len out) -> rest out = true ->
  Forall (ordinary e (el_data f)) signed ->
  elf_digest rest C (mkElfFile out signed) a = elf_digest rest C (mkElfFile (el_data f) signed) a /\
  resolved_sections rest (mkElfFile out signed) = resolved_sections rest (mkElfFile (el_data f) signed).
Proof. exact c54. Qed.
Print Assumptions C54_digest_unchanged.
Lemma toy_ordinary : Forall (ordinary toy64_elf (el_data toy64)) [str ".text"; str ".rodata"; str ".none"].
Proof.
  assert (K : forall n s, utf8_enc n <> KSU_SIGN_SECTION -> find_section toy64_elf (utf8_enc n) = s ->
    match s with
    | None => True
    | Some s => find_section_index toy64_elf (utf8_enc n) <> Some (N.to_nat (eh_shstrndx (ef_header toy64_elf))) /\
        plain_section (el_data toy64) toy64_elf s
    end -> ordinary toy64_elf (el_data toy64) n).
  { intros n s H <- Hp. split; [exact H|]. intros s' E. rewrite E in Hp. exact Hp. }
  repeat (apply Forall_cons; [eapply K; [vm_compute; discriminate|vm_compute; reflexivity|]|]); [| | |apply Forall_nil].
  - split; [vm_compute; discriminate|split; vm_compute; discriminate].
  - split; [vm_compute; discriminate|split; vm_compute; discriminate].
  - exact I.
Qed.
Example C54_example : Forall (ordinary toy64_elf (el_data toy64)) [str ".text"; str ".rodata"; str ".none"] /\
  exists d, elf_digest all_ok toyC toy64 ECDSA_SHA2_256 = Ok d /\
    elf_digest all_ok toyC (mkElfFile toy64_signed DEFAULT_SIGNED_SECTIONS) ECDSA_SHA2_256 = Ok d.
Proof. split; [exact toy_ordinary|]. eexists. split; [vm_compute; reflexivity|vm_compute; reflexivity]. Qed.
(** It changes if the name table itself is signed, if a section overlaps the
    file header, or if a section reaches beyond the end of the file. *)
Definition toy_head : elf_file :=
  mkElfFile (toy_elf x64 toy_names [] 1 [mkShdr 1 1 0 0 0 64 0 0 1 0]) [str ".text"].
Definition toy_long : elf_file :=
  mkElfFile (toy_elf x64 toy_names [] 1 [mkShdr 1 1 0 0 64 1000 0 0 1 0]) [str ".text"].
Definition changed_by_signing (f : elf_file) : Prop :=
  exists out d d', elf_write_with_signature all_ok f ex_block = Ok out /\
    elf_digest all_ok idC f ECDSA_SHA2_256 = Ok d /\
    elf_digest all_ok idC (mkElfFile out (el_signed f)) ECDSA_SHA2_256 = Ok d' /\ beq d d' = false.
Theorem C54_refuted : changed_by_signing (mkElfFile (el_data toy64) [str ".shstrtab"]) /\
  changed_by_signing toy_head /\ changed_by_signing toy_long.
Proof.
  unfold changed_by_signing.
  split; [|split]; (do 3 eexists; split; [vm_compute; reflexivity|]; split; [vm_compute; reflexivity|];
    split; [vm_compute; reflexivity|vm_compute; reflexivity]).
Qed.
Print Assumptions C54_refuted.

(** * C55 *)
(** What is digested: for each configured name the first section of that name,
    in the order of their offsets. *)
Theorem C55_resolved : forall rest f ts, resolved_sections rest f = Ok ts -> exists e l,
  elf_parse rest (el_data f) = Ok e /\
  Forall2 (fun n t => exists s, first_named e (utf8_enc n) s /\ sh_type s <> SHT_NOBITS /\ sh_size s <> 0 /\
     t = (n, sh_offset s, sh_size s)) (el_signed f) l /\
  Permutation l ts /\ StronglySorted (fun t u => t_offset t <= t_offset u) ts.
Proof. exact c55_resolved. Qed.
Print Assumptions C55_resolved.
Theorem C55_resolves : forall rest f e, elf_parse rest (el_data f) = Ok e ->
  (forall n, In n (el_signed f) -> exists s, first_named e (utf8_enc n) s /\ sh_type s <> SHT_NOBITS /\ sh_size s <> 0) ->
  exists ts, resolved_sections rest f = Ok ts.
Proof. exact c55_resolves. Qed.
Print Assumptions C55_resolves.
(** The digest is the two-level digest of the sections' pieces of 1 MiB. *)
Theorem C55_is_digest : forall rest C f a d, elf_digest rest C f a = Ok d ->
  exists ts cs, resolved_sections rest f = Ok ts /\ section_chunks (el_data f) ts cs /\ d = tree_digest (hash C a) cs.
Proof. exact c55_is_digest. Qed.
Print Assumptions C55_is_digest.
Theorem C55_order : forall rest f C a l1 l2 d ts, Permutation l1 l2 ->
  resolved_sections rest (mkElfFile (el_data f) l1) = Ok ts -> NoDup (map t_offset ts) ->
  elf_digest rest C (mkElfFile (el_data f) l1) a = Ok d ->
  resolved_sections rest (mkElfFile (el_data f) l2) = Ok ts /\
  elf_digest rest C (mkElfFile (el_data f) l2) a = Ok d.
Proof. exact c55_order. Qed.
Print Assumptions C55_order.
(** Equal digests: equal contents, section by section if no section is longer
    than 1 MiB, or two different hashed messages with the same hash. *)
Theorem C55_binding : forall rest1 rest2 C f1 f2 a d t1 t2 n,
  0 < n -> (forall x, len (hash C a x) = n) ->
  elf_digest rest1 C f1 a = Ok d -> elf_digest rest2 C f2 a = Ok d ->
  resolved_sections rest1 f1 = Ok t1 -> resolved_sections rest2 f2 = Ok t2 ->
  (exists cs1 cs2, section_chunks (el_data f1) t1 cs1 /\ section_chunks (el_data f2) t2 cs2 /\
     clash (hash C a) (tree_messages (hash C a) cs1) (tree_messages (hash C a) cs2)) \/
  (flat_map (section_bytes (el_data f1)) t1 = flat_map (section_bytes (el_data f2)) t2 /\
   (Forall (fun t => 0 < len (section_bytes (el_data f1) t) <= 1024 * 1024) t1 ->
    Forall (fun t => 0 < len (section_bytes (el_data f2) t) <= 1024 * 1024) t2 ->
    map (section_bytes (el_data f1)) t1 = map (section_bytes (el_data f2)) t2)).
Proof. exact c55_binding. Qed.
Print Assumptions C55_binding.
Example C55_example :
  exists ts, resolved_sections all_ok toy64 = Ok ts /\ NoDup (map t_offset ts) /\
    Permutation [str ".text"; str ".rodata"] [str ".rodata"; str ".text"] /\
    map (section_bytes (el_data toy64)) ts = [toy_text; toy_rodata] /\
    Forall (fun t => 0 < len (section_bytes (el_data toy64) t) <= 1024 * 1024) ts /\
    (forall x, len (hash toyC ECDSA_SHA2_256 x) = 32) /\
    exists d, elf_digest all_ok toyC toy64 ECDSA_SHA2_256 = Ok d.
Proof.
  eexists. split; [vm_compute; reflexivity|]. split.
  { repeat constructor; cbn; intuition discriminate. }
  split; [apply perm_swap|]. split; [vm_compute; reflexivity|]. split; [repeat constructor; vm_compute; congruence|].
  split; [exact toy_hash_len|]. eexists. vm_compute. reflexivity.
Qed.

(** Two sections that start at the same offset: the order matters. *)
Definition toy_same : bytes :=
  toy_elf x64 toy_names toy_text 1 [text_at x64 toy_names; mkShdr 7 1 0 0 (64 + len toy_names) 4 0 0 1 0].
Theorem C55_order_refuted : exists d1 d2,
  elf_digest all_ok idC (mkElfFile toy_same [str ".text"; str ".rodata"]) ECDSA_SHA2_256 = Ok d1 /\
  elf_digest all_ok idC (mkElfFile toy_same [str ".rodata"; str ".text"]) ECDSA_SHA2_256 = Ok d2 /\ beq d1 d2 = false.
Proof. do 2 eexists. split; [vm_compute; reflexivity|]. split; [vm_compute; reflexivity|vm_compute; reflexivity]. Qed.
Print Assumptions C55_order_refuted.
(** Names are not bound: ".text" and ".rodata" of the same file digest alike if
    they have the same contents. *)
Definition toy_twins : bytes :=
  toy_elf x64 toy_names (toy_text ++ toy_text) 1
    [text_at x64 toy_names; mkShdr 7 1 0 0 (64 + len toy_names + len toy_text) (len toy_text) 0 0 1 0].
Theorem C55_names_refuted : forall C a, exists d,
  elf_digest all_ok C (mkElfFile toy_twins [str ".text"]) a = Ok d /\
  elf_digest all_ok C (mkElfFile toy_twins [str ".rodata"]) a = Ok d.
Proof. intros C a. eexists. split; [vm_compute; reflexivity|vm_compute; reflexivity]. Qed.
Print Assumptions C55_names_refuted.
(** Boundaries at multiples of 1 MiB are not bound. *)
Theorem C55_boundaries_refuted : forall C data n m k o size a, o + N.of_nat k * CHUNK_SIZE + size <= len data ->
  digest_elf_sections C data [(n, o, N.of_nat k * CHUNK_SIZE + size)] a =
  digest_elf_sections C data [(n, o, N.of_nat k * CHUNK_SIZE); (m, o + N.of_nat k * CHUNK_SIZE, size)] a.
Proof. exact c55_cut. Qed.
Print Assumptions C55_boundaries_refuted.
(** A configured section that lies beyond the end of the file is silently left
    out. *)
Definition toy_ghost : bytes :=
  toy_elf x64 toy_names toy_text 1 [text_at x64 toy_names; mkShdr 7 1 0 0 5000 100 0 0 1 0].
Theorem C55_coverage_refuted : forall C a, exists d,
  elf_digest all_ok C (mkElfFile toy_ghost [str ".text"; str ".rodata"]) a = Ok d /\
  elf_digest all_ok C (mkElfFile toy_ghost [str ".text"]) a = Ok d.
Proof. intros C a. eexists. split; [vm_compute; reflexivity|vm_compute; reflexivity]. Qed.
Print Assumptions C55_coverage_refuted.

(** * C56 *)
Theorem C56_selection : forall f sections g, set_signed_sections f sections = Ok g <->
  el_data g = el_data f /\
  el_signed g <> [] /\
  (exists ts, Forall2 trimmed sections ts /\ el_signed g = filter nonempty ts) /\
  Forall (fun s => ~ Forall2 same_letter (utf8_enc s) KSU_SIGN_SECTION) (el_signed g).
Proof. exact c56. Qed.
Print Assumptions C56_selection.
Theorem C56_refusal : forall f sections,
  (exists g, set_signed_sections f sections = Ok g) \/ set_signed_sections f sections = Err EeValue.
Proof. exact c56_err. Qed.
Print Assumptions C56_refusal.
Example C56_example :
  set_signed_sections toy64 [str " .text "; str ""; str "   "; str "a b"] =
    Ok (mkElfFile (el_data toy64) [str ".text"; str "a b"]) /\
  set_signed_sections toy64 [str "x"; str " .Ksu_SIGN"] = Err EeValue /\
  set_signed_sections toy64 [str " "] = Err EeValue.
Proof. repeat split; vm_compute; reflexivity. Qed.

(** * C68 *)
Theorem C68_no_panic : forall rest f b e, elf_parse rest (el_data f) = Ok e ->
  len (el_data f) <= 2 ^ 59 -> len (block_to_u8 b) <= 2 ^ 59 ->
  (forall s, shstrtab_header e = Some s -> sh_addralign s <= 2 ^ 62) ->
  elf_write_with_signature rest f b <> Panic.
Proof. exact c68_safe. Qed.
Print Assumptions C68_no_panic.
Example C68_example : elf_parse all_ok (el_data toy64) = Ok toy64_elf /\ len (el_data toy64) <= 2 ^ 59 /\
  (forall s, shstrtab_header toy64_elf = Some s -> sh_addralign s <= 2 ^ 62).
Proof.
  split; [exact toy64_parse|]. split; [vm_compute; discriminate|]. intros s [= <-]. vm_compute. discriminate.
Qed.
(** An absurd alignment of the name table panics ("capacity overflow"). *)
Theorem C68_alignment_panics : forall rest f b e s t, elf_parse rest (el_data f) = Ok e -> shstrtab_header e = Some s ->
  contents (el_data f) s = Some t -> find_section e KSU_SIGN_SECTION = None ->
  len (el_data f) + 8 <= I64 -> sh_offset s + sh_size s < U64 -> len (el_data f) + len (block_to_u8 b) + 8 < sh_addralign s ->
  I64 <= sh_addralign s -> elf_write_with_signature rest f b = Panic.
Proof. exact c68_panics. Qed.
Print Assumptions C68_alignment_panics.
Theorem C68_refuted : exists f, len (el_data f) < 500 /\ elf_write_with_signature all_ok f ex_block = Panic.
Proof. exists (mkElfFile (toy_plain x64 (2 ^ 63)) []). split; [vm_compute; reflexivity|vm_compute; reflexivity]. Qed.
Print Assumptions C68_refuted.
