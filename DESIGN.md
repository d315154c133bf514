# Formal model of Kernel-SU/ksusig in Rocq (Coq 8.16.1)

Sources: `/repo` (Rust), read as text. The model lives in `rocq/theories`.

## 1. How the code is modelled

* Bytes are `Coq.Init.Byte.byte`; byte strings are lists; every size, offset, u16/u32/u64/usize is an `N` (usize is 64 bits). `as u32`/`as u16` casts are reductions modulo 2^32/2^16.
* A Rust function becomes a total Gallina function into `res A := Ok a | Err e | Panic`. `Panic` is reached only where Rust would panic (overflow check, `debug_assert`, slice index). The build profile (`Debug`: overflow checks and debug assertions on; `Release`: wrap-around) is a parameter of the functions where it matters.
* Loops that Rust bounds by the data are given fuel computed from the data; running out of fuel is a separate error value which theorems show is never returned.
* `MyReader` is a record (data, position); parsing functions return the advanced reader.
* A file is its byte list; `Seek`/`read_exact`/`take` are slicing functions. A `read` may be short: a read schedule parameter says how much each call returns.
* The command line acts on a file system: a map from names to contents, where names can be aliases of each other and opening or writing can fail at any point; a run is the list of the states it goes through.
* External libraries (SHA-2, ECDSA, X.509, webpki, PEM/PKCS decoders, clock, the checks of goblin that do not concern the section table) are functions in records passed as explicit parameters: theorems quantify over all of them. What a theorem needs of them (e.g. that a signature verifies under its own public key) is a visible hypothesis of that theorem, and a concrete instance (Toy*.v) shows that the hypothesis can be met.

Files: `Base Utils Algorithms Common SchemeV2 SourceStamp Utf8 ElfInfo SigningBlock Zip Digest Module Signable Signer Verifier ModuleVerify Keystore Elf Cli Race RaceDigest Serde Print InfoPrint SignPrint Base64 Text Unified Main NoElf NoElfCli Clock DigestRace` are the model. `Wire Built Spec ZipSpec RegionSpec VerifySpec SignSpec KeySpec ElfSpec CliSpec CrossSpec FindSpec IgnoredSpec ReportSpec SerdeSpec PrintSpec InfoSpec DumpSpec SignPrintSpec UnifiedSpec ElfVerifySpec KeyUseSpec HistorySpec MainSpec TextSpec BuildSpec NoElfSpec NoElfCliSpec UnzipSpec LoadSpec RaceDigestSpec AuthSpec ClockSpec DigestRaceSpec` are the specification vocabulary. `*Facts`, `*Props*`, `ElfLayout`, `EndToEnd` are proofs. `Toy*` are concrete values for the examples. `Prop*` contain the property theorems, each with its `Print Assumptions` and an example that meets its hypotheses.

Two conventions of the statements:

* A statement about collisions never says merely that two different messages with the same hash exist (that is true of every hash function). It names them: `clash` (ZipSpec.v) and `module_clash` (RegionSpec.v) are pairs taken from the messages that the two computations really hash.
* Where the property one would expect is false of the code, the property in properties.jsonl states where exactly it holds and what happens elsewhere, and a `_refuted` theorem gives a concrete counterexample to the broader statement.

## 2. Each property: model and proof

Full statements are in properties.jsonl. Names ending in `_refuted` are proved
counterexamples to a broader statement one might expect.

* **C01 Bounded reads never escape the buffer.** MyReader as (data, position). Case analysis: success iff enough bytes remain; the result is the slice, or its little-endian value. Theorems: `C01_slice`, `C01_slice_out_of_bounds`, `C01_sub_reader`, `C01_sub_reader_out_of_bounds`, `C01_u16`, `C01_u32`, `C01_u64`, `C01_int_out_of_bounds`.
* **C02 Algorithm identifiers are a faithful 1-1 code.** Algorithms as an inductive type with Unknown(u32). Case analysis over all ids below 2^32. Theorems: `C02_roundtrip`, `C02_injective`, `C02_known`, `C02_comparison`, `C02_derived_equality`.
* **C03 Declared sizes are real sizes.** Constructors and to_u8 functions. Induction over the lists: length of the bytes = declared size + prefix. Theorems: `C03_declared_sizes`, `C03_prefix`, `C03_sections`.
* **C04 V2 block round-trip.** Parsers as functions reader -> result. Wire.v is an independent grammar (which bytes denote which value); every parser is proved to recognise exactly the grammar, every constructor to write a sentence of it; induction over the lists. Theorems: `C04_v2_roundtrip`, `C04_signers_roundtrip`, `C04_exact`, `C04_too_big`, `C04_signers_exact`.
* **C05 Source stamp round-trip.** As C04. Theorems: `C05_stamp_roundtrip`, `C05_stamp_block_roundtrip`, `C05_exact`.
* **C06 ELF section info round-trip.** As C04 with a UTF-8 codec (Utf8.v). The iff comes from computing which length field is written for a long name. Theorems: `C06_info_roundtrip`, `C06_info_value_roundtrip`, `C06_refuted`, `C06_exact`. C06_exact is the iff. C06_refuted is a witness of the other side (a 65536-byte name).
* **C07 Signing block round-trip.** C04-C06 composed through the pair loop and the search for the last magic. Theorems: `C07_roundtrip`, `C07_roundtrip_padded`.
* **C08 Size limit is symmetric.** Arithmetic on the sum of the sizes; iff. Theorems: `C08_limit`, `C08_same_limit_as_parser`, `C08_fields`.
* **C09 4 KiB padding.** Arithmetic modulo 4096; iff for both build profiles. Theorems: `C09_shape`, `C09_error_iff`, `C09_debug_agrees`, `C09_debug_refuted`, `C09_debug_exact`. C09_debug_refuted is a witness of the debug panic; C09_debug_exact the exact condition.
* **C10 Parsing hostile bytes.** Explicit Panic outcome and explicit out-of-fuel error; never reached in release; iff for debug. Theorems: `C10_from_u8_release`, `C10_from_reader_release`, `C10_from_u8_debug`, `C10_from_reader_debug`, `C10_debug_refuted`, `C10_from_u8_exact`, `C10_from_reader_exact`. C10_from_u8_exact and C10_from_reader_exact are the exact panic conditions of a debug build; C10_debug_refuted gives witnesses.
* **C11 Accepted blocks respect the 16 KiB limits and are fully accounted for.** Inversion of the parser; invariant of the pair loop. Theorems: `C11_from_u8`, `C11_from_reader`.
* **C12 Memory reserved while parsing section info.** The reserved capacity is an observable of the model (section_info_alloc). Theorems: `C12_refuted`, `C12_success`, `C12_any`. The property one would want (the reservation is bounded by the input) is false: C12_refuted, C12_any.
* **C13 The signed bytes pin down what was signed.** Invariant of parsed structures, then injectivity of the serialiser under that invariant, by induction. Theorems: `C13_v2`, `C13_stamp`.
* **C14 Parsing then serialising reproduces the bytes.** Grammar of Wire.v in both directions; concrete accepted block that serialises differently. Theorems: `C14_refuted`, `C14_library_blocks`, `C14_raw_values`. The unrestricted property is false: C14_refuted.
* **C15 End-of-central-directory lookup returns the last record that fits.** Search loop by induction over the index; specification last_record (ZipSpec.v). Theorems: `C15_iff`, `C15_succeeds_iff`, `C15_no_panic`.
* **C16 Located signing block is exactly a slice of the file.** Induction over the search loop; the 1 MiB window does not matter. Theorems: `C16_last`, `C16_exact`, `C16_slice`.
* **C17 Adjacency of the signing block to the central directory.** From the characterisation of the search (C16) and of written files (C20). Theorems: `C17_exact`, `C17_refuted`, `C17_gap_refuted`, `C17_written`. The unrestricted property is false: C17_refuted, C17_gap_refuted. C17_exact is the iff.
* **C18 When a module is recognised as unsigned.** Iff from the search characterisation. Theorems: `C18_iff`, `C18_refuted`. C18_iff is the exact condition; C18_refuted shows archives outside it.
* **C19 Writing a signature changes only what it must.** Equation between byte lists (with_block, ZipSpec.v). Theorems: `C19_write`, `C19_every_archive`.
* **C20 A written block is read back.** find_eocd on the output, the search and C07. The general iff is over the record found in the output. Theorems: `C20_exact`, `C20_read_back`, `C20_short_comment`, `C20_long_comment_refuted`. C20_exact is the iff; C20_long_comment_refuted a witness of the other side.
* **C21 Signing does not change the digest.** Equation between the hashed regions of input and output. Theorems: `C21_digest`.
* **C22 Stripping the signature restores the original.** Equation between byte lists. Theorems: `C22_strip`, `C22_strip_any`.
* **C23 Re-signing replaces the signature.** From C22; induction over histories of signings. Theorems: `C23_resign`, `C23_history`.
* **C24 Archives with trailing bytes.** Equation for the written bytes, tree-digest injectivity up to an explicit clash. Theorems: `C24_tail_lost`, `C24_refuted`. That trailing bytes are handled is false: C24_tail_lost, C24_refuted.
* **C25 No signing over a corrupted block.** Inversion of the writer: the error comes before the first write. Theorems: `C25_broken`, `C25_refused`, `C25_all_or_nothing`.
* **C26 Central directory offset in the output.** Arithmetic modulo 2^32; iff. Theorems: `C26_exact`, `C26_offset`, `C26_refuted`. C26_exact is the iff; C26_refuted gives the wrapped offset.
* **C27 Raw-module writer.** As C19-C21 for the other writer. Theorems: `C27_raw`.
* **C28 The same writer on a module opened with Module::new.** Equations for the bytes written in each case, and that they differ from the correct archive. Theorems: `C28_signed`, `C28_unsigned`, `C28_never`, `C28_refuted`. That the writer works however the module was opened is false: C28_never, C28_refuted.
* **C29 Digest is the chunked digest.** Chunks as a relation that determines them (splits); induction over the read loop. Theorems: `C29_sha256`, `C29_sha512`, `C29_unknown`, `C29_digest`.
* **C30 How the reader returns data and the digest.** A read schedule is a function from positions to lengths. The digest is computed from the pieces; equal digests with different pieces give a clash. Theorems: `C30_exact`, `C30_refuted`, `C30_full_reads`. Independence of the reader is false: C30_refuted. C30_exact says what matters.
* **C31 Digest covers every byte.** Extraction of a clash from equal digests; a clash is a pair among the messages that were actually hashed (RegionSpec.v). Theorems: `C31_binding`, `C31_release_refuted`.
* **C32 The central directory offset is not authenticated.** Equation for the search, regions and verification of the file with another offset. Theorems: `C32_free`, `C32_refuted`. That the offset is authenticated is false: C32_free, C32_refuted.
* **C33 Crashes when computing the digest.** Panic outcome; release never; iff for debug. Theorems: `C33_debug_exact`, `C33_release`, `C33_debug_refuted`, `C33_debug`. C33_debug_exact is the exact panic condition; C33_debug_refuted a witness.
* **C34 V2 signing produces a verifying signer.** Cryptography is a record of functions. The only hypothesis is that a signature made with a key verifies under its public key. Theorems: `C34_contents`, `C34_succeeds_iff`, `C34_verifies`.
* **C35 Stamp signing produces a verifying stamp.** As C34. Theorems: `C35_contents`, `C35_succeeds_iff`, `C35_verifies`, `C35_same_apis`.
* **C36 Key/algorithm mismatch never signs or verifies.** Case analysis. Theorems: `C36_sign_iff`, `C36_signers_fail`, `C36_unknown_never_verifies`, `C36_unknown_signer_never_valid`, `C36_accepted_iff`.
* **C37 Required algorithms.** Case analysis. Theorems: `C37_required`.
* **C38 Adding a stamp preserves everything else.** List filtering lemmas; frame property of the verifier. Theorems: `C38_content`, `C38_results`, `C38_v2_outcome`, `C38_parsed_blocks`, `C38_built_blocks`, `C38_readable`.
* **C39 Module signer wire format.** Independent layout (SignSpec.v) with concatenation and le only. Theorems: `C39_layout`, `C39_readable`, `C39_padded`.
* **C40 is_valid is sound for what is present.** Independent acceptance predicate (VerifySpec.v); induction over signers and signatures. Theorems: `C40_sound`, `C40_file`. Stamps tolerate a signature whose algorithm has no digest entry and ignore intermediates (stamp_good in VerifySpec.v).
* **C41 is_valid is complete.** With C40. Theorems: `C41_complete`, `C41_file`.
* **C42 One bad signer.** Induction over the signer loop. Theorems: `C42_error`, `C42_no_full_flags`, `C42_missing_digest_refuted`. That every defect is an error is false in one case: C42_missing_digest_refuted.
* **C43 Without digests content is never reported verified.** As C42. Theorems: `C43_v2`, `C43_stamp`, `C43_never_valid`.
* **C44 is_valid and the existence of a signature.** From C40 and the decision table of the report. Theorems: `C44_refuted`, `C44_nothing_refuted`, `C44_present`, `C44_some_signer`. That is_valid alone implies a signature is false: C44_refuted, C44_nothing_refuted.
* **C45 signature_valid and checked signatures.** As C44. Theorems: `C45_exact`, `C45_stamp_exact`, `C45_refuted`, `C45_signers`, `C45_stamp`. C45_exact and C45_stamp_exact are equivalences; C45_refuted shows that signature_valid alone does not imply a signature.
* **C46 Key-certificate binding.** As C42. Theorems: `C46_v2`, `C46_stamp`.
* **C47 Trust comes only from the configured roots.** Decision table over an oracle for the path validator. Theorems: `C47_iff`, `C47_no_roots`, `C47_reports`, `C47_stamp_reports`, `C47_pem_roots`, `C47_builtin_roots`.
* **C48 Chain structure check.** Induction over the chain. Theorems: `C48_structure`.
* **C49 verify exit status.** Iff over the result of the library. Theorems: `C49_exit_status`.
* **C50 sign then verify succeeds.** Composition of C20, C21, C34, C41 and C49. Theorems: `C50_sign`, `C50_sign_verify`, `C50_short_comment`, `C50_library`.
* **C51 Tampering is detected.** C31 and C40. Theorems: `C51_verify`, `C51_library`.
* **C52 info shows the block that verify checks.** The two searches (whole file / before the directory) find the same magic iff none follows. Theorems: `C52_same_block`, `C52_refuted`. C52_same_block is the iff; C52_refuted a witness of the other side.
* **C53 ELF signing preserves the file and is read back.** Concrete ELF header and section-table codec (the part of goblin that is used); equations for the bytes written; name lookups in the extended table. Theorems: `C53_bytes`, `C53_sections`, `C53_names`, `C53_reads_back`, `C53_names_refuted`, `C53_reads_back_refuted`. Without a well-formed name table names and read-back fail: C53_names_refuted, C53_reads_back_refuted.
* **C54 ELF signing does not change the digest.** As C53. Theorems: `C54_digest_unchanged`, `C54_refuted`. C54_refuted has witnesses for the three excluded kinds of sections.
* **C55 What an ELF digest covers.** Sorting of a permutation; clash extraction; concrete counterexamples for what is not covered. Theorems: `C55_sha256`, `C55_sha512`, `C55_unknown`, `C55_resolved`, `C55_resolves`, `C55_is_digest`, `C55_order`, `C55_binding`, `C55_order_refuted`, `C55_names_refuted`, `C55_boundaries_refuted`, `C55_coverage_refuted`. What is not covered: C55_order_refuted, C55_names_refuted, C55_boundaries_refuted, C55_coverage_refuted.
* **C56 Which ELF sections are signed.** Strings as lists of code points; list lemmas. Theorems: `C56_selection`, `C56_refusal`, `C56_opened`, `C56_module_sign`, `C56_module_digest`, `C56_regions`.
* **C57 Readability of the signature in an ELF file written by the sign command.** Size arithmetic on the block the command writes; iff. Theorems: `C57_readable`, `C57_refuted`. C57_readable is the exact condition; C57_refuted a witness (a 12 KiB certificate).
* **C58 Loaded credentials are consistent.** Decoders are oracles; case analysis over the loading functions. Theorems: `C58_pem_exact`, `C58_p12_exact`, `C58_pem_files`, `C58_p12_file`, `C58_certificate_der`, `C58_embedded`, `C58_pem`, `C58_pem_iff`, `C58_p12`, `C58_der`, `C58_signs`.
* **C59 Password errors.** As C58. Theorems: `C59_plain_key`, `C59_errors`, `C59_only`.
* **C60 sign never damages other files; a failed or interrupted run leaves a prefix.** A file system is a map from names to contents with aliases; a run is a list of states; invariant over all of them. Theorems: `C60_other_files`, `C60_output`.
* **C61 Signing in place.** As C60. Theorems: `C61_elf`, `C61_module`, `C61_refuted`, `C61_elf_refuted`. That signing in place is safe is false: C61_module, C61_refuted, C61_elf_refuted.
* **C62 digest --dump writes exactly the regions.** Induction over the copy loop. Theorems: `C62_dump`, `C62_command`, `C62_module`, `C62_alias_refuted`, `C62_alias`. C62_alias is the case of a dump over the input; C62_alias_refuted an instance with the command.
* **C63 digest output is faithful.** Spelling relations (CliSpec.v, DumpSpec.v) stated with digit values; the encodings of Cli.v and Base64.v satisfy them, and they are functions in both directions. C63_printed says it of the command. Theorems: `C63_spells`, `C63_injective`, `C63_length`, `C63_command`, `C63_base64_spells`, `C63_base64_unique`, `C63_base64_length`, `C63_printed`.
* **C64 Format detection.** Iff. Theorems: `C64_detection`.
* **C65 V2 and source stamp signatures.** Comparison of the two signed messages as byte strings; injectivity (C13). Theorems: `C65_exact`, `C65_v2_not_stamp`, `C65_transplant`, `C65_refuted`. The stamp-to-module direction is false: C65_transplant, C65_refuted.
* **C66 Adding a source stamp keeps the module signature.** Grammar of Wire.v: re-encoding a parsed value. Theorems: `C66_parsed`, `C66_readable`, `C66_built_faithful`, `C66_library_blocks`, `C66_refuted`. For blocks of other writers reading back can fail: C66_refuted.
* **C67 Credentials whose key and certificate do not match.** Verification of what is signed with key k under the key of a certificate that is not k's. Theorems: `C67_every_verification`, `C67_module_sign`, `C67_stamp_never_verifies`, `C67_refuted`, `C67_never_verifies`. That mismatched credentials are refused when loaded is false: C67_refuted.
* **C68 Panics when signing ELF files.** Panic outcome of the layout arithmetic; bounds on every sum. Theorems: `C68_no_panic`, `C68_alignment_panics`, `C68_refuted`. C68_refuted is a witness of the panic.
* **C69 What counts as a signing block.** Both directions: inversion of the parser, completeness of the parser on the grammar (C04-C07), uniqueness of the last magic. FindSpec.v. Theorems: `C69_module`, `C69_reader`, `C69_slice`, `C69_none`. Parser = grammar, both directions, for readers, byte strings and modules; the only hypothesis is a file size below 2^64.
* **C70 Signing again with a gap after the old block.** Equation between byte lists for the written file; digest injectivity up to an explicit clash (C31) and region lengths. Theorems: `C70_written`, `C70_digest`, `C70_adjacent`. Archives of ZipSpec.v with the old block at any distance before the directory; inequality of the digests up to an explicit clash.
* **C71 What in a signing block is not authenticated.** IgnoredSpec.v names what verification looks at (signed data, signatures and key of each V2 signer, and of the first stamp). Equality of the whole result by congruence through the verifier's loops, with the digests of the two files equal because the block is outside the digested regions; the two instances exhibit a second byte string that denotes the same values (Wire.v). Theorems: `C71_same_result`, `C71_other_values`, `C71_v2_tail`, `C71_stamp_tail`. Archives of ZipSpec.v with the block adjacent to the directory; the instances cover every block made by the module signer.
* **C72 The verification report is complete and exact.** ReportSpec.v describes a report without the verifier's functions: the signatures in front that are good and why the scan stops, the certificate entry with its warning, the summary. One induction per signature loop gives the scan; the results are a map over the numbered signers; uniqueness of the scan gives the exact success condition. Theorems: `C72_report`, `C72_stamp_report`, `C72_report_iff`, `C72_stamp_report_iff`, `C72_failures`, `C72_stamp_failures`, `C72_no_signature`, `C72_errors`.
* **C73 Files changed by others while a command runs.** Race.v repeats the commands with one file system per step; with equal file systems it is the model of C49-C52 (C73_undisturbed). A file without the magic has no block for any assumed length, so an unsigned module is written as it is read even if its length changed since it was opened. The signatures of a block over arbitrary digests are good exactly if the digests are those computed; inserting the block does not change them (C21). C73_content adds the binding of C31. Theorems: `C73_undisturbed`, `C73_verify_undisturbed`, `C73_library`, `C73_sign`, `C73_content`, `C73_elf`, `C73_verify`.
* **C74 Signing blocks survive serde.** Serde.v gives the derived implementations as functions to and from trees. For each struct: reading back gives the value with its algorithms normalised, which is the value itself iff they are canonical, has the same bytes, and everything read is typed and canonical. Parsed blocks are canonical by the grammar of C69. Order: each reader is invariant under the relation same. Theorems: `C74_roundtrip`, `C74_slice`, `C74_reader`, `C74_built`, `C74_same_bytes`, `C74_accepted`, `C74_injective`, `C74_order`, `C74_roundtrip_refuted`, `C74_valid_refuted`.
* **C75 What the verify command says.** Print.v repeats the command with its output as a list of structured lines. Its status is that of C49 (C75_status), which also shows that the last error branch is never taken. The output is split into an early part, the V2 section, the stamp section and the end; each section contains only certain kinds of lines. Theorems: `C75_status`, `C75_success`, `C75_success_end`, `C75_verbose`, `C75_signers`, `C75_overall`, `C75_stamp_passed`, `C75_stamp_failed`, `C75_failed_signers`, `C75_not_found`, `C75_signer_number_refuted`.
* **C76 What is dumped is what is digested.** Combines C62 with C29 and C55: the parts of a module are unique (regions_of_fun), so the dumped and the digested ones are the same; successful dumps imply that the digest is computed. Theorems: `C76_module`, `C76_unsigned`, `C76_elf`, `C76_dump_again_refuted`, `C76_undumpable_refuted`.
* **C77 What the info command says.** InfoPrint.v repeats the command with its output as structured lines. The lines are related to the bytes of the file with the grammar (C69) and to the signers with the exact reports (C72, C45); headings occur once, so sections are unique. Theorems: `C77_status`, `C77_contents`, `C77_no_integrity`, `C77_v2`, `C77_stamp`, `C77_block_only`, `C77_tampered_refuted`, `C77_mark_refuted`, `C77_lines`, `C77_failure`, `C77_unreadable`.
* **C78 What the sign command says.** SignPrint.v repeats the command with its output as structured lines. A run either stops early with none of the last lines, or prints the complete list; the lines are then related to the output with the theorems on writing (C19, C53, C57). Theorems: `C78_status`, `C78_keys`, `C78_regions`, `C78_module`, `C78_elf`, `C78_success_refuted`, `C78_lines`, `C78_order`.
* **C79 What the digest command says.** SignPrint.v repeats the command with its output as structured lines; the sums are related to the regions by induction, the dump by C63 and C76. Theorems: `C79_status`, `C79_dump`, `C79_total`, `C79_total_refuted`, `C79_lines`, `C79_order`.
* **C80 Which files count as signed.** Unified.v models the rest of the unified interface. Both directions of each equivalence are proved against the block grammar (C69) and the section table (C53). Theorems: `C80_elf_block`, `C80_elf_none`, `C80_elf_signed`, `C80_module_block`, `C80_module_none`, `C80_module_signed`, `C80_opened`, `C80_valid`.
* **C81 Signed ELF files verify through the library.** Composes the ELF writer (C53, C54), the block reader (C57), the signers (C37-C39) and the exact meaning of a valid result (C40, C41). The section list is shown to resolve to the sections it was made from, because sorting is stable and idempotent. Theorems: `C81_end_to_end`, `C81_command`, `C81_command_refuted`.
* **C82 Tampering with signed ELF sections is detected.** From C40 (what valid means) and C55 (what the ELF digest binds); the independence from other values as for C71. Theorems: `C82_contents`, `C82_list`.
* **C83 The verify command's messages mean what the report says.** The output is split into the part on the module signature, the part on the stamp and the end. For each line, membership in the output is reduced to membership in its part, and the part is unfolded. What the two messages about tampering mean follows from the exact contents of a report (C72). Theorems: `C83_block_found`, `C83_custom_root`, `C83_digests`, `C83_no_digests`, `C83_digests_computed`, `C83_passed`, `C83_signers_verified`, `C83_refusal`, `C83_v2_failed`, `C83_certificates`, `C83_chains`, `C83_chain_certificates`, `C83_warnings`, `C83_errors`, `C83_signer_warnings`, `C83_stamp_reasons`, `C83_stamp_flags`, `C83_stamp_tampered`, `C83_stamp_untrusted`, `C83_stamp_warnings`, `C83_stamp_certificate`, `C83_stamp_not_found`, `C83_stamp_error`, `C83_stamp_present`, `C83_mismatch_means`, `C83_tampered_means`, `C83_never`.
* **C84 The sign command uses the keys and certificates its options name.** [given] describes what a group of options selects, from the file contents and the key library alone. load_credentials is characterised by it exactly, the signer built from two groups follows, then the block written is read back (C20, C53, C57) and compared with it. Theorems: `C84_options`, `C84_no_options`, `C84_unique`, `C84_module`, `C84_elf`, `C84_accepted`.
* **C85 Signing an ELF file again and again.** Induction over the list of blocks written: signing preserves that the name table is well formed and that a section is ordinary, so that C53 and C54 apply again; the ranges of earlier blocks lie in the part that is kept. Theorems: `C85_sections`, `C85_last`, `C85_digest`, `C85_old_blocks`, `C85_in_place`.
* **C86 The program as a whole: exit status, effects and crashes.** The program is a function from world, file system and command to steps and exit status (Main.v). Effects by an invariant of the steps; dependence by simulating a run in two file systems; crashes by going through every operation that can panic. Theorems: `C86_read_only`, `C86_other_files`, `C86_depends`, `C86_status`, `C86_verify_zero`, `C86_sign_verify`, `C86_verify_crash`, `C86_info_crash`, `C86_digest_crash`, `C86_sign_crash`.
* **C87 What the program writes to its standard output and standard error can be relied on.** Text.v renders every line of the printing models (C75-C79) as bytes, with texts of libraries as parameters; the fixed lines are shown to differ from every other line that can be rendered (by their first bytes, or because numbers are rendered injectively), so the lines of the text are the lines printed. C87_forged_refuted shows why file names must have no line feed. Theorems: `C87_program`, `C87_verify`, `C87_verify_lines`, `C87_info_lines`, `C87_sign_lines`, `C87_sign`, `C87_silent`, `C87_digest`, `C87_depends`, `C87_forged_refuted`.
* **C88 The display of algorithms and signing blocks shows exactly their summary.** Decimal and hexadecimal rendering are proved injective and self-delimiting (DecFacts.v); the display is decoded piece by piece. Theorems: `C88_algorithm`, `C88_block`, `C88_lines`.
* **C89 Debug and release builds do the same until the debug build crashes, and sign crashes exactly in three situations.** BuildSpec.v, BuildFacts.v, BuildFacts2.v: a relation "the checked build panics or both give the same" carried through every stage of every command, with the printed text as a prefix; the crash conditions of sign stage by stage. Theorems: `C89_builds`, `C89_sign_crash`, `C89_gap_release`, `C89_gap`.
* **C90 A build without ELF support treats modules as the default build does, except blocks with a broken section list.** NoElf.v repeats the reading functions over a parser of values; with the parser of the default build they are the default build (C90_default). NoElfFacts.v relates the two parsers value by value, then block by block, and carries equality of offsets and contents through the operations of a module. Theorems: `C90_default`, `C90_read`, `C90_read_bytes`, `C90_same`, `C90_refuses`, `C90_open`, `C90_open_elf`.
* **C91 The files in a module survive signing, and verification protects them.** UnzipSpec.v specifies unpacking (no code of the repository does it). UnzipFacts.v: headers form a prefix code, so the list of files is unique, and bytes inserted between entries and directory do not change it; the recorded size of the directory is digested, so a file with the same bytes outside the block has its directory in the same place or is unreadable. UnzipFacts2.v combines this with C19, C31, C51 and C70. Theorems: `C91_one`, `C91_written`, `C91_resigned`, `C91_sign`, `C91_digest`, `C91_accepted`, `C91_careless_refuted`.
* **C92 Signing does not change what a loader runs, and the signature does not say what it runs.** LoadSpec.v defines what a loader sees (entry point, program headers, bytes of the segments) from the ABI, independently of the parser of the model; escape values such as PN_XNUM are taken literally. C92_signed/C92_same follow from the byte-wise description of the writer; C92_free is a congruence of the parser and of the digest over the ranges `examined`; C92_entry_refuted is a concrete pair of programs. Theorems: `C92_signed`, `C92_same`, `C92_determined`, `C92_free`, `C92_entry_refuted`.
* **C93 Files changed by others while digest or info runs.** RaceDigest.v gives every operation, and every piece of a dump, its own file system. RaceDigestSpec.v says what a torn dump is, byte by byte; RaceDigestFacts.v proves it by induction on pieces and regions, that it determines the dump, and that the searches of info never look beyond the length determined first. The two _refuted theorems are concrete histories. Theorems: `C93_undisturbed`, `C93_dump_undisturbed`, `C93_module`, `C93_elf`, `C93_dump`, `C93_dump_one`, `C93_dump_still`, `C93_info`, `C93_dump_one_moment_refuted`, `C93_dump_digest_refuted`.
* **C94 What verify accepts has been signed by the owner of the key.** AuthSpec.v defines `has_signed`: a message that one of the three signing functions of the library signs with a key, over digests of a subject (a module, or sections of an ELF file), and `same_content`/`collide` for two subjects. The proofs show that a signed message determines its list of digests and, through the trailing timestamp attribute of stamps, its purpose, and then use the binding of the digests (C31, C55). C94_kind_refuted runs the sign command on a concrete ELF file, moves the block into a module nobody signed, and the verify command accepts it. Theorems: `C94_module`, `C94_history`, `C94_stamp`, `C94_elf`, `C94_sign_module`, `C94_sign_elf`, `C94_kind`, `C94_kind_refuted`.
* **C95 The command-line tool without ELF support behaves as the default build on modules, except those with a broken section list.** NoElfCli.v models the four commands and the program over NoElf.v. NoElfCliFacts.v compares them with Cli.v: either both builds read the block alike (then every step is equal), or both fail, or the block is disputed (NoElfCliSpec.v). Theorems: `C95_sign`, `C95_digest`, `C95_verify`, `C95_info`, `C95_disputed`, `C95_sections`, `C95_elf`.
* **C96 The clock and the configured roots decide about trust and nothing else.** Clock.v models verification with one clock reading per V2 signer and one for the stamp; C96_frozen shows that a constant clock gives the model of Verifier.v and Cli.v. Independence by induction over the signers, trust through the specification of trusted chains (VerifySpec.v), the interval claim from a hypothesis on the path validator (no_gaps) that the example library meets. C96_exact and C96_library_exact were added because a seeded bug (the stamp judged at the first signer's clock reading) had survived. Theorems: `C96_frozen`, `C96_checks`, `C96_trust`, `C96_between`, `C96_direct`, `C96_library`, `C96_library_between`, `C96_exact`, `C96_library_exact`.
* **C97 The digest of a module that changes while it is read.** DigestRace.v gives every read its own view of the file. The bytes read are written over one view (overlay lemmas), which gives the mixture; binding by tree_digest_inj. C97_length_refuted shows that the hypothesis on the length is needed. Theorems: `C97_mixture`, `C97_ends`, `C97_elsewhere`, `C97_block`, `C97_binding`, `C97_length_refuted`.

## 3. Trusted base

* Coq's kernel (8.16.1) and, for examples evaluated with `vm_compute`, its virtual machine (`coqchk` re-checks them without it).
* Axioms: none are used and none are added. `Print Assumptions` stands under every property theorem and prints `Closed under the global context` for each of them. (The checker also lists constants of `Coq.ssr.ssrunder`, a module type of the standard library that is loaded indirectly; no theorem here depends on them.)
* The transcription of the Rust code into Gallina: each definition of the model cites the lines it models and says where it simplifies.
* The behaviour of the Rust standard library and of external crates, as far as the comments of the model state it: `Read`/`Seek`/`BufReader`, `String::from_utf8`, `Vec::with_capacity`, `sort_by_key` (stable), `str::trim`, `eq_ignore_ascii_case`, goblin 0.10.3 for the ELF file header, the section table and names.

Modelled, function by function:

| Source | Model |
|---|---|
| src/utils.rs | Utils.v |
| src/common.rs | Common.v |
| src/signing_block/{mod,algorithms,scheme_v2,source_stamp,elf_section_info}.rs | SigningBlock.v, Algorithms.v, SchemeV2.v, SourceStamp.v, ElfInfo.v |
| src/file_formats/module/{mod,zip,digest}.rs | Module.v, Zip.v, Digest.v, ModuleVerify.v, digests with writers DigestRace.v |
| src/file_formats/elf/{mod,digest}.rs | Elf.v |
| src/signable.rs | Signable.v, Cli.v, Unified.v |
| the library without the feature `elf`, for modules; the commands without it | NoElf.v; NoElfCli.v |
| src/signer.rs, signer part of source_stamp.rs | Signer.v |
| src/verifier.rs (feature `verify`) | Verifier.v, with a running clock Clock.v |
| src/keystore.rs | Keystore.v |
| src/cli/{sign,verify,info,digest}.rs | Cli.v, Race.v, RaceDigest.v, Print.v, InfoPrint.v, SignPrint.v, Base64.v |
| src/main.rs, src/cli/mod.rs | Main.v |
| `println!`/`eprintln!` of src/main.rs and src/cli/*.rs, src/cli/cert.rs, `Display` of `Algorithms`, `VerifyError`, `SigningBlock`, `ValueSigningBlock` | Text.v |
| serde implementations of src/common.rs, src/signing_block/*.rs | Serde.v |

Not modelled:

* The messages of errors (`Display` of the error types other than `VerifyError`, of libraries and of the operating system) and the debug output of certificate names: parameters of Text.v, any text for each. The wording of every other line is modelled (Text.v, C87, C88) over the lines of Print.v, InfoPrint.v and SignPrint.v (C75-C79).
* The text formats of serde (JSON and others); the implementations for the types are modelled over the trees of its data model.
* The argument parser (clap, which exits with 2): commands start from parsed options.
* Builds without the default features `serde`, `hash`, `signing`, `keystore`, `verify`. Builds without `elf` are modelled for the operations of the library on modules (NoElf.v, C90) and for the effects and exit status of the commands (NoElfCli.v, C95), not for the wording they print.
* Code that is never compiled: the `cfg(not(feature = "verify"))` fallbacks inside src/verifier.rs, a module that src/lib.rs includes only with that feature. The `verify` method of the trait `Signable` always returns an error (src/signable.rs) and is not modelled.
* Memory exhaustion and time. The model computes with lists of any length; where a size matters (reservation of memory, sums that overflow) it is an explicit number.
* Changes to a file in the middle of one operation (one search for a block, one `fs::read`, one piece of a dump; in Race.v and RaceDigest.v also one digest, whose reads are modelled one by one in DigestRace.v). Changes between the operations of a command are modelled (Race.v and C73 for sign and verify, RaceDigest.v and C93 for digest and info); elsewhere a command is the only process.
* Cryptography, X.509, PEM and PKCS decoding, the path validator of webpki: oracles, as said above.
* Of goblin: everything but the file header, the section table and names. Its other checks are the parameter `rest`, which may refuse any file.

## 4. Wrong programs

`seeded/LOG.jsonl` records edits of the model that a realistic bug would make, and the theorems that no longer prove. Failing lemmas are admitted in the scratch copy so that one sees which property theorems depend on them; a theorem that remains closed does not notice the edit. The converse is weaker: `theorems_failed` lists the theorems that depend on a proof that broke, and a proof script can break although its lemma is still true of the edited program. So an entry with verdict "caught" is mechanical evidence, not a proof that each listed theorem is false of the edit. Entry n82 was such a case: it was first counted as caught through C51, only a script had broken, and the edit had in fact survived. Of the other entries, the 113 in which exactly one lemma broke were looked through by lemma and edit only, and five of them (m44, n03, n41, n78, r61) against the theorem statements; in those five a property theorem is false of the edit. The rest were not re-examined for this.
