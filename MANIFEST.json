{
 "claims": [
  {
   "property": "C01",
   "status": "proved",
   "theorems": [
    "C01_slice",
    "C01_slice_out_of_bounds",
    "C01_sub_reader",
    "C01_sub_reader_out_of_bounds",
    "C01_u16",
    "C01_u32",
    "C01_u64",
    "C01_int_out_of_bounds"
   ],
   "note": ""
  },
  {
   "property": "C02",
   "status": "proved",
   "theorems": [
    "C02_roundtrip",
    "C02_injective",
    "C02_known",
    "C02_comparison",
    "C02_derived_equality"
   ],
   "note": ""
  },
  {
   "property": "C03",
   "status": "proved",
   "theorems": [
    "C03_declared_sizes",
    "C03_prefix",
    "C03_sections"
   ],
   "note": ""
  },
  {
   "property": "C04",
   "status": "proved",
   "theorems": [
    "C04_v2_roundtrip",
    "C04_signers_roundtrip",
    "C04_exact",
    "C04_too_big",
    "C04_signers_exact"
   ],
   "note": ""
  },
  {
   "property": "C05",
   "status": "proved",
   "theorems": [
    "C05_stamp_roundtrip",
    "C05_stamp_block_roundtrip",
    "C05_exact"
   ],
   "note": ""
  },
  {
   "property": "C06",
   "status": "proved",
   "theorems": [
    "C06_info_roundtrip",
    "C06_info_value_roundtrip",
    "C06_refuted",
    "C06_exact"
   ],
   "note": "C06_exact is the iff. C06_refuted is a witness of the other side (a 65536-byte name)."
  },
  {
   "property": "C07",
   "status": "proved",
   "theorems": [
    "C07_roundtrip",
    "C07_roundtrip_padded"
   ],
   "note": ""
  },
  {
   "property": "C08",
   "status": "proved",
   "theorems": [
    "C08_limit",
    "C08_same_limit_as_parser",
    "C08_fields"
   ],
   "note": ""
  },
  {
   "property": "C09",
   "status": "proved",
   "theorems": [
    "C09_shape",
    "C09_error_iff",
    "C09_debug_agrees",
    "C09_debug_refuted",
    "C09_debug_exact"
   ],
   "note": "C09_debug_refuted is a witness of the debug panic; C09_debug_exact the exact condition."
  },
  {
   "property": "C10",
   "status": "proved",
   "theorems": [
    "C10_from_u8_release",
    "C10_from_reader_release",
    "C10_from_u8_debug",
    "C10_from_reader_debug",
    "C10_debug_refuted",
    "C10_from_u8_exact",
    "C10_from_reader_exact"
   ],
   "note": "C10_from_u8_exact and C10_from_reader_exact are the exact panic conditions of a debug build; C10_debug_refuted gives witnesses."
  },
  {
   "property": "C11",
   "status": "proved",
   "theorems": [
    "C11_from_u8",
    "C11_from_reader"
   ],
   "note": ""
  },
  {
   "property": "C12",
   "status": "proved",
   "theorems": [
    "C12_refuted",
    "C12_success",
    "C12_any"
   ],
   "note": "The property one would want (the reservation is bounded by the input) is false: C12_refuted, C12_any."
  },
  {
   "property": "C13",
   "status": "proved",
   "theorems": [
    "C13_v2",
    "C13_stamp"
   ],
   "note": ""
  },
  {
   "property": "C14",
   "status": "proved",
   "theorems": [
    "C14_refuted",
    "C14_library_blocks",
    "C14_raw_values"
   ],
   "note": "The unrestricted property is false: C14_refuted."
  },
  {
   "property": "C15",
   "status": "proved",
   "theorems": [
    "C15_iff",
    "C15_succeeds_iff",
    "C15_no_panic"
   ],
   "note": ""
  },
  {
   "property": "C16",
   "status": "proved",
   "theorems": [
    "C16_last",
    "C16_exact",
    "C16_slice"
   ],
   "note": ""
  },
  {
   "property": "C17",
   "status": "proved",
   "theorems": [
    "C17_exact",
    "C17_refuted",
    "C17_gap_refuted",
    "C17_written"
   ],
   "note": "The unrestricted property is false: C17_refuted, C17_gap_refuted. C17_exact is the iff."
  },
  {
   "property": "C18",
   "status": "proved",
   "theorems": [
    "C18_iff",
    "C18_refuted"
   ],
   "note": "C18_iff is the exact condition; C18_refuted shows archives outside it."
  },
  {
   "property": "C19",
   "status": "proved",
   "theorems": [
    "C19_write",
    "C19_every_archive"
   ],
   "note": ""
  },
  {
   "property": "C20",
   "status": "proved",
   "theorems": [
    "C20_exact",
    "C20_read_back",
    "C20_short_comment",
    "C20_long_comment_refuted"
   ],
   "note": "C20_exact is the iff; C20_long_comment_refuted a witness of the other side."
  },
  {
   "property": "C21",
   "status": "proved",
   "theorems": [
    "C21_digest"
   ],
   "note": ""
  },
  {
   "property": "C22",
   "status": "proved",
   "theorems": [
    "C22_strip",
    "C22_strip_any"
   ],
   "note": ""
  },
  {
   "property": "C23",
   "status": "proved",
   "theorems": [
    "C23_resign",
    "C23_history"
   ],
   "note": ""
  },
  {
   "property": "C24",
   "status": "proved",
   "theorems": [
    "C24_tail_lost",
    "C24_refuted"
   ],
   "note": "That trailing bytes are handled is false: C24_tail_lost, C24_refuted."
  },
  {
   "property": "C25",
   "status": "proved",
   "theorems": [
    "C25_broken",
    "C25_refused",
    "C25_all_or_nothing"
   ],
   "note": ""
  },
  {
   "property": "C26",
   "status": "proved",
   "theorems": [
    "C26_exact",
    "C26_offset",
    "C26_refuted"
   ],
   "note": "C26_exact is the iff; C26_refuted gives the wrapped offset."
  },
  {
   "property": "C27",
   "status": "proved",
   "theorems": [
    "C27_raw"
   ],
   "note": ""
  },
  {
   "property": "C28",
   "status": "proved",
   "theorems": [
    "C28_signed",
    "C28_unsigned",
    "C28_never",
    "C28_refuted"
   ],
   "note": "That the writer works however the module was opened is false: C28_never, C28_refuted."
  },
  {
   "property": "C29",
   "status": "proved",
   "theorems": [
    "C29_sha256",
    "C29_sha512",
    "C29_unknown",
    "C29_digest"
   ],
   "note": ""
  },
  {
   "property": "C30",
   "status": "proved",
   "theorems": [
    "C30_exact",
    "C30_refuted",
    "C30_full_reads"
   ],
   "note": "Independence of the reader is false: C30_refuted. C30_exact says what matters."
  },
  {
   "property": "C31",
   "status": "proved",
   "theorems": [
    "C31_binding",
    "C31_release_refuted"
   ],
   "note": ""
  },
  {
   "property": "C32",
   "status": "proved",
   "theorems": [
    "C32_free",
    "C32_refuted"
   ],
   "note": "That the offset is authenticated is false: C32_free, C32_refuted."
  },
  {
   "property": "C33",
   "status": "proved",
   "theorems": [
    "C33_debug_exact",
    "C33_release",
    "C33_debug_refuted",
    "C33_debug"
   ],
   "note": "C33_debug_exact is the exact panic condition; C33_debug_refuted a witness."
  },
  {
   "property": "C34",
   "status": "proved",
   "theorems": [
    "C34_contents",
    "C34_succeeds_iff",
    "C34_verifies"
   ],
   "note": ""
  },
  {
   "property": "C35",
   "status": "proved",
   "theorems": [
    "C35_contents",
    "C35_succeeds_iff",
    "C35_verifies",
    "C35_same_apis"
   ],
   "note": ""
  },
  {
   "property": "C36",
   "status": "proved",
   "theorems": [
    "C36_sign_iff",
    "C36_signers_fail",
    "C36_unknown_never_verifies",
    "C36_unknown_signer_never_valid",
    "C36_accepted_iff"
   ],
   "note": ""
  },
  {
   "property": "C37",
   "status": "proved",
   "theorems": [
    "C37_required"
   ],
   "note": ""
  },
  {
   "property": "C38",
   "status": "proved",
   "theorems": [
    "C38_content",
    "C38_results",
    "C38_v2_outcome",
    "C38_parsed_blocks",
    "C38_built_blocks",
    "C38_readable"
   ],
   "note": ""
  },
  {
   "property": "C39",
   "status": "proved",
   "theorems": [
    "C39_layout",
    "C39_readable",
    "C39_padded"
   ],
   "note": ""
  },
  {
   "property": "C40",
   "status": "proved",
   "theorems": [
    "C40_sound",
    "C40_file"
   ],
   "note": "Stamps tolerate a signature whose algorithm has no digest entry and ignore intermediates (stamp_good in VerifySpec.v)."
  },
  {
   "property": "C41",
   "status": "proved",
   "theorems": [
    "C41_complete",
    "C41_file"
   ],
   "note": ""
  },
  {
   "property": "C42",
   "status": "proved",
   "theorems": [
    "C42_error",
    "C42_no_full_flags",
    "C42_missing_digest_refuted"
   ],
   "note": "That every defect is an error is false in one case: C42_missing_digest_refuted."
  },
  {
   "property": "C43",
   "status": "proved",
   "theorems": [
    "C43_v2",
    "C43_stamp",
    "C43_never_valid"
   ],
   "note": ""
  },
  {
   "property": "C44",
   "status": "proved",
   "theorems": [
    "C44_refuted",
    "C44_nothing_refuted",
    "C44_present",
    "C44_some_signer"
   ],
   "note": "That is_valid alone implies a signature is false: C44_refuted, C44_nothing_refuted."
  },
  {
   "property": "C45",
   "status": "proved",
   "theorems": [
    "C45_exact",
    "C45_stamp_exact",
    "C45_refuted",
    "C45_signers",
    "C45_stamp"
   ],
   "note": "C45_exact and C45_stamp_exact are equivalences; C45_refuted shows that signature_valid alone does not imply a signature."
  },
  {
   "property": "C46",
   "status": "proved",
   "theorems": [
    "C46_v2",
    "C46_stamp"
   ],
   "note": ""
  },
  {
   "property": "C47",
   "status": "proved",
   "theorems": [
    "C47_iff",
    "C47_no_roots",
    "C47_reports",
    "C47_stamp_reports",
    "C47_pem_roots",
    "C47_builtin_roots"
   ],
   "note": ""
  },
  {
   "property": "C48",
   "status": "proved",
   "theorems": [
    "C48_structure"
   ],
   "note": ""
  },
  {
   "property": "C49",
   "status": "proved",
   "theorems": [
    "C49_exit_status"
   ],
   "note": ""
  },
  {
   "property": "C50",
   "status": "proved",
   "theorems": [
    "C50_sign",
    "C50_sign_verify",
    "C50_short_comment",
    "C50_library"
   ],
   "note": ""
  },
  {
   "property": "C51",
   "status": "proved",
   "theorems": [
    "C51_verify",
    "C51_library"
   ],
   "note": ""
  },
  {
   "property": "C52",
   "status": "proved",
   "theorems": [
    "C52_same_block",
    "C52_refuted"
   ],
   "note": "C52_same_block is the iff; C52_refuted a witness of the other side."
  },
  {
   "property": "C53",
   "status": "proved",
   "theorems": [
    "C53_bytes",
    "C53_sections",
    "C53_names",
    "C53_reads_back",
    "C53_names_refuted",
    "C53_reads_back_refuted"
   ],
   "note": "Without a well-formed name table names and read-back fail: C53_names_refuted, C53_reads_back_refuted."
  },
  {
   "property": "C54",
   "status": "proved",
   "theorems": [
    "C54_digest_unchanged",
    "C54_refuted"
   ],
   "note": "C54_refuted has witnesses for the three excluded kinds of sections."
  },
  {
   "property": "C55",
   "status": "proved",
   "theorems": [
    "C55_sha256",
    "C55_sha512",
    "C55_unknown",
    "C55_resolved",
    "C55_resolves",
    "C55_is_digest",
    "C55_order",
    "C55_binding",
    "C55_order_refuted",
    "C55_names_refuted",
    "C55_boundaries_refuted",
    "C55_coverage_refuted"
   ],
   "note": "What is not covered: C55_order_refuted, C55_names_refuted, C55_boundaries_refuted, C55_coverage_refuted."
  },
  {
   "property": "C56",
   "status": "proved",
   "theorems": [
    "C56_selection",
    "C56_refusal",
    "C56_opened",
    "C56_module_sign",
    "C56_module_digest",
    "C56_regions"
   ],
   "note": ""
  },
  {
   "property": "C57",
   "status": "proved",
   "theorems": [
    "C57_readable",
    "C57_refuted"
   ],
   "note": "C57_readable is the exact condition; C57_refuted a witness (a 12 KiB certificate)."
  },
  {
   "property": "C58",
   "status": "proved",
   "theorems": [
    "C58_pem_exact",
    "C58_p12_exact",
    "C58_pem_files",
    "C58_p12_file",
    "C58_certificate_der",
    "C58_embedded",
    "C58_pem",
    "C58_pem_iff",
    "C58_p12",
    "C58_der",
    "C58_signs"
   ],
   "note": ""
  },
  {
   "property": "C59",
   "status": "proved",
   "theorems": [
    "C59_plain_key",
    "C59_errors",
    "C59_only"
   ],
   "note": ""
  },
  {
   "property": "C60",
   "status": "proved",
   "theorems": [
    "C60_other_files",
    "C60_output"
   ],
   "note": ""
  },
  {
   "property": "C61",
   "status": "proved",
   "theorems": [
    "C61_elf",
    "C61_module",
    "C61_refuted",
    "C61_elf_refuted"
   ],
   "note": "That signing in place is safe is false: C61_module, C61_refuted, C61_elf_refuted."
  },
  {
   "property": "C62",
   "status": "proved",
   "theorems": [
    "C62_dump",
    "C62_command",
    "C62_module",
    "C62_alias_refuted",
    "C62_alias"
   ],
   "note": "C62_alias is the case of a dump over the input; C62_alias_refuted an instance with the command."
  },
  {
   "property": "C63",
   "status": "proved",
   "theorems": [
    "C63_spells",
    "C63_injective",
    "C63_length",
    "C63_command",
    "C63_base64_spells",
    "C63_base64_unique",
    "C63_base64_length",
    "C63_printed"
   ],
   "note": ""
  },
  {
   "property": "C64",
   "status": "proved",
   "theorems": [
    "C64_detection"
   ],
   "note": ""
  },
  {
   "property": "C65",
   "status": "proved",
   "theorems": [
    "C65_exact",
    "C65_v2_not_stamp",
    "C65_transplant",
    "C65_refuted"
   ],
   "note": "The stamp-to-module direction is false: C65_transplant, C65_refuted."
  },
  {
   "property": "C66",
   "status": "proved",
   "theorems": [
    "C66_parsed",
    "C66_readable",
    "C66_built_faithful",
    "C66_library_blocks",
    "C66_refuted"
   ],
   "note": "For blocks of other writers reading back can fail: C66_refuted."
  },
  {
   "property": "C67",
   "status": "proved",
   "theorems": [
    "C67_every_verification",
    "C67_module_sign",
    "C67_stamp_never_verifies",
    "C67_refuted",
    "C67_never_verifies"
   ],
   "note": "That mismatched credentials are refused when loaded is false: C67_refuted."
  },
  {
   "property": "C68",
   "status": "proved",
   "theorems": [
    "C68_no_panic",
    "C68_alignment_panics",
    "C68_refuted"
   ],
   "note": "C68_refuted is a witness of the panic."
  },
  {
   "property": "C69",
   "status": "proved",
   "theorems": [
    "C69_module",
    "C69_reader",
    "C69_slice",
    "C69_none"
   ],
   "note": "Parser = grammar, both directions, for readers, byte strings and modules; the only hypothesis is a file size below 2^64."
  },
  {
   "property": "C70",
   "status": "proved",
   "theorems": [
    "C70_written",
    "C70_digest",
    "C70_adjacent"
   ],
   "note": "Archives of ZipSpec.v with the old block at any distance before the directory; inequality of the digests up to an explicit clash."
  },
  {
   "property": "C71",
   "status": "proved",
   "theorems": [
    "C71_same_result",
    "C71_other_values",
    "C71_v2_tail",
    "C71_stamp_tail"
   ],
   "note": "Archives of ZipSpec.v with the block adjacent to the directory; the instances cover every block made by the module signer."
  },
  {
   "property": "C72",
   "status": "proved",
   "theorems": [
    "C72_report",
    "C72_stamp_report",
    "C72_report_iff",
    "C72_stamp_report_iff",
    "C72_failures",
    "C72_stamp_failures",
    "C72_no_signature",
    "C72_errors"
   ],
   "note": ""
  },
  {
   "property": "C73",
   "status": "proved",
   "theorems": [
    "C73_undisturbed",
    "C73_verify_undisturbed",
    "C73_library",
    "C73_sign",
    "C73_content",
    "C73_elf",
    "C73_verify"
   ],
   "note": ""
  },
  {
   "property": "C74",
   "status": "proved",
   "theorems": [
    "C74_roundtrip",
    "C74_slice",
    "C74_reader",
    "C74_built",
    "C74_same_bytes",
    "C74_accepted",
    "C74_injective",
    "C74_order",
    "C74_roundtrip_refuted",
    "C74_valid_refuted"
   ],
   "note": ""
  },
  {
   "property": "C75",
   "status": "proved",
   "theorems": [
    "C75_status",
    "C75_success",
    "C75_success_end",
    "C75_verbose",
    "C75_signers",
    "C75_overall",
    "C75_stamp_passed",
    "C75_stamp_failed",
    "C75_failed_signers",
    "C75_not_found",
    "C75_signer_number_refuted"
   ],
   "note": ""
  },
  {
   "property": "C76",
   "status": "proved",
   "theorems": [
    "C76_module",
    "C76_unsigned",
    "C76_elf",
    "C76_dump_again_refuted",
    "C76_undumpable_refuted"
   ],
   "note": ""
  },
  {
   "property": "C77",
   "status": "proved",
   "theorems": [
    "C77_status",
    "C77_contents",
    "C77_no_integrity",
    "C77_v2",
    "C77_stamp",
    "C77_block_only",
    "C77_tampered_refuted",
    "C77_mark_refuted",
    "C77_lines",
    "C77_failure",
    "C77_unreadable"
   ],
   "note": ""
  },
  {
   "property": "C78",
   "status": "proved",
   "theorems": [
    "C78_status",
    "C78_keys",
    "C78_regions",
    "C78_module",
    "C78_elf",
    "C78_success_refuted",
    "C78_lines",
    "C78_order"
   ],
   "note": ""
  },
  {
   "property": "C79",
   "status": "proved",
   "theorems": [
    "C79_status",
    "C79_dump",
    "C79_total",
    "C79_total_refuted",
    "C79_lines",
    "C79_order"
   ],
   "note": ""
  },
  {
   "property": "C80",
   "status": "proved",
   "theorems": [
    "C80_elf_block",
    "C80_elf_none",
    "C80_elf_signed",
    "C80_module_block",
    "C80_module_none",
    "C80_module_signed",
    "C80_opened",
    "C80_valid"
   ],
   "note": ""
  },
  {
   "property": "C81",
   "status": "proved",
   "theorems": [
    "C81_end_to_end",
    "C81_command",
    "C81_command_refuted"
   ],
   "note": ""
  },
  {
   "property": "C82",
   "status": "proved",
   "theorems": [
    "C82_contents",
    "C82_list"
   ],
   "note": ""
  },
  {
   "property": "C83",
   "status": "proved",
   "theorems": [
    "C83_block_found",
    "C83_custom_root",
    "C83_digests",
    "C83_no_digests",
    "C83_digests_computed",
    "C83_passed",
    "C83_signers_verified",
    "C83_refusal",
    "C83_v2_failed",
    "C83_certificates",
    "C83_chains",
    "C83_chain_certificates",
    "C83_warnings",
    "C83_errors",
    "C83_signer_warnings",
    "C83_stamp_reasons",
    "C83_stamp_flags",
    "C83_stamp_tampered",
    "C83_stamp_untrusted",
    "C83_stamp_warnings",
    "C83_stamp_certificate",
    "C83_stamp_not_found",
    "C83_stamp_error",
    "C83_stamp_present",
    "C83_mismatch_means",
    "C83_tampered_means",
    "C83_never"
   ],
   "note": ""
  },
  {
   "property": "C84",
   "status": "proved",
   "theorems": [
    "C84_options",
    "C84_no_options",
    "C84_unique",
    "C84_module",
    "C84_elf",
    "C84_accepted"
   ],
   "note": ""
  },
  {
   "property": "C85",
   "status": "proved",
   "theorems": [
    "C85_sections",
    "C85_last",
    "C85_digest",
    "C85_old_blocks",
    "C85_in_place"
   ],
   "note": ""
  },
  {
   "property": "C86",
   "status": "proved",
   "theorems": [
    "C86_read_only",
    "C86_other_files",
    "C86_depends",
    "C86_status",
    "C86_verify_zero",
    "C86_sign_verify",
    "C86_verify_crash",
    "C86_info_crash",
    "C86_digest_crash",
    "C86_sign_crash"
   ],
   "note": ""
  },
  {
   "property": "C87",
   "status": "proved",
   "theorems": [
    "C87_program",
    "C87_verify",
    "C87_verify_lines",
    "C87_info_lines",
    "C87_sign_lines",
    "C87_sign",
    "C87_silent",
    "C87_digest",
    "C87_depends",
    "C87_forged_refuted"
   ],
   "note": ""
  },
  {
   "property": "C88",
   "status": "proved",
   "theorems": [
    "C88_algorithm",
    "C88_block",
    "C88_lines"
   ],
   "note": ""
  },
  {
   "property": "C89",
   "status": "proved",
   "theorems": [
    "C89_builds",
    "C89_sign_crash",
    "C89_gap_release",
    "C89_gap"
   ],
   "note": ""
  },
  {
   "property": "C90",
   "status": "proved",
   "theorems": [
    "C90_default",
    "C90_read",
    "C90_read_bytes",
    "C90_same",
    "C90_refuses",
    "C90_open",
    "C90_open_elf"
   ],
   "note": ""
  },
  {
   "property": "C91",
   "status": "proved",
   "theorems": [
    "C91_one",
    "C91_written",
    "C91_resigned",
    "C91_sign",
    "C91_digest",
    "C91_accepted",
    "C91_careless_refuted"
   ],
   "note": ""
  },
  {
   "property": "C92",
   "status": "proved",
   "theorems": [
    "C92_signed",
    "C92_same",
    "C92_determined",
    "C92_free",
    "C92_entry_refuted"
   ],
   "note": ""
  },
  {
   "property": "C93",
   "status": "proved",
   "theorems": [
    "C93_undisturbed",
    "C93_dump_undisturbed",
    "C93_module",
    "C93_elf",
    "C93_dump",
    "C93_dump_one",
    "C93_dump_still",
    "C93_info",
    "C93_dump_one_moment_refuted",
    "C93_dump_digest_refuted"
   ],
   "note": ""
  },
  {
   "property": "C94",
   "status": "proved",
   "theorems": [
    "C94_module",
    "C94_history",
    "C94_stamp",
    "C94_elf",
    "C94_sign_module",
    "C94_sign_elf",
    "C94_kind",
    "C94_kind_refuted"
   ],
   "note": ""
  },
  {
   "property": "C95",
   "status": "proved",
   "theorems": [
    "C95_sign",
    "C95_digest",
    "C95_verify",
    "C95_info",
    "C95_disputed",
    "C95_sections",
    "C95_elf"
   ],
   "note": ""
  },
  {
   "property": "C96",
   "status": "proved",
   "theorems": [
    "C96_frozen",
    "C96_checks",
    "C96_trust",
    "C96_between",
    "C96_direct",
    "C96_library",
    "C96_library_between",
    "C96_exact",
    "C96_library_exact"
   ],
   "note": ""
  },
  {
   "property": "C97",
   "status": "proved",
   "theorems": [
    "C97_mixture",
    "C97_ends",
    "C97_elsewhere",
    "C97_block",
    "C97_binding",
    "C97_length_refuted"
   ],
   "note": ""
  }
 ]
}