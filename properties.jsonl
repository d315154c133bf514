{"id": "C01", "title": "Bounded reads never escape the buffer", "statement": "A read through the binary reader (slice, u16, u32, u64, sub-reader) either returns exactly the requested bytes at the current position, interpreted little-endian, and advances by exactly that amount, or fails because fewer bytes remain; it never panics, never returns bytes outside the buffer.", "quantifier": "all buffers, positions inside the buffer and requested lengths", "why_tests_cant": "needs every buffer length/position/length combination, including the boundary ones", "anchors": ["src/utils.rs::MyReader"]}
{"id": "C02", "title": "Algorithm identifiers are a faithful 1-1 code", "statement": "Converting a u32 to an algorithm and back gives the same u32; two ids give equal algorithms only if equal; 0x0201 and 0x0202 are the only ids that are not 'unknown'; the u32==algorithm comparison agrees with the conversion.", "quantifier": "all 2^32 ids", "why_tests_cant": "2^32 values and pairs of values", "anchors": ["src/signing_block/algorithms.rs::Algorithms"]}
{"id": "C03", "title": "Declared sizes are real sizes", "statement": "Every digest, certificate, signature, public key, attribute, list, signed data, signer, V2 block, stamp block and section-info block (with names of any length) made with the public constructors serialises to exactly the number of bytes its size field declares (plus the length prefix). A reader that follows the written length prefix comes out right after the value exactly if the size is below 2^32 (2^64 for the values of a signing block).", "quantifier": "all contents of the structures", "why_tests_cant": "sizes are computed by one code path and bytes by another; agreement is needed for every content", "anchors": ["src/common.rs", "src/signing_block/scheme_v2.rs", "src/signing_block/source_stamp.rs", "src/signing_block/elf_section_info.rs"]}
{"id": "C04", "title": "V2 block round-trip", "statement": "Parsing the serialisation of any constructor-built value of a signing block (in particular a V2 block) gives back the same value and consumes exactly its bytes, exactly if its size is at most 16 KiB; a larger value is refused. A list of signers reads back exactly if its size is below 2^32.", "quantifier": "all lists of signers, digests, certificates, signatures, attributes", "why_tests_cant": "unbounded nested lists", "anchors": ["src/signing_block/scheme_v2.rs::SignatureSchemeV2", "src/signing_block/mod.rs::ValueSigningBlock::parse"]}
{"id": "C05", "title": "Source stamp round-trip", "statement": "Parsing the serialisation of any constructor-built source stamp gives back the same stamp: as a value of a signing block if its size is at most 16 KiB, and by itself exactly if its size is below 2^32.", "quantifier": "all stamp contents", "why_tests_cant": "unbounded nested lists", "anchors": ["src/signing_block/source_stamp.rs::SourceStamp", "src/signing_block/mod.rs::ValueSigningBlock::parse"]}
{"id": "C06", "title": "ELF section info round-trip", "statement": "Parsing the serialisation of a section-info block gives back the same block exactly when every section name is shorter than 65536 bytes in UTF-8. (A longer name has its length field truncated to 16 bits, and another block is read.)", "quantifier": "all lists of fewer than 2^32 sections, with any Unicode names", "why_tests_cant": "unbounded lists and names; the name length is silently truncated to 16 bits", "anchors": ["src/signing_block/elf_section_info.rs"]}
{"id": "C07", "title": "Signing block round-trip", "statement": "A signing block built by the library from any constructor-built contents, serialised and parsed back with from_u8, is the same block.", "quantifier": "all lists of constructor-built values accepted by SigningBlock::new or new_with_padding", "why_tests_cant": "unbounded content lists", "anchors": ["src/signing_block/mod.rs::SigningBlock::{new,new_with_padding,to_u8,from_u8}"]}
{"id": "C08", "title": "Size limit is symmetric", "statement": "SigningBlock::new accepts a content list exactly when the block fits the 16 KiB limit the parser enforces; the accepted block's size fields, content size and offsets are the real byte counts.", "quantifier": "all content lists", "why_tests_cant": "boundary of a sum over an arbitrary list", "anchors": ["src/signing_block/mod.rs::SigningBlock::new"]}
{"id": "C09", "title": "4 KiB padding", "statement": "new_with_padding yields a block whose full size is a multiple of 4096, whose contents are the given values in order followed by at most one all-zero padding value. In a release build it returns an error exactly when a padding value is already present, the remaining gap cannot hold a padding value, or the result exceeds 16 KiB. A debug build yields the same blocks, and panics exactly when there is no padding value yet and the gap cannot hold one.", "quantifier": "all content lists, both build profiles", "why_tests_cant": "needs every residue modulo 4096; the error branch itself contains an unchecked subtraction", "anchors": ["src/signing_block/mod.rs::SigningBlock::new_with_padding"]}
{"id": "C10", "title": "Parsing hostile bytes", "statement": "In a release build from_u8 and from_reader return a block or an error for every byte string: no panic, no infinite loop. A debug build does the same, except for panics: from_reader panics exactly on the files on which a release build reports that the two sizes of the block differ, and from_u8 panics exactly when the last magic in the slice has fewer than 8 bytes before it, declares fewer than 16 bytes, or the two sizes differ.", "quantifier": "all byte strings, all end offsets, both build profiles", "why_tests_cant": "all inputs; overflow checks differ between debug and release", "anchors": ["src/signing_block/mod.rs::SigningBlock::{from_u8,from_reader,parse_full_block,extract_values}"]}
{"id": "C11", "title": "Accepted blocks respect the 16 KiB limits and are fully accounted for", "statement": "A parsed signing block has equal start/end sizes, ends with the magic, has size at most 16 KiB, every value in it has a declared size at most 16 KiB, and the declared value sizes add up to the content size exactly.", "quantifier": "all byte strings accepted by the parser", "why_tests_cant": "all inputs", "anchors": ["src/signing_block/mod.rs::SigningBlock::parse_full_block", "src/signing_block/mod.rs::ValueSigningBlock::parse"]}
{"id": "C12", "title": "Memory reserved while parsing section info", "statement": "The number of elements for which room is reserved when section info is parsed is the count declared in the first four bytes, whatever follows: four bytes of input can make it any number below 2^32. Only if parsing succeeds is it bounded by the input (18 bytes per element).", "quantifier": "all byte strings, all counts", "why_tests_cant": "the reservation size is attacker-chosen", "anchors": ["src/signing_block/elf_section_info.rs::ElfSectionInfo::parse"]}
{"id": "C13", "title": "The signed bytes pin down what was signed", "statement": "The verifier checks signatures over a re-serialisation of the parsed signed data. Two signed-data structures obtained by parsing that have the same signed bytes have the same digests, certificates and attributes.", "quantifier": "all pairs of byte strings accepted by the signed-data parser (V2 and stamp)", "why_tests_cant": "quantifies over all pairs of inputs", "anchors": ["src/signing_block/scheme_v2.rs::SignedData::{parse,to_u8}", "src/signing_block/source_stamp.rs::SignedData::{parse,to_u8}", "src/verifier.rs"]}
{"id": "C14", "title": "Parsing then serialising reproduces the bytes", "statement": "Serialising a parsed signing block reproduces the bytes it was parsed from, if the library wrote them or if the block has only values the library does not interpret. It does not for every accepted block: an accepted block can serialise to other bytes of the same length.", "quantifier": "all accepted byte strings", "why_tests_cant": "all inputs", "anchors": ["src/signing_block/mod.rs", "src/signing_block/scheme_v2.rs", "src/signing_block/source_stamp.rs", "src/common.rs"]}
{"id": "C15", "title": "End-of-central-directory lookup returns the last record that fits", "statement": "find_eocd succeeds exactly when some EOCD record with its comment fits within the last 65557 bytes of the file, returns the one closest to the end, its fields are the file's bytes, and serialising it reproduces those bytes.", "quantifier": "all files", "why_tests_cant": "all files, positions and comment lengths", "anchors": ["src/file_formats/module/zip.rs::{find_eocd,find_eocd_in_buffer,parse_eocd_at_offset}"]}
{"id": "C16", "title": "Located signing block is exactly a slice of the file", "statement": "When a module's signing block is found, its start/end offsets delimit bytes inside the file, before the central directory, of exactly the declared size, and the block is what from_u8 parses from that slice.", "quantifier": "all files", "why_tests_cant": "all files; the window and wide-block code paths only differ on >16 MiB files", "anchors": ["src/signing_block/mod.rs::SigningBlock::from_reader", "src/file_formats/module/mod.rs::Module::get_signing_block"]}
{"id": "C17", "title": "Adjacency of the signing block to the central directory", "statement": "The block reported for a module ends where the central directory starts exactly when the 16 bytes before the directory are the block magic; this is so for every signed archive the library writes. Otherwise the block is still reported: any gap of up to 1 MiB without a magic can follow it.", "quantifier": "all files; all gaps without a magic of up to 1 MiB", "why_tests_cant": "all files; attacker chosen bytes between block and central directory", "anchors": ["src/signing_block/mod.rs::SigningBlock::from_reader", "src/file_formats/module/mod.rs::Module::get_signing_block"]}
{"id": "C18", "title": "When a module is recognised as unsigned", "statement": "An archive without a signing block is reported as having no signature (and can be digested and signed) exactly when the bytes before its central directory number at least 24 and contain no block magic. (An empty archive, or one that stores a signed archive or the magic in an entry, is not.)", "quantifier": "all ZIP archives", "why_tests_cant": "depends on arbitrary entry bytes", "anchors": ["src/signing_block/mod.rs::SigningBlock::from_reader", "src/file_formats/module/mod.rs::Module::get_offsets", "src/signable.rs::maybe_missing_signature"]}
{"id": "C19", "title": "Writing a signature changes only what it must", "statement": "Writing a signing block into an unsigned module outputs the entries, the block, the central directory and the end record unchanged except for the central directory offset, which is increased by the block length.", "quantifier": "all unsigned modules and blocks", "why_tests_cant": "all files", "anchors": ["src/signable.rs::Signable for Module::write_with_signature"]}
{"id": "C20", "title": "A written block is read back", "statement": "After writing a constructor-built signing block into an unsigned module, opening the output returns that block, located at the former central directory offset, whenever the rewritten end record still is the only end record; this is always so for a comment shorter than 13 bytes below 4 GiB. In general the block is read back exactly if the end record found in the output points past the block and no magic comes in between (a longer comment can contain bytes that the new directory offset completes to a second end record).", "quantifier": "all unsigned modules, all library-built blocks", "why_tests_cant": "all files and blocks", "anchors": ["src/signable.rs", "src/file_formats/module/mod.rs::Module::get_signing_block"]}
{"id": "C21", "title": "Signing does not change the digest", "statement": "The digest of the module before signing equals the digest of the written output, for every algorithm, so the signature stays valid.", "quantifier": "all unsigned modules, blocks, algorithms", "why_tests_cant": "all files, chunk boundaries", "anchors": ["src/file_formats/module/mod.rs::Module::digest", "src/file_formats/module/digest.rs", "src/signable.rs"]}
{"id": "C22", "title": "Stripping the signature restores the original", "statement": "Removing the signature from a signed output gives the original module byte for byte.", "quantifier": "all unsigned modules and blocks", "why_tests_cant": "all files", "anchors": ["src/file_formats/module/mod.rs::Module::get_raw_module", "src/signable.rs"]}
{"id": "C23", "title": "Re-signing replaces the signature", "statement": "Signing an already signed output with a new block gives exactly what signing the original with that block gives.", "quantifier": "all unsigned modules, all pairs of blocks", "why_tests_cant": "all histories of sign operations", "anchors": ["src/signable.rs::Signable for Module::write_with_signature", "src/file_formats/module/mod.rs::Module::get_raw_module"]}
{"id": "C24", "title": "Archives with trailing bytes", "statement": "For an archive that is accepted with bytes after its end record, signing drops these bytes, and the digest that was signed is not the digest of the output unless two of the hashed messages collide.", "quantifier": "all unsigned modules with trailing bytes, all blocks", "why_tests_cant": "all files", "anchors": ["src/file_formats/module/zip.rs", "src/signable.rs", "src/file_formats/module/mod.rs"]}
{"id": "C25", "title": "No signing over a corrupted block", "statement": "If the last magic in the 16 MiB before the central directory does not end a well-formed block, no block is found (no other block further up is taken instead), the module does not count as unsigned, and writing a signature fails and writes nothing. Whatever the file, a failed write has written nothing.", "quantifier": "all modules and blocks", "why_tests_cant": "all corrupted files", "anchors": ["src/signable.rs::Signable for Module::write_with_signature"]}
{"id": "C26", "title": "Central directory offset in the output", "statement": "The written end record's central directory offset is the true offset of the central directory in the output exactly when that offset is below 2^32; otherwise it wraps around and the call still reports success.", "quantifier": "all unsigned modules and blocks, both build profiles", "why_tests_cant": "needs offsets near 2^32", "anchors": ["src/signable.rs::Signable for Module::write_with_signature"]}
{"id": "C27", "title": "Raw-module writer", "statement": "new_raw + sign_v2 + write_with_signature writes entries, block, directory, adjusted end record; the result reads back the block and has the digest that was signed.", "quantifier": "all raw modules without trailing bytes, all keys", "why_tests_cant": "all files", "anchors": ["src/file_formats/module/mod.rs::Module::{new_raw,sign_v2,write_with_signature}"]}
{"id": "C28", "title": "The same writer on a module opened with Module::new", "statement": "Module::write_with_signature on a module opened with Module::new never writes the correctly signed archive. For an unsigned archive that was just signed it truncates the directory, or panics (debug) or repeats the tail of the file (release) when the block is longer than the directory; for a signed file it writes the beginning of the block in place of the directory and a directory offset that counts the block twice.", "quantifier": "all archives and library-built blocks, both build profiles", "why_tests_cant": "all histories open/sign/write", "anchors": ["src/file_formats/module/mod.rs::Module::write_with_signature"]}
{"id": "C29", "title": "Digest is the chunked digest", "statement": "With full reads the module digest is H(0x5a, count, H(0xa5,len,chunk)...) over 1 MiB chunks of entries, central directory and end record (with the directory offset replaced by the block start). H is SHA2-256 or SHA2-512 as the algorithm says; under an unknown algorithm the digest is empty.", "quantifier": "all modules and algorithms", "why_tests_cant": "all lengths relative to chunk boundaries", "anchors": ["src/file_formats/module/digest.rs", "src/signing_block/algorithms.rs: Algorithms::hash"]}
{"id": "C30", "title": "How the reader returns data and the digest", "statement": "The digest is determined by the pieces in which the reader returns the data of the two streamed regions: readers that fill the buffer give the same digest, and two readers that return different pieces give different digests unless two of the hashed messages collide (so a reader with short reads computes a digest that does not match).", "quantifier": "all files, all read schedules", "why_tests_cant": "all schedules of short reads", "anchors": ["src/file_formats/module/digest.rs::{digest_zip_contents,digest_central_directory}"]}
{"id": "C31", "title": "Digest covers every byte", "statement": "Two modules with equal digests have the same bytes outside the signing block (end-record offset field normalised), or a hash collision is exhibited.", "quantifier": "all pairs of modules", "why_tests_cant": "pairs of files; collision argument", "anchors": ["src/file_formats/module/digest.rs", "src/file_formats/module/mod.rs::Module::digest"]}
{"id": "C32", "title": "The central directory offset is not authenticated", "statement": "The directory offset of a signed module can be set to any value after the end of the block, up to 1 MiB and short of the next magic and as long as the end record stays the only one, without any change in the block that is found, in the digests and in the outcome of verification.", "quantifier": "all signed archives, all such offsets, all keys, clocks and trusted roots", "why_tests_cant": "adversarial edits of one field", "anchors": ["src/file_formats/module/digest.rs::digest_end_of_central_directory", "src/file_formats/module/mod.rs::Module::verify_full"]}
{"id": "C33", "title": "Crashes when computing the digest", "statement": "Computing the digest or digest regions of any file returns a value or an error in a release build. In a debug build it panics exactly when the end record is found and: reading the block panics, or the block ends after the end record starts, or there is no block and the directory offset lies beyond the end record.", "quantifier": "all files, both profiles", "why_tests_cant": "hostile offsets", "anchors": ["src/file_formats/module/digest.rs::digest_module", "src/signable.rs::digest_regions"]}
{"id": "C34", "title": "V2 signing produces a verifying signer", "statement": "A V2 block produced by the signer verifies: the signature is accepted over its signed data with the stored key, its digests/certificates are the given ones, in order.", "quantifier": "all digests, certificates, keys", "why_tests_cant": "all inputs; relies only on sign/verify correctness of the curve library", "anchors": ["src/signer.rs::V2Signer::sign", "src/verifier.rs::SignatureVerifier::verify_v2_with_digest"]}
{"id": "C35", "title": "Stamp signing produces a verifying stamp", "statement": "Same for source stamps (both signer APIs), with and without timestamp; the two APIs produce the same block.", "quantifier": "all digests, certificates, keys, clocks", "why_tests_cant": "all inputs", "anchors": ["src/signer.rs::SourceStampSigner::sign", "src/signing_block/source_stamp.rs::SourceStampSigner::sign"]}
{"id": "C36", "title": "Key/algorithm mismatch never signs or verifies", "statement": "Signing fails unless the algorithm matches the key's curve, and verification under an unknown algorithm always fails.", "quantifier": "all algorithms, keys, data", "why_tests_cant": "all ids", "anchors": ["src/signing_block/algorithms.rs::Algorithms::{sign,verify}"]}
{"id": "C37", "title": "Required algorithms", "statement": "required_algorithms lists exactly the configured signers' algorithms, without duplicates.", "quantifier": "all configurations", "why_tests_cant": "all configurations", "anchors": ["src/signer.rs::ModuleSigner::required_algorithms"]}
{"id": "C38", "title": "Adding a stamp preserves everything else", "statement": "add_source_stamp keeps every other value in order, leaves exactly one stamp (the new one), and does not change the outcome of V2 verification.", "quantifier": "all existing blocks, digests, keys, digest contexts, roots", "why_tests_cant": "all blocks", "anchors": ["src/signer.rs::ModuleSigner::add_source_stamp"]}
{"id": "C39", "title": "Module signer wire format", "statement": "The bytes of a freshly signed block are the documented wire format (length-prefixed digests, certificates, attributes, signatures, key; pairs; sizes; magic).", "quantifier": "all configurations and digests", "why_tests_cant": "all contents", "anchors": ["src/signer.rs::ModuleSigner::sign", "src/signing_block/mod.rs::SigningBlock::to_u8"]}
{"id": "C40", "title": "is_valid is sound for what is present", "statement": "If verification of a block with computed digests reports is_valid, every V2 signer present has at least one signature, each of its signatures verifies over its signed data under its key, the digest stored for the signature's algorithm equals the computed one, its first certificate carries that key, and that certificate is a root or its chain (with the other certificates) is trusted. The first source stamp, if present, has at least one signature whose algorithm has a stored digest, each signature verifies, every stored digest for a signature's algorithm equals the computed one (a further signature whose algorithm has no digest is tolerated), and its first certificate carries the key and is trusted without intermediates.", "quantifier": "all signing blocks, contexts, roots, clocks", "why_tests_cant": "all inputs including adversarial ones", "anchors": ["src/verifier.rs::{SignatureVerifier,VerifyAllResult::is_valid}"]}
{"id": "C41", "title": "is_valid is complete", "statement": "Conversely a block whose present signers all satisfy those conditions is reported valid.", "quantifier": "all signing blocks, contexts, roots", "why_tests_cant": "all inputs", "anchors": ["src/verifier.rs"]}
{"id": "C42", "title": "One bad signer", "statement": "If any V2 signer fails a signature, digest or key-binding check that verification reaches, V2 verification returns an error whatever the other signers are; and if any V2 signer is not entirely good, no result has all four flags set. The check of a signature is not reached when the signer has no digest for its algorithm: then the result is Ok with signature_valid false.", "quantifier": "all lists of signers and positions of the bad one", "why_tests_cant": "all lists", "anchors": ["src/verifier.rs::verify_v2_with_digest"]}
{"id": "C43", "title": "Without digests content is never reported verified", "statement": "With no digest context no result has digest_valid and is_valid is false for any block with a signer or stamp.", "quantifier": "all blocks", "why_tests_cant": "all inputs", "anchors": ["src/verifier.rs"]}
{"id": "C44", "title": "is_valid and the existence of a signature", "statement": "is_valid() together with has_v2 or has_source_stamp means that at least one signer was verified. has_v2 and has_source_stamp say whether there is a signer at all; is_valid() alone is also true for every block without any signer.", "quantifier": "all signing blocks and modules", "why_tests_cant": "adversarial (stripped) blocks", "anchors": ["src/verifier.rs::VerifyAllResult::is_valid", "src/file_formats/module/mod.rs::Module::verify_full"]}
{"id": "C45", "title": "signature_valid and checked signatures", "statement": "In a successful result a V2 signer's signature_valid is set exactly if every signature it carries was accepted and its algorithm has a stored digest (so a signer without any signature has it set), and digest_valid exactly if digests were computed and its first signature's algorithm has a stored digest. If both are set it carries at least one signature. A successful stamp result always has signature_valid, all the stamp's signatures were accepted, and digest_valid is set exactly if digests were computed and some signature's algorithm has a stored digest.", "quantifier": "all signing blocks", "why_tests_cant": "adversarial blocks", "anchors": ["src/verifier.rs::verify_v2_with_digest"]}
{"id": "C46", "title": "Key-certificate binding", "statement": "No signer is reported with signature_valid and a certificate unless the certificate's key is the signing key.", "quantifier": "all blocks", "why_tests_cant": "all inputs", "anchors": ["src/verifier.rs::verify_pubkey_binding"]}
{"id": "C47", "title": "Trust comes only from the configured roots", "statement": "is_trusted is reported only if the leaf is DER-equal to a configured root or the path validator accepts it against the configured anchors; never with no roots; trusted implies chain-valid; expired / not-yet-valid / missing EKU are neither.", "quantifier": "all certificates, chains, root sets, clocks", "why_tests_cant": "all inputs; path validation is an oracle", "anchors": ["src/verifier.rs::CertChainVerifier::verify_chain", "src/verifier.rs::TrustedRoots"]}
{"id": "C48", "title": "Chain structure check", "statement": "With no trusted issuer, the structural verdict is true exactly when there are no intermediates or all parse and each issuer equals the next subject.", "quantifier": "all chains", "why_tests_cant": "all chain lengths", "anchors": ["src/verifier.rs::validate_chain_structure"]}
{"id": "C49", "title": "verify exit status", "statement": "The verify command succeeds exactly when a V2 signer is present and fully valid and the stamp is absent or fully valid.", "quantifier": "all files, roots, clocks", "why_tests_cant": "all inputs", "anchors": ["src/cli/verify.rs::execute"]}
{"id": "C50", "title": "sign then verify succeeds", "statement": "If the sign command succeeds on an unsigned module without trailing bytes whose comment contains no further end-of-central-directory record, the verify command accepts the file it wrote exactly if the certificates chain to the configured root (for the stamp, its certificate alone; credentials whose key belongs to their certificate). If the credentials do not fit in 16 KiB, sign fails or panics before anything is written.", "quantifier": "all modules, credentials", "why_tests_cant": "composition over all files", "anchors": ["src/cli/sign.rs::execute", "src/cli/verify.rs::execute"]}
{"id": "C51", "title": "Tampering is detected", "statement": "If the verify command accepts two files that carry the same signing block value, they agree on every byte outside the block except the directory offset field, or a hash collision is exhibited.", "quantifier": "all pairs of files", "why_tests_cant": "all tamperings", "anchors": ["src/cli/verify.rs", "src/file_formats/module/mod.rs", "src/file_formats/module/digest.rs", "src/verifier.rs"]}
{"id": "C52", "title": "info shows the block that verify checks", "statement": "The block displayed by the info command is the block that verify checks exactly if no block magic follows that block anywhere in the file and it ends in the last 16 MiB. (A block in the archive comment is displayed instead.)", "quantifier": "all files", "why_tests_cant": "adversarial files", "anchors": ["src/cli/info.rs::execute", "src/file_formats/module/mod.rs::Module::get_signing_block"]}
{"id": "C53", "title": "ELF signing preserves the file and is read back", "statement": "Writing a block into an ELF keeps every original byte except the section table fields of the file header. If the section name table is well formed, the output passes the ELF parser's other checks and, for 32-bit files, is shorter than 2^32 bytes, it also keeps every section's name, header and contents, adds or replaces only the signature section, and get_signing_block on the output returns the block. (With an unterminated name table a section can change its name, and another block can be read back.)", "quantifier": "all ELF files (32/64-bit, both byte orders), blocks", "why_tests_cant": "all section tables", "anchors": ["src/file_formats/elf/mod.rs::ElfFile::{write_with_signature,get_signing_block}"]}
{"id": "C54", "title": "ELF signing does not change the digest", "statement": "The digest over the configured sections is the same before and after writing the signature, if these sections lie in the file after the file header and are neither the name table nor the signature section, and the output passes the ELF parser's other checks and, for 32-bit files, is shorter than 2^32 bytes; it can change otherwise.", "quantifier": "all ELF files, section lists, algorithms", "why_tests_cant": "all section tables", "anchors": ["src/file_formats/elf/mod.rs::ElfFile::digest", "src/file_formats/elf/digest.rs"]}
{"id": "C55", "title": "What an ELF digest covers", "statement": "The digest is the two-level digest of the contents of the first section of each configured name, in the order of their offsets. Listing the sections in any order gives the same digest if their offsets differ; equal digests mean equal concatenated contents (section by section, for sections of at most 1 MiB) or a collision among the hashed messages. Not covered: names, boundaries at multiples of 1 MiB, the order of sections with equal offsets, and the part of a section beyond the end of the file.", "quantifier": "all ELF files and section lists", "why_tests_cant": "all permutations", "anchors": ["src/file_formats/elf/mod.rs::collect_sections", "src/file_formats/elf/digest.rs"]}
{"id": "C56", "title": "Which ELF sections are signed", "statement": "set_signed_sections keeps exactly the trimmed non-empty names in order, refuses an empty selection or the signature section in any letter case, and changes nothing on refusal. In the sign and digest commands the option --elf-section selects these names and without it .text and .rodata are selected; the regions listed and digested are exactly the first sections of those names, each with content. With a module the option is an error and nothing is written.", "quantifier": "all name lists, files and builds", "why_tests_cant": "all strings incl. Unicode whitespace", "anchors": ["src/file_formats/elf/mod.rs::set_signed_sections", "src/signable.rs::set_elf_sections", "src/cli/sign.rs::execute", "src/cli/digest.rs::execute"]}
{"id": "C57", "title": "Readability of the signature in an ELF file written by the sign command", "statement": "The section the sign command writes into an ELF file is a block of 4096 * k bytes (k at most 4) followed by the section list, and, if the output passes the ELF parser's other checks and, for 32-bit files, is shorter than 2^32 bytes, it is read back exactly when it has at most 16392 bytes; otherwise sign reports success and the signature cannot be read.", "quantifier": "all ELF files with a well-formed name table and all credentials", "why_tests_cant": "needs certificate sizes near the limit", "anchors": ["src/cli/sign.rs::execute", "src/signing_block/mod.rs::recalculate_size"]}
{"id": "C58", "title": "Loaded credentials are consistent", "statement": "Loading credentials from PEM or PKCS#12, from bytes or files, succeeds exactly if the files are readable (and the PEM files UTF-8), one of the decoders accepts the key and there is a certificate. The key is the one of the first decoder that accepts it, unencrypted formats first; the credentials carry the algorithm matching the key, so signing with them never fails for mismatch; certificates keep file order, first is the leaf, and are embedded in this order; non-certificate PEM entries are ignored.", "quantifier": "all files and decoder behaviours", "why_tests_cant": "all decoder outcomes", "anchors": ["src/keystore.rs"]}
{"id": "C59", "title": "Password errors", "statement": "A PEM key no decoder accepts gives InvalidPassword if a password was given, else PasswordRequired if it looks encrypted, else UnsupportedKeyType; a password never changes the result for an unencrypted key.", "quantifier": "all inputs and decoder behaviours", "why_tests_cant": "all decoder outcomes", "anchors": ["src/keystore.rs::parse_private_key_pem"]}
{"id": "C60", "title": "sign never damages other files; a failed or interrupted run leaves a prefix", "statement": "At every point of a sign run, every file except the output is unchanged, and the output is absent, old, or a prefix of the final bytes.", "quantifier": "all file systems, crash points", "why_tests_cant": "all crash points", "anchors": ["src/cli/sign.rs::execute"]}
{"id": "C61", "title": "Signing in place", "statement": "sign with the output equal to the input never succeeds for a module: the input is left alone if the output cannot be opened, and emptied otherwise. For an ELF file the outcome is the same as with another output, and the file is emptied if it cannot be written after it was opened.", "quantifier": "all files, also under another name of the same file", "why_tests_cant": "history create/truncate/re-read", "anchors": ["src/cli/sign.rs::execute", "src/signable.rs"]}
{"id": "C62", "title": "digest --dump writes exactly the regions", "statement": "If the dump goes to another file than the input, the dump is the concatenation of the region bytes in order, no other file changes, and it succeeds exactly if every region lies in the file (a debug build also needs the sizes to add up below 2^64). If it goes to the input (under any of its names), the input is emptied, and the dump succeeds only if all regions are empty.", "quantifier": "all files and region lists", "why_tests_cant": "loop over 64 KiB buffers, all sizes", "anchors": ["src/cli/digest.rs::dump_regions"]}
{"id": "C63", "title": "digest output is faithful", "statement": "The printed text spells the digest: in hexadecimal, two lower-case digits for each byte, or in base64 (RFC 4648 alphabet with padding). Distinct digests print as distinct texts, of 2n characters in hexadecimal and of 4*ceil(n/3) in base64 for n bytes, and a digest has only one base64 spelling.", "quantifier": "all byte strings; all files and arguments of the digest command", "why_tests_cant": "all digests and all pairs of them", "anchors": ["src/cli/digest.rs::hex_encode", "src/cli/digest.rs::execute"]}
{"id": "C64", "title": "Format detection", "statement": "A file is ELF exactly if it starts with the ELF magic; else module exactly if it starts with PK or has an end record; files shorter than four bytes are errors.", "quantifier": "all files", "why_tests_cant": "all files", "anchors": ["src/signable.rs::detect_file_format"]}
{"id": "C65", "title": "V2 and source stamp signatures", "statement": "What the library signs for a module is never the message of a stamp in any file, so it is not accepted as a stamp. The converse is false: every valid stamp with one certificate, whose signatures all have a digest, is accepted when copied into a V2 signer. The two signed messages are equal exactly if digests, certificates and attributes are equal and the V2 signed data declares no more bytes than its content has.", "quantifier": "all files, keys, digests, certificates", "why_tests_cant": "all pairs of signed values", "anchors": ["src/signer.rs::V2Signer", "src/verifier.rs::verify_v2", "src/verifier.rs::verify_source_stamp"]}
{"id": "C66", "title": "Adding a source stamp keeps the module signature", "statement": "Adding a source stamp to a parsed signed block keeps every other value but padding, and the V2 outcome of the resulting block is the same for all keys, clocks, roots and digests. Writing the result and reading it back gives it back whenever the library's encoding of each value denotes that value, in particular for blocks the library signed; for some blocks of other writers it does not, and the module no longer verifies.", "quantifier": "all parsed blocks, stamp configurations", "why_tests_cant": "all blocks from all writers", "anchors": ["src/signer.rs::add_source_stamp"]}
{"id": "C67", "title": "Credentials whose key and certificate do not match", "statement": "Loading and signing accept a key and a certificate that do not belong together; what such credentials sign (module signature, also by Module::sign_v2, or stamp) is refused by every verification, with or without computed digests, with the public key mismatch among the reported failures.", "quantifier": "all key and certificate files, all verifications", "why_tests_cant": "all pairs of files", "anchors": ["src/keystore.rs::load_pem", "src/keystore.rs::load_p12"]}
{"id": "C68", "title": "Panics when signing ELF files", "statement": "Apart from running out of memory, writing a signature into an ELF file returns a file or an error for files and blocks of up to 2^59 bytes whose name table has an alignment of at most 2^62; it panics whenever the name table has to be moved to an alignment of 2^63 or more.", "quantifier": "all ELF files and blocks", "why_tests_cant": "all header field values", "anchors": ["src/file_formats/elf/mod.rs::write_with_signature", "src/file_formats/elf/mod.rs::append_aligned"]}
{"id": "C69", "title": "What counts as a signing block", "statement": "Reading a module's signing block returns a block exactly if the bytes ending at the last magic before the central directory are a block of the format with a size field of at most 16 KiB, and that magic is within 16 MiB before the directory; the returned content, offsets and sizes are those of these bytes. The same holds for any file and end offset, and for byte strings. A module counts as unsigned exactly if at least 24 bytes and no magic precede its directory.", "quantifier": "all files and byte strings", "why_tests_cant": "all files, well-formed or not", "anchors": ["src/signing_block/mod.rs::from_reader", "src/signing_block/mod.rs::from_u8", "src/file_formats/module/mod.rs::get_signing_block"]}
{"id": "C70", "title": "Signing again with a gap after the old block", "statement": "If other bytes stand between the old block and the directory, signing again removes the old block and writes those bytes before the new one; the digest that was signed is then not the digest of the written file, unless two different hashed messages collide. If the old block stands right before the directory, whoever wrote it, the digest stays the same.", "quantifier": "all archives, old blocks, gaps and new blocks", "why_tests_cant": "all archives with foreign blocks", "anchors": ["src/signable.rs::Signable for Module::write_with_signature", "src/file_formats/module/mod.rs::get_raw_module", "src/file_formats/module/mod.rs::digest"]}
{"id": "C71", "title": "What in a signing block is not authenticated", "statement": "Verification of two module files that differ in their signing block only gives the same result, in every detail, if the two blocks have the same V2 signers (signed data as read, signatures, key; value by value) and the same first stamp. So other values, padding, further stamps, the order of V2 values and stamps, and ignored trailing bytes do not count. In particular in any module signed by the library the last four bytes of the V2 signed data can be replaced by any others, and bytes can be appended to the stamp's signed data, without any change in the result.", "quantifier": "all archives, blocks, roots, clocks, read schedules; all replacement bytes", "why_tests_cant": "all pairs of blocks and all replaced bytes", "anchors": ["src/file_formats/module/mod.rs::verify_with_roots", "src/verifier.rs::{verify_v2_with_digest,verify_source_stamp_with_digest}", "src/signing_block/scheme_v2.rs::SignedData::parse", "src/signing_block/source_stamp.rs::SignedData::parse"]}
{"id": "C72", "title": "The verification report is complete and exact", "statement": "A successful verification result has one entry per signer in file order, with its position in its V2 value, its leaf certificate, the other certificates in order (none for a stamp), flags that say exactly what was established, and exactly the warnings that apply (no computed digest, no stored digest, why the certificate is not trusted). The summary flags are the conjunction over the entries, certificate and chain are the first entry's, and warnings are labelled with the entry's number from 1. Verification succeeds exactly if there is a signer and none fails; otherwise the error lists, in order, one failure per failing signer: the foreign certificate if there is one, else the refused signature, else the digest mismatch. NoSignature is reported exactly if there is no signer.", "quantifier": "all signing blocks (any number of V2 values, signers, signatures), cryptographic and certificate library behaviours, roots, clocks, computed digests or none", "why_tests_cant": "any number of signers, signatures and defects in any combination", "anchors": ["src/verifier.rs::{verify_v2_with_digest,verify_source_stamp_with_digest,VerifyResult::from_signers,SignerVerifyResult}"]}
{"id": "C73", "title": "Files changed by others while a command runs", "statement": "The sign command opens its input again for every step and takes no lock. Whatever other processes do to the input (and the other files) between these steps: if the command exits with 0 and the content it read for writing was an unsigned module, then verify accepts what it wrote exactly if every signed digest, taken of what the input was at that moment, is the digest of the module written and the certificates are trusted. So a module exchanged between digesting and writing leads to an output that verify refuses (unless hashes collide), though sign exits with 0; a module exchanged before the first digest is signed as it is then. An ELF file is read once, when it is opened: later changes have no effect. verify checks the block it read against digests of what the file was when each was computed. A block that signs arbitrary digests verifies on a module exactly if they are the module's digests.", "quantifier": "all file systems at every step of the two commands, unrelated to each other; all options, credentials, key and certificate libraries, clocks, read schedules, build profiles", "why_tests_cant": "depends on the interleaving with other processes and on arbitrary contents at each step", "anchors": ["src/cli/sign.rs::execute", "src/cli/verify.rs::execute", "src/signable.rs::{SignableFile::open,write_with_signature}", "src/file_formats/module/mod.rs::{Module::new,digest,get_signing_block,get_raw_module}"]}
{"id": "C74", "title": "Signing blocks survive serde", "statement": "Serialising a signing block with serde and deserialising the result gives the same block exactly if no algorithm in it is Unknown(id) with an id that has a name. Every block parsed from bytes or from a file and every block made by the constructors is of that kind. In all cases the block that comes back has the same bytes, and a second round changes nothing. (A block with Unknown(0x0201), which only a caller can make, comes back with the named algorithm, and its signature, invalid before, can be valid then.) The order of fields does not matter, at any depth; missing and repeated fields and numbers that do not fit their type are errors. Deserialising checks no sizes: the result can be a block whose bytes the parser refuses.", "quantifier": "all blocks whose numbers fit their types; all trees of the serde data model; all byte strings and files a block was parsed from", "why_tests_cant": "ranges over all blocks, nested lists of any length and all input trees", "anchors": ["src/common.rs::{Digest,Digests,Certificate,Certificates,Signature,Signatures,AdditionalAttribute,AdditionalAttributes,PubKey}", "src/signing_block/algorithms.rs::{Serialize,Deserialize} for Algorithms", "src/signing_block/{mod,scheme_v2,source_stamp,elf_section_info}.rs (derived Serialize, Deserialize)"]}
{"id": "C75", "title": "What the verify command says", "statement": "The success message is printed exactly if the exit status is 0; it then ends the output and nothing is written to the standard error. --verbose only adds detail lines and never changes the status. The lines about single signers are those of the report in its order, and appear exactly if all signatures are valid. A value for digest, chain or trust of the whole is printed exactly if the V2 report has it, or (true) if there is no V2 signature and the stamp passes all checks. The message that the stamp passed means that it did, and that there is no V2 signature (then the command fails) or it passes too. The message that the stamp failed is printed exactly if the V2 signature passes and a stamp is present that does not. Among failing signers the k-th line is about the k-th failing one: the number printed is not the signer's position. A missing V2 signature is reported twice.", "quantifier": "all files, blocks, roots, clocks, read schedules, libraries, build profiles, verbose or not", "why_tests_cant": "ranges over every block, any number of signers and every combination of results", "anchors": ["src/cli/verify.rs::execute"]}
{"id": "C76", "title": "What is dumped is what is digested", "statement": "If digest --dump succeeds on a file (dumping to another file), the same call without --dump prints the digest of the dumped bytes. For a module these are the content, the directory and the end record; the digest is over the same parts with the recorded directory offset replaced by the length of the content, so for an unsigned module it is the digest of the dump itself, which is the whole file. For an ELF file they are the chosen sections, none of them empty, each cut into pieces of 1 MiB. The dump of a signed module still has the old directory offset: the digest command does not give the same digest for it. An ELF digest can be printed although a section lies beyond the end of the file and cannot be dumped.", "quantifier": "all files, arguments, file systems, hash functions, build profiles, filling read schedules", "why_tests_cant": "ranges over every file of both formats", "anchors": ["src/cli/digest.rs::execute", "src/cli/digest.rs::dump_regions", "src/signable.rs::digest_regions"]}
{"id": "C77", "title": "What the info command says", "statement": "The exit status is 0 exactly if a signing block is found, whatever its signatures are worth. File size, block size and location are true of the bytes that end with the last magic of the file, and there is one line per entry of that block, in order, that tells its id (for ELF section info also its count). The command never says that the content is verified. There is a V2 section exactly if there are V2 signers and none of them fails; 'signature valid' there means that every signature of every signer is accepted and has a digest entry, 'trusted' that every leaf is trusted under the built-in root. There is a stamp section exactly if there is a stamp and the first one does not fail; it always says 'signature valid', and a failing stamp is not mentioned except in the list of entries. Everything but the name, the file size and the location depends on the bytes of the block alone: a tampered module gives the same output. Every line is printed exactly under its own condition: certificate, chain, warnings and the reason of a failing V2 scheme are those that the verifier reports for that block. The standard error is used exactly if the file is readable and holds no block; the reason is then the one of the failed search, and the standard output has only the name and size of the file.", "quantifier": "all files, file systems, libraries, clocks, built-in roots and build profiles", "why_tests_cant": "ranges over every file and every signing block", "anchors": ["src/cli/info.rs::execute"]}
{"id": "C78", "title": "What the sign command says", "statement": "The sign command announces success exactly if its exit status is 0, in its last lines; if the line that announces the writing is missing, nothing has been touched. A stamp key is announced exactly if there is one; the digests announced are, once each, those of the algorithms of the keys, and their number is printed. For a module the regions listed are the whole file but the old signing block, and the size announced is the number of bytes inserted into the unsigned archive, also when the input was signed. For an ELF file the size announced is that of the signature section of the output, and the sections listed are, in order, those in the section list of the block, provided the block can be read. Success does not promise that: for an ELF file it is also announced when the new block is too large to be read. Every line is printed exactly if the run has got so far, and the lines of any run are the beginning of the lines of a complete one, all of them exactly if it succeeds.", "quantifier": "all inputs, arguments, key material, file systems, clocks and build profiles", "why_tests_cant": "ranges over every input file, every kind of credentials and every failure", "anchors": ["src/cli/sign.rs::execute"]}
{"id": "C79", "title": "What the digest command says", "statement": "The digest command prints a digest exactly if one is computed and the number of dumped bytes exactly if the dump is complete. The dump is the bytes of the regions listed, in that order, and the total announced before and the number announced after are its length (modulo 2^64). Without a dump the total is the sum of the sizes listed; it wraps in a release build, so an ELF file whose headers claim two sections of 2^63 bytes is listed with a total of 0 and gets a digest, while a debug build stops with a panic. Every line, including the name of the algorithm, is printed exactly if the run has got so far, and the lines of any run are the beginning of the lines of a complete one, all of them exactly if it succeeds.", "quantifier": "all inputs, arguments, file systems and build profiles", "why_tests_cant": "ranges over every file and every argument", "anchors": ["src/cli/digest.rs::execute", "src/cli/digest.rs::dump_regions"]}
{"id": "C80", "title": "Which files count as signed", "statement": "get_signing_block, is_signed and signing_block report a signature for an ELF file exactly if a well-formed block of at most 16 KiB ends at the last block magic in the first section called .ksu_sign, and that section lies in the file; no signature exactly if there is no such section or it has size 0; and an error in all other cases, which is_signed reports as not signed. For a module the block must end at the last magic before the directory, and no signature means at least 24 bytes and no magic before the directory. A file opened without naming its format is read as what it was detected as. A module that verifies as valid is reported as signed.", "quantifier": "all files, both formats, both build profiles", "why_tests_cant": "ranges over every section table, every section content and every archive", "anchors": ["src/signable.rs::Signable::is_signed", "src/signable.rs::SignableFile::signing_block", "src/file_formats/elf/mod.rs::ElfFile::get_signing_block"]}
{"id": "C81", "title": "Signed ELF files verify through the library", "statement": "If the sign command succeeds on an ELF file and the signature can be read back, then the block holds exactly one section list. It names exactly the sections that were asked for, it can be given to set_signed_sections as it is, and the output has a digest for these sections. A caller who puts the digests of the listed sections into a DigestContext and calls verify_all_with_digest gets a result with a V2 part, with a stamp part exactly if a stamp key was given, and valid exactly if the certificates are trusted. The verify command, in contrast, accepts no file without a ZIP end record, hence no plain ELF file.", "quantifier": "all ELF files, keys, options, roots, times, digest contexts and both build profiles; sections must be ordinary (not the name table, not overlapping the file header, inside the file) and keys must match their certificates", "why_tests_cant": "ranges over every ELF layout, every section selection and every trust configuration", "anchors": ["src/cli/sign.rs::execute", "src/cli/verify.rs::execute", "src/file_formats/elf/mod.rs::ElfFile::get_signing_block", "src/file_formats/elf/mod.rs::ElfFile::digest", "src/verifier.rs::SignatureVerifier::verify_all_with_digest"]}
{"id": "C82", "title": "Tampering with signed ELF sections is detected", "statement": "If two ELF files are both found valid through the library, each with digests of sections of its own, and their blocks have a V2 signer in common, then the contents of the sections (in file order, concatenated) are the same, and section by section if none is longer than 1 MiB, or two different messages hashed while digesting them have the same hash. The section list in the block and every other value that is not a signature are not protected: the result does not depend on them.", "quantifier": "all pairs of ELF files, section selections, blocks, trust configurations and times; hash values of a fixed positive length", "why_tests_cant": "ranges over all modifications of a file", "anchors": ["src/verifier.rs::SignatureVerifier::verify_all_with_digest", "src/file_formats/elf/digest.rs::digest_elf_sections", "src/signing_block/elf_section_info.rs::ElfSectionInfo"]}
{"id": "C83", "title": "The verify command's messages mean what the report says", "statement": "Each result line that the verify command prints occurs exactly if the verifier's report has that result. 'V2 signature verification passed' means only that all signatures are valid. A refusal names the first check that fails, in the order signature, digest, chain, trust. 'Source Stamp verification FAILED' names exactly the checks that fail. Certificates, chains and warnings shown are those of the report. The stamp is only reported on if there is no V2 signature or it passes everything. 'Digest mismatch: file content may have been tampered' is not the message for a digest that differs: it is printed only if a V2 signer has no signatures at all, and 'Module content may have been tampered with' only if no signature of the stamp comes with a digest. Digests that differ are reported as failed signers.", "quantifier": "all files, roots, times, read schedules, build profiles, verbose or not, and all crypto and certificate functions", "why_tests_cant": "ranges over every file and every combination of results; says what a printed line implies, not only that it appears in one run", "anchors": ["src/cli/verify.rs::execute", "src/verifier.rs::VerifyResult", "src/verifier.rs::SignatureVerifier::verify_v2_with_digest", "src/verifier.rs::SignatureVerifier::verify_source_stamp_with_digest"]}
{"id": "C84", "title": "The sign command uses the keys and certificates its options name", "statement": "The module signature is made with the key and certificates of the V2 options, the stamp with those of the stamp options: a keystore option is used before a key file, and of the key files the first format that decodes. After a successful run the block in the output (module or ELF file) has exactly one V2 signer, carrying the public key of that key, all certificates of that file in order with the leaf first, and the algorithm that belongs to the key's curve; and exactly one stamp if stamp options name a keystore or key, carrying the leaf certificate only (intermediate certificates given for the stamp are dropped), or none otherwise: a stamp certificate without a key is ignored silently. The verify command with a root then accepts the module exactly if the V2 leaf is for the V2 key and trusted through its chain, and the stamp leaf, if there is one, is for the stamp key and trusted without intermediates.", "quantifier": "all option combinations, file systems, key libraries, modules without trailing bytes whose comment contains no further end record, ELF files whose headers are consistent and whose block can be read back, clocks, read schedules and crypto functions", "why_tests_cant": "ranges over every combination of options and file contents; a test with one key pair cannot notice that the stamp uses the other key or that a file is ignored", "anchors": ["src/cli/sign.rs::execute", "src/keystore.rs::load_pem", "src/keystore.rs::load_p12", "src/signer.rs::ModuleSignerConfig::from_credentials", "src/signer.rs::ModuleSigner::sign"]}
{"id": "C85", "title": "Signing an ELF file again and again", "statement": "However often an ELF file is signed: it has its original sections with their headers and contents and exactly one signature section that signing added or that it had; the last signature is the one read back; the digest of ordinary sections is that of the original file. Nothing is removed: every earlier signing block is still in the file, at a place of its own, so the file grows by at least the size of the block each time; n successful runs of the sign command in place add at least 4096 * n bytes.", "quantifier": "all ELF files with a well-formed name table, all numbers of signatures, all blocks, configured sections, keys, clocks and builds, provided every file on the way passes the ELF parser's other checks and, for 32-bit files, is shorter than 2^32 bytes", "why_tests_cant": "the number of signings is unbounded; an invariant of the name table and section table has to be shown to survive each of them", "anchors": ["src/file_formats/elf/mod.rs::Elf::write_with_signature", "src/file_formats/elf/mod.rs::Elf::get_signing_block", "src/cli/sign.rs::execute"]}
{"id": "C86", "title": "The program as a whole: exit status, effects and crashes", "statement": "verify, info and digest without --dump write nothing; sign and digest --dump change no file but their output, wherever they are interrupted. Exit status, whether anything is written, and the bytes of the output depend only on the content of the files named on the command line (and on whether the output can be created and is one of the inputs). The exit status is 0 on success, 1 on an error, 101 on a crash, and nothing else; verify returns 0 exactly if the file carries a V2 signature and all its signatures are good and trusted, so after a successful sign of an unsigned module it returns 0 exactly if the certificates chain to the root. Release builds of verify, info and digest never crash, and sign crashes at most for ELF files with sizes above 2^59 or an alignment above 2^62. A debug build of verify crashes exactly on modules whose block declares two different sizes or lies behind the end record (the latter only once the root certificates are loaded), info exactly if the last block declares two sizes, digest as verify and also if the directory of a module without block is behind the end record, or if the sections of an ELF file add up to 2^64 bytes.", "quantifier": "all command lines (after parsing), file systems with aliases and refused accesses, builds, libraries, clocks, read schedules and points of interruption; files shorter than 2^63 bytes for the statements on crashes", "why_tests_cant": "quantifies over all file systems, all pairs of them that agree on the named files, and all ways a run can be cut off; absence of crashes is a statement about every file", "anchors": ["src/main.rs::main", "src/cli/mod.rs::Cli::execute", "src/cli/sign.rs::execute", "src/cli/verify.rs::execute", "src/cli/info.rs::execute", "src/cli/digest.rs::execute"]}
{"id": "C87", "title": "What the program writes to its standard output and standard error can be relied on", "statement": "The standard output of \"ksusig verify\" contains the line \"✓ Module signature verification successful!\" exactly if the exit status is 0, and that of \"ksusig sign\" the line \"✓ Signing successful!\" exactly if its exit status is 0; no content of the module, of its certificates or of other files named can forge these lines. Likewise every fixed line of verify, info and sign appears in the text exactly if the command announced that event. sign, verify and info write to the standard error exactly if the exit status is not 0. The standard output of \"ksusig digest\" is the digest in the requested format and one line feed, and nothing else; it is empty with --dump or after a failure. All text depends only on the content of the files that the command line names. Condition: the file names (and section names) on the command line that are shown contain no line feed, and texts from libraries (debug output of certificate names, error messages) have none; with a line feed in the file name the success line can be forged.", "quantifier": "all file systems, command lines, keys, certificates, builds, clocks, short reads, and all texts that libraries supply", "why_tests_cant": "that a line cannot be forged is a statement about all contents of modules and certificates; tests see the output of a few", "anchors": ["src/main.rs: main", "src/cli/verify.rs: execute", "src/cli/info.rs: execute", "src/cli/sign.rs: execute", "src/cli/digest.rs: execute", "src/cli/cert.rs: describe_certificate, describe_chain", "src/verifier.rs: VerifyError"]}
{"id": "C88", "title": "The display of algorithms and signing blocks shows exactly their summary", "statement": "Different signature algorithms are displayed differently. Two signing blocks are displayed alike exactly if their offsets, their sizes and, value by value and in order, kind, identifier and amount (signers, sections, bytes) agree; the display has five lines and one for each value.", "quantifier": "all algorithms, all signing blocks with any number of values", "why_tests_cant": "injectivity ranges over all pairs of blocks", "anchors": ["src/signing_block/algorithms.rs: Display for Algorithms", "src/signing_block/mod.rs: Display for SigningBlock, Display for ValueSigningBlock"]}
{"id": "C89", "title": "Debug and release builds do the same until the debug build crashes, and sign crashes exactly in three situations", "statement": "For every command line, file system and verbosity, a build with overflow checks and one without leave the same text on both streams, the same changes to the files and the same exit status, unless the checked build crashes (exit status 101); then the unchecked build has printed everything the checked one printed and went on from there. The sign command crashes exactly if (1) a checked build opens a module whose signing block declares two sizes, or whose block (without block: whose central directory) is behind the end record, (2) a checked build has gathered digests and signatures and the unpadded block would end 1 to 11 bytes before a multiple of 4096, where an unchecked build reports an error and touches nothing, or (3) the ELF writer runs out of address space.", "quantifier": "every command line, every file system, every key, certificate and signature library, every clock, every reading schedule, both builds", "why_tests_cant": "Tests run in one build on chosen files; that two builds agree on every input, and that no fourth crash exists, is a statement about all inputs.", "anchors": ["src/cli/sign.rs: execute", "src/signing_block/mod.rs: new_with_padding, from_reader", "src/signable.rs: write_with_signature", "src/file_formats/module/mod.rs: digest_regions", "src/file_formats/elf/mod.rs: write_with_signature", "src/main.rs: main"]}
{"id": "C90", "title": "A build without ELF support treats modules as the default build does, except blocks with a broken section list", "statement": "A library built without ELF support reads every signing block the default build reads, with the same offsets, sizes and values, section lists being kept as bytes. It reads more: exactly the blocks with a value that has the identifier of section lists and does not start with one. It crashes on the same blocks. Digest, recovered unsigned module, written bytes and verdict of a module are the same in both builds, unless the default build alone fails to read the block: then the default build computes no digest, writes nothing and reports an invalid signature, while the other build may find the module valid. Files that do not start like an ELF file open alike; one that starts like an ELF file opens as a module in the smaller build exactly if it has an end record.", "quantifier": "every file and byte string below 2^64 bytes, every block to be written, every signature library, clock, schedule and set of roots, debug and release builds", "why_tests_cant": "a test suite runs in one feature set and on chosen blocks; that two feature sets agree on every file, and where they do not, ranges over all files", "anchors": ["src/signing_block/mod.rs: ValueSigningBlock::parse, SigningBlock::from_reader, SigningBlock::from_u8", "src/file_formats/module/mod.rs: Module::digest, Module::verify_with_roots, Module::get_raw_module", "src/signable.rs: SignableFile::open, SignableFile::write_with_signature", "Cargo.toml: features"]}
{"id": "C91", "title": "The files in a module survive signing, and verification protects them", "statement": "Reading an archive through its central directory by the rules of the ZIP format gives at most one list of files (headers and stored data). Signing an unsigned module, by the library or on the command line, and replacing a signature that stands right before the directory, give a module that contains exactly the same files. If verify accepts a module that has a V2 signer in common with an accepted module made from an archive, or if a module has the digest of an unsigned archive, then it contains exactly the files of that archive, or it cannot be unpacked at all, or two messages that were hashed collide. This needs an unpacker that checks that the directory has the recorded size and ends at the end record: one that only counts headers from the recorded offset can be shown other files in a module that verifies with the same block.", "quantifier": "every archive with any number of files, every block, every file whatsoever that verify accepts, every signature library, key, clock and schedule, debug and release builds", "why_tests_cant": "the accepted file is an attacker's: no test enumerates all files that verify; and preservation must hold for every archive", "anchors": ["src/signable.rs: SignableFile::write_with_signature", "src/file_formats/module/mod.rs: Module::digest, Module::verify_with_roots", "src/file_formats/module/zip.rs: find_eocd", "src/cli/sign.rs: execute", "src/cli/verify.rs: execute"]}
{"id": "C92", "title": "Signing does not change what a loader runs, and the signature does not say what it runs", "statement": "Whenever an ELF file is signed, the signed file has the same entry point, the same program header table and the same program headers as the input (if the table lies behind the file header), and every segment has the same bytes at the same place, apart from the three fields of the file header that locate the section table; if no segment contains these, the segments are the same. The signing block and the digest of an ELF file, on the other hand, depend only on the identification bytes, the fields that locate section table and name table, the section headers, the name table, and the contents of the signature section and of the selected sections: two files of the same length that agree there have the same block and digest, whatever their other bytes are - entry point, program headers and unselected sections included. In particular a valid signature does not determine the entry point.", "quantifier": "all ELF files of both classes and byte orders with any number of segments, all blocks, all pairs of files that agree on the named ranges, all selections of sections", "why_tests_cant": "A test signs one executable and looks at a few fields; that no signed file loads differently, and exactly which bytes the signature leaves open, are statements about all files and all pairs of files.", "anchors": ["src/file_formats/elf/mod.rs: ElfFile::write_with_signature", "src/file_formats/elf/mod.rs: ElfFile::digest", "src/file_formats/elf/mod.rs: ElfFile::get_signing_block", "src/file_formats/elf/mod.rs: collect_sections"]}
{"id": "C93", "title": "Files changed by others while digest or info runs", "statement": "While other processes change the files in any way between the operations of the digest command: the digest printed for a module is that of the file as it was when it was digested (if its length is still the one it was opened with), and the digest printed for an ELF file is that of the file that was opened, which is read only once. A dump that succeeds has exactly the size of the regions, and each piece of up to 64 KiB of it is what the input was at that place when this piece was read; if the input does not change while it is dumped, the dump is the regions of the file. It need not be the regions of the file at any one moment, and for an ELF file it need not be what is digested. The info command shows exactly what it would show for the file cut to the length it had when the command started, and fails if it has become shorter. Without other processes, all this is the behaviour of C62, C63 and C52.", "quantifier": "all histories of the file system seen by the operations and by the pieces of a dump, all files, selections of sections, algorithms, output formats, builds", "why_tests_cant": "The command opens its input by path several times without a lock; which states these operations see is up to the scheduler and to other processes, so no set of runs covers it.", "anchors": ["src/cli/digest.rs: execute", "src/cli/digest.rs: dump_regions", "src/cli/info.rs: execute", "src/signable.rs: SignableFile::open"]}
{"id": "C94", "title": "What verify accepts has been signed by the owner of the key", "statement": "Take a module that the verify command accepts, or an ELF file that the library finds valid with the digests of some sections, and a signer in it. If the owner of the signer's key has ever used the library to sign the signer's message - for whatever module or ELF file, as a module signature or as a stamp - then what the owner signed then has the same content as what is accepted now (for two modules: the files agree outside the signing block and the directory offset field), or two of the messages hashed for the two digests collide. A stamp of an accepted module was moreover made as a stamp and not as a module signature. Put the other way round: if nothing the owner ever signed has the content of the accepted module and no hashes collide, the module carries a signature, valid under the key of a trusted certificate, for a message that the owner of the key never signed. What the sign command puts into its output is signed for the input module, or for the sections that were asked for. The kind of file is not signed: the content of a module and that of the sections of an ELF file are the same byte string when the sections are the three parts of the module, so the signature of such an ELF file is accepted for a module that nobody signed.", "quantifier": "all accepted files, all keys, all histories of signing with any configuration, timestamps, digests and both kinds of subjects, both builds, all hash and signature functions with fixed hash sizes", "why_tests_cant": "The claim is about everything a key has ever been used for: any other module, any ELF file, the other signature scheme, older stamp formats. A test can try a few replays; that no message of one purpose can be read as one of another is a statement about all messages.", "anchors": ["src/signer.rs: sign", "src/signing_block/scheme_v2.rs: SignedData", "src/signing_block/source_stamp.rs: SourceStamp", "src/verifier.rs: verify_all_with_digest", "src/cli/verify.rs: execute", "src/cli/sign.rs: execute"]}
{"id": "C95", "title": "The command-line tool without ELF support behaves as the default build on modules, except those with a broken section list", "statement": "In a build without ELF support, sign and digest do the same to the files, print the same digest and exit with the same status as in the default build, unless the input starts like an ELF file or its signing block has a value that claims to be a section list and is none. verify accepts everything the default build accepts and differs on files with such a block only. info displays what the default build displays, with section lists as unknown values, and differs on such files only. The default build fails with status 1 on such files, in every command, and changes no file (sign and digest: unless the file starts like an ELF file); the other build may accept them and sign them again. The build without ELF support refuses --elf-section, and input that starts like an ELF file and has no end record of an archive, with status 1 and without a change to any file.", "quantifier": "every file system, command line, file below 2^64 bytes, set of libraries, clock and read schedule, debug and release builds", "why_tests_cant": "a test suite runs with one feature set on chosen files; that the commands of two feature sets agree on every file except an exactly described set ranges over all files", "anchors": ["src/cli/sign.rs: execute", "src/cli/digest.rs: execute", "src/cli/verify.rs: execute", "src/cli/info.rs: execute", "src/signable.rs: SignableFile::open, detect_file_format", "Cargo.toml: features"]}
{"id": "C96", "title": "The clock and the configured roots decide about trust and nothing else", "statement": "Whatever the clock shows and whatever roots are configured, verification of a signing block reports the same error, or the same signature and digest flags and the same certificates, for the module signature and for the stamp. The clock is read for every certificate chain separately; a module signature is trusted if and only if the chain of every signer is trusted at the moment that signer is checked. The verify command and verify_with_roots of a module accept exactly if every signer and the first stamp are good, each at the moment its own chain is checked. What the verify command, or verify_with_roots of a module, accepts at two moments it accepts with a clock that runs anywhere between them, provided the path validator has no gap between two moments at which it accepts a path. If the leaf certificate of every signer is itself a configured root, the clock does not matter at all: such a certificate does not expire.", "quantifier": "every signing block, digest context, signature library and certificate library, every sequence of clock readings (also going backwards or before the epoch), all roots; for the command: every file system and file", "why_tests_cant": "the sequences of clock readings during a verification are unbounded and not under a test's control; the claims relate every two runs", "anchors": ["src/verifier.rs: CertChainVerifier::verify_chain, SignatureVerifier::verify_v2_with_digest, SignatureVerifier::verify_source_stamp_with_digest, TrustedRoots::is_direct_root", "src/cli/verify.rs: execute", "src/file_formats/module/mod.rs: Module::verify_full, Module::verify_with_roots"]}
{"id": "C97", "title": "The digest of a module that changes while it is read", "statement": "Every single read of the digest computation may see another content of the file. If writers keep the length of the file, reading ends and the digest is the one of a mixture: a file of that length in which every byte stands where it stood in the file at some moment of the computation. Changes at places that are not digested, in particular inside the signing block, have no effect. If the digest is the one of the signed archive, then what was read is the signed archive except for its block and the directory offset, or two different hashed messages with the same hash are known. (If the file is shorter in between, the digest need not be the one of any file.)", "quantifier": "every file offsets whose regions follow each other, every sequence of contents seen by the reads, every read schedule, hash and build profile; for the last claims every archive with a built block", "why_tests_cant": "all interleavings of the reads with writers, for files of any size", "anchors": ["src/file_formats/module/digest.rs: digest_module, digest_zip_contents, digest_central_directory, digest_end_of_central_directory", "src/file_formats/module/mod.rs: Module::digest"]}
