(** ElfInfo.v - model of /repo/src/signing_block/elf_section_info.rs *)
From Verif Require Import Base Utils Utf8.

(** src/signing_block/elf_section_info.rs:15. *)
Definition ELF_SECTION_INFO_BLOCK_ID : N := 0x4c45534b.

(** src/signing_block/elf_section_info.rs:20-29 [struct SectionEntry]. *)
Record section_entry := mkEntry {
  en_name_len : N; en_name : rstring; en_offset : N; en_size : N }.

(** src/signing_block/elf_section_info.rs:34-42 [SectionEntry::new] ([name.len() as u16]). *)
Definition entry_new (name : rstring) (off size : N) : section_entry :=
  mkEntry (str_len name mod U16) name off size.

(** src/signing_block/elf_section_info.rs:45-52 [SectionEntry::to_u8]. *)
Definition entry_to_u8 (e : section_entry) : bytes :=
  le 2 (en_name_len e) ++ utf8_enc (en_name e) ++ le 8 (en_offset e) ++ le 8 (en_size e).

(** src/signing_block/elf_section_info.rs:57-70 [SectionEntry::parse]. *)
Definition entry_parse (r : reader) : res (section_entry * reader) :=
  do '(name_len, r) <- read_u16 r;
  do '(name_bytes, r) <- get_to r name_len;
  do name <- of_option EUtf8 (utf8_dec name_bytes);
  do '(off, r) <- read_u64 r;
  do '(size, r) <- read_u64 r;
  Ok (mkEntry name_len name off size, r).

(** src/signing_block/elf_section_info.rs:73-78 [SectionEntry::byte_size]. *)
Definition entry_byte_size (e : section_entry) : N := 2 + str_len (en_name e) + 8 + 8.

(** src/signing_block/elf_section_info.rs:84-93 [struct ElfSectionInfo]. *)
Record elf_info := mkInfo {
  ei_size : N; ei_id : N; ei_count : N; ei_sections : list section_entry }.

(** src/signing_block/elf_section_info.rs:97-108 [ElfSectionInfo::new]. *)
Definition info_new (l : list section_entry) : elf_info :=
  let sections_size := fold_right (fun e acc => entry_byte_size e + acc) 0 l in
  mkInfo (4 + 4 + sections_size) ELF_SECTION_INFO_BLOCK_ID (len l mod U32) l.

(** src/signing_block/elf_section_info.rs:111-117 [ElfSectionInfo::from_tuples]. *)
Definition info_from_tuples (l : list (rstring * N * N)) : elf_info :=
  info_new (map (fun '(name, off, size) => entry_new name off size) l).

(** src/signing_block/elf_section_info.rs:120-128 [ElfSectionInfo::to_u8]. *)
Definition info_to_u8 (i : elf_info) : bytes :=
  le 8 (ei_size i) ++ le 4 (ei_id i) ++ le 4 (ei_count i) ++ flat_map entry_to_u8 (ei_sections i).

(** src/signing_block/elf_section_info.rs:136-138 [for _ in 0..section_count].  The count is
    attacker controlled (up to 2^32-1), so the loop is written on [N] with the
    fuel bounded by the data: an entry takes at least 18 bytes, hence a count
    larger than the data runs into an out-of-bounds error before the fuel is
    used up (ParseFacts.v). *)
Fixpoint entries_parse (fuel : nat) (count : N) (r : reader)
  : res (list section_entry * reader) :=
  if count =? 0 then Ok ([], r)
  else match fuel with
       | O => Err EFuel
       | S fuel' =>
           do '(e, r1) <- entry_parse r;
           do '(l, r2) <- entries_parse fuel' (count - 1) r1;
           Ok (e :: l, r2)
       end.

(** src/signing_block/elf_section_info.rs:133-145 [ElfSectionInfo::parse]; bytes after the last
    entry are ignored. *)
Definition info_parse (size id : N) (r : reader) : res (elf_info * reader) :=
  do '(count, r) <- read_u32 r;
  do '(l, r) <- entries_parse (loop_fuel r) count r;
  Ok (mkInfo size id count l, r).

(** src/signing_block/elf_section_info.rs:135 [Vec::with_capacity(section_count)]: the number of
    elements reserved before the first entry is read (observable as memory). *)
Definition info_reserved (r : reader) : res N :=
  do '(count, _) <- read_u32 r;
  Ok count.
