(** LoadSpec.v - what a loader sees of an ELF file: entry point and segments, read
    through the program headers (System V ABI, chapters 4 and 5).  No part of the
    program does this. *)
From Verif Require Import Base Utf8 Signable Elf.
Open Scope N_scope.

(** The number in the [k] bytes from [o] on, in the byte order of the file. *)
Definition number (big : bool) (d : bytes) (o k : N) : N :=
  let b := takeN k (dropN o d) in un_le (if big then rev b else b).

(** A program header and the bytes it takes from the file. *)
Record segment := mkSegment {
  sg_type : N; sg_flags : N; sg_offset : N; sg_vaddr : N; sg_paddr : N; sg_filesz : N; sg_memsz : N; sg_align : N;
  sg_bytes : bytes }.

(** Program headers have 56 bytes in 64-bit files and 32 bytes in others. *)
Definition ph_size (wide : bool) : N := if wide then 56 else 32.
Definition segment_at (wide big : bool) (d : bytes) (o : N) : segment :=
  let f64 k n := number big d (o + k) n in
  let offset := if wide then f64 8 8 else f64 4 4 in
  let filesz := if wide then f64 32 8 else f64 16 4 in
  mkSegment (f64 0 4) (if wide then f64 4 4 else f64 24 4) offset
    (if wide then f64 16 8 else f64 8 4) (if wide then f64 24 8 else f64 12 4)
    filesz (if wide then f64 40 8 else f64 20 4) (if wide then f64 48 8 else f64 28 4)
    (takeN filesz (dropN offset d)).

(** [d] is an ELF file with [count] program headers at [phoff], each [size] bytes
    after the one before; they lie in the file, and so do the segments. *)
Definition loads (d : bytes) (wide big : bool) (entry phoff : N) (segments : list segment) : Prop :=
  takeN 6 d = ELFMAG ++ [if wide then x02 else x01; if big then x02 else x01] /\
  (if wide then 64 else 52) <= len d /\
  entry = number big d 24 (if wide then 8 else 4) /\
  phoff = number big d (if wide then 32 else 28) (if wide then 8 else 4) /\
  let size := number big d (if wide then 54 else 42) 2 in
  len segments = number big d (if wide then 56 else 44) 2 /\
  forall i s, nth_error segments i = Some s ->
    phoff + size * N.of_nat i + ph_size wide <= len d /\ s = segment_at wide big d (phoff + size * N.of_nat i) /\
    sg_offset s + sg_filesz s <= len d.

(** The same segment, apart from the fields of the file header that describe the
    section table, should they be part of it. *)
Definition same_segment (wide : bool) (s t : segment) : Prop :=
  sg_type t = sg_type s /\ sg_flags t = sg_flags s /\ sg_offset t = sg_offset s /\ sg_vaddr t = sg_vaddr s /\
  sg_paddr t = sg_paddr s /\ sg_filesz t = sg_filesz s /\ sg_memsz t = sg_memsz s /\ sg_align t = sg_align s /\
  len (sg_bytes t) = len (sg_bytes s) /\
  forall i, ~ (let o := sg_offset s + i in if wide then 40 <= o < 48 \/ 58 <= o < 62 else 32 <= o < 36 \/ 46 <= o < 50) ->
    nth_error (sg_bytes t) (N.to_nat i) = nth_error (sg_bytes s) (N.to_nat i).

(** The same [n] bytes at [o]. *)
Definition same_at (d1 d2 : bytes) (o n : N) : Prop := takeN n (dropN o d1) = takeN n (dropN o d2).

(** The ranges [(o, n)] of bytes of an ELF file that its signature is about: what
    leads to the section headers, these, the names of the sections, and the
    contents of the signature section and of the sections with the names [names]. *)
Inductive examined (e : elf) (names : list rstring) : N -> N -> Prop :=
| ExIdent : examined e names 0 16
| ExTable : examined e names (match cx_class (ef_ctx e) with Class32 => 32 | Class64 => 40 end)
                             (match cx_class (ef_ctx e) with Class32 => 4 | Class64 => 8 end)
| ExCount : examined e names (match cx_class (ef_ctx e) with Class32 => 48 | Class64 => 60 end) 4
| ExHeaders : examined e names (eh_shoff (ef_header e)) (shdr_size (cx_class (ef_ctx e)) * len (ef_sections e))
| ExNames : forall i s, nth_error (ef_sections e) i = Some s ->
    N.of_nat i = eh_shstrndx (ef_header e) \/
    eh_shstrndx (ef_header e) = 65535 /\ option_map sh_link (nth_error (ef_sections e) 0) = Some (N.of_nat i) ->
    examined e names (sh_offset s) (sh_size s)
| ExSection : forall s n, In s (ef_sections e) -> get_at (ef_strtab e) (sh_name s) = Some n ->
    n = KSU_SIGN_SECTION \/ In n (map utf8_enc names) ->
    examined e names (sh_offset s) (sh_size s).
