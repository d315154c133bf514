(** ToyElf.v - small ELF files for the examples, shaped like the one of
    /repo/tests/test_elf.rs:16-134 (".text", ".rodata" and ".shstrtab"). *)
From Verif Require Import Base Algorithms Utf8 SigningBlock Digest Signable Elf Toy.
From Coq Require Import Strings.String.
Open Scope N_scope.

Definition ident_of (x : elf_ctx) : bytes :=
  ELFMAG ++ [match cx_class x with Class32 => x01 | Class64 => x02 end;
             match cx_endian x with Lsb => x01 | Msb => x02 end; x01] ++ zeros 9.
Definition nul : bytes := [x00].
Definition toy_names : bytes :=
  nul ++ bstr ".text" ++ nul ++ bstr ".rodata" ++ nul ++ bstr ".shstrtab" ++ nul.
Definition toy_text : bytes := bstr "fake code here".
Definition toy_rodata : bytes := bstr "read only data".

(** Header, name table, contents, section headers; [align] is the alignment the
    name table asks for, [secs] the headers of the other sections. *)
Definition toy_elf (x : elf_ctx) (names body : bytes) (align : N) (secs : list shdr) : bytes :=
  let h := ehdr_size (cx_class x) in
  let tab := mkShdr 15 3 0 0 h (len names) 0 0 align 0 in
  let n := len secs + 2 in
  let pre := names ++ body in
  ehdr_to_u8 x (mkEhdr (ident_of x) 1 62 1 0 0 (h + len pre) 0 h 0 0 (shdr_size (cx_class x)) n (n - 1)) ++
  pre ++ flat_map (shdr_to_u8 x) (mkShdr 0 0 0 0 0 0 0 0 0 0 :: secs ++ [tab]).
Definition text_at (x : elf_ctx) (names : bytes) : shdr :=
  mkShdr 1 1 0 0 (ehdr_size (cx_class x) + len names) (len toy_text) 0 0 1 0.
Definition rodata_at (x : elf_ctx) (names : bytes) : shdr :=
  mkShdr 7 1 0 0 (ehdr_size (cx_class x) + len names + len toy_text) (len toy_rodata) 0 0 1 0.
Definition toy_plain (x : elf_ctx) (align : N) : bytes :=
  toy_elf x toy_names (toy_text ++ toy_rodata) align [text_at x toy_names; rodata_at x toy_names].
Definition all_ok (_ : bytes) : bool := true.
Definition x64 : elf_ctx := mkCtx Class64 Lsb.
Definition x32 : elf_ctx := mkCtx Class32 Msb.
Definition toy64 : elf_file := mkElfFile (toy_plain x64 1) DEFAULT_SIGNED_SECTIONS.
Definition toy32 : elf_file := mkElfFile (toy_plain x32 4) [str ".rodata"].
Definition get {A} (d : A) (r : res A) : A := match r with Ok x => x | _ => d end.
Definition no_elf : elf := mkElf x64 (mkEhdr [] 0 0 0 0 0 0 0 0 0 0 0 0 0) [] [].
Definition toy64_elf : elf := Eval vm_compute in get no_elf (elf_parse all_ok (el_data toy64)).
Definition toy32_elf : elf := Eval vm_compute in get no_elf (elf_parse all_ok (el_data toy32)).
Definition toy64_signed : bytes := Eval vm_compute in get [] (elf_write_with_signature all_ok toy64 ex_block).
Definition toy32_signed : bytes := Eval vm_compute in get [] (elf_write_with_signature all_ok toy32 ex_block).
Definition resigned64 : bytes :=
  Eval vm_compute in get [] (elf_write_with_signature all_ok (mkElfFile toy64_signed []) ex_block2).
