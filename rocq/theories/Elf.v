(** Elf.v - model of /repo/src/file_formats/elf/mod.rs and elf/digest.rs.

    Of the goblin crate (0.10.3) this file models what the code depends on: the
    ELF header, the section header table and the section name table, in both
    classes and byte orders.  The remaining checks of [Elf::parse] (program
    headers, symbols, dynamic section, relocations, version tables) are one
    total predicate [rest] on the file bytes; every theorem quantifies over it. *)
From Verif Require Import Base Algorithms Utf8 SigningBlock Digest Signable.
From Coq Require Import Strings.String.
Open Scope N_scope.

(** src/file_formats/elf/mod.rs:25 [DEFAULT_SIGNED_SECTIONS], 28 [KSU_SIGN_SECTION]. *)
Definition KSU_SIGN_SECTION : bytes := bstr ".ksu_sign".
Definition str (s : string) : rstring := map Byte.to_N (bstr s).
Definition DEFAULT_SIGNED_SECTIONS : list rstring := [str ".text"; str ".rodata"].

(** src/file_formats/elf/mod.rs:32-43 [ElfError]. *)
Definition EeParse : err := EElf 1.
Definition EeMissing : err := EElf 2.
Definition EeNameOverflow : err := EElf 3.
Definition EeValue : err := EElf 4.

(** * goblin: integers, header, section headers *)

(** [Container] (32 or 64 bit) and byte order. *)
Inductive eclass := Class32 | Class64.
Inductive endian := Lsb | Msb.
Record elf_ctx := mkCtx { cx_class : eclass; cx_endian : endian }.

Definition enc (e : endian) (k : nat) (n : N) : bytes :=
  match e with Lsb => le k n | Msb => rev (le k n) end.
Definition dec (e : endian) (b : bytes) : N :=
  match e with Lsb => un_le b | Msb => un_le (rev b) end.

Fixpoint enc_fields (e : endian) (ws : list nat) (vs : list N) : bytes :=
  match ws, vs with
  | w :: ws', v :: vs' => enc e w v ++ enc_fields e ws' vs'
  | _, _ => []
  end.
Fixpoint dec_fields (e : endian) (ws : list nat) (b : bytes) : list N :=
  match ws with
  | [] => []
  | w :: ws' => dec e (firstn w b) :: dec_fields e ws' (skipn w b)
  end.

(** goblin [header::Header]: the identification bytes and the other fields. *)
Record elf_header := mkEhdr {
  eh_ident : bytes; eh_type : N; eh_machine : N; eh_version : N; eh_entry : N; eh_phoff : N;
  eh_shoff : N; eh_flags : N; eh_ehsize : N; eh_phentsize : N; eh_phnum : N;
  eh_shentsize : N; eh_shnum : N; eh_shstrndx : N }.
Definition ehdr_widths (c : eclass) : list nat :=
  match c with
  | Class32 => [2; 2; 4; 4; 4; 4; 4; 2; 2; 2; 2; 2; 2]%nat
  | Class64 => [2; 2; 4; 8; 8; 8; 4; 2; 2; 2; 2; 2; 2]%nat
  end.
Definition ehdr_fields (h : elf_header) : list N :=
  [eh_type h; eh_machine h; eh_version h; eh_entry h; eh_phoff h; eh_shoff h; eh_flags h;
   eh_ehsize h; eh_phentsize h; eh_phnum h; eh_shentsize h; eh_shnum h; eh_shstrndx h].
Definition ehdr_size (c : eclass) : N := match c with Class32 => 52 | Class64 => 64 end.
(** [IntoCtx for Header]. *)
Definition ehdr_to_u8 (x : elf_ctx) (h : elf_header) : bytes :=
  eh_ident h ++ enc_fields (cx_endian x) (ehdr_widths (cx_class x)) (ehdr_fields h).

(** goblin [section_header::SectionHeader]. *)
Record shdr := mkShdr {
  sh_name : N; sh_type : N; sh_flags : N; sh_addr : N; sh_offset : N; sh_size : N;
  sh_link : N; sh_info : N; sh_addralign : N; sh_entsize : N }.
Definition shdr_widths (c : eclass) : list nat :=
  match c with
  | Class32 => [4; 4; 4; 4; 4; 4; 4; 4; 4; 4]%nat
  | Class64 => [4; 4; 8; 8; 8; 8; 4; 4; 8; 8]%nat
  end.
Definition shdr_fields (s : shdr) : list N :=
  [sh_name s; sh_type s; sh_flags s; sh_addr s; sh_offset s; sh_size s; sh_link s; sh_info s;
   sh_addralign s; sh_entsize s].
Definition shdr_size (c : eclass) : N := match c with Class32 => 40 | Class64 => 64 end.
(** [IntoCtx for SectionHeader]. *)
Definition shdr_to_u8 (x : elf_ctx) (s : shdr) : bytes :=
  enc_fields (cx_endian x) (shdr_widths (cx_class x)) (shdr_fields s).
Definition shdr_of_fields (l : list N) : shdr :=
  let f i := nth i l 0 in
  mkShdr (f 0%nat) (f 1%nat) (f 2%nat) (f 3%nat) (f 4%nat) (f 5%nat) (f 6%nat) (f 7%nat)
    (f 8%nat) (f 9%nat).
Definition ehdr_of_fields (ident : bytes) (l : list N) : elf_header :=
  let f i := nth i l 0 in
  mkEhdr ident (f 0%nat) (f 1%nat) (f 2%nat) (f 3%nat) (f 4%nat) (f 5%nat) (f 6%nat) (f 7%nat)
    (f 8%nat) (f 9%nat) (f 10%nat) (f 11%nat) (f 12%nat).
Definition SHT_PROGBITS : N := 1.
Definition SHT_NOBITS : N := 8.
Definition SHN_XINDEX : N := 65535.

(** goblin [Header::try_from_ctx] and [parse_misc]: magic, class (byte 4) and
    byte order (byte 5) select the layout. *)
Definition ident_ctx (ident : bytes) : option elf_ctx :=
  if negb (beq (takeN 4 ident) ELFMAG) then None
  else
    match nth 4 ident x00, nth 5 ident x00 with
    | x01, x01 => Some (mkCtx Class32 Lsb)
    | x01, x02 => Some (mkCtx Class32 Msb)
    | x02, x01 => Some (mkCtx Class64 Lsb)
    | x02, x02 => Some (mkCtx Class64 Msb)
    | _, _ => None
    end.
Definition parse_ehdr (data : bytes) : option (elf_ctx * elf_header) :=
  if len data <? 16 then None
  else
    let ident := takeN 16 data in
    match ident_ctx ident with
    | None => None
    | Some x =>
        if len data <? ehdr_size (cx_class x) then None
        else Some (x, ehdr_of_fields ident
                        (dec_fields (cx_endian x) (ehdr_widths (cx_class x)) (dropN 16 data)))
    end.

(** [bytes.gread_with::<SectionHeader>(&mut offset, ctx)]. *)
Definition read_shdr (x : elf_ctx) (data : bytes) (off : N) : option shdr :=
  match get_range data off (off + shdr_size (cx_class x)) with
  | None => None
  | Some b => Some (shdr_of_fields (dec_fields (cx_endian x) (shdr_widths (cx_class x)) b))
  end.
Fixpoint read_shdrs (x : elf_ctx) (data : bytes) (off : N) (n : nat) : option (list shdr) :=
  match n with
  | O => Some []
  | S n' =>
      match read_shdr x data off with
      | None => None
      | Some s =>
          match read_shdrs x data (off + shdr_size (cx_class x)) n' with
          | None => None
          | Some l => Some (s :: l)
          end
      end
  end.
(** goblin [SectionHeader::parse]: offset 0 means no sections; the first header
    is always read; count 0 means the count is in its size field. *)
Definition parse_shdrs (x : elf_ctx) (data : bytes) (off count : N) : option (list shdr) :=
  if off =? 0 then Some []
  else
    match read_shdr x data off with
    | None => None
    | Some s0 =>
        let count := if count =? 0 then sh_size s0 else count in
        if len data / shdr_size (cx_class x) <? count then None
        else
          match read_shdrs x data (off + shdr_size (cx_class x)) (N.to_nat (count - 1)) with
          | None => None
          | Some l => Some (s0 :: l)
          end
    end.

(** * goblin: string tables *)

(** The bytes up to the first NUL (scroll [StrCtx::Delimiter(0)]). *)
Fixpoint until_nul (b : bytes) : bytes :=
  match b with
  | [] => []
  | x :: r => if Byte.eqb x x00 then [] else x :: until_nul r
  end.
(** [Strtab::parse]: start offset and text of every string; [None] if one is not
    UTF-8.  The fuel is the length: every string consumes at least one byte. *)
Fixpoint strings (fuel : nat) (i : N) (b : bytes) : option (list (N * bytes)) :=
  match b with
  | [] => Some []
  | _ :: _ =>
      match fuel with
      | O => None
      | S fuel' =>
          let s := until_nul b in
          match utf8_dec s with
          | None => None
          | Some _ =>
              match strings fuel' (i + len s + 1) (dropN (len s + 1) b) with
              | None => None
              | Some l => Some ((i, s) :: l)
              end
          end
      end
  end.
Definition parse_strtab (b : bytes) : option (list (N * bytes)) := strings (List.length b) 0 b.

(** [str::is_char_boundary]. *)
Definition is_boundary (s : bytes) (k : N) : bool :=
  (k =? len s) || ((k <? len s) && negb (is_cont (nth (N.to_nat k) s x00))).
(** The last string that starts at or before [off] (the binary search of
    [Strtab::get_at] on the sorted start offsets). *)
Fixpoint floor_entry (l : list (N * bytes)) (off : N) : option (N * bytes) :=
  match l with
  | [] => None
  | (b, s) :: r =>
      if b <=? off then
        match floor_entry r off with Some e => Some e | None => Some (b, s) end
      else None
  end.
(** [Strtab::get_at]. *)
Definition get_at (l : list (N * bytes)) (off : N) : option bytes :=
  match floor_entry l off with
  | None => None
  | Some (b, s) => if is_boundary s (off - b) then Some (dropN (off - b) s) else None
  end.

(** * goblin: [Elf::parse] *)
Record elf := mkElf {
  ef_ctx : elf_ctx; ef_header : elf_header; ef_sections : list shdr;
  ef_strtab : list (N * bytes) }.

(** [get_strtab(&section_headers, e_shstrndx)]: an index out of range gives an
    empty table; the range must lie in the file. *)
Definition section_names (data : bytes) (l : list shdr) (idx : N) : option (list (N * bytes)) :=
  let idx := if idx =? SHN_XINDEX then match l with s0 :: _ => Some (sh_link s0) | [] => None end
             else Some idx in
  match idx with
  | None => Some []
  | Some i =>
      match nth_error l (N.to_nat (N.min i (len l))) with
      | None => Some []
      | Some s =>
          match get_range data (sh_offset s) (sh_offset s + sh_size s) with
          | None => None
          | Some b => parse_strtab b
          end
      end
  end.
Definition elf_parse (rest : bytes -> bool) (data : bytes) : res elf :=
  match parse_ehdr data with
  | None => Err EeParse
  | Some (x, h) =>
      match parse_shdrs x data (eh_shoff h) (eh_shnum h) with
      | None => Err EeParse
      | Some l =>
          match section_names data l (eh_shstrndx h) with
          | None => Err EeParse
          | Some tab => if rest data then Ok (mkElf x h l tab) else Err EeParse
          end
      end
  end.

(** * mod.rs *)

(** src/file_formats/elf/mod.rs:70-78 [struct ElfFile], without the path. *)
Record elf_file := mkElfFile { el_data : bytes; el_signed : list rstring }.

(** src/file_formats/elf/mod.rs:85-97 [ElfFile::new] on a readable file. *)
Definition elf_new (rest : bytes -> bool) (data : bytes) : res elf_file :=
  do _ <- elf_parse rest data;
  Ok (mkElfFile data DEFAULT_SIGNED_SECTIONS).

(** [char::is_whitespace] (Unicode White_Space) and [str::trim]. *)
Definition is_white (c : N) : bool :=
  ((9 <=? c) && (c <=? 13)) || (c =? 0x20) || (c =? 0x85) || (c =? 0xA0) || (c =? 0x1680) ||
  ((0x2000 <=? c) && (c <=? 0x200A)) || (c =? 0x2028) || (c =? 0x2029) || (c =? 0x202F) ||
  (c =? 0x205F) || (c =? 0x3000).
Fixpoint trim_start (s : rstring) : rstring :=
  match s with
  | [] => []
  | c :: r => if is_white c then trim_start r else s
  end.
Definition trim (s : rstring) : rstring := rev (trim_start (rev (trim_start s))).

(** [eq_ignore_ascii_case]. *)
Definition lower (b : byte) : byte :=
  let n := Byte.to_N b in if (65 <=? n) && (n <=? 90) then b8 (n + 32) else b.
Definition eq_ignore_case (a b : bytes) : bool := beq (map lower a) (map lower b).

(** src/file_formats/elf/mod.rs:103-128 [set_signed_sections]. *)
Definition set_signed_sections (f : elf_file) (sections : list rstring) : res elf_file :=
  let filtered := filter (fun s => negb (match s with [] => true | _ => false end)) (map trim sections) in
  match filtered with
  | [] => Err EeValue
  | _ =>
      if existsb (fun s => eq_ignore_case (utf8_enc s) KSU_SIGN_SECTION) filtered then Err EeValue
      else Ok (mkElfFile (el_data f) filtered)
  end.

(** src/file_formats/elf/mod.rs:394-400 [find_section], 403-409 [find_section_index], 412-419
    [existing_name_offset]. *)
Definition named (tab : list (N * bytes)) (name : bytes) (s : shdr) : bool :=
  match get_at tab (sh_name s) with Some n => beq n name | None => false end.
Definition find_section (e : elf) (name : bytes) : option shdr :=
  find (named (ef_strtab e) name) (ef_sections e).
Fixpoint find_index {A} (f : A -> bool) (l : list A) : option nat :=
  match l with
  | [] => None
  | x :: r => if f x then Some 0%nat else option_map S (find_index f r)
  end.
Definition find_section_index (e : elf) (name : bytes) : option nat :=
  find_index (named (ef_strtab e) name) (ef_sections e).
Definition existing_name_offset (e : elf) (name : bytes) : option N :=
  option_map sh_name (find_section e name).

(** [sort_by_key(|(_, offset, _)| *offset)]: a stable sort. *)
Definition tuple := (rstring * N * N)%type.
Definition t_offset (t : tuple) : N := snd (fst t).
Definition t_size (t : tuple) : N := snd t.
Fixpoint insert_by (t : tuple) (l : list tuple) : list tuple :=
  match l with
  | [] => [t]
  | u :: r => if t_offset t <=? t_offset u then t :: l else u :: insert_by t r
  end.
Fixpoint sort_by (l : list tuple) : list tuple :=
  match l with
  | [] => []
  | t :: r => insert_by t (sort_by r)
  end.

(** src/file_formats/elf/mod.rs:312-335 [collect_sections]. *)
Fixpoint lookup_sections (e : elf) (names : list rstring) : res (list tuple) :=
  match names with
  | [] => Ok []
  | n :: r =>
      match find_section e (utf8_enc n) with
      | None => Err EeMissing
      | Some s =>
          if sh_type s =? SHT_NOBITS then Err EeValue
          else if sh_size s =? 0 then Err EeValue
          else do l <- lookup_sections e r; Ok ((n, sh_offset s, sh_size s) :: l)
      end
  end.
Definition collect_sections (f : elf_file) (e : elf) : res (list tuple) :=
  do l <- lookup_sections e (el_signed f); Ok (sort_by l).

(** src/file_formats/elf/mod.rs:134-137 [resolved_sections]. *)
Definition resolved_sections (rest : bytes -> bool) (f : elf_file) : res (list tuple) :=
  do e <- elf_parse rest (el_data f); collect_sections f e.

(** src/file_formats/elf/mod.rs:143-149 [digest_regions]. *)
Definition elf_digest_regions (rest : bytes -> bool) (f : elf_file) : res (list region) :=
  do l <- resolved_sections rest f;
  Ok (map (fun t => mkRegion (utf8_enc (fst (fst t))) (t_offset t) (t_size t)) l).

(** src/file_formats/elf/digest.rs:19-25 [digest_chunk], 28-33 [digest_final]. *)
Definition elf_digest_chunk (C : crypto) (a : algorithms) (chunk : bytes) : bytes :=
  hash C a (xa5 :: le 4 (len chunk) ++ chunk).
Definition elf_digest_final (C : crypto) (a : algorithms) (ds : list bytes) : bytes :=
  hash C a (x5a :: le 4 (len ds) ++ List.concat ds).
(** src/file_formats/elf/digest.rs:48-78 [digest_elf_sections] on an in-memory [Cursor]: the
    [BufReader] is filled completely every time, and reading stops silently at
    the end of the data. *)
Definition digest_elf_sections (C : crypto) (data : bytes) (l : list tuple) (a : algorithms) : bytes :=
  elf_digest_final C a
    (flat_map (fun t => map (elf_digest_chunk C a)
                          (read_chunks full_reads (taken data (t_offset t) (t_size t)))) l).
(** src/file_formats/elf/mod.rs:155-159 [digest]. *)
Definition elf_digest (rest : bytes -> bool) (C : crypto) (f : elf_file) (a : algorithms) : res bytes :=
  do l <- resolved_sections rest f;
  Ok (digest_elf_sections C (el_data f) l a).

(** src/file_formats/elf/mod.rs:165-184 [get_signing_block]. *)
Definition elf_get_signing_block (rest : bytes -> bool) (p : profile) (f : elf_file)
  : res (option signing_block) :=
  do e <- elf_parse rest (el_data f);
  match find_section e KSU_SIGN_SECTION with
  | None => Ok None
  | Some s =>
      if U64 <=? sh_offset s + sh_size s then Err EeValue
      else if sh_size s =? 0 then Ok None
      else
        match get_range (el_data f) (sh_offset s) (sh_offset s + sh_size s) with
        | None => Err EeValue
        | Some b => do blk <- map_err (fun _ => EeValue) (from_u8 p b); Ok (Some blk)
        end
  end.

(** src/file_formats/elf/mod.rs:339-349 [align_to]. *)
Definition align_to (value align : N) : N :=
  if align =? 0 then value
  else
    let rem := value mod align in
    if rem =? 0 then value else value + (align - rem).
(** [Vec::resize] beyond [isize::MAX] panics ("capacity overflow"); running out
    of memory below that is not modelled. *)
Definition resize (b : bytes) (n : N) : res bytes :=
  if I64 <=? n then Panic
  else Ok (takeN n b ++ zeros (n - len b)).
(** src/file_formats/elf/mod.rs:352-360 [append_aligned]. *)
Definition append_aligned (target data : bytes) (align : N) : res (bytes * N) :=
  let offset := align_to (len target) (N.max align 1) in
  do t <- (if len target <? offset then resize target offset else Ok target);
  Ok (t ++ data, len t).
(** src/file_formats/elf/mod.rs:366-371 [align_for_container]. *)
Definition align_for_container (c : eclass) : N := match c with Class64 => 8 | Class32 => 4 end.

(** src/file_formats/elf/mod.rs:377-391 [load_shstrtab]. *)
Definition shstrtab_header (e : elf) : option shdr :=
  let i := eh_shstrndx (ef_header e) in nth_error (ef_sections e) (N.to_nat (N.min i (len (ef_sections e)))).
Definition load_shstrtab (e : elf) (data : bytes) : res bytes :=
  do s <- of_option EeValue (shstrtab_header e);
  if U64 <=? sh_offset s + sh_size s then Err EeValue
  else of_option EeValue (get_range data (sh_offset s) (sh_offset s + sh_size s)).

(** [section_headers.get_mut(i)] followed by assignments. *)
Fixpoint update_nth {A} (i : nat) (f : A -> A) (l : list A) : list A :=
  match l, i with
  | [], _ => []
  | x :: r, O => f x :: r
  | x :: r, S i' => x :: update_nth i' f r
  end.
Definition sign_shdr (name off size align : N) : shdr :=
  mkShdr name SHT_PROGBITS 0 0 off size 0 0 align 0.
Definition with_table (s : shdr) (off size : N) : shdr :=
  mkShdr (sh_name s) (sh_type s) (sh_flags s) (sh_addr s) off size (sh_link s) (sh_info s)
    (sh_addralign s) (sh_entsize s).
Definition with_sections (h : elf_header) (shoff shentsize shnum : N) : elf_header :=
  mkEhdr (eh_ident h) (eh_type h) (eh_machine h) (eh_version h) (eh_entry h) (eh_phoff h) shoff
    (eh_flags h) (eh_ehsize h) (eh_phentsize h) (eh_phnum h) shentsize shnum (eh_shstrndx h).

(** src/file_formats/elf/mod.rs:190-294 [write_with_signature]: the bytes written, in one call, or an
    error (nothing written).  Line 284's assignment of [e_shstrndx] does not
    change it. *)
Definition elf_write_with_signature (rest : bytes -> bool) (f : elf_file) (b : signing_block)
  : res bytes :=
  let data := el_data f in
  do e <- elf_parse rest data;
  let x := ef_ctx e in
  let c := cx_class x in
  do shstr <- load_shstrtab e data;
  let block := block_to_u8 b in
  let align := align_for_container c in
  do '(out1, signing_offset) <- append_aligned data block align;
  let '(name_offset, shstr') :=
    match existing_name_offset e KSU_SIGN_SECTION with
    | Some o => (o, shstr)
    | None => (len shstr, shstr ++ KSU_SIGN_SECTION ++ [x00])
    end in
  do sh <- of_option EeValue (shstrtab_header e);
  do '(out2, sections) <-
    (if len shstr' =? sh_size sh then Ok (out1, ef_sections e)
     else
       do '(o, new_offset) <- append_aligned out1 shstr' (N.max (sh_addralign sh) 1);
       Ok (o, update_nth (N.to_nat (eh_shstrndx (ef_header e)))
                (fun s => with_table s new_offset (len shstr')) (ef_sections e)));
  if U32 <=? name_offset then Err EeNameOverflow
  else
    let new := sign_shdr name_offset signing_offset (len block) align in
    let sections :=
      match find_section_index e KSU_SIGN_SECTION with
      | Some i => update_nth i (fun _ => new) sections
      | None => sections ++ [new]
      end in
    let size := shdr_size c in
    let table := align_to (len out2) (N.max size 8) in
    if U64 <=? size * len sections then Err EeValue
    else
      do out3 <- resize out2 (table + size * len sections);
      let out4 := takeN table out3 ++ flat_map (shdr_to_u8 x) sections in
      if U16 <=? len sections then Err EeValue
      else
        let h := with_sections (ef_header e) table size (len sections) in
        Ok (ehdr_to_u8 x h ++ dropN (ehdr_size c) out4).
