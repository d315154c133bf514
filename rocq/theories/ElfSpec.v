(** ElfSpec.v - what the ELF properties say. *)
From Verif Require Import Base Algorithms Utf8 SigningBlock Digest Signable ZipSpec Elf.
Open Scope N_scope.

(** The positions of the file header that signing may rewrite: the offset of the
    section header table ([e_shoff]), the size of its entries ([e_shentsize]) and
    their number ([e_shnum]). *)
Definition rewritten (c : eclass) (i : N) : Prop :=
  match c with
  | Class32 => 32 <= i < 36 \/ 46 <= i < 50
  | Class64 => 40 <= i < 48 \/ 58 <= i < 62
  end.

(** The name a reader of the file sees for a section. *)
Definition section_name (e : elf) (s : shdr) : option bytes := get_at (ef_strtab e) (sh_name s).

(** The C string that starts at a position of a table. *)
Definition c_string (t : bytes) (off : N) (n : bytes) : Prop :=
  exists a c, t = a ++ n ++ x00 :: c /\ len a = off /\ ~ In x00 n.

(** An ordinary name table: it lies in the file, behind the file header, it ends
    with a NUL, every section's name starts inside it, and the table's own
    section is not the signature section. *)
Definition well_named (data : bytes) (e : elf) : Prop :=
  exists s t, shstrtab_header e = Some s /\
    get_range data (sh_offset s) (sh_offset s + sh_size s) = Some t /\
    t <> [] /\ last t x01 = x00 /\
    ehdr_size (cx_class (ef_ctx e)) <= sh_offset s /\
    Forall (fun s => sh_name s < len t) (ef_sections e) /\
    section_name e s <> Some KSU_SIGN_SECTION.

(** File offsets fit in the class's offset fields. *)
Definition fits_class (e : elf) (n : N) : Prop :=
  match cx_class (ef_ctx e) with Class32 => n < U32 | Class64 => True end.

(** The contents of a section. *)
Definition contents (data : bytes) (s : shdr) : option bytes :=
  get_range data (sh_offset s) (sh_offset s + sh_size s).

(** A section is ordinary data of the file: it lies in the file, behind the file
    header. *)
Definition plain_section (data : bytes) (e : elf) (s : shdr) : Prop :=
  ehdr_size (cx_class (ef_ctx e)) <= sh_offset s /\ sh_offset s + sh_size s <= len data.

(** A section name whose section, if there is one, is ordinary data and is
    neither the signature section nor the name table. *)
Definition ordinary (e : elf) (data : bytes) (n : rstring) : Prop :=
  utf8_enc n <> KSU_SIGN_SECTION /\
  forall s, find_section e (utf8_enc n) = Some s ->
    find_section_index e (utf8_enc n) <> Some (N.to_nat (eh_shstrndx (ef_header e))) /\ plain_section data e s.

(** The first section of that name. *)
Definition first_named (e : elf) (n : bytes) (s : shdr) : Prop :=
  exists i, nth_error (ef_sections e) i = Some s /\ section_name e s = Some n /\
    forall j t, (j < i)%nat -> nth_error (ef_sections e) j = Some t -> section_name e t <> Some n.

(** The bytes of a resolved section, and their division into pieces of 1 MiB. *)
Definition section_bytes (data : bytes) (t : tuple) : bytes := takeN (t_size t) (dropN (t_offset t) data).
Definition section_chunks (data : bytes) (l : list tuple) (cs : list bytes) : Prop :=
  exists css, Forall2 (fun t c => splits (section_bytes data t) c) l css /\ cs = List.concat css.

(** [t] is [s] without the white space at both ends. *)
Definition trimmed (s t : rstring) : Prop :=
  exists a c, s = a ++ t ++ c /\ Forall (fun c => is_white c = true) a /\ Forall (fun c => is_white c = true) c /\
  (forall c r, t = c :: r -> is_white c = false) /\ (forall c r, t = r ++ [c] -> is_white c = false).

(** The same byte, or the same ASCII letter in another case. *)
Definition same_letter (a b : byte) : Prop :=
  a = b \/ (65 <= Byte.to_N a <= 90 /\ Byte.to_N b = Byte.to_N a + 32) \/
  (65 <= Byte.to_N b <= 90 /\ Byte.to_N a = Byte.to_N b + 32).
Definition nonempty {A} (l : list A) : bool := negb (match l with [] => true | _ :: _ => false end).
