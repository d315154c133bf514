(** NoElfCliSpec.v - vocabulary of C95: the files that builds with and without ELF
    support treat differently. *)
From Verif Require Import Base Zip Module Signable ElfInfo SigningBlock Elf Cli NoElf NoElfSpec.
Open Scope N_scope.

(** The file starts like an ELF file. *)
Definition starts_elf (f : bytes) : Prop := exists t, f = ELFMAG ++ t.
(** The signing block of the module [f] has a value that claims to be a section list
    and is none. *)
Definition disputed (p : profile) (f : bytes) : Prop :=
  exists c, m_get_signing_block_w value_parse_n p (module_new f) f = Ok c /\ Exists no_list (bk_content c).
(** The same for the block that "info" finds. *)
Definition disputed_info (p : profile) (f : bytes) : Prop :=
  exists c, from_reader_w value_parse_n p f (len f) 0 = Ok c /\ Exists no_list (bk_content c).
(** What is at a path, if anything can be read there. *)
Definition holds (s : fs) (p : path) (P : bytes -> Prop) : Prop := forall f, fs_read s p = Some f -> P f.
