(** Unified.v - model of the rest of the unified interface of
    /repo/src/signable.rs: the existing signature of a file, for both formats. *)
From Verif Require Import Base SigningBlock Module Signable Elf Cli.
Open Scope N_scope.

(** src/signable.rs:234-238 [is_signed], for [ElfFile] (411-413). *)
Definition elf_is_signed (rest : bytes -> bool) (p : profile) (f : elf_file) : bool :=
  match elf_get_signing_block rest p f with Ok (Some _) => true | _ => false end.

(** src/signable.rs:109-115 [SignableFile::format]. *)
Definition signable_kind (x : signable) : file_format :=
  match x with SModule _ => FModule | SElf _ => FElf end.

(** src/signable.rs:161-167 [SignableFile::signing_block]; [file] is the current
    content of the file, which only a module reads again. *)
Definition signable_block (p : profile) (rest : bytes -> bool) (x : signable) (file : option bytes)
  : res (option signing_block) :=
  match x with
  | SModule m => s_get_signing_block p m (now_content file)
  | SElf f => elf_get_signing_block rest p f
  end.
