(** UnifiedSpec.v - when a file carries a signature (C80).  Uses the grammar of
    the block (Wire.v, FindSpec.v) and ElfSpec.v; no parser of blocks. *)
From Verif Require Import Base SigningBlock Wire ZipSpec FindSpec Zip Elf ElfSpec Signable.
Open Scope N_scope.

(** A module carries [b]: a block ends at the last magic before the directory,
    at most 16 MiB before it. *)
Definition module_carries (f : bytes) (b : signing_block) : Prop :=
  exists e pre raw post, find_eocd f (len f) = Ok e /\
    ends_last f (N.min (eo_cd_offset e) (len f)) pre raw post /\
    N.min (eo_cd_offset e) (len f) + 24 <= len (pre ++ raw) + 16 * 1024 * 1024 /\
    denotes b (len pre) raw.

(** An ELF file carries [b]: its first section called ".ksu_sign" lies in the
    file, and a block ends at the last magic of its contents. *)
Definition elf_carries (rest : bytes -> bool) (data : bytes) (b : signing_block) : Prop :=
  exists e s sec pre raw post, elf_parse rest data = Ok e /\ first_named e KSU_SIGN_SECTION s /\
    contents data s = Some sec /\ ends_last sec (len sec) pre raw post /\ denotes b 0 raw.

(** An ELF file has no signature: no section is called ".ksu_sign", or the first
    one that is has size 0. *)
Definition elf_unsigned (rest : bytes -> bool) (data : bytes) : Prop :=
  exists e, elf_parse rest data = Ok e /\
    ((forall s, ~ first_named e KSU_SIGN_SECTION s) \/
     exists s, first_named e KSU_SIGN_SECTION s /\ sh_size s = 0).

(** A module has no signature: at least 24 bytes stand before its directory, and
    no magic among them. *)
Definition module_unsigned (f : bytes) : Prop :=
  exists e, find_eocd f (len f) = Ok e /\
    24 <= len (takeN (eo_cd_offset e) f) /\ no_block_magic (takeN (eo_cd_offset e) f).
