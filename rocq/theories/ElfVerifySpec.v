(** ElfVerifySpec.v - vocabulary of C81 and C82: checking the signature of an
    ELF file with the library.  No function of the library does this in one go;
    a caller reads the signing block, computes the digests of the sections and
    hands both to the verifier. *)
From Verif Require Import Base Algorithms Utf8 ElfInfo SigningBlock Verifier VerifySpec Elf ElfSpec.
Open Scope N_scope.

(** The sections that the options of the sign command ask for: the default ones,
    or the names given, without white space at both ends and without empty
    names. *)
Definition asked (given chosen : list rstring) : Prop :=
  match given with
  | [] => chosen = DEFAULT_SIGNED_SECTIONS
  | _ => exists ts, Forall2 trimmed given ts /\ chosen = filter nonempty ts
  end.

(** The section lists in a block. *)
Definition section_lists (b : signing_block) : list elf_info :=
  flat_map (fun v => match v with ElfBlock i => [i] | _ => [] end) (bk_content b).
Definition listed_names (i : elf_info) : list rstring := map en_name (ei_sections i).

(** Every digest in [ctx] for an algorithm of the library is the digest of the
    sections [names] of [file]. *)
Definition of_sections (rest : bytes -> bool) (C : crypto) (file : bytes) (names : list rstring) (ctx : context) : Prop :=
  forall a d, a = ECDSA_SHA2_256 \/ a = ECDSA_SHA2_512 -> computed ctx a d -> elf_digest rest C (mkElfFile file names) a = Ok d.
