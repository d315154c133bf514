(** NoElfSpec.v - vocabulary of C90: how a block looks in a build without ELF
    support. *)
From Verif Require Import Base ElfInfo Wire SigningBlock.
Open Scope N_scope.

(** [data] starts with the encoding of the section list [i] (Wire.v); what follows it
    is not looked at. *)
Definition lists (data : bytes) (i : elf_info) : Prop := exists used more, data = used ++ more /\ W_info i used.
(** A value with the identifier of section lists that is none. *)
Definition no_list (v : value) : Prop :=
  exists r, v = BaseBlock r /\ rw_id r = ELF_SECTION_INFO_BLOCK_ID /\ forall i, ~ lists (rw_data r) i.

(** The value [v] of a build with ELF support is the value [w] of one without:
    section lists are kept as bytes, everything else is the same. *)
Definition same_value (v w : value) : Prop :=
  match v with
  | ElfBlock i => exists data, w = BaseBlock (mkRaw (ei_size i) ELF_SECTION_INFO_BLOCK_ID data) /\
      ei_id i = ELF_SECTION_INFO_BLOCK_ID /\ lists data i
  | BaseBlock r => w = v /\ rw_id r <> ELF_SECTION_INFO_BLOCK_ID
  | _ => w = v
  end.
Definition same_block (b c : signing_block) : Prop :=
  bk_start c = bk_start b /\ bk_end c = bk_end b /\ bk_size_start c = bk_size_start b /\ bk_content_size c = bk_content_size b /\
  bk_size_end c = bk_size_end b /\ bk_magic c = bk_magic b /\ Forall2 same_value (bk_content b) (bk_content c).
