(** SerdeSpec.v - vocabulary of C74.  [typed_x v]: every number of [v] fits the
    type that /repo declares for it (usize has 64 bits), so that [v] is a value
    the Rust program can hold; strings hold any characters.  [algos_x v]: the
    algorithms that occur in [v]. *)
From Verif Require Import Base Algorithms Common SchemeV2 SourceStamp Utf8 ElfInfo SigningBlock Wire Serde.
From Coq Require Import Permutation.
Open Scope N_scope.

Definition typed_algo (a : algorithms) : Prop := match a with Unknown u => u < U32 | _ => True end.
Definition typed_digest (x : digest) : Prop :=
  dg_size x < U64 /\ typed_algo (dg_algo x).
Definition algos_digest (x : digest) : list algorithms := [dg_algo x].
Definition typed_digests (x : digests) : Prop :=
  dgs_size x < U64 /\ Forall typed_digest (dgs_data x).
Definition algos_digests (x : digests) : list algorithms := flat_map algos_digest (dgs_data x).
Definition typed_cert (x : certificate) : Prop :=
  ct_size x < U64.
Definition typed_certs (x : certificates) : Prop :=
  cts_size x < U64 /\ Forall typed_cert (cts_data x).
Definition typed_sig (x : signature) : Prop :=
  sg_size x < U64 /\ typed_algo (sg_algo x).
Definition algos_sig (x : signature) : list algorithms := [sg_algo x].
Definition typed_sigs (x : signatures) : Prop :=
  sgs_size x < U64 /\ Forall typed_sig (sgs_data x).
Definition algos_sigs (x : signatures) : list algorithms := flat_map algos_sig (sgs_data x).
Definition typed_attr (x : attribute) : Prop :=
  at_size x < U64 /\ at_id x < U32.
Definition typed_attrs (x : attributes) : Prop :=
  ats_size x < U64 /\ Forall typed_attr (ats_data x).
Definition typed_pub (x : pubkey) : Prop :=
  pk_size x < U64.
Definition typed_sd (x : signed_data) : Prop :=
  sd_size x < U64 /\ typed_digests (sd_digests x) /\ typed_certs (sd_certs x) /\ typed_attrs (sd_attrs x).
Definition algos_sd (x : signed_data) : list algorithms := algos_digests (sd_digests x).
Definition typed_signer (x : signer) : Prop :=
  sn_size x < U64 /\ typed_sd (sn_data x) /\ typed_sigs (sn_sigs x) /\ typed_pub (sn_key x).
Definition algos_signer (x : signer) : list algorithms := algos_sd (sn_data x) ++ algos_sigs (sn_sigs x).
Definition typed_signers (x : signers) : Prop :=
  sns_size x < U64 /\ Forall typed_signer (sns_data x).
Definition algos_signers (x : signers) : list algorithms := flat_map algos_signer (sns_data x).
Definition typed_v2 (x : scheme_v2) : Prop :=
  v2_size x < U64 /\ v2_id x < U32 /\ typed_signers (v2_signers x).
Definition algos_v2 (x : scheme_v2) : list algorithms := algos_signers (v2_signers x).
Definition typed_std (x : stamp_data) : Prop :=
  typed_digests (st_digests x) /\ typed_certs (st_certs x) /\ typed_attrs (st_attrs x).
Definition algos_std (x : stamp_data) : list algorithms := algos_digests (st_digests x).
Definition typed_sb (x : stamp_block) : Prop :=
  sb_size x < U64 /\ typed_std (sb_data x) /\ typed_sigs (sb_sigs x) /\ typed_pub (sb_key x).
Definition algos_sb (x : stamp_block) : list algorithms := algos_std (sb_data x) ++ algos_sigs (sb_sigs x).
Definition typed_stamp (x : source_stamp) : Prop :=
  ss_size x < U64 /\ ss_id x < U32 /\ typed_sb (ss_block x).
Definition algos_stamp (x : source_stamp) : list algorithms := algos_sb (ss_block x).
Definition typed_entry (x : section_entry) : Prop :=
  en_name_len x < U16 /\ en_offset x < U64 /\ en_size x < U64.
Definition typed_info (x : elf_info) : Prop :=
  ei_size x < U64 /\ ei_id x < U32 /\ ei_count x < U32 /\ Forall typed_entry (ei_sections x).
Definition typed_raw (x : raw_data) : Prop :=
  rw_size x < U64 /\ rw_id x < U32.
Definition typed_value (x : value) : Prop :=
  match x with BaseBlock r => typed_raw r | V2Block v => typed_v2 v | StampBlk s => typed_stamp s | ElfBlock i => typed_info i end.
Definition algos_value (x : value) : list algorithms :=
  match x with V2Block v => algos_v2 v | StampBlk s => algos_stamp s | _ => [] end.
Definition typed_block (x : signing_block) : Prop :=
  bk_start x < U64 /\ bk_end x < U64 /\ bk_size_start x < U64 /\ bk_content_size x < U64 /\ Forall typed_value (bk_content x) /\ bk_size_end x < U64 /\ len (bk_magic x) = 16.
Definition algos_block (x : signing_block) : list algorithms := flat_map algos_value (bk_content x).

(** Two trees that differ only in the order of the entries of maps, at any depth. *)
Inductive same : sval -> sval -> Prop :=
| same_num n : same (SNum n) (SNum n)
| same_bool b : same (SBool b) (SBool b)
| same_str s : same (SStr s) (SStr s)
| same_other : same SOther SOther
| same_seq l l' : Forall2 same l l' -> same (SSeq l) (SSeq l')
| same_map l m l' : Forall2 (fun e e' => fst e = fst e' /\ same (snd e) (snd e')) l m ->
    Permutation m l' -> same (SMap l) (SMap l').
