(** Built.v - values a user of the library can build with the public
    constructors ([Digest::new], [Digests::new], ..., [SigningBlock::new]).
    Specification only: each predicate says "is the result of the constructor
    on some well-typed arguments".  [AdditionalAttribute] has no constructor,
    only public fields (src/common.rs:426-433); the sensible literal, whose size
    field is 4 plus the data length, takes its place. *)
From Verif Require Import Base Algorithms Common SchemeV2 SourceStamp Utf8 ElfInfo SigningBlock Wire.

Definition built_digest (d : digest) : Prop := exists a bs, canonical a /\ d = digest_new a bs.
Definition built_digests (d : digests) : Prop :=
  exists l, Forall built_digest l /\ d = digests_new l.
Definition built_cert (c : certificate) : Prop := exists bs, c = cert_new bs.
Definition built_certs (c : certificates) : Prop := exists l, Forall built_cert l /\ c = certs_new l.
Definition built_sig (s : signature) : Prop := exists a bs, canonical a /\ s = sig_new a bs.
Definition built_sigs (s : signatures) : Prop := exists l, Forall built_sig l /\ s = sigs_new l.
Definition built_attr (a : attribute) : Prop :=
  exists id bs, id < U32 /\ a = mkAttr (4 + len bs) id bs.
Definition built_attrs (a : attributes) : Prop := exists l, Forall built_attr l /\ a = attrs_new l.
Definition built_pub (k : pubkey) : Prop := exists bs, k = pub_new bs.

Definition built_sd (s : signed_data) : Prop :=
  exists d c a, built_digests d /\ built_certs c /\ built_attrs a /\ s = sd_new d c a.
Definition built_signer (s : signer) : Prop :=
  exists d g k, built_sd d /\ built_sigs g /\ built_pub k /\ s = signer_new d g k.
Definition built_signers (s : signers) : Prop :=
  exists l, Forall built_signer l /\ s = signers_new l.

Definition built_std (s : stamp_data) : Prop :=
  exists d c a, built_digests d /\ built_certs c /\ built_attrs a /\ s = std_new d c a.
Definition built_sb (b : stamp_block) : Prop :=
  exists d g k, built_std d /\ built_sigs g /\ built_pub k /\ b = sb_new d g k.

(** Rust [String]s hold Unicode scalar values; names fit the u16 length field. *)
Definition short_name (nm : rstring) : Prop :=
  Forall (fun c => is_scalar c = true) nm /\ len (utf8_enc nm) < U16.
Definition built_entry (e : section_entry) : Prop :=
  exists nm o s, short_name nm /\ o < U64 /\ s < U64 /\ e = entry_new nm o s.
Definition built_info (i : elf_info) : Prop :=
  exists l, Forall built_entry l /\ len l < U32 /\ i = info_new l.

(** The values a signing block can hold; a raw value must not carry one of the
    ids the parser interprets. *)
Definition built_value (v : value) : Prop :=
  match v with
  | V2Block x => exists s, built_signers s /\ x = v2_new s
  | StampBlk x => exists b, built_sb b /\ x = ss_new b
  | ElfBlock x => built_info x
  | BaseBlock r => exists id bs, id < U32 /\ r = raw_new id bs /\
      id <> SIGNATURE_SCHEME_V2_BLOCK_ID /\ id <> SOURCE_STAMP_BLOCK_ID /\
      id <> ELF_SECTION_INFO_BLOCK_ID
  end.
