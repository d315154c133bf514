(** Wire.v - the wire format as a grammar.

    An independent description of which byte strings denote which values:
    [W_x v raw] reads "the bytes [raw] denote [v]".  It mentions no reader, no
    parser and no serialiser of the model; only the record types, the
    little-endian encoding [le] and list operations.

    The grammar is the one the code accepts, including what it tolerates:
    unchecked inner size fields, bytes after the last field of a sized
    structure ([junk]), and lists whose last element runs past the declared
    list size. *)
From Verif Require Import Base Algorithms Common SchemeV2 SourceStamp Utf8 ElfInfo SigningBlock.

(** An algorithm value that comes from its 32-bit identifier ([Unknown 0x0201]
    does not). *)
Definition canonical (a : algorithms) : Prop :=
  match a with
  | Unknown u => u <> SIGNATURE_ECDSA_256 /\ u <> SIGNATURE_ECDSA_512 /\ u < U32
  | _ => True
  end.

(** Concatenation of the denotations of a list. *)
Definition W_list {A} (R : A -> bytes -> Prop) (xs : list A) (raws : list bytes) : Prop :=
  Forall2 R xs raws.

(** The list ends where its total length reaches the declared size: every
    strict prefix is shorter than [size], the whole is not. *)
Definition reaches (size : N) (raws : list bytes) : Prop :=
  size <= len (concat raws) /\
  forall a b, raws = a ++ b -> b <> [] -> len (concat a) < size.

Definition W_digest (d : digest) (raw : bytes) : Prop :=
  raw = le 4 (dg_size d) ++ le 4 (u32_of_algo (dg_algo d)) ++ le 4 (len (dg_digest d)) ++ dg_digest d /\
  dg_size d < U32 /\ canonical (dg_algo d) /\ len (dg_digest d) < U32.

Definition W_digests (d : digests) (raw : bytes) : Prop :=
  exists raws, W_list W_digest (dgs_data d) raws /\
  raw = le 4 (dgs_size d) ++ concat raws /\ dgs_size d = len (concat raws) /\ dgs_size d < U32.

Definition W_cert (c : certificate) (raw : bytes) : Prop :=
  raw = le 4 (ct_size c) ++ ct_data c /\ ct_size c = len (ct_data c) /\ ct_size c < U32.

Definition W_certs (c : certificates) (raw : bytes) : Prop :=
  exists raws, W_list W_cert (cts_data c) raws /\
  raw = le 4 (cts_size c) ++ concat raws /\ reaches (cts_size c) raws /\ cts_size c < U32.

Definition W_sig (s : signature) (raw : bytes) : Prop :=
  raw = le 4 (sg_size s) ++ le 4 (u32_of_algo (sg_algo s)) ++ le 4 (len (sg_data s)) ++ sg_data s /\
  sg_size s < U32 /\ canonical (sg_algo s) /\ len (sg_data s) < U32.

Definition W_sigs (s : signatures) (raw : bytes) : Prop :=
  exists raws, W_list W_sig (sgs_data s) raws /\
  raw = le 4 (sgs_size s) ++ concat raws /\ reaches (sgs_size s) raws /\ sgs_size s < U32.

Definition W_attr (a : attribute) (raw : bytes) : Prop :=
  raw = le 4 (at_size a) ++ le 4 (at_id a) ++ at_data a /\
  at_size a = 4 + len (at_data a) /\ at_size a < U32 /\ at_id a < U32.

Definition W_attrs (a : attributes) (raw : bytes) : Prop :=
  exists raws, W_list W_attr (ats_data a) raws /\
  raw = le 4 (ats_size a) ++ concat raws /\ reaches (ats_size a) raws /\ ats_size a < U32.

Definition W_pub (k : pubkey) (raw : bytes) : Prop :=
  raw = le 4 (pk_size k) ++ pk_data k /\ pk_size k = len (pk_data k) /\ pk_size k < U32.

(** V2 signed data: digests, certificates, attributes, then ignored bytes up
    to the declared size. *)
Definition W_sd (s : signed_data) (raw : bytes) : Prop :=
  exists d c a junk,
  W_digests (sd_digests s) d /\ W_certs (sd_certs s) c /\ W_attrs (sd_attrs s) a /\
  raw = le 4 (sd_size s) ++ d ++ c ++ a ++ junk /\
  sd_size s = len (d ++ c ++ a ++ junk) /\ sd_size s < U32.

(** V2 signer: its own size field is stored but constrains nothing. *)
Definition W_signer (s : signer) (raw : bytes) : Prop :=
  exists d g k,
  W_sd (sn_data s) d /\ W_sigs (sn_sigs s) g /\ W_pub (sn_key s) k /\
  raw = le 4 (sn_size s) ++ d ++ g ++ k /\ sn_size s < U32.

Definition W_signers (s : signers) (raw : bytes) : Prop :=
  exists raws, W_list W_signer (sns_data s) raws /\
  raw = le 4 (sns_size s) ++ concat raws /\ sns_size s = len (concat raws) /\ sns_size s < U32.

(** Stamp signed data: the declared size is not stored. *)
Definition W_std (s : stamp_data) (raw : bytes) : Prop :=
  exists d c a junk,
  W_digests (st_digests s) d /\ W_certs (st_certs s) c /\ W_attrs (st_attrs s) a /\
  raw = le 4 (len (d ++ c ++ a ++ junk)) ++ d ++ c ++ a ++ junk /\
  len (d ++ c ++ a ++ junk) < U32.

Definition W_sb (b : stamp_block) (raw : bytes) : Prop :=
  exists d g k junk,
  W_std (sb_data b) d /\ W_sigs (sb_sigs b) g /\ W_pub (sb_key b) k /\
  raw = le 4 (sb_size b) ++ d ++ g ++ k ++ junk /\
  sb_size b = len (d ++ g ++ k ++ junk) /\ sb_size b < U32.

Definition W_entry (e : section_entry) (raw : bytes) : Prop :=
  raw = le 2 (en_name_len e) ++ utf8_enc (en_name e) ++ le 8 (en_offset e) ++ le 8 (en_size e) /\
  Forall (fun c => is_scalar c = true) (en_name e) /\
  en_name_len e = len (utf8_enc (en_name e)) /\ en_name_len e < U16 /\
  en_offset e < U64 /\ en_size e < U64.

(** The body (after the id) of an ELF section info pair. *)
Definition W_info (i : elf_info) (raw : bytes) : Prop :=
  exists raws, W_list W_entry (ei_sections i) raws /\
  raw = le 4 (ei_count i) ++ concat raws /\ ei_count i = len (ei_sections i) /\ ei_count i < U32.

(** A pair of the signing block: u64 size, u32 id, body. *)
Definition pair (id : N) (body : bytes) : bytes := le 8 (4 + len body) ++ le 4 id ++ body.

Definition W_value (v : value) (raw : bytes) : Prop :=
  exists body, raw = pair (value_id v) body /\
  value_inner_size v = 4 + len body /\ 4 + len body <= MAX_PAIR_SIZE /\
  match v with
  | V2Block s => v2_id s = SIGNATURE_SCHEME_V2_BLOCK_ID /\
      exists x junk, W_signers (v2_signers s) x /\ body = x ++ junk
  | StampBlk s => ss_id s = SOURCE_STAMP_BLOCK_ID /\
      exists x junk, W_sb (ss_block s) x /\ body = x ++ junk
  | ElfBlock i => ei_id i = ELF_SECTION_INFO_BLOCK_ID /\
      exists x junk, W_info i x /\ body = x ++ junk
  | BaseBlock r => rw_data r = body /\ rw_id r < U32 /\
      rw_id r <> SIGNATURE_SCHEME_V2_BLOCK_ID /\ rw_id r <> SOURCE_STAMP_BLOCK_ID /\
      rw_id r <> ELF_SECTION_INFO_BLOCK_ID
  end.

Definition W_values (l : list value) (raw : bytes) : Prop :=
  exists raws, W_list W_value l raws /\ raw = concat raws.

(** A signing block: size, pairs, size again, magic; both sizes count
    everything but the first size field. *)
Definition block_layout (pairs : bytes) : bytes :=
  le 8 (len pairs + 24) ++ pairs ++ le 8 (len pairs + 24) ++ MAGIC.

Definition W_block (l : list value) (raw : bytes) : Prop :=
  exists pairs, W_values l pairs /\ raw = block_layout pairs.
