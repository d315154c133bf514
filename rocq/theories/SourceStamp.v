(** SourceStamp.v - model of the data structures of
    /repo/src/signing_block/source_stamp.rs (the signer of that file is in
    Signer.v). *)
From Verif Require Import Base Utils Algorithms Common.

(** src/signing_block/source_stamp.rs:19. *)
Definition SOURCE_STAMP_BLOCK_ID : N := 0x6dff800d.
(** src/signing_block/source_stamp.rs:25. *)
Definition STAMP_TIME_ATTR_ID : N := 0xe43c5946.

(** src/signing_block/source_stamp.rs:144-153 [struct SignedData] (no size field). *)
Record stamp_data := mkStD {
  st_digests : digests; st_certs : certificates; st_attrs : attributes }.

(** src/signing_block/source_stamp.rs:157-167 [SignedData::new]. *)
Definition std_new (d : digests) (c : certificates) (a : attributes) : stamp_data := mkStD d c a.

(** src/signing_block/source_stamp.rs:172-185 [SignedData::parse]. *)
Definition std_parse (r : reader) : res (stamp_data * reader) :=
  do '(size, r) <- read_size r;
  do '(sub, r) <- as_slice r size;
  do '(d, sub) <- digests_parse sub;
  do '(c, sub) <- certs_parse sub;
  do '(a, sub) <- attrs_parse sub;
  Ok (mkStD d c a, r).

(** src/signing_block/source_stamp.rs:188-196 [SignedData::to_u8]. *)
Definition std_to_u8 (s : stamp_data) : bytes :=
  let content :=
    digests_to_u8 (st_digests s) ++ certs_to_u8 (st_certs s) ++ attrs_to_u8 (st_attrs s) in
  le 4 (len content) ++ content.

(** src/signing_block/source_stamp.rs:199-204 [SignedData::size]. *)
Definition std_size (s : stamp_data) : N :=
  dgs_size (st_digests s) + cts_size (st_certs s) + ats_size (st_attrs s) + 4 * 3.

(** src/signing_block/source_stamp.rs:79-91 [struct StampBlock]. *)
Record stamp_block := mkSB {
  sb_size : N; sb_data : stamp_data; sb_sigs : signatures; sb_key : pubkey }.

(** src/signing_block/source_stamp.rs:95-108 [StampBlock::new]. *)
Definition sb_new (d : stamp_data) (s : signatures) (k : pubkey) : stamp_block :=
  mkSB (4 + std_size d + 4 + sgs_size s + 4 + pk_size k) d s k.

(** src/signing_block/source_stamp.rs:113-127 [StampBlock::parse]. *)
Definition sb_parse (r : reader) : res (stamp_block * reader) :=
  do '(size, r) <- read_size r;
  do '(sub, r) <- as_slice r size;
  do '(d, sub) <- std_parse sub;
  do '(s, sub) <- sigs_parse sub;
  do '(k, sub) <- pub_parse sub;
  Ok (mkSB size d s k, r).

(** src/signing_block/source_stamp.rs:130-138 [StampBlock::to_u8]. *)
Definition sb_to_u8 (b : stamp_block) : bytes :=
  le 4 (sb_size b) ++ std_to_u8 (sb_data b) ++ sigs_to_u8 (sb_sigs b) ++ pub_to_u8 (sb_key b).

(** src/signing_block/source_stamp.rs:30-39 [struct SourceStamp]. *)
Record source_stamp := mkStamp { ss_size : N; ss_id : N; ss_block : stamp_block }.

(** src/signing_block/source_stamp.rs:43-50 [SourceStamp::new]. *)
Definition ss_new (b : stamp_block) : source_stamp :=
  mkStamp (4 + 4 + sb_size b) SOURCE_STAMP_BLOCK_ID b.

(** src/signing_block/source_stamp.rs:55-62 [SourceStamp::parse]. *)
Definition ss_parse (size id : N) (r : reader) : res (source_stamp * reader) :=
  do '(b, r) <- sb_parse r;
  Ok (mkStamp size id b, r).

(** src/signing_block/source_stamp.rs:65-73 [SourceStamp::to_u8]. *)
Definition ss_to_u8 (s : source_stamp) : bytes :=
  le 8 (ss_size s) ++ le 4 (ss_id s) ++ sb_to_u8 (ss_block s).
