(** SchemeV2.v - model of /repo/src/signing_block/scheme_v2.rs *)
From Verif Require Import Base Utils Algorithms Common.

(** src/signing_block/scheme_v2.rs:17. *)
Definition SIGNATURE_SCHEME_V2_BLOCK_ID : N := 0x7109871a.

(** src/signing_block/scheme_v2.rs:156-180 [struct SignedData].  [_private_auto_padding_fix] is
    [true] in every value made by [new] or [parse] and read by nothing; it is
    left out. *)
Record signed_data := mkSD {
  sd_size : N; sd_digests : digests; sd_certs : certificates; sd_attrs : attributes }.

(** src/signing_block/scheme_v2.rs:184-204 [SignedData::new] (the 4 extra bytes are the
    "auto padding fix"). *)
Definition sd_new (d : digests) (c : certificates) (a : attributes) : signed_data :=
  let size := 4 + dgs_size d + 4 + cts_size c + 4 + ats_size a in
  mkSD (size + 4) d c a.

(** src/signing_block/scheme_v2.rs:209-222 [SignedData::parse]; bytes of the slice after the
    attributes are ignored. *)
Definition sd_parse (r : reader) : res (signed_data * reader) :=
  do '(size, r) <- read_size r;
  do '(sub, r) <- as_slice r size;
  do '(d, sub) <- digests_parse sub;
  do '(c, sub) <- certs_parse sub;
  do '(a, sub) <- attrs_parse sub;
  Ok (mkSD size d c a, r).

(** src/signing_block/scheme_v2.rs:225-239 [SignedData::to_u8]. *)
Definition sd_to_u8 (s : signed_data) : bytes :=
  sized (sd_size s)
    (digests_to_u8 (sd_digests s) ++ certs_to_u8 (sd_certs s) ++ attrs_to_u8 (sd_attrs s)).

(** src/signing_block/scheme_v2.rs:90-102 [struct Signer]. *)
Record signer := mkSigner {
  sn_size : N; sn_data : signed_data; sn_sigs : signatures; sn_key : pubkey }.

(** src/signing_block/scheme_v2.rs:106-119 [Signer::new]. *)
Definition signer_new (d : signed_data) (s : signatures) (k : pubkey) : signer :=
  mkSigner (4 + sd_size d + 4 + sgs_size s + 4 + pk_size k) d s k.

(** src/signing_block/scheme_v2.rs:123-134 [Signer::parse]; the declared size is stored but not
    enforced. *)
Definition signer_parse (r : reader) : res (signer * reader) :=
  do '(size, r) <- read_size r;
  do '(d, r) <- sd_parse r;
  do '(s, r) <- sigs_parse r;
  do '(k, r) <- pub_parse r;
  Ok (mkSigner size d s k, r).

(** src/signing_block/scheme_v2.rs:136-150 [Signer::to_u8]. *)
Definition signer_to_u8 (s : signer) : bytes :=
  sized (sn_size s) (sd_to_u8 (sn_data s) ++ sigs_to_u8 (sn_sigs s) ++ pub_to_u8 (sn_key s)).

(** src/signing_block/scheme_v2.rs:37-43 [struct Signers]. *)
Record signers := mkSigners { sns_size : N; sns_data : list signer }.

(** src/signing_block/scheme_v2.rs:47-52 [Signers::new]. *)
Definition signers_new (l : list signer) : signers :=
  mkSigners (fold_left (fun acc s => acc + sn_size s + 4) l 0) l.

(** src/signing_block/scheme_v2.rs:57-69 [Signers::parse]. *)
Definition signers_parse (r : reader) : res (signers * reader) :=
  do '(size, r) <- read_size r;
  do '(sub, r) <- as_slice r size;
  do '(l, _) <- parse_while (loop_fuel sub) signer_parse (rlen sub) sub;
  Ok (mkSigners size l, r).

(** src/signing_block/scheme_v2.rs:71-84 [Signers::to_u8]. *)
Definition signers_to_u8 (s : signers) : bytes :=
  sized (sns_size s) (flat_map signer_to_u8 (sns_data s)).

(** src/signing_block/scheme_v2.rs:22-32 [struct SignatureSchemeV2]. *)
Record scheme_v2 := mkV2 { v2_size : N; v2_id : N; v2_signers : signers }.

(** src/signing_block/scheme_v2.rs:244-251 [SignatureSchemeV2::new]. *)
Definition v2_new (s : signers) : scheme_v2 :=
  mkV2 (4 + 4 + sns_size s) SIGNATURE_SCHEME_V2_BLOCK_ID s.

(** src/signing_block/scheme_v2.rs:256-262 [SignatureSchemeV2::parse]. *)
Definition v2_parse (size id : N) (r : reader) : res (scheme_v2 * reader) :=
  do '(s, r) <- signers_parse r;
  Ok (mkV2 size id s, r).

(** src/signing_block/scheme_v2.rs:265-274 [SignatureSchemeV2::to_u8] (u64 size prefix). *)
Definition v2_to_u8 (v : scheme_v2) : bytes :=
  let content := le 4 (v2_id v) ++ signers_to_u8 (v2_signers v) in
  le 8 (v2_size v) ++ content ++ padding (v2_size v) content.
