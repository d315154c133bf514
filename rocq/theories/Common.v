(** Common.v - model of /repo/src/common.rs

    Simplification: sums of sizes ([acc + d.size + 4]) are computed in [N]
    without the usize overflow check: the sizes of values that fit in memory
    cannot reach 2^64. *)
From Verif Require Import Base Utils Algorithms.

(** The recurring Rust expression
    [size.checked_sub(content.len()).map_or_else(Vec::new, |n| vec![0; n])]
    (src/common.rs:60-65, 114-119, 172-177, 237-242, 296-301, 356-361, 413-418,
    452-457, 493-498): truncated subtraction on [N] gives 0 zeros exactly when
    [checked_sub] returns [None] or [Some 0]. *)
Definition padding (size : N) (content : bytes) : bytes := zeros (size - len content).

(** [[(size as u32).to_le_bytes(), content, padding].concat()]. *)
Definition sized (size : N) (content : bytes) : bytes :=
  le 4 size ++ content ++ padding size content.

(** src/common.rs:13-22 [struct Digest]. *)
Record digest := mkDigest {
  dg_size : N; dg_algo : algorithms; dg_digest : bytes }.

(** src/common.rs:26-34 [Digest::new]. *)
Definition digest_new (a : algorithms) (d : bytes) : digest := mkDigest (4 + 4 + len d) a d.

(** src/common.rs:38-49 [Digest::parse]. *)
Definition digest_parse (r : reader) : res (digest * reader) :=
  do '(size, r) <- read_size r;
  do '(id, r) <- read_u32 r;
  do '(digest_size, r) <- read_size r;
  do '(d, r) <- get_to r digest_size;
  Ok (mkDigest size (algo_of_u32 id) d, r).

(** src/common.rs:51-67 [Digest::to_u8]. *)
Definition digest_to_u8 (d : digest) : bytes :=
  let content := le 4 (u32_of_algo (dg_algo d)) ++ le 4 (len (dg_digest d)) ++ dg_digest d in
  sized (dg_size d) content.

(** src/common.rs:73-79 [struct Digests]. *)
Record digests := mkDigests { dgs_size : N; dgs_data : list digest }.

(** src/common.rs:83-88 [Digests::new]. *)
Definition digests_new (l : list digest) : digests :=
  mkDigests (fold_left (fun acc d => acc + dg_size d + 4) l 0) l.

(** src/common.rs:93-105 [Digests::parse]: the list is read from a sub-reader of
    exactly the declared size. *)
Definition digests_parse (r : reader) : res (digests * reader) :=
  do '(size, r) <- read_size r;
  do '(sub, r) <- as_slice r size;
  do '(l, _) <- parse_while (loop_fuel sub) digest_parse (rpos sub + size) sub;
  Ok (mkDigests size l, r).

(** src/common.rs:108-121 [Digests::to_u8]. *)
Definition digests_to_u8 (d : digests) : bytes :=
  sized (dgs_size d) (flat_map digest_to_u8 (dgs_data d)).

(** src/common.rs:185-190 [struct Certificate]. *)
Record certificate := mkCert { ct_size : N; ct_data : bytes }.

(** src/common.rs:194-199 [Certificate::new]. *)
Definition cert_new (d : bytes) : certificate := mkCert (len d) d.

(** src/common.rs:228-232 [Certificate::parse]. *)
Definition cert_parse (r : reader) : res (certificate * reader) :=
  do '(size, r) <- read_size r;
  do '(d, r) <- get_to r size;
  Ok (mkCert size d, r).

(** src/common.rs:235-244 [Certificate::to_u8]. *)
Definition cert_to_u8 (c : certificate) : bytes := sized (ct_size c) (ct_data c).

(** src/common.rs:127-133 [struct Certificates]. *)
Record certificates := mkCerts { cts_size : N; cts_data : list certificate }.

(** src/common.rs:137-145 [Certificates::new]. *)
Definition certs_new (l : list certificate) : certificates :=
  mkCerts (fold_left (fun acc c => acc + ct_size c + 4) l 0) l.

(** src/common.rs:150-163 [Certificates::parse]: unlike [Digests] the list is read
    from the outer reader, so an element may run past the declared size. *)
Definition certs_parse (r : reader) : res (certificates * reader) :=
  do '(size, r) <- read_size r;
  do '(l, r) <- parse_while (loop_fuel r) cert_parse (rpos r + size) r;
  Ok (mkCerts size l, r).

(** src/common.rs:166-179 [Certificates::to_u8]. *)
Definition certs_to_u8 (c : certificates) : bytes :=
  sized (cts_size c) (flat_map cert_to_u8 (cts_data c)).

(** src/common.rs:309-316 [struct Signature]. *)
Record signature := mkSig { sg_size : N; sg_algo : algorithms; sg_data : bytes }.

(** src/common.rs:320-328 [Signature::new]. *)
Definition sig_new (a : algorithms) (s : bytes) : signature := mkSig (4 + 4 + len s) a s.

(** src/common.rs:333-344 [Signature::parse]. *)
Definition sig_parse (r : reader) : res (signature * reader) :=
  do '(size, r) <- read_size r;
  do '(id, r) <- read_u32 r;
  do '(sig_size, r) <- read_size r;
  do '(d, r) <- get_to r sig_size;
  Ok (mkSig size (algo_of_u32 id) d, r).

(** src/common.rs:347-363 [Signature::to_u8]. *)
Definition sig_to_u8 (s : signature) : bytes :=
  let content := le 4 (u32_of_algo (sg_algo s)) ++ le 4 (len (sg_data s)) ++ sg_data s in
  sized (sg_size s) content.

(** src/common.rs:250-256 [struct Signatures]. *)
Record signatures := mkSigs { sgs_size : N; sgs_data : list signature }.

(** src/common.rs:260-268 [Signatures::new]. *)
Definition sigs_new (l : list signature) : signatures :=
  mkSigs (fold_left (fun acc s => acc + sg_size s + 4) l 0) l.

(** src/common.rs:273-287 [Signatures::parse]: as [Certificates], from the outer
    reader (with the early return on size 0). *)
Definition sigs_parse (r : reader) : res (signatures * reader) :=
  do '(size, r) <- read_size r;
  if size =? 0 then Ok (mkSigs size [], r)
  else
    do '(l, r) <- parse_while (loop_fuel r) sig_parse (rpos r + size) r;
    Ok (mkSigs size l, r).

(** src/common.rs:290-303 [Signatures::to_u8]. *)
Definition sigs_to_u8 (s : signatures) : bytes :=
  sized (sgs_size s) (flat_map sig_to_u8 (sgs_data s)).

(** src/common.rs:426-433 [struct AdditionalAttribute]. *)
Record attribute := mkAttr { at_size : N; at_id : N; at_data : bytes }.

(** src/common.rs:439-448 [AdditionalAttribute::parse]. *)
Definition attr_parse (r : reader) : res (attribute * reader) :=
  do '(size, r) <- read_size r;
  do '(id, r) <- read_u32 r;
  if size <? 4 then Err EInvalidAttrSize
  else
    do '(d, r) <- get_to r (size - 4);
    Ok (mkAttr size id d, r).

(** src/common.rs:450-459 [AdditionalAttribute::to_u8]. *)
Definition attr_to_u8 (a : attribute) : bytes :=
  sized (at_size a) (le 4 (at_id a) ++ at_data a).

(** src/common.rs:369-374 [struct AdditionalAttributes]. *)
Record attributes := mkAttrs { ats_size : N; ats_data : list attribute }.

(** src/common.rs:378-386 [AdditionalAttributes::new]. *)
Definition attrs_new (l : list attribute) : attributes :=
  mkAttrs (fold_left (fun acc a => acc + at_size a + 4) l 0) l.

(** src/common.rs:391-404 [AdditionalAttributes::parse], from the outer reader. *)
Definition attrs_parse (r : reader) : res (attributes * reader) :=
  do '(size, r) <- read_size r;
  do '(l, r) <- parse_while (loop_fuel r) attr_parse (rpos r + size) r;
  Ok (mkAttrs size l, r).

(** src/common.rs:407-420 [AdditionalAttributes::to_u8]. *)
Definition attrs_to_u8 (a : attributes) : bytes :=
  sized (ats_size a) (flat_map attr_to_u8 (ats_data a)).

(** src/common.rs:465-470 [struct PubKey]. *)
Record pubkey := mkPub { pk_size : N; pk_data : bytes }.

(** src/common.rs:474-479 [PubKey::new]. *)
Definition pub_new (d : bytes) : pubkey := mkPub (len d) d.

(** src/common.rs:484-488 [PubKey::parse]. *)
Definition pub_parse (r : reader) : res (pubkey * reader) :=
  do '(size, r) <- read_size r;
  do '(d, r) <- get_to r size;
  Ok (mkPub size d, r).

(** src/common.rs:491-500 [PubKey::to_u8]. *)
Definition pub_to_u8 (p : pubkey) : bytes := sized (pk_size p) (pk_data p).
