(** Serde.v - the serde implementations of the signing block's types: the derived ones of
    /repo/src/common.rs and /repo/src/signing_block/*.rs and those written out in
    /repo/src/signing_block/algorithms.rs.

    Serialising gives a tree of the serde data model as a self-describing format
    (JSON) shows it: a struct is a map from field names to values, an enum value a
    map with the variant's name as its only key, [Vec] and arrays are sequences, and
    every unsigned integer is a number.  Deserialising reads such a tree; [None] is
    an error.  The text of the format is not modelled.

    As derived by serde 1.0: a struct is read from a map, in which the order of the
    entries does not matter, unknown names are ignored and a missing or repeated
    field is an error, or from a sequence of exactly its fields in order; an integer
    must fit its type; an array must have exactly its length. *)
From Verif Require Import Base Algorithms Common SchemeV2 SourceStamp Utf8 ElfInfo SigningBlock.
From Coq Require Import Strings.String.
Open Scope N_scope.

(** A tree; [SOther]: null, negative numbers, fractions. *)
Inductive sval :=
| SNum (n : N) | SBool (b : bool) | SStr (s : rstring)
| SSeq (l : list sval) | SMap (l : list (bytes * sval)) | SOther.

(** * Building blocks (serde's own implementations) *)

(** Unsigned integers below [max]. *)
Definition de_num (max : N) (v : sval) : option N :=
  match v with SNum n => if n <? max then Some n else None | _ => None end.
Definition de_bool (v : sval) : option bool := match v with SBool b => Some b | _ => None end.
(** [String]: the tree has only valid strings. *)
Definition de_str (v : sval) : option rstring := match v with SStr s => Some s | _ => None end.
Definition obind {A B} (m : option A) (f : A -> option B) : option B :=
  match m with Some a => f a | None => None end.
Fixpoint omap {A B} (f : A -> option B) (l : list A) : option (list B) :=
  match l with
  | [] => Some []
  | x :: l => obind (f x) (fun y => obind (omap f l) (fun r => Some (y :: r)))
  end.
(** [Vec<T>]. *)
Definition ser_list {A} (f : A -> sval) (l : list A) : sval := SSeq (map f l).
Definition de_list {A} (f : sval -> option A) (v : sval) : option (list A) :=
  match v with SSeq l => omap f l | _ => None end.
(** [u8], [Vec<u8>]. *)
Definition ser_byte (b : byte) : sval := SNum (Byte.to_N b).
Definition de_byte (v : sval) : option byte := obind (de_num 256 v) Byte.of_N.
Definition ser_bytes : bytes -> sval := ser_list ser_byte.
Definition de_bytes : sval -> option bytes := de_list de_byte.
(** [[u8; 16]]. *)
Definition de_magic (v : sval) : option bytes :=
  obind (de_bytes v) (fun b => if len b =? 16 then Some b else None).

(** The values of the fields [names] of a struct. *)
Fixpoint assoc (k : bytes) (l : list (bytes * sval)) : option sval :=
  match l with [] => None | (x, v) :: l => if beq x k then Some v else assoc k l end.
Definition repeated (k : bytes) (l : list (bytes * sval)) : bool :=
  1 <? len (filter (fun e => beq (fst e) k) l).
Definition fields (names : list bytes) (v : sval) : option (list sval) :=
  match v with
  | SMap l => if existsb (fun k => repeated k l) names then None else omap (fun k => assoc k l) names
  | SSeq l => if len l =? len names then Some l else None
  | _ => None
  end.

(** src/signing_block/algorithms.rs:23-31. *)
Definition ser_algo (a : algorithms) : sval := SNum (u32_of_algo a).
(** src/signing_block/algorithms.rs:33-42. *)
Definition de_algo (v : sval) : option algorithms := obind (de_num U32 v) (fun n => Some (algo_of_u32 n)).

(** * The structs *)
(** src/common.rs:12-22 [Digest]. *)
Definition digest_fields : list bytes :=
  [bstr "size"; bstr "signature_algorithm_id"; bstr "digest"].
Definition ser_digest (x : digest) : sval :=
  SMap [(bstr "size", SNum (dg_size x));
        (bstr "signature_algorithm_id", ser_algo (dg_algo x));
        (bstr "digest", ser_bytes (dg_digest x))].
Definition de_digest (v : sval) : option digest :=
  match fields digest_fields v with
  | Some [v1; v2; v3] =>
      obind (de_num U64 v1) (fun x1 =>
      obind (de_algo v2) (fun x2 =>
      obind (de_bytes v3) (fun x3 =>
      Some (mkDigest x1 x2 x3))))
  | _ => None
  end.

(** src/common.rs:72-79 [Digests]. *)
Definition digests_fields : list bytes :=
  [bstr "size"; bstr "digests_data"].
Definition ser_digests (x : digests) : sval :=
  SMap [(bstr "size", SNum (dgs_size x));
        (bstr "digests_data", ser_list ser_digest (dgs_data x))].
Definition de_digests (v : sval) : option digests :=
  match fields digests_fields v with
  | Some [v1; v2] =>
      obind (de_num U64 v1) (fun x1 =>
      obind (de_list de_digest v2) (fun x2 =>
      Some (mkDigests x1 x2)))
  | _ => None
  end.

(** src/common.rs:184-190 [Certificate]. *)
Definition cert_fields : list bytes :=
  [bstr "size"; bstr "certificate"].
Definition ser_cert (x : certificate) : sval :=
  SMap [(bstr "size", SNum (ct_size x));
        (bstr "certificate", ser_bytes (ct_data x))].
Definition de_cert (v : sval) : option certificate :=
  match fields cert_fields v with
  | Some [v1; v2] =>
      obind (de_num U64 v1) (fun x1 =>
      obind (de_bytes v2) (fun x2 =>
      Some (mkCert x1 x2)))
  | _ => None
  end.

(** src/common.rs:126-133 [Certificates]. *)
Definition certs_fields : list bytes :=
  [bstr "size"; bstr "certificates_data"].
Definition ser_certs (x : certificates) : sval :=
  SMap [(bstr "size", SNum (cts_size x));
        (bstr "certificates_data", ser_list ser_cert (cts_data x))].
Definition de_certs (v : sval) : option certificates :=
  match fields certs_fields v with
  | Some [v1; v2] =>
      obind (de_num U64 v1) (fun x1 =>
      obind (de_list de_cert v2) (fun x2 =>
      Some (mkCerts x1 x2)))
  | _ => None
  end.

(** src/common.rs:308-316 [Signature]. *)
Definition sig_fields : list bytes :=
  [bstr "size"; bstr "signature_algorithm_id"; bstr "signature"].
Definition ser_sig (x : signature) : sval :=
  SMap [(bstr "size", SNum (sg_size x));
        (bstr "signature_algorithm_id", ser_algo (sg_algo x));
        (bstr "signature", ser_bytes (sg_data x))].
Definition de_sig (v : sval) : option signature :=
  match fields sig_fields v with
  | Some [v1; v2; v3] =>
      obind (de_num U64 v1) (fun x1 =>
      obind (de_algo v2) (fun x2 =>
      obind (de_bytes v3) (fun x3 =>
      Some (mkSig x1 x2 x3))))
  | _ => None
  end.

(** src/common.rs:249-256 [Signatures]. *)
Definition sigs_fields : list bytes :=
  [bstr "size"; bstr "signatures_data"].
Definition ser_sigs (x : signatures) : sval :=
  SMap [(bstr "size", SNum (sgs_size x));
        (bstr "signatures_data", ser_list ser_sig (sgs_data x))].
Definition de_sigs (v : sval) : option signatures :=
  match fields sigs_fields v with
  | Some [v1; v2] =>
      obind (de_num U64 v1) (fun x1 =>
      obind (de_list de_sig v2) (fun x2 =>
      Some (mkSigs x1 x2)))
  | _ => None
  end.

(** src/common.rs:425-433 [AdditionalAttribute]. *)
Definition attr_fields : list bytes :=
  [bstr "size"; bstr "id"; bstr "data"].
Definition ser_attr (x : attribute) : sval :=
  SMap [(bstr "size", SNum (at_size x));
        (bstr "id", SNum (at_id x));
        (bstr "data", ser_bytes (at_data x))].
Definition de_attr (v : sval) : option attribute :=
  match fields attr_fields v with
  | Some [v1; v2; v3] =>
      obind (de_num U64 v1) (fun x1 =>
      obind (de_num U32 v2) (fun x2 =>
      obind (de_bytes v3) (fun x3 =>
      Some (mkAttr x1 x2 x3))))
  | _ => None
  end.

(** src/common.rs:368-374 [AdditionalAttributes]. *)
Definition attrs_fields : list bytes :=
  [bstr "size"; bstr "additional_attributes_data"].
Definition ser_attrs (x : attributes) : sval :=
  SMap [(bstr "size", SNum (ats_size x));
        (bstr "additional_attributes_data", ser_list ser_attr (ats_data x))].
Definition de_attrs (v : sval) : option attributes :=
  match fields attrs_fields v with
  | Some [v1; v2] =>
      obind (de_num U64 v1) (fun x1 =>
      obind (de_list de_attr v2) (fun x2 =>
      Some (mkAttrs x1 x2)))
  | _ => None
  end.

(** src/common.rs:464-470 [PubKey]. *)
Definition pub_fields : list bytes :=
  [bstr "size"; bstr "data"].
Definition ser_pub (x : pubkey) : sval :=
  SMap [(bstr "size", SNum (pk_size x));
        (bstr "data", ser_bytes (pk_data x))].
Definition de_pub (v : sval) : option pubkey :=
  match fields pub_fields v with
  | Some [v1; v2] =>
      obind (de_num U64 v1) (fun x1 =>
      obind (de_bytes v2) (fun x2 =>
      Some (mkPub x1 x2)))
  | _ => None
  end.

(** src/signing_block/scheme_v2.rs:155-180 [SignedData].  The flag
    is not in the model's record: it is [true] in every value that is made by [new] or
    [parse], and nothing reads it. *)
Definition sd_fields : list bytes :=
  [bstr "size"; bstr "digests"; bstr "certificates"; bstr "additional_attributes"; bstr "_private_auto_padding_fix"].
Definition ser_sd (x : signed_data) : sval :=
  SMap [(bstr "size", SNum (sd_size x));
        (bstr "digests", ser_digests (sd_digests x));
        (bstr "certificates", ser_certs (sd_certs x));
        (bstr "additional_attributes", ser_attrs (sd_attrs x));
        (bstr "_private_auto_padding_fix", SBool true)].
Definition de_sd (v : sval) : option signed_data :=
  match fields sd_fields v with
  | Some [v1; v2; v3; v4; v5] =>
      obind (de_num U64 v1) (fun x1 =>
      obind (de_digests v2) (fun x2 =>
      obind (de_certs v3) (fun x3 =>
      obind (de_attrs v4) (fun x4 =>
      obind (de_bool v5) (fun _ =>
      Some (mkSD x1 x2 x3 x4))))))
  | _ => None
  end.

(** src/signing_block/scheme_v2.rs:89-102 [Signer]. *)
Definition signer_fields : list bytes :=
  [bstr "size"; bstr "signed_data"; bstr "signatures"; bstr "pub_key"].
Definition ser_signer (x : signer) : sval :=
  SMap [(bstr "size", SNum (sn_size x));
        (bstr "signed_data", ser_sd (sn_data x));
        (bstr "signatures", ser_sigs (sn_sigs x));
        (bstr "pub_key", ser_pub (sn_key x))].
Definition de_signer (v : sval) : option signer :=
  match fields signer_fields v with
  | Some [v1; v2; v3; v4] =>
      obind (de_num U64 v1) (fun x1 =>
      obind (de_sd v2) (fun x2 =>
      obind (de_sigs v3) (fun x3 =>
      obind (de_pub v4) (fun x4 =>
      Some (mkSigner x1 x2 x3 x4)))))
  | _ => None
  end.

(** src/signing_block/scheme_v2.rs:36-43 [Signers]. *)
Definition signers_fields : list bytes :=
  [bstr "size"; bstr "signers_data"].
Definition ser_signers (x : signers) : sval :=
  SMap [(bstr "size", SNum (sns_size x));
        (bstr "signers_data", ser_list ser_signer (sns_data x))].
Definition de_signers (v : sval) : option signers :=
  match fields signers_fields v with
  | Some [v1; v2] =>
      obind (de_num U64 v1) (fun x1 =>
      obind (de_list de_signer v2) (fun x2 =>
      Some (mkSigners x1 x2)))
  | _ => None
  end.

(** src/signing_block/scheme_v2.rs:21-32 [SignatureSchemeV2]. *)
Definition v2_fields : list bytes :=
  [bstr "size"; bstr "id"; bstr "signers"].
Definition ser_v2 (x : scheme_v2) : sval :=
  SMap [(bstr "size", SNum (v2_size x));
        (bstr "id", SNum (v2_id x));
        (bstr "signers", ser_signers (v2_signers x))].
Definition de_v2 (v : sval) : option scheme_v2 :=
  match fields v2_fields v with
  | Some [v1; v2; v3] =>
      obind (de_num U64 v1) (fun x1 =>
      obind (de_num U32 v2) (fun x2 =>
      obind (de_signers v3) (fun x3 =>
      Some (mkV2 x1 x2 x3))))
  | _ => None
  end.

(** src/signing_block/source_stamp.rs:143-153 [SignedData]. *)
Definition std_fields : list bytes :=
  [bstr "digests"; bstr "certificates"; bstr "additional_attributes"].
Definition ser_std (x : stamp_data) : sval :=
  SMap [(bstr "digests", ser_digests (st_digests x));
        (bstr "certificates", ser_certs (st_certs x));
        (bstr "additional_attributes", ser_attrs (st_attrs x))].
Definition de_std (v : sval) : option stamp_data :=
  match fields std_fields v with
  | Some [v1; v2; v3] =>
      obind (de_digests v1) (fun x1 =>
      obind (de_certs v2) (fun x2 =>
      obind (de_attrs v3) (fun x3 =>
      Some (mkStD x1 x2 x3))))
  | _ => None
  end.

(** src/signing_block/source_stamp.rs:78-91 [StampBlock]. *)
Definition sb_fields : list bytes :=
  [bstr "size"; bstr "signed_data"; bstr "signatures"; bstr "public_key"].
Definition ser_sb (x : stamp_block) : sval :=
  SMap [(bstr "size", SNum (sb_size x));
        (bstr "signed_data", ser_std (sb_data x));
        (bstr "signatures", ser_sigs (sb_sigs x));
        (bstr "public_key", ser_pub (sb_key x))].
Definition de_sb (v : sval) : option stamp_block :=
  match fields sb_fields v with
  | Some [v1; v2; v3; v4] =>
      obind (de_num U64 v1) (fun x1 =>
      obind (de_std v2) (fun x2 =>
      obind (de_sigs v3) (fun x3 =>
      obind (de_pub v4) (fun x4 =>
      Some (mkSB x1 x2 x3 x4)))))
  | _ => None
  end.

(** src/signing_block/source_stamp.rs:29-39 [SourceStamp]. *)
Definition stamp_fields : list bytes :=
  [bstr "size"; bstr "id"; bstr "stamp_block"].
Definition ser_stamp (x : source_stamp) : sval :=
  SMap [(bstr "size", SNum (ss_size x));
        (bstr "id", SNum (ss_id x));
        (bstr "stamp_block", ser_sb (ss_block x))].
Definition de_stamp (v : sval) : option source_stamp :=
  match fields stamp_fields v with
  | Some [v1; v2; v3] =>
      obind (de_num U64 v1) (fun x1 =>
      obind (de_num U32 v2) (fun x2 =>
      obind (de_sb v3) (fun x3 =>
      Some (mkStamp x1 x2 x3))))
  | _ => None
  end.

(** src/signing_block/elf_section_info.rs:19-29 [SectionEntry]. *)
Definition entry_fields : list bytes :=
  [bstr "name_len"; bstr "name"; bstr "file_offset"; bstr "size"].
Definition ser_entry (x : section_entry) : sval :=
  SMap [(bstr "name_len", SNum (en_name_len x));
        (bstr "name", SStr (en_name x));
        (bstr "file_offset", SNum (en_offset x));
        (bstr "size", SNum (en_size x))].
Definition de_entry (v : sval) : option section_entry :=
  match fields entry_fields v with
  | Some [v1; v2; v3; v4] =>
      obind (de_num U16 v1) (fun x1 =>
      obind (de_str v2) (fun x2 =>
      obind (de_num U64 v3) (fun x3 =>
      obind (de_num U64 v4) (fun x4 =>
      Some (mkEntry x1 x2 x3 x4)))))
  | _ => None
  end.

(** src/signing_block/elf_section_info.rs:83-93 [ElfSectionInfo]. *)
Definition info_fields : list bytes :=
  [bstr "size"; bstr "id"; bstr "section_count"; bstr "sections"].
Definition ser_info (x : elf_info) : sval :=
  SMap [(bstr "size", SNum (ei_size x));
        (bstr "id", SNum (ei_id x));
        (bstr "section_count", SNum (ei_count x));
        (bstr "sections", ser_list ser_entry (ei_sections x))].
Definition de_info (v : sval) : option elf_info :=
  match fields info_fields v with
  | Some [v1; v2; v3; v4] =>
      obind (de_num U64 v1) (fun x1 =>
      obind (de_num U32 v2) (fun x2 =>
      obind (de_num U32 v3) (fun x3 =>
      obind (de_list de_entry v4) (fun x4 =>
      Some (mkInfo x1 x2 x3 x4)))))
  | _ => None
  end.

(** src/signing_block/mod.rs:47-58 [RawData]. *)
Definition raw_fields : list bytes :=
  [bstr "size"; bstr "id"; bstr "data"].
Definition ser_raw (x : raw_data) : sval :=
  SMap [(bstr "size", SNum (rw_size x));
        (bstr "id", SNum (rw_id x));
        (bstr "data", ser_bytes (rw_data x))].
Definition de_raw (v : sval) : option raw_data :=
  match fields raw_fields v with
  | Some [v1; v2; v3] =>
      obind (de_num U64 v1) (fun x1 =>
      obind (de_num U32 v2) (fun x2 =>
      obind (de_bytes v3) (fun x3 =>
      Some (mkRaw x1 x2 x3))))
  | _ => None
  end.

(** src/signing_block/mod.rs:80-94 [ValueSigningBlock]. *)
Definition ser_value (x : value) : sval :=
  match x with
  | BaseBlock r => SMap [(bstr "BaseSigningBlock", ser_raw r)]
  | V2Block v => SMap [(bstr "SignatureSchemeV2Block", ser_v2 v)]
  | StampBlk s => SMap [(bstr "SourceStampBlock", ser_stamp s)]
  | ElfBlock i => SMap [(bstr "ElfSectionInfoBlock", ser_info i)]
  end.
Definition de_value (v : sval) : option value :=
  match v with
  | SMap [(k, v)] =>
      if beq k (bstr "BaseSigningBlock") then obind (de_raw v) (fun r => Some (BaseBlock r))
      else if beq k (bstr "SignatureSchemeV2Block") then obind (de_v2 v) (fun x => Some (V2Block x))
      else if beq k (bstr "SourceStampBlock") then obind (de_stamp v) (fun s => Some (StampBlk s))
      else if beq k (bstr "ElfSectionInfoBlock") then obind (de_info v) (fun i => Some (ElfBlock i))
      else None
  | _ => None
  end.
(** src/signing_block/mod.rs:198-220 [SigningBlock]. *)
Definition block_fields : list bytes :=
  [bstr "file_offset_start"; bstr "file_offset_end"; bstr "size_of_block_start"; bstr "content_size"; bstr "content"; bstr "size_of_block_end"; bstr "magic"].
Definition ser_block (x : signing_block) : sval :=
  SMap [(bstr "file_offset_start", SNum (bk_start x));
        (bstr "file_offset_end", SNum (bk_end x));
        (bstr "size_of_block_start", SNum (bk_size_start x));
        (bstr "content_size", SNum (bk_content_size x));
        (bstr "content", ser_list ser_value (bk_content x));
        (bstr "size_of_block_end", SNum (bk_size_end x));
        (bstr "magic", ser_bytes (bk_magic x))].
Definition de_block (v : sval) : option signing_block :=
  match fields block_fields v with
  | Some [v1; v2; v3; v4; v5; v6; v7] =>
      obind (de_num U64 v1) (fun x1 =>
      obind (de_num U64 v2) (fun x2 =>
      obind (de_num U64 v3) (fun x3 =>
      obind (de_num U64 v4) (fun x4 =>
      obind (de_list de_value v5) (fun x5 =>
      obind (de_num U64 v6) (fun x6 =>
      obind (de_magic v7) (fun x7 =>
      Some (mkBlock x1 x2 x3 x4 x5 x6 x7))))))))
  | _ => None
  end.

