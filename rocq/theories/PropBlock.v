(** PropBlock.v - properties C01-C14: byte reader, codecs, signing block.

    The functions named here are the public operations of the model
    ([*_new], [*_parse], [*_to_u8], [block_new], [block_new_with_padding],
    [from_u8], [from_reader]); the vocabulary is in Spec.v ([declares],
    [reads_back], [pad_bytes], [accounted]) and Built.v ([built_*]: made with
    the public constructors).  [p] is the build profile. *)
From Verif Require Import Base Utils Algorithms Common SchemeV2 SourceStamp Utf8 ElfInfo SigningBlock.
From Verif Require Import ParseFacts Built Spec PropBlockFacts LimitFacts.

(** * C01 - bounded reads never escape the buffer *)
Theorem C01_slice : forall pre d post, len (pre ++ d ++ post) < U64 ->
  get_to (mkReader (pre ++ d ++ post) (len pre)) (len d) =
    Ok (d, mkReader (pre ++ d ++ post) (len pre + len d)).
Proof. exact c01_slice. Qed.
Print Assumptions C01_slice.

Theorem C01_slice_out_of_bounds : forall pre post n, len (pre ++ post) < U64 -> len post < n ->
  exists e, get_to (mkReader (pre ++ post) (len pre)) n = Err e.
Proof. exact c01_slice_err. Qed.
Print Assumptions C01_slice_out_of_bounds.

Theorem C01_sub_reader : forall pre d post, len (pre ++ d ++ post) < U64 ->
  as_slice (mkReader (pre ++ d ++ post) (len pre)) (len d) =
    Ok (mkReader d 0, mkReader (pre ++ d ++ post) (len pre + len d)).
Proof. exact c01_sub. Qed.
Print Assumptions C01_sub_reader.

Theorem C01_sub_reader_out_of_bounds : forall pre post n, len (pre ++ post) < U64 -> len post < n ->
  exists e, as_slice (mkReader (pre ++ post) (len pre)) n = Err e.
Proof. exact c01_sub_err. Qed.
Print Assumptions C01_sub_reader_out_of_bounds.

Theorem C01_u16 : forall pre b0 b1 post,
  read_u16 (mkReader (pre ++ [b0; b1] ++ post) (len pre)) =
    Ok (to_N b0 + 256 * to_N b1, mkReader (pre ++ [b0; b1] ++ post) (len pre + 2)).
Proof. exact c01_u16. Qed.
Print Assumptions C01_u16.

Theorem C01_u32 : forall pre b0 b1 b2 b3 post,
  read_u32 (mkReader (pre ++ [b0; b1; b2; b3] ++ post) (len pre)) =
    Ok (to_N b0 + 256 * to_N b1 + 65536 * to_N b2 + 16777216 * to_N b3,
        mkReader (pre ++ [b0; b1; b2; b3] ++ post) (len pre + 4)).
Proof. exact c01_u32. Qed.
Print Assumptions C01_u32.

Theorem C01_u64 : forall pre b0 b1 b2 b3 b4 b5 b6 b7 post,
  read_u64 (mkReader (pre ++ [b0; b1; b2; b3; b4; b5; b6; b7] ++ post) (len pre)) =
    Ok (to_N b0 + 2^8 * to_N b1 + 2^16 * to_N b2 + 2^24 * to_N b3 +
        2^32 * to_N b4 + 2^40 * to_N b5 + 2^48 * to_N b6 + 2^56 * to_N b7,
        mkReader (pre ++ [b0; b1; b2; b3; b4; b5; b6; b7] ++ post) (len pre + 8)).
Proof. exact c01_u64. Qed.
Print Assumptions C01_u64.

(** With [k] = 2, 4, 8: too few bytes left is an error. *)
Theorem C01_int_out_of_bounds : forall k pre post, (length post < k)%nat ->
  read_le k (mkReader (pre ++ post) (len pre)) = Err EOutOfBounds.
Proof. exact read_le_short. Qed.
Print Assumptions C01_int_out_of_bounds.

Example C01_example :
  read_u32 (mkReader [x09; x01; x02; x03; x04; x0a] 1) = Ok (0x04030201, mkReader [x09; x01; x02; x03; x04; x0a] 5)
  /\ len ([x09] ++ [x01; x02; x03; x04] ++ [x0a]) < U64.
Proof. split; reflexivity. Qed.

(** * C02 - algorithm identifiers *)
Theorem C02_roundtrip : forall u, u32_of_algo (algo_of_u32 u) = u.
Proof. exact c02_roundtrip. Qed.
Print Assumptions C02_roundtrip.
Theorem C02_injective : forall u v, algo_of_u32 u = algo_of_u32 v -> u = v.
Proof. exact c02_inj. Qed.
Print Assumptions C02_injective.
Theorem C02_known : forall u, (forall w, algo_of_u32 u <> Unknown w) <-> u = 0x0201 \/ u = 0x0202.
Proof. exact c02_known. Qed.
Print Assumptions C02_known.
Theorem C02_comparison : forall u v, u32_eq_algo u (algo_of_u32 v) = true <-> algo_of_u32 u = algo_of_u32 v.
Proof. exact c02_eq. Qed.
Print Assumptions C02_comparison.
Theorem C02_derived_equality : forall a b, algo_eqb a b = true <-> a = b.
Proof. exact c02_derived. Qed.
Print Assumptions C02_derived_equality.
Example C02_example : algo_of_u32 0x0201 = ECDSA_SHA2_256 /\ algo_of_u32 0x0103 = Unknown 0x0103.
Proof. split; reflexivity. Qed.

(** * C03 - declared sizes are real sizes *)
Theorem C03_declared_sizes :
  (forall x, built_digest x -> declares 4 (dg_size x) (digest_to_u8 x)) /\
  (forall x, built_digests x -> declares 4 (dgs_size x) (digests_to_u8 x)) /\
  (forall x, built_cert x -> declares 4 (ct_size x) (cert_to_u8 x)) /\
  (forall x, built_certs x -> declares 4 (cts_size x) (certs_to_u8 x)) /\
  (forall x, built_sig x -> declares 4 (sg_size x) (sig_to_u8 x)) /\
  (forall x, built_sigs x -> declares 4 (sgs_size x) (sigs_to_u8 x)) /\
  (forall x, built_attr x -> declares 4 (at_size x) (attr_to_u8 x)) /\
  (forall x, built_attrs x -> declares 4 (ats_size x) (attrs_to_u8 x)) /\
  (forall x, built_pub x -> declares 4 (pk_size x) (pub_to_u8 x)) /\
  (forall x, built_sd x -> declares 4 (sd_size x) (sd_to_u8 x)) /\
  (forall x, built_signer x -> declares 4 (sn_size x) (signer_to_u8 x)) /\
  (forall x, built_signers x -> declares 4 (sns_size x) (signers_to_u8 x)) /\
  (forall x, built_std x -> declares 4 (std_size x) (std_to_u8 x)) /\
  (forall x, built_sb x -> declares 4 (sb_size x) (sb_to_u8 x)) /\
  (forall x, built_value x -> declares 8 (value_inner_size x) (value_to_u8 x)).
Proof. exact c03_sizes. Qed.
Print Assumptions C03_declared_sizes.
Example C03_example : Forall built_value ex_values /\ map (fun v => len (value_to_u8 v)) ex_values = [726; 363; 60; 28].
Proof. split; [ exact ex_values_built | vm_compute; reflexivity ]. Qed.

(** * C04 - V2 block round trip *)
Theorem C04_v2_roundtrip : forall s, built_signers s -> v2_size (v2_new s) <= MAX_PAIR_SIZE ->
  reads_back value_parse (v2_to_u8 (v2_new s)) (V2Block (v2_new s)).
Proof. exact c04_block. Qed.
Print Assumptions C04_v2_roundtrip.
(** The signer list itself has no 16 KiB limit. *)
Theorem C04_signers_roundtrip : forall s, built_signers s -> sns_size s < U32 ->
  reads_back signers_parse (signers_to_u8 s) s.
Proof. exact c04_signers. Qed.
Print Assumptions C04_signers_roundtrip.
Example C04_example : built_signers ex_signers /\ v2_size (v2_new ex_signers) <= MAX_PAIR_SIZE /\
  len (sns_data ex_signers) = 2.
Proof. split; [ exact ex_signers_built | split; [ vm_compute; discriminate | reflexivity ] ]. Qed.

(** * C05 - source stamp round trip *)
Theorem C05_stamp_roundtrip : forall b, built_sb b -> ss_size (ss_new b) <= MAX_PAIR_SIZE ->
  reads_back value_parse (ss_to_u8 (ss_new b)) (StampBlk (ss_new b)).
Proof. exact c05_block. Qed.
Print Assumptions C05_stamp_roundtrip.
Theorem C05_stamp_block_roundtrip : forall b, built_sb b -> sb_size b < U32 ->
  reads_back sb_parse (sb_to_u8 b) b.
Proof. exact c05_stamp. Qed.
Print Assumptions C05_stamp_block_roundtrip.
Example C05_example : built_sb ex_sb /\ ss_size (ss_new ex_sb) <= MAX_PAIR_SIZE.
Proof. split; [ exact ex_sb_built | vm_compute; discriminate ]. Qed.

(** * C06 - ELF section info round trip.  Holds for names shorter than 65536
    bytes ([built_info]); refuted beyond. *)
Theorem C06_info_roundtrip : forall i, built_info i ->
  reads_back (info_parse (ei_size i) (ei_id i)) (dropN 12 (info_to_u8 i)) i.
Proof. exact c06_info. Qed.
Print Assumptions C06_info_roundtrip.
Theorem C06_info_value_roundtrip : forall i, built_info i -> ei_size i <= MAX_PAIR_SIZE ->
  reads_back value_parse (info_to_u8 i) (ElfBlock i).
Proof. exact c06_block. Qed.
Print Assumptions C06_info_value_roundtrip.
Example C06_example : built_info ex_info /\ ei_count ex_info = 2.
Proof. split; [ exact ex_info_built | reflexivity ]. Qed.
(** A 65536-byte name: the u16 length wraps to 0 and another value is read. *)
Theorem C06_refuted : exists nm : rstring,
  Forall (fun c => is_scalar c = true) nm /\ len nm = 65536 /\
  let i := info_from_tuples [(nm, 0, 0)] in
  exists i' r', info_parse (ei_size i) (ei_id i) (new_reader (dropN 12 (info_to_u8 i))) = Ok (i', r') /\
    map en_name (ei_sections i') = [[]].
Proof.
  exists (repeat 97 (N.to_nat 65536)). split; [ | split ].
  - apply Forall_forall. intros c H. apply repeat_spec in H. subst. reflexivity.
  - vm_compute; reflexivity.
  - exact c06_long_name.
Qed.
Print Assumptions C06_refuted.

(** * C07 - signing block round trip (after any prefix, in any profile) *)
Theorem C07_roundtrip : forall p l b pre, Forall built_value l -> block_new l = Ok b ->
  len (pre ++ block_to_u8 b) < U64 -> from_u8 p (pre ++ block_to_u8 b) = Ok b.
Proof. exact c07_new. Qed.
Print Assumptions C07_roundtrip.
Theorem C07_roundtrip_padded : forall p q l b pre, Forall built_value l ->
  block_new_with_padding q l = Ok b ->
  len (pre ++ block_to_u8 b) < U64 -> from_u8 p (pre ++ block_to_u8 b) = Ok b.
Proof. exact c07_padded. Qed.
Print Assumptions C07_roundtrip_padded.
Example C07_example : Forall built_value ex_values /\
  (exists b, block_new ex_values = Ok b) /\ (exists b, block_new_with_padding Debug ex_values = Ok b).
Proof. split; [ exact ex_values_built | split; eexists; vm_compute; reflexivity ]. Qed.

(** * C08 - the size limit is symmetric *)
Theorem C08_limit : forall l, Forall built_value l ->
  ((exists b, block_new l = Ok b) <-> len (flat_map value_to_u8 l) + 24 <= 16 * 1024).
Proof. exact c08_limit. Qed.
Print Assumptions C08_limit.
Theorem C08_same_limit_as_parser : forall p l, Forall built_value l ->
  len (flat_map value_to_u8 l) + 32 < U64 ->
  ((exists b, block_new l = Ok b) <->
   (exists b, from_u8 p (le 8 (len (flat_map value_to_u8 l) + 24) ++ flat_map value_to_u8 l ++
                         le 8 (len (flat_map value_to_u8 l) + 24) ++ MAGIC) = Ok b)).
Proof. exact c08_parser_limit. Qed.
Print Assumptions C08_same_limit_as_parser.
Theorem C08_fields : forall l b, Forall built_value l -> block_new l = Ok b ->
  bk_content b = l /\ bk_start b = 0 /\ bk_end b = len (block_to_u8 b) /\
  bk_size_start b = len (block_to_u8 b) - 8 /\ bk_size_end b = bk_size_start b /\
  bk_content_size b = len (flat_map value_to_u8 l) /\
  block_to_u8 b = le 8 (bk_size_start b) ++ flat_map value_to_u8 l ++ le 8 (bk_size_end b) ++ MAGIC /\
  get_full_size b = len (block_to_u8 b).
Proof. exact c08_fields. Qed.
Print Assumptions C08_fields.
(** The boundary: 16348 data bytes fit, one more does not. *)
Example C08_example :
  let v k := BaseBlock (raw_new 1 (zeros k)) in
  Forall built_value [v 16348] /\ (exists b, block_new [v 16348] = Ok b) /\
  Forall built_value [v 16349] /\ block_new [v 16349] = Err EGeneratedTooLarge.
Proof.
  cbn zeta. split; [ | split; [ | split ] ].
  - constructor; [ | constructor ]. exists 1, (zeros 16348). repeat split; discriminate.
  - eexists; vm_compute; reflexivity.
  - constructor; [ | constructor ]. exists 1, (zeros 16349). repeat split; discriminate.
  - vm_compute; reflexivity.
Qed.

(** * C09 - 4 KiB padding *)
Theorem C09_shape : forall p l b, Forall built_value l -> block_new_with_padding p l = Ok b ->
  len (block_to_u8 b) mod 4096 = 0 /\ len (block_to_u8 b) <= 16 * 1024 /\
  get_full_size b = len (block_to_u8 b) /\
  (bk_content b = l \/
   exists k, bk_content b = l ++ [BaseBlock (raw_new VERITY_PADDING_BLOCK_ID (zeros k))]) /\
  (exists b', block_new (bk_content b) = Ok b' /\ b = b').
Proof. exact c09_shape. Qed.
Print Assumptions C09_shape.
Theorem C09_error_iff : forall l, Forall built_value l ->
  let n := len (flat_map value_to_u8 l) + 32 in
  ((exists e, block_new_with_padding Release l = Err e) <->
   (exists v, In v l /\ value_id v = VERITY_PADDING_BLOCK_ID) \/
   0 < pad_bytes n < 12 \/ 16 * 1024 < n + pad_bytes n).
Proof. exact c09_error_iff. Qed.
Print Assumptions C09_error_iff.
Theorem C09_debug_agrees : forall l b,
  block_new_with_padding Debug l = Ok b <-> block_new_with_padding Release l = Ok b.
Proof. exact c09_profiles. Qed.
Print Assumptions C09_debug_agrees.
(** In a Debug build the "gap too small" error message itself overflows: the
    promised error is a panic. *)
Theorem C09_debug_refuted : exists l, Forall built_value l /\
  block_new_with_padding Release l = Err EPaddingGap /\ block_new_with_padding Debug l = Panic.
Proof.
  exists [BaseBlock (raw_new 1 (zeros (4090 - 44)))]. split; [ | split; vm_compute; reflexivity ].
  constructor; [ | constructor ]. exists 1, (zeros (4090 - 44)). repeat split; discriminate.
Qed.
Print Assumptions C09_debug_refuted.
Example C09_example : Forall built_value ex_values /\
  (exists b, block_new_with_padding Release ex_values = Ok b /\ len (bk_content b) = 5 /\
             len (block_to_u8 b) = 4096).
Proof. split; [ exact ex_values_built | eexists; split; [ vm_compute; reflexivity | split; vm_compute; reflexivity ] ]. Qed.

(** * C10 - parsing hostile bytes never crashes.  Release: never; in Debug
    refuted, but whenever Debug does not panic it gives the same block. *)
Theorem C10_from_u8_release : forall data, len data < U64 ->
  from_u8 Release data <> Panic /\ (forall e, from_u8 Release data = Err e -> is_fuel e = false).
Proof. exact c10_u8. Qed.
Print Assumptions C10_from_u8_release.
Theorem C10_from_reader_release : forall file eo, len file < U64 ->
  from_reader Release file (len file) eo <> Panic /\
  (forall e, from_reader Release file (len file) eo = Err e -> is_fuel e = false).
Proof. exact c10_reader. Qed.
Print Assumptions C10_from_reader_release.
Theorem C10_from_u8_debug : forall data b, len data < U64 ->
  from_u8 Debug data = Ok b <-> from_u8 Release data = Ok b.
Proof. exact c10_debug_u8. Qed.
Print Assumptions C10_from_u8_debug.
Theorem C10_from_reader_debug : forall file eo b,
  from_reader Debug file (len file) eo = Ok b <-> from_reader Release file (len file) eo = Ok b.
Proof. exact c10_debug_reader. Qed.
Print Assumptions C10_from_reader_debug.
(** A magic whose block declares two different sizes; a magic fewer than 8
    bytes from the start; a declared size below 16. *)
Theorem C10_debug_refuted :
  (exists file, len file = 32 /\ from_reader Debug file (len file) 0 = Panic) /\
  (exists data, len data = 32 /\ from_u8 Debug data = Panic) /\
  (exists data, len data = 40 /\ un_le (takeN 8 (dropN 16 data)) = 15 /\ from_u8 Debug data = Panic).
Proof.
  split; [ | split ].
  - exists (le 8 99 ++ le 8 24 ++ MAGIC). split; vm_compute; reflexivity.
  - exists (zeros 3 ++ MAGIC ++ zeros 13). split; vm_compute; reflexivity.
  - exists (zeros 16 ++ le 8 15 ++ MAGIC). split; [ | split ]; vm_compute; reflexivity.
Qed.
Print Assumptions C10_debug_refuted.
Example C10_example : exists b, block_new ex_values = Ok b /\
  match from_reader Release (zeros 10 ++ block_to_u8 b ++ zeros 22) (len (zeros 10 ++ block_to_u8 b ++ zeros 22)) 22
  with Ok b' => beq (block_to_u8 b') (block_to_u8 b) && (bk_start b' =? 10) | _ => false end = true.
Proof. eexists. split; [ vm_compute; reflexivity | vm_compute; reflexivity ]. Qed.

(** * C11 - accepted blocks are fully accounted for *)
Theorem C11_from_u8 : forall p data b, len data < U64 -> from_u8 p data = Ok b -> accounted b.
Proof. exact from_u8_accounted. Qed.
Print Assumptions C11_from_u8.
Theorem C11_from_reader : forall p file eo b, len file < U64 ->
  from_reader p file (len file) eo = Ok b -> accounted b /\ bk_end b <= len file - eo.
Proof. exact from_reader_accounted. Qed.
Print Assumptions C11_from_reader.
Example C11_example : exists data b, from_u8 Debug data = Ok b /\ len (bk_content b) = 4.
Proof.
  destruct (block_new ex_values) as [b| |] eqn:E; [ | discriminate E | discriminate E ].
  exists (block_to_u8 b), b. split.
  - apply (c07_new Debug ex_values b []); [ exact ex_values_built | exact E | ].
    injection E as <-. vm_compute. reflexivity.
  - injection E as <-. reflexivity.
Qed.

(** * C12 - memory reserved while parsing.  [info_reserved] is the number of
    elements reserved up front by the ELF section info parser (the only
    reservation in the parsers that depends on the input). *)
Theorem C12_refuted : exists r, len (rdata r) = 4 /\ info_reserved r = Ok (U32 - 1) /\
  exists e, info_parse 12 ELF_SECTION_INFO_BLOCK_ID r = Err e.
Proof.
  exists (new_reader [xff; xff; xff; xff]). split; [ reflexivity | split; [ reflexivity | ] ].
  exists EOutOfBounds. vm_compute. reflexivity.
Qed.
Print Assumptions C12_refuted.
(** When parsing succeeds the reservation was right (18 bytes per entry). *)
Theorem C12_success : forall size id r i r', rwf r -> info_parse size id r = Ok (i, r') ->
  18 * ei_count i <= rlen r - rpos r.
Proof. exact info_reserved_le. Qed.
Print Assumptions C12_success.
Example C12_example : let r := new_reader (dropN 12 (info_to_u8 ex_info)) in
  rwf r /\ exists i r', info_parse 51 ELF_SECTION_INFO_BLOCK_ID r = Ok (i, r') /\ ei_count i = 2.
Proof. split; [ split; vm_compute; [ discriminate | reflexivity ] | do 2 eexists; split; vm_compute; reflexivity ]. Qed.

(** * C13 - the signed bytes pin down what was signed.  The verifier checks
    signatures over [dropN 4 (to_u8 signed_data)]. *)
Theorem C13_v2 : forall r1 s1 r1' r2 s2 r2', rwf r1 -> rwf r2 ->
  sd_parse r1 = Ok (s1, r1') -> sd_parse r2 = Ok (s2, r2') ->
  dropN 4 (sd_to_u8 s1) = dropN 4 (sd_to_u8 s2) ->
  sd_digests s1 = sd_digests s2 /\ sd_certs s1 = sd_certs s2 /\ sd_attrs s1 = sd_attrs s2.
Proof. exact c13_v2. Qed.
Print Assumptions C13_v2.
Theorem C13_stamp : forall r1 s1 r1' r2 s2 r2', rwf r1 -> rwf r2 ->
  std_parse r1 = Ok (s1, r1') -> std_parse r2 = Ok (s2, r2') ->
  dropN 4 (std_to_u8 s1) = dropN 4 (std_to_u8 s2) -> s1 = s2.
Proof. exact c13_stamp. Qed.
Print Assumptions C13_stamp.
(** Two different byte strings (the ignored tail differs) with the same signed
    bytes: the hypotheses are met non-trivially. *)
Example C13_example :
  let body t := digests_to_u8 ex_digests ++ certs_to_u8 ex_certs ++ attrs_to_u8 ex_attrs ++ t in
  let raw t := le 4 (len (body t)) ++ body t in
  raw [x01; x02] <> raw [x03; x04] /\
  exists s1 r1 s2 r2, sd_parse (new_reader (raw [x01; x02])) = Ok (s1, r1) /\
    sd_parse (new_reader (raw [x03; x04])) = Ok (s2, r2) /\
    dropN 4 (sd_to_u8 s1) = dropN 4 (sd_to_u8 s2) /\ sd_digests s1 = ex_digests.
Proof.
  split; [ vm_compute; discriminate | ].
  do 4 eexists. split; [ | split; [ | split ] ]; vm_compute; reflexivity.
Qed.

(** * C14 - parse then serialise.  Refuted in general; holds for blocks the
    library produces and for blocks of uninterpreted values. *)
Theorem C14_refuted : exists data b, len data = 49 /\ from_u8 Debug data = Ok b /\
  accounted b /\ len (block_to_u8 b) = len data /\ block_to_u8 b <> data.
Proof.
  set (d := le 8 41 ++ (le 8 9 ++ le 4 SIGNATURE_SCHEME_V2_BLOCK_ID ++ le 4 0 ++ [x05]) ++ le 8 41 ++ MAGIC).
  destruct (from_u8 Debug d) as [b| |] eqn:E; [ | vm_compute in E; discriminate E .. ].
  exists d, b. split; [ vm_compute; reflexivity | ]. split; [ exact E | ].
  split; [ apply (from_u8_accounted Debug d b); [ vm_compute; reflexivity | exact E ] | ].
  vm_compute in E. injection E as <-. split; [ vm_compute; reflexivity | vm_compute; discriminate ].
Qed.
Print Assumptions C14_refuted.
Theorem C14_library_blocks : forall p l b b', Forall built_value l -> block_new l = Ok b ->
  from_u8 p (block_to_u8 b) = Ok b' -> block_to_u8 b' = block_to_u8 b.
Proof. exact c14_library. Qed.
Print Assumptions C14_library_blocks.
Theorem C14_raw_values : forall p data b, len data < U64 -> from_u8 p data = Ok b ->
  Forall (fun v => match v with BaseBlock _ => True | _ => False end) (bk_content b) ->
  exists pre post, data = pre ++ block_to_u8 b ++ post.
Proof. exact c14_raw. Qed.
Print Assumptions C14_raw_values.
Example C14_example : exists b, block_new [BaseBlock ex_raw; BaseBlock (raw_new 3 [])] = Ok b /\
  from_u8 Debug (x01 :: block_to_u8 b) = Ok b.
Proof. eexists. split; [ vm_compute; reflexivity | vm_compute; reflexivity ]. Qed.
