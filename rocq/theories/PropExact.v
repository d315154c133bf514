(** PropExact.v - where the properties refuted in the other Prop files begin
    and cease to hold *)
From Verif Require Import Base BaseFacts Utils Algorithms Common SchemeV2 SourceStamp Utf8 ElfInfo SigningBlock
  Built Spec Zip Digest Module Signable ZipSpec RegionSpec SearchFacts RawFacts Signer Verifier ModuleVerify
  VerifySpec Keystore Cli Toy ToyVerify ToyCli ExactFacts DebugFacts PropBlockFacts SizeFacts PropModule PropKeystore.
From Coq Require Import Strings.String.
Open Scope N_scope.

(** * C03 - length prefixes *)
(** A reader that follows the length prefix ([k] = 4 or 8 bytes, see
    [C03_declared_sizes]) comes out right after the value exactly if the size is
    below [256 ^ k]. *)
Theorem C03_prefix : forall k size u8, declares k size u8 ->
  (un_le (takeN (N.of_nat k) u8) + N.of_nat k = len u8 <-> size < 256 ^ N.of_nat k).
Proof. exact prefix_exact. Qed.
Print Assumptions C03_prefix.
(** Section lists, with names of any length. *)
Theorem C03_sections : forall l, declares 8 (ei_size (info_from_tuples l)) (info_to_u8 (info_from_tuples l)).
Proof. exact info_declares. Qed.
Print Assumptions C03_sections.
Example C03_prefix_example : declares 4 3 (cert_to_u8 (cert_new [x01; x02; x03])) /\
  len (info_to_u8 (info_from_tuples [([0x2e; 0x74; 0xe9], 4096, 17); ([], 0, U64 - 1)])) = 56.
Proof. split; [ exists [x01; x02; x03]; split; reflexivity | vm_compute; reflexivity ]. Qed.

(** * C04, C05 - the limits of the round trips *)
(** Any value a signing block can hold. *)
Theorem C04_exact : forall v, built_value v -> len (value_to_u8 v) < U64 ->
  (reads_back value_parse (value_to_u8 v) v <-> value_inner_size v <= 16 * 1024).
Proof. exact value_exact. Qed.
Print Assumptions C04_exact.
(** Larger ones are refused, not misread. *)
Theorem C04_too_big : forall v pre post, built_value v -> 16 * 1024 < value_inner_size v ->
  len (pre ++ value_to_u8 v ++ post) < U64 ->
  value_parse (mkReader (pre ++ value_to_u8 v ++ post) (len pre)) = Err EPairTooBig.
Proof. exact value_too_big. Qed.
Print Assumptions C04_too_big.
Theorem C04_signers_exact : forall s, built_signers s -> len (signers_to_u8 s) < U64 ->
  (reads_back signers_parse (signers_to_u8 s) s <-> sns_size s < U32).
Proof. exact signers_exact. Qed.
Print Assumptions C04_signers_exact.
Theorem C05_exact : forall b, built_sb b -> len (sb_to_u8 b) < U64 ->
  (reads_back sb_parse (sb_to_u8 b) b <-> sb_size b < U32).
Proof. exact stamp_exact. Qed.
Print Assumptions C05_exact.
Example C04_exact_example : Forall built_value ex_values /\
  Forall (fun v => len (value_to_u8 v) < U64 /\ value_inner_size v <= 16 * 1024) ex_values /\
  built_value (BaseBlock (raw_new 7 (zeros 20000))) /\ 16 * 1024 < value_inner_size (BaseBlock (raw_new 7 (zeros 20000))) /\
  built_signers ex_signers /\ len (signers_to_u8 ex_signers) < U64 /\ built_sb ex_sb /\ len (sb_to_u8 ex_sb) < U64.
Proof.
  split; [ exact ex_values_built | ].
  split; [ apply Forall_forall; intros v [<-|[<-|[<-|[<-|[]]]]]; (split; [ vm_compute; reflexivity | vm_compute; discriminate ]) | ].
  split; [ exists 7, (zeros 20000); split; [ reflexivity | split; [ reflexivity | split; [ discriminate | split; discriminate ] ] ] | ].
  split; [ vm_compute; reflexivity | ]. split; [ exact ex_signers_built | ]. split; [ vm_compute; reflexivity | ].
  split; [ exact ex_sb_built | vm_compute; reflexivity ].
Qed.

(** * C06 - a section-info block reads back exactly when every name is
    shorter than 65536 bytes *)
Theorem C06_exact : forall l : list (rstring * N * N),
  Forall (fun '(nm, o, s) => Forall (fun c => is_scalar c = true) nm /\ o < U64 /\ s < U64) l ->
  len l < U32 -> len (info_to_u8 (info_from_tuples l)) < U64 ->
  (reads_back (info_parse (ei_size (info_from_tuples l)) (ei_id (info_from_tuples l)))
     (dropN 12 (info_to_u8 (info_from_tuples l))) (info_from_tuples l) <->
   Forall (fun '(nm, _, _) => len (utf8_enc nm) < 65536) l).
Proof. exact c06_exact. Qed.
Print Assumptions C06_exact.
Example C06_exact_example :
  let l := [([0x2e; 0x74; 0xe9], 4096, 17); ([], 0, U64 - 1)] in
  Forall (fun '(nm, o, s) => Forall (fun c => is_scalar c = true) nm /\ o < U64 /\ s < U64) l /\
  len l < U32 /\ len (info_to_u8 (info_from_tuples l)) < U64 /\
  Forall (fun '(nm, _, _) => len (utf8_enc nm) < 65536) l.
Proof. repeat (split || constructor). Qed.

(** * C09 - the panic of a debug build *)
Theorem C09_debug_exact : forall l, Forall built_value l ->
  let n := len (flat_map value_to_u8 l) + 32 in
  (block_new_with_padding Debug l = Panic <->
   (forall v, In v l -> value_id v <> VERITY_PADDING_BLOCK_ID) /\ 0 < pad_bytes n < 12).
Proof. exact c09_debug_exact. Qed.
Print Assumptions C09_debug_exact.
Example C09_debug_exact_example : let l := [BaseBlock (raw_new 7 (zeros 4045))] in
  Forall built_value l /\ pad_bytes (len (flat_map value_to_u8 l) + 32) = 7 /\ block_new_with_padding Debug l = Panic.
Proof.
  cbv zeta. split; [ | split; vm_compute; reflexivity ].
  constructor; [ exists 7, (zeros 4045); split; [ reflexivity | split; [ reflexivity | split; [ discriminate | split; discriminate ] ] ] | constructor ].
Qed.

(** * C10 - the panics of a debug build.  Everything else is as in a release
    build. *)
(** Slices: the last magic (but not one at the very start) has fewer than 8
    bytes before it, or declares fewer than 16 bytes, or the two declared
    sizes differ. *)
Theorem C10_from_u8_exact : forall data, len data < U64 ->
  (from_u8 Debug data = Panic \/ from_u8 Debug data = from_u8 Release data) /\
  (from_u8 Debug data = Panic <->
   32 <= len data /\ exists x y, data = x ++ MAGIC ++ y /\ 0 < len x /\
   (forall x' y', data = x' ++ MAGIC ++ y' -> len x' <= len x) /\
   (len x < 8 \/
    let size := un_le (dropN (len x - 8) x) in
    size <= 16 * 1024 /\
    (size < 16 \/
     24 <= size /\ size <= len x + 8 /\ un_le (takeN 8 (dropN (len x + 8 - size) x)) <> size))).
Proof. exact c10_u8_both. Qed.
Print Assumptions C10_from_u8_exact.
(** Files: only the last of these. *)
Theorem C10_from_reader_exact : forall file eo,
  (from_reader Debug file (len file) eo = Panic \/
   from_reader Debug file (len file) eo = from_reader Release file (len file) eo) /\
  (from_reader Debug file (len file) eo = Panic <->
   from_reader Release file (len file) eo = Err (EParsingFullBlock ESizesDiffer)).
Proof. exact c10_reader_both. Qed.
Print Assumptions C10_from_reader_exact.
(** A block whose first size field was changed, alone and in a file. *)
Definition bad_block : bytes := le 8 40 ++ dropN 8 (block_to_u8 ex_block).
Example C10_exact_example : len bad_block < U64 /\ from_u8 Debug bad_block = Panic /\
  from_reader Debug (bad_block ++ bstr "end") (len (bad_block ++ bstr "end")) 3 = Panic /\
  from_reader Release (bad_block ++ bstr "end") (len (bad_block ++ bstr "end")) 3 = Err (EParsingFullBlock ESizesDiffer) /\
  from_u8 Debug (block_to_u8 ex_block) = Ok ex_block.
Proof. do 4 (split; [ vm_compute; reflexivity | ]). vm_compute. reflexivity. Qed.

(** * C12 - four bytes of input choose the size of the reservation freely *)
Theorem C12_any : forall n, n < U32 -> exists r, rdata r = le 4 n /\ rpos r = 0 /\ info_reserved r = Ok n.
Proof. exact c12_any. Qed.
Print Assumptions C12_any.
Example C12_any_example : U32 - 1 < U32 /\ len (le 4 (U32 - 1)) = 4.
Proof. split; reflexivity. Qed.

(** * C16 - the block found is the last one: it ends with the magic that is
    nearest to, and not beyond, the start of the directory *)
Theorem C16_last : forall p f b e, len f < U64 ->
  m_get_signing_block p (module_new f) f = Ok b -> find_eocd f (len f) = Ok e ->
  (exists x y, f = x ++ MAGIC ++ y /\ bk_end b = len (x ++ MAGIC)) /\ bk_end b <= eo_cd_offset e /\
  forall x y, f = x ++ MAGIC ++ y -> len (x ++ MAGIC) <= eo_cd_offset e -> len (x ++ MAGIC) <= bk_end b.
Proof. exact c16_last_spec. Qed.
Print Assumptions C16_last.

(** Of the blocks the library makes, the one found is the one that ends last
    before the directory. *)
Theorem C16_exact : forall p f pre b post e, built_block b -> f = pre ++ block_to_u8 b ++ post -> len f < U64 ->
  find_eocd f (len f) = Ok e ->
  (m_get_signing_block p (module_new f) f = Ok (offset_by b (len pre)) <->
   len (pre ++ block_to_u8 b) <= eo_cd_offset e /\
   N.min (eo_cd_offset e) (len f) + 24 <= len (pre ++ block_to_u8 b) + 16 * 1024 * 1024 /\
   forall x y, f = x ++ MAGIC ++ y -> len (x ++ MAGIC) <= eo_cd_offset e -> len (x ++ MAGIC) <= len (pre ++ block_to_u8 b)).
Proof. exact get_sb_at. Qed.
Print Assumptions C16_exact.
Example C16_exact_example : built_block ex_block /\
  (exists post, ex_signed = z_entries ex_zip ++ block_to_u8 ex_block ++ post) /\ len ex_signed < U64 /\
  (exists e, find_eocd ex_signed (len ex_signed) = Ok e) /\
  m_get_signing_block Release (module_new ex_signed) ex_signed = Ok (offset_by ex_block (len (z_entries ex_zip))).
Proof.
  split; [ apply ex_block_built | ]. split; [ eexists; reflexivity | ]. split; [ vm_compute; reflexivity | ].
  split; [ eexists; vm_compute; reflexivity | vm_compute; reflexivity ].
Qed.

(** * C17 - the block is adjacent to the directory exactly when the bytes just
    before the directory are the block magic *)
Theorem C17_exact : forall p f b e, len f < U64 ->
  m_get_signing_block p (module_new f) f = Ok b -> find_eocd f (len f) = Ok e ->
  (bk_end b = eo_cd_offset e <-> exists x y, f = x ++ MAGIC ++ y /\ len (x ++ MAGIC) = eo_cd_offset e).
Proof. exact c17_exact. Qed.
Print Assumptions C17_exact.
Example C17_exact_example : len ex_signed < U64 /\
  exists b e, m_get_signing_block Debug (module_new ex_signed) ex_signed = Ok b /\
              find_eocd ex_signed (len ex_signed) = Ok e /\ bk_end b = eo_cd_offset e.
Proof. split; [ vm_compute; reflexivity | ]. do 2 eexists. split; [ vm_compute; reflexivity | split; vm_compute; reflexivity ]. Qed.

(** * C20 - a written block is read back exactly if the end record found in the
    output points past the block, and no magic comes in between *)
Theorem C20_exact : forall p q z b out, built_block b -> zip_ok z [] -> unsigned z -> len out < U64 ->
  s_write_with_signature p (module_new (plain z)) (plain z) b = (out, Ok tt) ->
  exists e, find_eocd out (len out) = Ok e /\
  let t := len (z_entries z ++ block_to_u8 b) in
  (m_get_signing_block q (module_new out) out = Ok (offset_by b (len (z_entries z))) <->
   t <= eo_cd_offset e /\ N.min (eo_cd_offset e) (len out) + 24 <= t + 16 * 1024 * 1024 /\
   forall x y, out = x ++ MAGIC ++ y -> len (x ++ MAGIC) <= eo_cd_offset e -> len (x ++ MAGIC) <= t).
Proof. exact c20_exact. Qed.
Print Assumptions C20_exact.
Example C20_exact_example : built_block ex_block /\ zip_ok ex_zip [] /\ unsigned ex_zip /\
  exists out, s_write_with_signature Debug (module_new (plain ex_zip)) (plain ex_zip) ex_block = (out, Ok tt) /\
              len out < U64.
Proof.
  split; [ apply ex_block_built | ]. split; [ apply ex_zip_ok | ]. split; [ apply ex_unsigned | ].
  eexists. split; [ vm_compute; reflexivity | vm_compute; reflexivity ].
Qed.

(** * C26 - the offset written is right exactly below 4 GiB *)
Theorem C26_exact : forall p z b, zip_ok z [] -> unsigned z -> exists k, k < U32 /\
  s_write_with_signature p (module_new (plain z)) (plain z) b =
    (z_entries z ++ block_to_u8 b ++ z_cd z ++ end_record z k, Ok tt) /\
  (k = len (z_entries z ++ block_to_u8 b) <-> len (z_entries z ++ block_to_u8 b) < U32).
Proof. exact c26_exact. Qed.
Print Assumptions C26_exact.
Example C26_exact_example : zip_ok ex_zip [] /\ unsigned ex_zip.
Proof. split; [ apply ex_zip_ok | apply ex_unsigned ]. Qed.

(** * C28 - what [Module::write_with_signature] writes for a module opened
    with [Module::new] *)
(** For a file that already carries the block: the first bytes of the block
    in place of the directory, and an offset that counts the block twice. *)
Theorem C28_signed : forall p z b, built_block b -> zip_ok z (block_to_u8 b) -> zip_small z (block_to_u8 b) ->
  len (z_entries z) + 2 * len (block_to_u8 b) < U32 ->
  m_write_with_signature p (module_new (with_block z (block_to_u8 b))) (with_block z (block_to_u8 b)) =
  (z_entries z ++ block_to_u8 b ++ takeN (len (z_cd z)) (block_to_u8 b ++ z_cd z) ++
     end_record z (len (z_entries z) + 2 * len (block_to_u8 b)), Ok tt).
Proof. exact c28_signed. Qed.
Print Assumptions C28_signed.
Example C28_signed_example : built_block ex_block /\ zip_ok ex_zip (block_to_u8 ex_block) /\
  zip_small ex_zip (block_to_u8 ex_block) /\ len (z_entries ex_zip) + 2 * len (block_to_u8 ex_block) < U32.
Proof.
  split; [ apply ex_block_built | ]. split; [ zip_ok_tac | ]. split; vm_compute; reflexivity.
Qed.
(** For an unsigned archive that was just signed: a truncated directory if it
    is longer than the block, else a panic (debug) or a repeated tail
    (release). *)
Theorem C28_unsigned : forall p z b, built_block b -> zip_ok z [] -> zip_small z [] ->
  len (z_entries z) + len (block_to_u8 b) < U32 ->
  m_write_with_signature p (mkModule false (len (plain z)) (Some (offset_by b (len (z_entries z))))) (plain z) =
  if len (block_to_u8 b) <=? len (z_cd z) then
    (z_entries z ++ block_to_u8 b ++ takeN (len (z_cd z) - len (block_to_u8 b)) (z_cd z) ++
       end_record z (len (z_entries z) + len (block_to_u8 b)), Ok tt)
  else match p with
       | Debug => (z_entries z ++ block_to_u8 b, Panic)
       | Release =>
           (z_entries z ++ block_to_u8 b ++ z_cd z ++ end_record z (len (z_entries z)) ++
              end_record z (len (z_entries z) + len (block_to_u8 b)), Ok tt)
       end.
Proof. exact c28_unsigned. Qed.
Print Assumptions C28_unsigned.
Example C28_unsigned_example : built_block ex_block /\ zip_ok ex_zip [] /\ zip_small ex_zip [] /\
  len (z_entries ex_zip) + len (block_to_u8 ex_block) < U32.
Proof. split; [ apply ex_block_built | ]. split; [ apply ex_zip_ok | ]. split; [ apply ex_small | vm_compute; reflexivity ]. Qed.
(** So it never writes the signed archive, whatever it reports. *)
Theorem C28_never : forall p z b w r, built_block b -> zip_ok z [] -> zip_small z [] ->
  m_write_with_signature p (mkModule false (len (plain z)) (Some (offset_by b (len (z_entries z))))) (plain z) = (w, r) ->
  w <> with_block z (block_to_u8 b).
Proof. exact c28_never. Qed.
Print Assumptions C28_never.

(** * C30 - the digest depends on the pieces in which the reader returns the
    data, and on nothing else about the reader *)
Theorem C30_exact : forall p C s1 s2 f e a d1 d2 n, 0 < n -> (forall x, len (hash C a x) = n) -> len f < 2 ^ 63 ->
  find_eocd f (len f) = Ok e -> eo_cd_offset e <= eo_off e ->
  m_digest p C s1 (module_new f) f a = Ok d1 -> m_digest p C s2 (module_new f) f a = Ok d2 ->
  exists content mid cdr h off t, regions_of p f e content mid cdr h off t /\
  let pieces s := read_chunks (s 0%nat) content ++ read_chunks (s 1%nat) cdr ++
                  read_chunks full_reads (h ++ le 4 (len content) ++ t) in
  d1 = tree_digest (hash C a) (pieces s1) /\ d2 = tree_digest (hash C a) (pieces s2) /\
  (d1 = d2 -> clash (hash C a) (tree_messages (hash C a) (pieces s1)) (tree_messages (hash C a) (pieces s2)) \/
              pieces s1 = pieces s2).
Proof. exact c30_exact. Qed.
Print Assumptions C30_exact.
Example C30_exact_example : (forall x, len (hash toyC ECDSA_SHA2_256 x) = 32) /\ len ex_signed < 2 ^ 63 /\
  (exists e, find_eocd ex_signed (len ex_signed) = Ok e /\ eo_cd_offset e <= eo_off e) /\
  exists d1 d2, m_digest Debug toyC fr (module_new ex_signed) ex_signed ECDSA_SHA2_256 = Ok d1 /\
    m_digest Debug toyC (fun _ _ => 1) (module_new ex_signed) ex_signed ECDSA_SHA2_256 = Ok d2 /\ beq d1 d2 = false.
Proof.
  split; [ intros x; apply len_le | ]. split; [ vm_compute; reflexivity | ].
  split; [ eexists; split; [ vm_compute; reflexivity | vm_compute; discriminate ] | ].
  do 2 eexists. split; [ vm_compute; reflexivity | ]. split; vm_compute; reflexivity.
Qed.

(** * C32 - the directory offset of a signed module can be moved forward, up
    to 1 MiB and short of the next magic, and nothing notices *)
Theorem C32_free : forall p z b off, built_block b -> zip_ok z (block_to_u8 b) -> zip_small z (block_to_u8 b) -> off < U32 ->
  only_record (end_record z off) ->
  len (z_entries z) + len (block_to_u8 b) <= off <= len (z_entries z) + len (block_to_u8 b) + 1024 * 1024 ->
  (forall x y, with_offset z (block_to_u8 b) off = x ++ MAGIC ++ y ->
     len x + 16 <= len (z_entries z) + len (block_to_u8 b) \/ off < len x + 16) ->
  let f := with_offset z (block_to_u8 b) off in let g := with_block z (block_to_u8 b) in
  (exists e, find_eocd f (len f) = Ok e /\ eo_cd_offset e = off) /\
  m_get_signing_block p (module_new f) f = m_get_signing_block p (module_new g) g /\
  (forall C sched a, m_digest p C sched (module_new f) f a = m_digest p C sched (module_new g) g a) /\
  forall C K now ds roots, m_verify_with_roots p C K now ds (module_new f) f roots =
                           m_verify_with_roots p C K now ds (module_new g) g roots.
Proof. exact c32_free. Qed.
Print Assumptions C32_free.
Example C32_free_example : let off := len (z_entries ex_zip) + len (block_to_u8 ex_block) + 7 in
  built_block ex_block /\ zip_ok ex_zip (block_to_u8 ex_block) /\ zip_small ex_zip (block_to_u8 ex_block) /\ off < U32 /\
  only_record (end_record ex_zip off) /\
  len (z_entries ex_zip) + len (block_to_u8 ex_block) <= off <= len (z_entries ex_zip) + len (block_to_u8 ex_block) + 1024 * 1024 /\
  (forall x y, with_offset ex_zip (block_to_u8 ex_block) off = x ++ MAGIC ++ y ->
     len x + 16 <= len (z_entries ex_zip) + len (block_to_u8 ex_block) \/ off < len x + 16).
Proof.
  cbv zeta. split; [ apply ex_block_built | ]. split; [ zip_ok_tac | ]. split; [ vm_compute; reflexivity | ].
  split; [ vm_compute; reflexivity | ]. split; [ apply only_record_check; vm_compute; reflexivity | ].
  split; [ split; vm_compute; discriminate | ].
  apply (magic_free_check _ (len (z_entries ex_zip) + len (block_to_u8 ex_block)) 7). vm_compute. reflexivity.
Qed.

(** * C33 - the panics of a debug build *)
Theorem C33_debug_exact : forall C sched f a, len f < 2 ^ 63 ->
  let panics := exists e, find_eocd f (len f) = Ok e /\
    match m_get_signing_block Debug (module_new f) f with
    | Ok b => eo_off e < bk_end b
    | Err x => maybe_missing_signature x = true /\ eo_off e < eo_cd_offset e
    | Panic => True
    end in
  (m_digest Debug C sched (module_new f) f a = Panic <-> panics) /\
  (m_digest_regions Debug (module_new f) f = Panic <-> panics).
Proof. exact c33_debug_exact. Qed.
Print Assumptions C33_debug_exact.
(** A directory offset past the end record. *)
Example C33_debug_exact_example : let f := z_entries ex_zip ++ z_cd ex_zip ++ end_record ex_zip 1000 in
  len f < 2 ^ 63 /\ m_digest_regions Debug (module_new f) f = Panic /\
  (exists e, find_eocd f (len f) = Ok e /\ eo_off e < eo_cd_offset e).
Proof.
  cbv zeta. split; [ vm_compute; reflexivity | ]. split; [ vm_compute; reflexivity | ].
  eexists. split; vm_compute; reflexivity.
Qed.

(** * C62 - a dump over the input empties it *)
Theorem C62_alias : forall p s input output l file w r, fs_read s input = Some file ->
  fs_file s output = fs_file s input -> fs_can_create s output = true ->
  dump_regions p s input output l = (w, r) ->
  fs_read (run s w) input = Some [] /\ (r = Ok tt -> Forall (fun g => rg_size g = 0) l).
Proof. exact c62_alias. Qed.
Print Assumptions C62_alias.
Example C62_alias_example : let s := toy_fs (plain ex_zip) in
  fs_read s (bstr "in") = Some (plain ex_zip) /\ fs_file s (bstr "link") = fs_file s (bstr "in") /\
  fs_can_create s (bstr "link") = true.
Proof. cbv zeta. split; [ reflexivity | split; reflexivity ]. Qed.

(** * C67 - stamps *)
Theorem C67_stamp_never_verifies : forall C K now now' roots ctx ts cfg d st b rest pub,
  stamp_sign C now ts cfg d = Ok st -> stamps_of b = ss_block st :: rest ->
  public_key_der C (sc_key cfg) = Ok pub -> spki_of K (sc_cert cfg) <> Some pub ->
  verify_source_stamp_with_digest C K now' roots b ctx = VErr (VMultiSigner [SEBinding]).
Proof. exact c67_stamp. Qed.
Print Assumptions C67_stamp_never_verifies.
Example C67_stamp_example : exists cr st, load_pem_from_bytes toyL (bstr "8key1") (bstr "Ca") None = Ok cr /\
  stamp_sign toyC (Some 500) true (config_from_credentials cr) (digests_of_pairs ex_pairs) = Ok st /\
  (exists pub, public_key_der toyC (cr_key cr) = Ok pub /\ spki_of toyK (cr_cert cr) <> Some pub).
Proof.
  do 2 eexists. split; [ vm_compute; reflexivity | ]. split; [ vm_compute; reflexivity | ].
  eexists. split; [ vm_compute; reflexivity | vm_compute; discriminate ].
Qed.
