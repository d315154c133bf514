(** PropModule.v - properties C15-C33: ZIP modules.

    Vocabulary: ZipSpec.v ([record_at], [last_record], [zip], [with_block],
    [plain], [zip_ok], [unsigned], [zip_small], [fills], [is_digest],
    [clash]), RegionSpec.v ([regions_of]) and Spec.v ([built_block]).  [module_new f] is
    [Module::new] on a file with content [f], [module_new_raw f] is
    [Module::new_raw]; [m_*] are [Module]'s own methods, [s_*] the methods of
    its [Signable] implementation.  A [written] is what was written before the
    operation returned, and what it returned.  [p], [q], [r] are build
    profiles, [C] the cryptographic library, [sched] a read schedule. *)
From Verif Require Import Base BaseFacts Utils Algorithms Common SchemeV2 SourceStamp Utf8 ElfInfo
  SigningBlock Built Spec PropBlockFacts Zip Digest Module Signable ZipSpec RegionSpec ZipFacts DigestFacts ModuleFacts
  ModuleProps RawFacts Toy.
From Coq Require Import Strings.String.
Open Scope N_scope.

Lemma ex_raw_built id d : id < U32 -> id <> SIGNATURE_SCHEME_V2_BLOCK_ID -> id <> SOURCE_STAMP_BLOCK_ID ->
  id <> ELF_SECTION_INFO_BLOCK_ID -> built_value (BaseBlock (raw_new id d)).
Proof. intros. exists id, d. auto. Qed.
Lemma ex_block_built : built_block ex_block.
Proof.
  exists [BaseBlock (raw_new 0x1234 [x01; x02; x03])]. split; [ | left; vm_compute; reflexivity ].
  constructor; [ | auto ]. apply ex_raw_built; [ reflexivity | discriminate .. ].
Qed.
Lemma ex_block2_built : built_block ex_block2.
Proof.
  exists [BaseBlock (raw_new 0x1234 []); BaseBlock (raw_new 0x99 [xff])]. split; [ | left; vm_compute; reflexivity ].
  constructor; [ | constructor; [ | auto ] ]; (apply ex_raw_built; [ reflexivity | discriminate .. ]).
Qed.
Definition fr : nat -> nat -> N := fun _ => full_reads.
Lemma fr_fills : fills fr. Proof. intros i k. vm_compute. discriminate. Qed.

(** * C15 - end-of-central-directory lookup *)
Theorem C15_iff : forall file e, find_eocd file (len file) = Ok e <->
  last_record file (eo_off e) /\
  (eo_sig e = EOCD_SIG /\ eo_disk e < U16 /\ eo_disk_cd e < U16 /\ eo_num e < U16 /\ eo_total e < U16 /\
   eo_cd_size e < U32 /\ eo_cd_offset e < U32 /\ eo_comment_len e < U16 /\
   len (eo_comment e) = eo_comment_len e) /\
  exists pre post, file = pre ++ eocd_to_u8 e ++ post /\ len pre = eo_off e.
Proof. exact find_eocd_iff. Qed.
Print Assumptions C15_iff.

Theorem C15_succeeds_iff : forall file,
  (exists e, find_eocd file (len file) = Ok e) <-> exists o, record_at file o /\ len file <= o + 65557.
Proof. exact find_eocd_exists. Qed.
Print Assumptions C15_succeeds_iff.

Theorem C15_no_panic : forall file, find_eocd file (len file) <> Panic.
Proof. exact find_eocd_no_panic. Qed.
Print Assumptions C15_no_panic.

(** A second record inside the comment of the first: the second is returned. *)
Example C15_example : let file := zeros 5 ++ end_record (mkZip [] [] (zeros 12) (end_record ex_zip 3)) 0 in
  exists e, find_eocd file (len file) = Ok e /\ eo_off e = 27 /\ eo_cd_offset e = 3.
Proof. eexists. split; [ vm_compute; reflexivity | split; reflexivity ]. Qed.

(** * C16 - the located block is a slice of the file *)
Theorem C16_slice : forall p f b, len f < U64 -> m_get_signing_block p (module_new f) f = Ok b ->
  exists e raw, find_eocd f (len f) = Ok e /\ get_range f (bk_start b) (bk_end b) = Some raw /\
    bk_end b <= eo_cd_offset e /\ get_full_size b = bk_end b - bk_start b /\
    (forall q, exists b0, from_u8 q raw = Ok b0 /\ offset_by b0 (bk_start b) = b).
Proof. exact c16. Qed.
Print Assumptions C16_slice.

Example C16_example : len ex_signed < U64 /\
  m_get_signing_block Debug (module_new ex_signed) ex_signed = Ok (offset_by ex_block 36).
Proof. split; [ reflexivity | vm_compute; reflexivity ]. Qed.

(** * C17 - is the block adjacent to the central directory?  No: *)
Theorem C17_refuted : exists f b e, m_get_signing_block Debug (module_new f) f = Ok b /\
  find_eocd f (len f) = Ok e /\ bk_end b < eo_cd_offset e.
Proof.
  exists (plain (mkZip (block_to_u8 ex_block ++ bstr "attacker bytes") (z_cd ex_zip) (z_head ex_zip) [])).
  do 2 eexists. split; [ vm_compute; reflexivity | ]. split; [ vm_compute; reflexivity | reflexivity ].
Qed.
Print Assumptions C17_refuted.

(** The gap can hold anything without a magic, after any signed archive. *)
Theorem C17_gap_refuted : forall p z b gap, built_block b ->
  zip_ok z (block_to_u8 b ++ gap) -> zip_small z (block_to_u8 b ++ gap) ->
  (forall x y, block_to_u8 b ++ gap = x ++ MAGIC ++ y -> len (x ++ MAGIC) <= len (block_to_u8 b)) ->
  len gap <= 1024 * 1024 ->
  m_get_signing_block p (module_new (with_block z (block_to_u8 b ++ gap))) (with_block z (block_to_u8 b ++ gap))
  = Ok (offset_by b (len (z_entries z))).
Proof. exact gap_block. Qed.
Print Assumptions C17_gap_refuted.

(** It is for files written by this library (any archive [z] and block). *)
Theorem C17_written : forall p z b, built_block b -> zip_ok z (block_to_u8 b) -> zip_small z (block_to_u8 b) ->
  exists b', m_get_signing_block p (module_new (with_block z (block_to_u8 b))) (with_block z (block_to_u8 b)) = Ok b' /\
  exists e, find_eocd (with_block z (block_to_u8 b)) (len (with_block z (block_to_u8 b))) = Ok e /\
  bk_end b' = eo_cd_offset e.
Proof. exact c17_written. Qed.
Print Assumptions C17_written.
Example C17_example : built_block ex_block /\ zip_ok ex_zip (block_to_u8 ex_block) /\
  zip_small ex_zip (block_to_u8 ex_block) /\
  zip_ok ex_zip (block_to_u8 ex_block ++ bstr "gap") /\ zip_small ex_zip (block_to_u8 ex_block ++ bstr "gap").
Proof.
  split; [ apply ex_block_built | ]. split; [ zip_ok_tac | ]. split; [ vm_compute; reflexivity | ].
  split; [ zip_ok_tac | vm_compute; reflexivity ].
Qed.

(** * C18 - unsigned modules are recognised: exactly when ... *)
Theorem C18_iff : forall p z, zip_ok z [] -> zip_small z [] ->
  (s_get_signing_block p (module_new (plain z)) (plain z) = Ok None <->
   24 <= len (z_entries z) /\ no_block_magic (z_entries z)).
Proof. exact c18_iff. Qed.
Print Assumptions C18_iff.
Example C18_example : zip_ok ex_zip [] /\ zip_small ex_zip [] /\ unsigned ex_zip.
Proof. split; [ apply ex_zip_ok | split; [ apply ex_small | apply ex_unsigned ] ]. Qed.

(** An empty archive, an archive with the 16 magic bytes in a file, and an
    archive that stores a signed archive are not recognised. *)
Definition empty_zip : zip := mkZip [] [] (zeros 12) [].
Definition magic_zip : zip := mkZip (ex_entries ++ MAGIC ++ bstr "text") (z_cd ex_zip) (z_head ex_zip) [].
Definition nested_zip : zip := mkZip (ex_entries ++ ex_signed) (z_cd ex_zip) (z_head ex_zip) [].
Theorem C18_refuted : forall p,
  (zip_ok empty_zip [] /\
   s_get_signing_block p (module_new (plain empty_zip)) (plain empty_zip) = Err EFileTooSmall) /\
  (zip_ok magic_zip [] /\ exists x,
   s_get_signing_block p (module_new (plain magic_zip)) (plain magic_zip) = Err x /\
   s_write_with_signature p (module_new (plain magic_zip)) (plain magic_zip) ex_block =
     ([], Err (ECannotSignCorrupted x))) /\
  (zip_ok nested_zip [] /\
   s_get_signing_block p (module_new (plain nested_zip)) (plain nested_zip) =
     Ok (Some (offset_by ex_block (36 + 36)))).
Proof.
  intros p. split; [ | split ].
  - split; [ zip_ok_tac | destruct p; vm_compute; reflexivity ].
  - split; [ zip_ok_tac | ]. eexists. split; destruct p; vm_compute; reflexivity.
  - split; [ zip_ok_tac | destruct p; vm_compute; reflexivity ].
Qed.
Print Assumptions C18_refuted.

(** * C19 - writing a signature changes only what it must *)
Theorem C19_write : forall p z b, zip_ok z [] -> unsigned z ->
  s_write_with_signature p (module_new (plain z)) (plain z) b =
  (z_entries z ++ block_to_u8 b ++ z_cd z ++ end_record z (len (z_entries z) + len (block_to_u8 b)), Ok tt).
Proof. exact s_write_unsigned. Qed.
Print Assumptions C19_write.

(** Every file whose end record is at its very end and whose directory offset
    is not past that record is such an archive. *)
Theorem C19_every_archive : forall f e, find_eocd f (len f) = Ok e -> eo_cd_offset e <= eo_off e ->
  len f = eo_off e + 22 + eo_comment_len e ->
  exists z, f = plain z /\ zip_ok z [] /\ len (z_entries z) = eo_cd_offset e /\
            len (z_entries z) + len (z_cd z) = eo_off e.
Proof. exact plain_complete. Qed.
Print Assumptions C19_every_archive.
Example C19_example : zip_ok ex_zip [] /\ unsigned ex_zip /\
  exists e, find_eocd (plain ex_zip) (len (plain ex_zip)) = Ok e /\ eo_cd_offset e <= eo_off e /\
  len (plain ex_zip) = eo_off e + 22 + eo_comment_len e.
Proof.
  split; [ apply ex_zip_ok | split; [ apply ex_unsigned | ] ].
  eexists. split; [ vm_compute; reflexivity | ]. split; [ vm_compute; discriminate | vm_compute; reflexivity ].
Qed.

(** * C20 - a written block is read back *)
Theorem C20_read_back : forall p q z b out, built_block b -> zip_ok z [] -> unsigned z ->
  zip_ok z (block_to_u8 b) -> zip_small z (block_to_u8 b) ->
  s_write_with_signature p (module_new (plain z)) (plain z) b = (out, Ok tt) ->
  m_get_signing_block q (module_new out) out = Ok (offset_by b (len (z_entries z))).
Proof. exact c20_write. Qed.
Print Assumptions C20_read_back.

(** With a comment shorter than 13 bytes only the 4 GiB limit remains. *)
Theorem C20_short_comment : forall z block, zip_ok z [] -> len (z_comment z) < 13 ->
  len (z_entries z) + len block < U32 -> zip_ok z block.
Proof. exact zip_ok_short. Qed.
Print Assumptions C20_short_comment.
Example C20_example : built_block ex_block /\ zip_ok ex_zip [] /\ unsigned ex_zip /\
  zip_ok ex_zip (block_to_u8 ex_block) /\ zip_small ex_zip (block_to_u8 ex_block) /\
  len (z_comment ex_zip) < 13.
Proof.
  split; [ apply ex_block_built | ]. split; [ apply ex_zip_ok | ]. split; [ apply ex_unsigned | ].
  split; [ zip_ok_tac | ]. split; vm_compute; reflexivity.
Qed.

(** With 13 comment bytes the rewritten directory offset can complete a second
    end record: the written file no longer shows the block. *)
Definition long_zip : zip := mkZip (zeros 230) [] (zeros 9 ++ [x50; x4b; x05]) (zeros 13).
Theorem C20_long_comment_refuted : zip_ok long_zip [] /\ unsigned long_zip /\
  (exists l, block_new l = Ok empty_block /\ Forall built_value l) /\
  forall p, exists out, s_write_with_signature p (module_new (plain long_zip)) (plain long_zip) empty_block = (out, Ok tt) /\
  m_get_signing_block p (module_new out) out = Err EFileTooSmall.
Proof.
  split; [ zip_ok_tac | ]. split; [ split; [ vm_compute; discriminate | apply no_magic_check; vm_compute; reflexivity ] | ].
  split; [ exists []; split; [ vm_compute; reflexivity | auto ] | ].
  intros p. eexists. split; destruct p; [ vm_compute; reflexivity .. | | ]; vm_compute; reflexivity.
Qed.
Print Assumptions C20_long_comment_refuted.

(** * C21 - signing does not change the digest *)
Theorem C21_digest : forall p q r C sched z b a out, built_block b -> zip_ok z [] -> unsigned z ->
  zip_ok z (block_to_u8 b) -> zip_small z (block_to_u8 b) ->
  s_write_with_signature p (module_new (plain z)) (plain z) b = (out, Ok tt) ->
  exists d, m_digest q C sched (module_new (plain z)) (plain z) a = Ok d /\
            m_digest r C sched (module_new out) out a = Ok d.
Proof. exact c21_write. Qed.
Print Assumptions C21_digest.
Example C21_example : built_block ex_block /\ zip_ok ex_zip [] /\ unsigned ex_zip /\
  zip_ok ex_zip (block_to_u8 ex_block) /\ zip_small ex_zip (block_to_u8 ex_block) /\
  exists d, m_digest Debug idC fr (module_new (plain ex_zip)) (plain ex_zip) ECDSA_SHA2_256 = Ok d /\ 80 < len d.
Proof.
  split; [ apply ex_block_built | ]. split; [ apply ex_zip_ok | ]. split; [ apply ex_unsigned | ].
  split; [ zip_ok_tac | ]. split; [ vm_compute; reflexivity | ].
  eexists. split; [ vm_compute; reflexivity | reflexivity ].
Qed.

(** * C22 - stripping the signature restores the original *)
Theorem C22_strip : forall p q z b out, built_block b -> zip_ok z [] -> unsigned z ->
  zip_ok z (block_to_u8 b) -> zip_small z (block_to_u8 b) ->
  s_write_with_signature p (module_new (plain z)) (plain z) b = (out, Ok tt) ->
  m_get_raw_module q (module_new out) out = Ok (plain z).
Proof. exact c22_write. Qed.
Print Assumptions C22_strip.

(** The same for a block that some other program inserted, as soon as this
    library finds it right before the central directory. *)
Theorem C22_strip_any : forall p q z raw b, zip_ok z raw -> zip_small z raw ->
  m_get_signing_block p (module_new (with_block z raw)) (with_block z raw) = Ok b ->
  bk_start b = len (z_entries z) -> bk_end b = len (z_entries z) + len raw ->
  m_get_raw_module q (module_new (with_block z raw)) (with_block z raw) = Ok (plain z).
Proof. exact c22_any. Qed.
Print Assumptions C22_strip_any.
Example C22_example : zip_ok ex_zip (block_to_u8 ex_block) /\ zip_small ex_zip (block_to_u8 ex_block) /\
  exists b, m_get_signing_block Debug (module_new ex_signed) ex_signed = Ok b /\
  bk_start b = len (z_entries ex_zip) /\ bk_end b = len (z_entries ex_zip) + len (block_to_u8 ex_block).
Proof.
  split; [ zip_ok_tac | ]. split; [ vm_compute; reflexivity | ].
  eexists. split; [ vm_compute; reflexivity | split; reflexivity ].
Qed.

(** * C23 - re-signing replaces the signature *)
Theorem C23_resign : forall p q r z b1 b2 out, built_block b1 -> zip_ok z [] -> unsigned z ->
  zip_ok z (block_to_u8 b1) -> zip_small z (block_to_u8 b1) ->
  s_write_with_signature p (module_new (plain z)) (plain z) b1 = (out, Ok tt) ->
  s_write_with_signature q (module_new out) out b2 =
  s_write_with_signature r (module_new (plain z)) (plain z) b2.
Proof. exact c23_write. Qed.
Print Assumptions C23_resign.

(** Any number of re-signings: only the last one shows. *)
Theorem C23_history : forall p z bs out, Forall built_block bs -> bs <> [] ->
  zip_ok z [] -> unsigned z ->
  Forall (fun b => zip_ok z (block_to_u8 b) /\ zip_small z (block_to_u8 b)) bs ->
  fold_left (fun (f : bytes) b => fst (s_write_with_signature p (module_new f) f b)) bs (plain z) = out ->
  out = with_block z (block_to_u8 (last bs (mkBlock 0 0 0 0 [] 0 []))).
Proof. exact c23_history. Qed.
Print Assumptions C23_history.
Example C23_example : Forall built_block [ex_block; ex_block2] /\
  Forall (fun b => zip_ok ex_zip (block_to_u8 b) /\ zip_small ex_zip (block_to_u8 b)) [ex_block; ex_block2] /\
  block_to_u8 ex_block <> block_to_u8 ex_block2.
Proof.
  split; [ repeat constructor; [ apply ex_block_built | apply ex_block2_built ] | ].
  split; [ | vm_compute; discriminate ].
  constructor; [ split; [ zip_ok_tac | vm_compute; reflexivity ] | ].
  constructor; [ split; [ zip_ok_tac | vm_compute; reflexivity ] | auto ].
Qed.

(** * C24 - trailing bytes after the end record *)
(** The writer drops them, and then the digest that was signed is not the
    digest of the file that was written. *)
Theorem C24_tail_lost : forall p z t b, zip_ok z [] ->
  last_record (plain z ++ t) (len (z_entries z) + len (z_cd z)) -> unsigned z ->
  s_write_with_signature p (module_new (plain z ++ t)) (plain z ++ t) b = (with_block z (block_to_u8 b), Ok tt).
Proof. exact s_write_tail. Qed.
Print Assumptions C24_tail_lost.

Theorem C24_refuted : forall p q C s1 s2 z t b a d1 d2 n e1 e2, fills s1 -> fills s2 ->
  0 < n -> (forall x, len (hash C a x) = n) ->
  zip_ok z [] -> last_record (plain z ++ t) (len (z_entries z) + len (z_cd z)) -> unsigned z ->
  built_block b -> zip_ok z (block_to_u8 b) -> zip_small z (block_to_u8 b) -> len (plain z ++ t) < 2 ^ 63 ->
  t <> [] ->
  m_digest p C s1 (module_new (plain z ++ t)) (plain z ++ t) a = Ok d1 ->
  m_digest q C s2 (module_new (with_block z (block_to_u8 b))) (with_block z (block_to_u8 b)) a = Ok d2 ->
  find_eocd (plain z ++ t) (len (plain z ++ t)) = Ok e1 ->
  find_eocd (with_block z (block_to_u8 b)) (len (with_block z (block_to_u8 b))) = Ok e2 ->
  d1 = d2 -> module_clash p q (hash C a) (plain z ++ t) e1 (with_block z (block_to_u8 b)) e2.
Proof. exact c24_digest. Qed.
Print Assumptions C24_refuted.

Example C24_example : zip_ok ex_zip [] /\ unsigned ex_zip /\
  last_record (plain ex_zip ++ [x0a]) (len (z_entries ex_zip) + len (z_cd ex_zip)) /\
  (exists d1 d2, m_digest Debug toyC fr (module_new (plain ex_zip ++ [x0a])) (plain ex_zip ++ [x0a]) ECDSA_SHA2_256 = Ok d1 /\
    m_digest Debug toyC fr (module_new ex_signed) ex_signed ECDSA_SHA2_256 = Ok d2 /\ d1 <> d2) /\
  (* stripping a signed file with a trailing byte does not give back the entries, directory and end record *)
  m_get_raw_module Debug (module_new (ex_signed ++ [x0a])) (ex_signed ++ [x0a]) =
    Ok (z_entries ex_zip ++ z_cd ex_zip ++ [x50] ++ end_record ex_zip (len (z_entries ex_zip))).
Proof.
  split; [ apply ex_zip_ok | ]. split; [ apply ex_unsigned | ]. split.
  { destruct (find_eocd_inv (plain ex_zip ++ [x0a])
      (zip_eocd ex_zip (len (z_entries ex_zip) + len (z_cd ex_zip)) (len (z_entries ex_zip)))) as [H _];
      [ vm_compute; reflexivity | exact H ]. }
  split; [ | vm_compute; reflexivity ].
  do 2 eexists. split; [ vm_compute; reflexivity | ]. split; [ vm_compute; reflexivity | discriminate ].
Qed.

(** * C25 - no signing over a corrupted block *)
Theorem C25_refused : forall p f b e, len f < U64 -> find_eocd f (len f) = Ok e ->
  (forall b0, m_get_signing_block p (module_new f) f <> Ok b0) ->
  ~ (24 <= len (takeN (eo_cd_offset e) f) /\ no_block_magic (takeN (eo_cd_offset e) f)) ->
  exists r, s_write_with_signature p (module_new f) f b = ([], r) /\ r <> Ok tt.
Proof. exact c25_spec. Qed.
Print Assumptions C25_refused.

(** Whatever the file, an operation that fails has written nothing. *)
Theorem C25_all_or_nothing : forall p f b w r, len f < U64 ->
  s_write_with_signature p (module_new f) f b = (w, r) -> r = Ok tt \/ (w = [] /\ r <> Ok tt).
Proof. exact c25_atomic. Qed.
Print Assumptions C25_all_or_nothing.
Example C25_example : let f := plain magic_zip in
  (exists e, find_eocd f (len f) = Ok e /\
   ~ (24 <= len (takeN (eo_cd_offset e) f) /\ no_block_magic (takeN (eo_cd_offset e) f))) /\
  (forall b0, m_get_signing_block Debug (module_new f) f <> Ok b0).
Proof.
  cbv zeta. split.
  - eexists. split; [ vm_compute; reflexivity | ]. intros [_ H].
    specialize (H ex_entries (bstr "text") ltac:(vm_compute; reflexivity)). vm_compute in H. discriminate.
  - intros b0. vm_compute. discriminate.
Qed.

(** * C26 - the directory offset in the written file *)
Theorem C26_offset : forall p z b out, zip_ok z [] -> unsigned z ->
  zip_ok z (block_to_u8 b) ->
  s_write_with_signature p (module_new (plain z)) (plain z) b = (out, Ok tt) ->
  exists e, find_eocd out (len out) = Ok e /\
    dropN (eo_cd_offset e) out = z_cd z ++ end_record z (eo_cd_offset e).
Proof. exact c26_offset. Qed.
Print Assumptions C26_offset.
Example C26_example : zip_ok ex_zip [] /\ unsigned ex_zip /\ zip_ok ex_zip (block_to_u8 ex_block).
Proof. split; [ apply ex_zip_ok | split; [ apply ex_unsigned | zip_ok_tac ] ]. Qed.

(** Without the bound it wraps around: with [n] bytes of entries, 4 GiB - 32 KiB < [n] < 4 GiB,
    some blocks make the written offset smaller than the block's own position. *)
Theorem C26_refuted : forall p n b, n < U32 -> 24 <= n -> built_block b -> U32 <= n + len (block_to_u8 b) ->
  exists out e, s_write_with_signature p (module_new (plain (big_zip n))) (plain (big_zip n)) b = (out, Ok tt) /\
  find_eocd out (len out) = Ok e /\ eo_cd_offset e < n /\
  eo_cd_offset e = (n + len (block_to_u8 b)) mod U32.
Proof. exact c26_refuted. Qed.
Print Assumptions C26_refuted.
Example C26_refuted_example : U32 - 1 < U32 /\ 24 <= U32 - 1 /\ built_block ex_block /\
  U32 <= U32 - 1 + len (block_to_u8 ex_block).
Proof.
  split; [ reflexivity | ]. split; [ vm_compute; discriminate | ]. split; [ apply ex_block_built | ].
  vm_compute. discriminate.
Qed.

(** * C27 - new_raw, sign_v2, write_with_signature *)
Theorem C27_raw : forall p q C sched z a cert key m1, zip_ok z [] -> zip_small z [] ->
  m_sign_v2 p C sched (module_new_raw (plain z)) (plain z) a cert key = Ok m1 ->
  exists d sg pk b pad,
    m_digest p C sched (module_new_raw (plain z)) (plain z) a = Ok d /\
    public_key_der C key = Ok pk /\
    algo_sign C a key (dropN 4 (sd_to_u8 (sd_new (digests_new [digest_new a d])
                                            (certs_new [cert_new cert]) (attrs_new [])))) = Ok sg /\
    built_block b /\
    bk_content b = V2Block (v2_new (signers_new [signer_new
      (sd_new (digests_new [digest_new a d]) (certs_new [cert_new cert]) (attrs_new []))
      (sigs_new [sig_new a sg]) (pub_new pk)])) :: pad /\
    (U32 <= len (z_entries z) + len (block_to_u8 b) ->
       m_write_with_signature q m1 (plain z) = ([], Err EOffsetOverflow)) /\
    (len (z_entries z) + len (block_to_u8 b) < U32 ->
       m_write_with_signature q m1 (plain z) = (with_block z (block_to_u8 b), Ok tt)) /\
    (zip_ok z (block_to_u8 b) -> zip_small z (block_to_u8 b) ->
       let out := with_block z (block_to_u8 b) in
       m_get_signing_block q (module_new out) out = Ok (offset_by b (len (z_entries z))) /\
       m_digest q C sched (module_new out) out a = Ok d).
Proof. exact c27. Qed.
Print Assumptions C27_raw.

Definition ex_sign (p : profile) (m : module) : res module :=
  m_sign_v2 p toyC fr m (plain ex_zip) ECDSA_SHA2_256 [x01] (EcdsaP256 [x07]).
Example C27_example : zip_ok ex_zip [] /\ zip_small ex_zip [] /\
  exists m1, ex_sign Debug (module_new_raw (plain ex_zip)) = Ok m1 /\
    len (fst (m_write_with_signature Debug m1 (plain ex_zip))) = 4170.
Proof.
  split; [ apply ex_zip_ok | ]. split; [ apply ex_small | ].
  eexists. split; [ vm_compute; reflexivity | vm_compute; reflexivity ].
Qed.

(** * C28 - the same writer on a module opened with [Module::new] *)
(** Signing an unsigned module opened with [new] panics in a debug build after
    writing the entries and the block; the release build reports success after
    writing something of another length than the signed archive.
    Writing a signed module that was just opened writes the start of the
    block in place of the central directory, and a directory offset past the
    end of the file. *)
Theorem C28_refuted :
  (exists m1 w b, ex_sign Debug (module_new (plain ex_zip)) = Ok m1 /\ m_sig m1 = Some b /\
     m_write_with_signature Debug m1 (plain ex_zip) = (w, Panic) /\ w <> []) /\
  (exists m1 w b, ex_sign Release (module_new (plain ex_zip)) = Ok m1 /\ m_sig m1 = Some b /\
     m_write_with_signature Release m1 (plain ex_zip) = (w, Ok tt) /\
     w <> with_block ex_zip (block_to_u8 b)) /\
  (exists w, m_write_with_signature Debug (module_new ex_signed) ex_signed = (w, Ok tt) /\
     get_range w (len (z_entries ex_zip) + len (block_to_u8 ex_block)) (len w - 24) =
       Some (takeN (len (z_cd ex_zip)) (block_to_u8 ex_block)) /\
     exists e, find_eocd w (len w) = Ok e /\ len w < eo_cd_offset e).
Proof.
  split; [ | split ].
  - do 3 eexists. split; [ vm_compute; reflexivity | ]. split; [ reflexivity | ].
    split; [ vm_compute; reflexivity | discriminate ].
  - do 3 eexists. split; [ vm_compute; reflexivity | ]. split; [ reflexivity | ].
    split; [ vm_compute; reflexivity | ]. intros E. apply (f_equal len) in E. vm_compute in E. discriminate.
  - eexists. split; [ vm_compute; reflexivity | ]. split; [ vm_compute; reflexivity | ].
    eexists. split; [ vm_compute; reflexivity | vm_compute; reflexivity ].
Qed.
Print Assumptions C28_refuted.

(** * C29 - the digest is the chunked digest *)
Theorem C29_digest : forall p C sched f e a d, fills sched -> len f < 2 ^ 63 -> find_eocd f (len f) = Ok e ->
  p = Debug \/ eo_cd_offset e <= eo_off e -> m_digest p C sched (module_new f) f a = Ok d ->
  exists content mid cdr h off t, regions_of p f e content mid cdr h off t /\
    is_digest (hash C a) content cdr (h ++ le 4 (len content) ++ t) d.
Proof. exact c29. Qed.
Print Assumptions C29_digest.
Example C29_example : fills fr /\ (exists e, find_eocd ex_signed (len ex_signed) = Ok e /\ eo_cd_offset e <= eo_off e) /\
  exists d, m_digest Debug toyC fr (module_new ex_signed) ex_signed ECDSA_SHA2_256 = Ok d /\ len d = 32.
Proof.
  split; [ apply fr_fills | ]. split.
  - eexists. split; [ vm_compute; reflexivity | vm_compute; discriminate ].
  - eexists. split; [ vm_compute; reflexivity | reflexivity ].
Qed.

(** * C30 - dependence on the read schedule *)
(** One-byte reads and buffer-filling reads of any unsigned archive give
    different digests, unless two of the messages that are hashed collide. *)
Theorem C30_refuted : forall p q C s2 z a d1 d2 n, fills s2 -> 0 < n -> (forall x, len (hash C a x) = n) ->
  zip_ok z [] -> zip_small z [] -> unsigned z ->
  m_digest p C (fun _ _ => 1) (module_new (plain z)) (plain z) a = Ok d1 ->
  m_digest q C s2 (module_new (plain z)) (plain z) a = Ok d2 ->
  d1 = d2 -> exists c1 c2 r, splits (z_entries z) c1 /\ splits (z_cd z) c2 /\
    splits (end_record z (len (z_entries z))) r /\
    clash (hash C a) (tree_messages (hash C a) (map (fun x => [x]) (z_entries z ++ z_cd z) ++ r))
                     (tree_messages (hash C a) (c1 ++ c2 ++ r)).
Proof. exact c30_schedule. Qed.
Print Assumptions C30_refuted.
Theorem C30_full_reads : forall p C s1 s2 f e a d1 d2, fills s1 -> fills s2 -> len f < 2 ^ 63 ->
  find_eocd f (len f) = Ok e -> eo_cd_offset e <= eo_off e ->
  m_digest p C s1 (module_new f) f a = Ok d1 -> m_digest p C s2 (module_new f) f a = Ok d2 -> d1 = d2.
Proof. exact c30_fills. Qed.
Print Assumptions C30_full_reads.
Example C30_example : exists d1 d2, (forall x, len (hash toyC ECDSA_SHA2_256 x) = 32) /\
  m_digest Debug toyC (fun _ _ => 1) (module_new (plain ex_zip)) (plain ex_zip) ECDSA_SHA2_256 = Ok d1 /\
  m_digest Debug toyC fr (module_new (plain ex_zip)) (plain ex_zip) ECDSA_SHA2_256 = Ok d2 /\ d1 <> d2.
Proof.
  do 2 eexists. split; [ intros x; apply toy_hash_len | ].
  split; [ vm_compute; reflexivity | ]. split; [ vm_compute; reflexivity | discriminate ].
Qed.

(** * C31 - the digest covers every byte outside the block *)
Theorem C31_binding : forall p q C s1 s2 f1 f2 e1 e2 a d n, fills s1 -> fills s2 ->
  0 < n -> (forall x, len (hash C a x) = n) ->
  len f1 < 2 ^ 63 -> len f2 < 2 ^ 63 ->
  find_eocd f1 (len f1) = Ok e1 -> p = Debug \/ eo_cd_offset e1 <= eo_off e1 ->
  find_eocd f2 (len f2) = Ok e2 -> q = Debug \/ eo_cd_offset e2 <= eo_off e2 ->
  m_digest p C s1 (module_new f1) f1 a = Ok d -> m_digest q C s2 (module_new f2) f2 a = Ok d ->
  module_clash p q (hash C a) f1 e1 f2 e2 \/ same_outside_block p q f1 f2 e1 e2.
Proof. exact c31. Qed.
Print Assumptions C31_binding.
(** The signed and the unsigned archive meet the hypotheses. *)
Example C31_example : exists d e1 e2, (forall x, len (hash toyC ECDSA_SHA2_256 x) = 32) /\
  find_eocd ex_signed (len ex_signed) = Ok e1 /\ find_eocd (plain ex_zip) (len (plain ex_zip)) = Ok e2 /\
  eo_cd_offset e1 <= eo_off e1 /\ eo_cd_offset e2 <= eo_off e2 /\
  m_digest Debug toyC fr (module_new ex_signed) ex_signed ECDSA_SHA2_256 = Ok d /\
  m_digest Release toyC fr (module_new (plain ex_zip)) (plain ex_zip) ECDSA_SHA2_256 = Ok d.
Proof.
  do 3 eexists. split; [ intros x; apply toy_hash_len | ].
  split; [ vm_compute; reflexivity | ]. split; [ vm_compute; reflexivity | ].
  split; [ vm_compute; discriminate | ]. split; [ vm_compute; discriminate | ].
  split; [ vm_compute; reflexivity | vm_compute; reflexivity ].
Qed.

(** Without the hypothesis on the directory offset the claim is false of a
    release build: if the offset points behind the start of the end record, the
    size of the directory wraps around and the same bytes are hashed twice. *)
Definition ex_record : bytes := EOCD_SIG ++ zeros 12 ++ le 4 (len (z_entries ex_zip) + 22) ++ le 2 3 ++ [x01; x02; x03].
Theorem C31_release_refuted :
  let f2 := z_entries ex_zip ++ ex_record in
  let f1 := f2 ++ ex_record in
  (exists e1 e2, find_eocd f1 (len f1) = Ok e1 /\ eo_cd_offset e1 <= eo_off e1 /\
     find_eocd f2 (len f2) = Ok e2 /\ eo_off e2 < eo_cd_offset e2) /\
  forall C a, exists d, m_digest Release C fr (module_new f1) f1 a = Ok d /\
    m_digest Release C fr (module_new f2) f2 a = Ok d.
Proof.
  cbv zeta. split.
  - do 2 eexists. split; [ vm_compute; reflexivity | ]. split; [ vm_compute; discriminate | ].
    split; [ vm_compute; reflexivity | vm_compute; reflexivity ].
  - intros C a. eexists. split; [ vm_compute; reflexivity | vm_compute; reflexivity ].
Qed.
Print Assumptions C31_release_refuted.

(** * C32 - the directory offset field is not authenticated *)
Theorem C32_refuted : ex_moved <> ex_signed /\ forall p C sched a,
  s_get_signing_block p (module_new ex_moved) ex_moved = s_get_signing_block p (module_new ex_signed) ex_signed /\
  m_digest p C sched (module_new ex_moved) ex_moved a = m_digest p C sched (module_new ex_signed) ex_signed a /\
  exists e b, find_eocd ex_moved (len ex_moved) = Ok e /\
    s_get_signing_block p (module_new ex_moved) ex_moved = Ok (Some b) /\ eo_cd_offset e = bk_end b + 7.
Proof. exact c32_refuted. Qed.
Print Assumptions C32_refuted.

(** * C33 - computing the digest never crashes (release build) *)
Theorem C33_release : forall C sched m f a, m_len m = len f -> m_sig m = None -> len f < 2 ^ 63 ->
  m_digest Release C sched m f a <> Panic /\ m_digest_regions Release m f <> Panic.
Proof. exact c33_digest. Qed.
Print Assumptions C33_release.
(** In a debug build a directory offset past the end record panics. *)
Definition past_zip : bytes := zeros 30 ++ end_record ex_zip 40.
Theorem C33_debug_refuted : m_digest Debug toyC fr (module_new past_zip) past_zip ECDSA_SHA2_256 = Panic /\
  m_digest_regions Debug (module_new past_zip) past_zip = Panic.
Proof. split; vm_compute; reflexivity. Qed.
Print Assumptions C33_debug_refuted.
(** With a sane offset and a readable (or absent) block it does not. *)
Theorem C33_debug : forall p C sched f e a, len f < 2 ^ 63 ->
  find_eocd f (len f) = Ok e -> eo_cd_offset e <= eo_off e ->
  m_get_signing_block p (module_new f) f <> Panic ->
  m_digest p C sched (module_new f) f a <> Panic.
Proof. exact c33_debug. Qed.
Print Assumptions C33_debug.
Example C33_example : (exists d, m_digest Release toyC fr (module_new past_zip) past_zip ECDSA_SHA2_256 = Ok d) /\
  m_get_signing_block Debug (module_new ex_signed) ex_signed <> Panic.
Proof. split; [ eexists; vm_compute; reflexivity | vm_compute; discriminate ]. Qed.
