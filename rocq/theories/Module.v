(** Module.v - model of /repo/src/file_formats/module/mod.rs
    (the verification methods are in ModuleVerify.v). *)
From Verif Require Import Base Algorithms Common SchemeV2 SigningBlock Zip Digest.

(** src/file_formats/module/mod.rs:26-39 [struct Module].  The path is replaced by the content of the
    file it names, passed to every operation as [file]. *)
Record module := mkModule { m_raw : bool; m_len : N; m_sig : option signing_block }.

(** src/file_formats/module/mod.rs:45-53 [Module::new], 58-63 [Module::new_raw] on a file with content
    [file]. *)
Definition module_new (file : bytes) : module := mkModule false (len file) None.
Definition module_new_raw (file : bytes) : module := mkModule true (len file) None.

(** src/file_formats/module/mod.rs:248-251 [Module::find_eocd]. *)
Definition m_find_eocd (m : module) (file : bytes) : res eocd := find_eocd file (m_len m).

(** src/file_formats/module/mod.rs:73-99 [Module::get_signing_block]. *)
Definition m_get_signing_block (p : profile) (m : module) (file : bytes) : res signing_block :=
  match m_sig m with
  | Some sig => Ok sig
  | None =>
      if m_raw m then Err EModuleIsRaw
      else
        do e <- m_find_eocd m file;
        let end_offset := m_len m - eo_cd_offset e in
        from_reader p file (m_len m) end_offset
  end.

(** src/file_formats/module/mod.rs:283-284 and src/signable.rs:390-393: [msg.contains("Magic not found") ||
    msg.contains("Module is raw")].  Wrapped messages contain the wrapped one. *)
Fixpoint maybe_missing_signature (e : err) : bool :=
  match e with
  | EReaderMagicNotFound | EFullMagicNotFound | EU8MagicNotFound | EModuleIsRaw => true
  | EParsingFullBlock e | EExtractingValues e | EBlockCorrupted e | ECannotSignCorrupted e =>
      maybe_missing_signature e
  | _ => false
  end.

(** src/file_formats/module/mod.rs:258-301 [Module::get_offsets]. *)
Definition m_get_offsets (p : profile) (m : module) (file : bytes) : res file_offsets :=
  do e <- m_find_eocd m file;
  match m_get_signing_block p m file with
  | Ok sig =>
      let flen := if m_raw m then m_len m + get_full_size sig else m_len m in
      let stop_cd := if m_raw m then eo_off e + get_full_size sig else eo_off e in
      Ok (offsets_new (bk_start sig) (bk_end sig) stop_cd flen)
  | Err x =>
      if maybe_missing_signature x
      then Ok (offsets_without_signature (eo_cd_offset e) (eo_off e) (m_len m))
      else Err (EBlockCorrupted x)
  | Panic => Panic
  end.

(** src/file_formats/module/mod.rs:307-311 [Module::digest]. *)
Definition m_digest (p : profile) (C : crypto) (sched : nat -> nat -> N) (m : module) (file : bytes)
    (a : algorithms) : res bytes :=
  do o <- m_get_offsets p m file;
  digest_module p C sched file o a.

(** Assignment to [eocd.cd_offset]. *)
Definition with_cd_offset (e : eocd) (o : N) : eocd :=
  mkEocd (eo_off e) (eo_sig e) (eo_disk e) (eo_disk_cd e) (eo_num e) (eo_total e) (eo_cd_size e)
    o (eo_comment_len e) (eo_comment e).

(** src/file_formats/module/mod.rs:316-363 [Module::get_raw_module]. *)
Definition m_get_raw_module (p : profile) (m : module) (file : bytes) : res bytes :=
  if m_raw m then Ok file
  else
    do sig <- m_get_signing_block p m file;
    do size_sig <- usub p (bk_end sig) (bk_start sig);
    do start_without_sig <- of_option EInvalidStartSig (get_range file 0 (bk_start sig));
    do e <- m_find_eocd m file;
    (* u32 checked_sub; [size_sig as u32] truncates *)
    if eo_cd_offset e <? size_sig mod U32 then Err ESigExceedsCdOffset
    else
      let e' := with_cd_offset e (eo_cd_offset e - size_sig mod U32) in
      let ser := eocd_to_u8 e' in
      do stop <- usub p (len file) (len ser);
      do end_without_sig <- of_option EInvalidEndSig (get_range file (bk_end sig) stop);
      Ok (start_without_sig ++ end_without_sig ++ ser).

(** Outcome of an operation that writes to a [Write]: the bytes written so far
    and the result.  The writer itself is assumed not to fail here; a writer
    that stops early is considered in the CLI model. *)
Definition written : Type := bytes * res unit.

(** src/file_formats/module/mod.rs:368-404 [Module::write_with_signature] (inherent method). *)
Definition m_write_with_signature (p : profile) (m : module) (file : bytes) : written :=
  match (do sig <- m_get_signing_block p m file;
         do o <- m_get_offsets p m file;
         do e <- m_find_eocd m file;
         (* u32 checked_add *)
         if U32 <=? eo_cd_offset e + get_full_size sig mod U32 then Err EOffsetOverflow
         else Ok (sig, o, with_cd_offset e (eo_cd_offset e + get_full_size sig mod U32)))
  with
  | Err x => ([], Err x)
  | Panic => ([], Panic)
  | Ok (sig, o, e) =>
      let ser := eocd_to_u8 e in
      let w1 := taken file 0 (fo_stop_content o) ++ block_to_u8 sig in
      match (do seek_end <- usub p (fo_start_cd o) (get_full_size sig);
             do _ <- seek seek_end;
             do t1 <- usub p (fo_stop_eocd o) (fo_start_cd o);
             do t2 <- usub p t1 (len ser);
             Ok (taken file seek_end t2))
      with
      | Err x => (w1, Err x)
      | Panic => (w1, Panic)
      | Ok w2 => (w1 ++ w2 ++ ser, Ok tt)
      end
  end.

(** src/file_formats/module/mod.rs:411-458 [Module::sign_v2]: the module with its new [sig] field. *)
Definition m_sign_v2 (p : profile) (C : crypto) (sched : nat -> nat -> N) (m : module) (file : bytes)
    (a : algorithms) (cert : bytes) (key : private_key) : res module :=
  do pub <- public_key_der C key;
  do digest <- m_digest p C sched m file a;
  let sd := sd_new (digests_new [digest_new a digest]) (certs_new [cert_new cert]) (attrs_new []) in
  (* [get(4..)] cannot fail: the serialisation starts with a 4-byte size *)
  do sig <- algo_sign C a key (dropN 4 (sd_to_u8 sd));
  let one := signer_new sd (sigs_new [sig_new a sig]) (pub_new pub) in
  do blk <- block_new_with_padding p [value_new_v2 (signers_new [one])];
  do e <- m_find_eocd m file;
  Ok (mkModule (m_raw m) (m_len m) (Some (offset_by blk (eo_cd_offset e)))).
