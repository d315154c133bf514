(** NoElf.v - model of a build without the cargo feature [elf]: the functions of
    SigningBlock.v, Module.v, Signable.v and ModuleVerify.v once more, over the
    parser [pv] of a value.  [pv] = [value_parse] gives the default build
    ([default_build] in NoElfFacts.v); [value_parse_n] is the parser of a build
    without [elf]. *)
From Verif Require Import Base Utils Algorithms Common SchemeV2 SourceStamp ElfInfo SigningBlock Zip Digest Module Signable Signer Verifier ModuleVerify.
From Coq Require Import Strings.String.
Open Scope N_scope.

Definition value_parser : Type := reader -> res (value * reader).

(** src/signing_block/mod.rs:138-182 [ValueSigningBlock::parse] without the arm of
    line 171. *)
Definition value_parse_n : value_parser := fun r =>
  do '(pair_size, r) <- read_size_u64 r;
  if MAX_PAIR_SIZE <? pair_size then Err EPairTooBig
  else
    do '(pair_id, r) <- read_u32 r;
    if pair_size <? 4 then Err EPairTooSmall
    else
      do '(sub, r) <- as_slice r (pair_size - 4);
      if pair_id =? SIGNATURE_SCHEME_V2_BLOCK_ID then
        do '(v, _) <- v2_parse pair_size pair_id sub; Ok (V2Block v, r)
      else if pair_id =? SOURCE_STAMP_BLOCK_ID then
        do '(s, _) <- ss_parse pair_size pair_id sub; Ok (StampBlk s, r)
      else Ok (BaseBlock (mkRaw pair_size pair_id (rdata sub)), r).

(** src/signing_block/mod.rs:675-681 [extract_values]. *)
Definition extract_values_w (pv : value_parser) (r : reader) : res (list value) :=
  do '(l, _) <- parse_while (loop_fuel r) pv (rlen r) r;
  Ok l.

(** src/signing_block/mod.rs:490-597 [parse_full_block]; see SigningBlock.v. *)
Definition parse_full_block_w (pv : value_parser) (p : profile) (data : bytes) : res signing_block :=
  let n := len data in
  if n <? SIZE_UINT64 + SIZE_UINT64 + MAGIC_LEN then Err EFullTooShort
  else
    let magic := dropN (n - MAGIC_LEN) data in
    if negb (beq magic MAGIC) then Err EFullMagicNotFound
    else
      let start_block_size := un_le (takeN 8 data) in
      let end_block_size := un_le (takeN 8 (dropN (n - MAGIC_LEN - SIZE_UINT64) data)) in
      do _ <- debug_assert p (start_block_size =? end_block_size);
      if negb (start_block_size =? end_block_size) then Err ESizesDiffer
      else if end_block_size <? SIZE_UINT64 + MAGIC_LEN then Err EBlockSizeTooSmall
      else
        do expected <- uadd p end_block_size SIZE_UINT64;
        if negb (n =? expected) then Err EBlockLenInconsistent
        else
          let inner := takeN (n - MAGIC_LEN - SIZE_UINT64 - 8) (dropN 8 data) in
          do content <- map_err EExtractingValues (extract_values_w pv (new_reader inner));
          Ok (mkBlock 0 n start_block_size (end_block_size - SIZE_UINT64 - MAGIC_LEN)
                content end_block_size MAGIC).

(** src/signing_block/mod.rs:602-670 [SigningBlock::from_u8]; see SigningBlock.v. *)
Definition from_u8_at_w (pv : value_parser) (p : profile) (data : bytes) (start_magic : N) : res signing_block :=
  let end_magic := start_magic + MAGIC_LEN in
  do size_from <- usub p start_magic SIZE_UINT64;
  do size_part <- of_option EU8Bounds (get_range data size_from start_magic);
  let size := un_le size_part in
  if MAX_SIGNING_BLOCK_SIZE <? size then Err EBlockTooBig
  else
    do a <- usub p size MAGIC_LEN;
    do back <- uadd p a SIZE_UINT64;
    if start_magic <? back then Err EU8Bounds
    else
      do full <- of_option EU8Bounds (get_range data (start_magic - back) end_magic);
      parse_full_block_w pv p full.
Fixpoint from_u8_search_w (pv : value_parser) (p : profile) (data : bytes) (start_magic : nat) : res signing_block :=
  match start_magic with
  | O => Err EU8MagicNotFound
  | S k =>
      let s := N.of_nat start_magic in
      match get_range data s (s + MAGIC_LEN) with
      | None => Err EU8Bounds
      | Some m => if beq m MAGIC then from_u8_at_w pv p data s else from_u8_search_w pv p data k
      end
  end.
Definition from_u8_w (pv : value_parser) (p : profile) (data : bytes) : res signing_block :=
  if len data <? SIZE_UINT64 + SIZE_UINT64 + MAGIC_LEN then Err EU8TooShort
  else from_u8_search_w pv p data (N.to_nat (len data - MAGIC_LEN)).

(** src/signing_block/mod.rs:346-485 [SigningBlock::from_reader]; see SigningBlock.v. *)
Definition from_reader_at_w (pv : value_parser) (p : profile) (file : bytes) (file_len window_start : N)
    (window : bytes) (pos : N) : option (res signing_block) :=
  if pos <? SIZE_UINT64 then None
  else Some (
    let size_slice := takeN 8 (dropN (pos - SIZE_UINT64) window) in
    let block_size := un_le size_slice in
    if MAX_SIGNING_BLOCK_SIZE <? block_size then Err EBlockTooBig
    else if file_len <? block_size then Err EBlockExceedsFile
    else
      let block_end_in_window := pos + MAGIC_LEN in
      if block_end_in_window <? block_size + SIZE_UINT64 then
        if window_start + block_end_in_window <? block_size + SIZE_UINT64
        then Err EBlockLargerThanData
        else
          let start := window_start + block_end_in_window - (block_size + SIZE_UINT64) in
          do full <- read_exact_at file start (block_size + SIZE_UINT64);
          do sig <- map_err EParsingFullBlock (parse_full_block_w pv p full);
          Ok (with_offsets sig start (window_start + block_end_in_window))
      else
        let bs := block_end_in_window - (block_size + SIZE_UINT64) in
        do full <- of_option ECannotExtract (get_range window bs block_end_in_window);
        do sig <- map_err EParsingFullBlock (parse_full_block_w pv p full);
        Ok (with_offsets sig (window_start + bs) (window_start + block_end_in_window))).
Fixpoint from_reader_search_w (pv : value_parser) (p : profile) (file : bytes) (file_len window_start : N)
    (window : bytes) (k : nat) : res signing_block :=
  match k with
  | O => Err EReaderMagicNotFound
  | S k' =>
      let pos := N.of_nat k' in
      match get_range window pos (pos + MAGIC_LEN) with
      | Some m =>
          if beq m MAGIC then
            match from_reader_at_w pv p file file_len window_start window pos with
            | Some r => r
            | None => from_reader_search_w pv p file file_len window_start window k'
            end
          else from_reader_search_w pv p file file_len window_start window k'
      | None => from_reader_search_w pv p file file_len window_start window k'
      end
  end.
Definition from_reader_w (pv : value_parser) (p : profile) (file : bytes) (file_len end_offset : N)
  : res signing_block :=
  let search_end_pos := file_len - end_offset in
  let window_size := N.min search_end_pos MAX_WINDOW_SIZE in
  if window_size <? MAGIC_LEN + SIZE_UINT64 then Err EFileTooSmall
  else
    let window_start := search_end_pos - window_size in
    do window <- read_exact_at file window_start window_size;
    from_reader_search_w pv p file file_len window_start window
      (S (N.to_nat (window_size - MAGIC_LEN))).

(** src/file_formats/module/mod.rs:73-99 [Module::get_signing_block]. *)
Definition m_get_signing_block_w (pv : value_parser) (p : profile) (m : module) (file : bytes) : res signing_block :=
  match m_sig m with
  | Some sig => Ok sig
  | None =>
      if m_raw m then Err EModuleIsRaw
      else
        do e <- m_find_eocd m file;
        let end_offset := m_len m - eo_cd_offset e in
        from_reader_w pv p file (m_len m) end_offset
  end.

(** src/file_formats/module/mod.rs:258-301 [Module::get_offsets]. *)
Definition m_get_offsets_w (pv : value_parser) (p : profile) (m : module) (file : bytes) : res file_offsets :=
  do e <- m_find_eocd m file;
  match m_get_signing_block_w pv p m file with
  | Ok sig =>
      let flen := if m_raw m then m_len m + get_full_size sig else m_len m in
      let stop_cd := if m_raw m then eo_off e + get_full_size sig else eo_off e in
      Ok (offsets_new (bk_start sig) (bk_end sig) stop_cd flen)
  | Err x =>
      if maybe_missing_signature x
      then Ok (offsets_without_signature (eo_cd_offset e) (eo_off e) (m_len m))
      else Err (EBlockCorrupted x)
  | Panic => Panic
  end.

(** src/file_formats/module/mod.rs:307-311 [Module::digest]. *)
Definition m_digest_w (pv : value_parser) (p : profile) (C : crypto) (sched : nat -> nat -> N) (m : module) (file : bytes)
    (a : algorithms) : res bytes :=
  do o <- m_get_offsets_w pv p m file;
  digest_module p C sched file o a.

(** src/file_formats/module/mod.rs:316-363 [Module::get_raw_module]. *)
Definition m_get_raw_module_w (pv : value_parser) (p : profile) (m : module) (file : bytes) : res bytes :=
  if m_raw m then Ok file
  else
    do sig <- m_get_signing_block_w pv p m file;
    do size_sig <- usub p (bk_end sig) (bk_start sig);
    do start_without_sig <- of_option EInvalidStartSig (get_range file 0 (bk_start sig));
    do e <- m_find_eocd m file;
    if eo_cd_offset e <? size_sig mod U32 then Err ESigExceedsCdOffset
    else
      let e' := with_cd_offset e (eo_cd_offset e - size_sig mod U32) in
      let ser := eocd_to_u8 e' in
      do stop <- usub p (len file) (len ser);
      do end_without_sig <- of_option EInvalidEndSig (get_range file (bk_end sig) stop);
      Ok (start_without_sig ++ end_without_sig ++ ser).

(** src/signable.rs:331-356 and 322-385 [<Module as Signable>::write_with_signature]. *)
Definition s_source_w (pv : value_parser) (p : profile) (m : module) (file : bytes) : res (bytes * eocd) :=
  match m_get_signing_block_w pv p m file with
  | Ok _ =>
      do raw <- m_get_raw_module_w pv p m file;
      do e <- find_eocd raw (len raw);
      Ok (raw, e)
  | Err x =>
      if maybe_missing_signature x then
        do e <- find_eocd file (len file);
        Ok (file, e)
      else Err (ECannotSignCorrupted x)
  | Panic => Panic
  end.
Definition s_write_with_signature_w (pv : value_parser) (p : profile) (m : module) (file : bytes) (b : signing_block)
  : written :=
  match s_source_w pv p m file with
  | Err x => ([], Err x)
  | Panic => ([], Panic)
  | Ok (raw, e) => s_write_raw p raw e (block_to_u8 b)
  end.

(** src/file_formats/module/mod.rs:144-148, 158-162, 215-219, 229-233. *)
Fixpoint fill_context_w (pv : value_parser) (p : profile) (C : crypto) (dsched : algorithms -> nat -> nat -> N)
    (m : module) (file : bytes) (l : list algorithms) (ctx : context) : res context :=
  match l with
  | [] => Ok ctx
  | a :: l =>
      match get_digest ctx (u32_of_algo a) with
      | Some _ => fill_context_w pv p C dsched m file l ctx
      | None =>
          match m_digest_w pv p C (dsched a) m file a with
          | Ok d => fill_context_w pv p C dsched m file l (add_digest ctx (u32_of_algo a) d)
          | Err _ => fill_context_w pv p C dsched m file l ctx
          | Panic => Panic
          end
      end
  end.

(** src/file_formats/module/mod.rs:182-242 [verify_with_roots]. *)
Definition m_verify_with_roots_w (pv : value_parser) (p : profile) (C : crypto) (K : pki) (now : option N)
    (dsched : algorithms -> nat -> nat -> N) (m : module) (file : bytes) (roots : trusted_roots)
  : res verify_all :=
  match m_get_signing_block_w pv p m file with
  | Ok b =>
      do ctx <- fill_context_w pv p C dsched m file (digest_algos (bk_content b)) ctx_new;
      Ok (verify_all_with_digest C K now roots b (Some ctx))
  | Err e => Ok (mkAll (VErr (VInvalidSignature e)) (VErr VNoSignature))
  | Panic => Panic
  end.

(** src/signable.rs:245-269 [detect_file_format] without lines 250-253, and
    src/signable.rs:94-105 [SignableFile::open], which then knows modules only. *)
Definition open_n (file : bytes) : res module :=
  do magic <- read_exact_at file 0 4;
  if beq (takeN 2 magic) (bstr "PK") then Ok (module_new file)
  else match find_eocd file (len file) with
       | Ok _ => Ok (module_new file)
       | Err _ => Err EInvalidFormat
       | Panic => Panic
       end.
