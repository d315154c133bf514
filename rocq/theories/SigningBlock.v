(** SigningBlock.v - model of /repo/src/signing_block/mod.rs
    (all cargo features on, as in the default build: the [elf] arm of
    [ValueSigningBlock] exists). *)
From Verif Require Import Base Utils Algorithms Common SchemeV2 SourceStamp Utf8 ElfInfo.
From Coq Require Import Strings.String.
Open Scope N_scope.

(** src/signing_block/mod.rs:27-30. *)
Definition MAGIC : bytes := bstr "KSU Sig Block 42".
Definition MAGIC_LEN : N := 16.
(** src/signing_block/mod.rs:33. *)
Definition VERITY_PADDING_BLOCK_ID : N := 0x42726577.
(** src/signing_block/mod.rs:36. *)
Definition SIZE_UINT64 : N := 8.
(** src/signing_block/mod.rs:40, 43. *)
Definition MAX_SIGNING_BLOCK_SIZE : N := 16 * 1024.
Definition MAX_PAIR_SIZE : N := 16 * 1024.

(** src/signing_block/mod.rs:48-58 [struct RawData]. *)
Record raw_data := mkRaw { rw_size : N; rw_id : N; rw_data : bytes }.

(** src/signing_block/mod.rs:62-65 [RawData::new]. *)
Definition raw_new (id : N) (data : bytes) : raw_data := mkRaw (4 + len data) id data.

(** src/signing_block/mod.rs:68-75 [RawData::to_u8]. *)
Definition raw_to_u8 (r : raw_data) : bytes :=
  le 8 (rw_size r) ++ le 4 (rw_id r) ++ rw_data r.

(** src/signing_block/mod.rs:81-94 [enum ValueSigningBlock]. *)
Inductive value :=
| BaseBlock (r : raw_data)
| V2Block (v : scheme_v2)
| StampBlk (s : source_stamp)
| ElfBlock (i : elf_info).

(** src/signing_block/mod.rs:98-105. *)
Definition value_new_v2 (s : signers) : value := V2Block (v2_new s).
Definition value_new_stamp (b : stamp_block) : value := StampBlk (ss_new b).

(** src/signing_block/mod.rs:108-116 [id]. *)
Definition value_id (v : value) : N :=
  match v with
  | BaseBlock r => rw_id r
  | V2Block v => v2_id v
  | StampBlk s => ss_id s
  | ElfBlock i => ei_id i
  end.

(** src/signing_block/mod.rs:119-127 [inner_size]. *)
Definition value_inner_size (v : value) : N :=
  match v with
  | BaseBlock r => rw_size r
  | V2Block v => v2_size v
  | StampBlk s => ss_size s
  | ElfBlock i => ei_size i
  end.

(** src/signing_block/mod.rs:130-133 [size]. *)
Definition value_size (v : value) : N := value_inner_size v + 8.

(** src/signing_block/mod.rs:138-182 [ValueSigningBlock::parse]. *)
Definition value_parse (r : reader) : res (value * reader) :=
  do '(pair_size, r) <- read_size_u64 r;
  if MAX_PAIR_SIZE <? pair_size then Err EPairTooBig
  else
    do '(pair_id, r) <- read_u32 r;
    if pair_size <? 4 then Err EPairTooSmall
    else
      do '(sub, r) <- as_slice r (pair_size - 4);
      if pair_id =? SIGNATURE_SCHEME_V2_BLOCK_ID then
        do '(v, _) <- v2_parse pair_size pair_id sub; Ok (V2Block v, r)
      else if pair_id =? SOURCE_STAMP_BLOCK_ID then
        do '(s, _) <- ss_parse pair_size pair_id sub; Ok (StampBlk s, r)
      else if pair_id =? ELF_SECTION_INFO_BLOCK_ID then
        do '(i, _) <- info_parse pair_size pair_id sub; Ok (ElfBlock i, r)
      else Ok (BaseBlock (mkRaw pair_size pair_id (rdata sub)), r).

(** src/signing_block/mod.rs:185-193 [to_u8]. *)
Definition value_to_u8 (v : value) : bytes :=
  match v with
  | V2Block v => v2_to_u8 v
  | StampBlk s => ss_to_u8 s
  | ElfBlock i => info_to_u8 i
  | BaseBlock r => raw_to_u8 r
  end.

(** src/signing_block/mod.rs:199-220 [struct SigningBlock]. *)
Record signing_block := mkBlock {
  bk_start : N;         (* file_offset_start *)
  bk_end : N;           (* file_offset_end *)
  bk_size_start : N;    (* size_of_block_start *)
  bk_content_size : N;  (* content_size *)
  bk_content : list value;
  bk_size_end : N;      (* size_of_block_end *)
  bk_magic : bytes }.

(** [content.iter().fold(0, |acc, x| acc + x.size())] (src/signing_block/mod.rs:230, 256, 281, 308). *)
Definition content_size (l : list value) : N := fold_left (fun acc x => acc + value_size x) l 0.

(** The struct literal of src/signing_block/mod.rs:243-251 / 322-330. *)
Definition fresh_block (l : list value) : signing_block :=
  let size := content_size l + SIZE_UINT64 + MAGIC_LEN in
  mkBlock 0 (SIZE_UINT64 + size) size (content_size l) l size MAGIC.

(** src/signing_block/mod.rs:229-252 [SigningBlock::new]. *)
Definition block_new (l : list value) : res signing_block :=
  let size := content_size l + SIZE_UINT64 + MAGIC_LEN in
  if MAX_SIGNING_BLOCK_SIZE <? size then Err EGeneratedTooLarge
  else Ok (fresh_block l).

(** src/signing_block/mod.rs:255-261 [recalculate_size] (no limit check). *)
Definition recalculate_size (b : signing_block) : signing_block :=
  let cs := content_size (bk_content b) in
  let size := cs + SIZE_UINT64 + MAGIC_LEN in
  mkBlock (bk_start b) (bk_start b + SIZE_UINT64 + size) size cs (bk_content b) size (bk_magic b).

(** src/signing_block/mod.rs:264-266 [content_mut] used as [content_mut().push(v)]. *)
Definition content_push (b : signing_block) (v : value) : signing_block :=
  mkBlock (bk_start b) (bk_end b) (bk_size_start b) (bk_content_size b)
    (bk_content b ++ [v]) (bk_size_end b) (bk_magic b).

(** src/signing_block/mod.rs:275-331 [new_with_padding].  The error message of line 295 computes
    [4096 - v - 4 - 8] in usize arithmetic: evaluated here with [usub], so
    that the overflow check of a Debug build is visible. *)
Definition block_new_with_padding (p : profile) (l : list value) : res signing_block :=
  if existsb (fun c => value_id c =? VERITY_PADDING_BLOCK_ID) l then Err EPaddingExists
  else
    let almost_full_size := SIZE_UINT64 + content_size l + SIZE_UINT64 + MAGIC_LEN in
    let v := almost_full_size mod 4096 in
    do padding_block <-
      (if v =? 0 then Ok []
       else if v + 4 + 8 <=? 4096 then
         Ok [BaseBlock (raw_new VERITY_PADDING_BLOCK_ID (zeros (4096 - (v + 4 + 8))))]
       else
         do a <- usub p 4096 v;
         do b <- usub p a 4;
         do _ <- usub p b 8;
         Err EPaddingGap);
    let new_content := l ++ padding_block in
    let size := content_size new_content + SIZE_UINT64 + MAGIC_LEN in
    if MAX_SIGNING_BLOCK_SIZE <? size then Err EGeneratedTooLarge
    else
      do _ <- debug_assert p ((SIZE_UINT64 + size) mod 4096 =? 0);
      Ok (fresh_block new_content).

(** src/signing_block/mod.rs:675-681 [extract_values]. *)
Definition extract_values (r : reader) : res (list value) :=
  do '(l, _) <- parse_while (loop_fuel r) value_parse (rlen r) r;
  Ok l.

(** src/signing_block/mod.rs:490-597 [parse_full_block].  The [data.get(..)] calls guarded by
    the length test at line 491 cannot return [None]; they are written with
    [takeN]/[dropN]. *)
Definition parse_full_block (p : profile) (data : bytes) : res signing_block :=
  let n := len data in
  if n <? SIZE_UINT64 + SIZE_UINT64 + MAGIC_LEN then Err EFullTooShort
  else
    let magic := dropN (n - MAGIC_LEN) data in
    if negb (beq magic MAGIC) then Err EFullMagicNotFound
    else
      let start_block_size := un_le (takeN 8 data) in
      let end_block_size := un_le (takeN 8 (dropN (n - MAGIC_LEN - SIZE_UINT64) data)) in
      do _ <- debug_assert p (start_block_size =? end_block_size);
      if negb (start_block_size =? end_block_size) then Err ESizesDiffer
      else if end_block_size <? SIZE_UINT64 + MAGIC_LEN then Err EBlockSizeTooSmall
      else
        do expected <- uadd p end_block_size SIZE_UINT64;
        if negb (n =? expected) then Err EBlockLenInconsistent
        else
          let inner := takeN (n - MAGIC_LEN - SIZE_UINT64 - 8) (dropN 8 data) in
          do content <- map_err EExtractingValues (extract_values (new_reader inner));
          Ok (mkBlock 0 n start_block_size (end_block_size - SIZE_UINT64 - MAGIC_LEN)
                content end_block_size MAGIC).

(** Body of the loop of [from_u8] once the magic was found (src/signing_block/mod.rs:623-662). *)
Definition from_u8_at (p : profile) (data : bytes) (start_magic : N) : res signing_block :=
  let end_magic := start_magic + MAGIC_LEN in
  do size_from <- usub p start_magic SIZE_UINT64;
  do size_part <- of_option EU8Bounds (get_range data size_from start_magic);
  let size := un_le size_part in
  if MAX_SIGNING_BLOCK_SIZE <? size then Err EBlockTooBig
  else
    do a <- usub p size MAGIC_LEN;
    do back <- uadd p a SIZE_UINT64;
    if start_magic <? back then Err EU8Bounds
    else
      do full <- of_option EU8Bounds (get_range data (start_magic - back) end_magic);
      parse_full_block p full.

(** src/signing_block/mod.rs:610-664, the loop [for idx in MAGIC_LEN..data.len()]:
    [start_magic = len - idx] goes from [len - 16] down to [1].  The recursion
    is on [start_magic]. *)
Fixpoint from_u8_search (p : profile) (data : bytes) (start_magic : nat) : res signing_block :=
  match start_magic with
  | O => Err EU8MagicNotFound
  | S k =>
      let s := N.of_nat start_magic in
      match get_range data s (s + MAGIC_LEN) with
      | None => Err EU8Bounds
      | Some m => if beq m MAGIC then from_u8_at p data s else from_u8_search p data k
      end
  end.

(** src/signing_block/mod.rs:602-670 [SigningBlock::from_u8]. *)
Definition from_u8 (p : profile) (data : bytes) : res signing_block :=
  if len data <? SIZE_UINT64 + SIZE_UINT64 + MAGIC_LEN then Err EU8TooShort
  else from_u8_search p data (N.to_nat (len data - MAGIC_LEN)).

(** src/signing_block/mod.rs:684-689, 692-700. *)
Definition content_to_u8 (b : signing_block) : bytes := flat_map value_to_u8 (bk_content b).
Definition block_to_u8 (b : signing_block) : bytes :=
  le 8 (bk_size_start b) ++ content_to_u8 b ++ le 8 (bk_size_end b) ++ bk_magic b.

(** src/signing_block/mod.rs:703-706 [get_full_size]. *)
Definition get_full_size (b : signing_block) : N := bk_size_start b + 8.

(** src/signing_block/mod.rs:709-712 [offset_by]. *)
Definition offset_by (b : signing_block) (o : N) : signing_block :=
  mkBlock (bk_start b + o) (bk_end b + o) (bk_size_start b) (bk_content_size b)
    (bk_content b) (bk_size_end b) (bk_magic b).

(** Assignment to both offset fields (src/signing_block/mod.rs:446-447, 474-475). *)
Definition with_offsets (b : signing_block) (s e : N) : signing_block :=
  mkBlock s e (bk_size_start b) (bk_content_size b) (bk_content b) (bk_size_end b) (bk_magic b).

(** src/signing_block/mod.rs:356. *)
Definition MAX_WINDOW_SIZE : N := 16 * 1024 * 1024.

(** A file given to [Read + Seek] code: [read_exact] of [n] bytes at absolute
    position [pos] ([seek(Start(pos))] then [read_exact]). *)
Definition read_exact_at (file : bytes) (pos n : N) : res bytes :=
  match get_range file pos (pos + n) with Some d => Ok d | None => Err EIoEof end.

(** src/signing_block/mod.rs:383-476: the magic was found at [pos] in the window.  [None] is the
    [continue] at line 387 (the [continue] at line 392 cannot be reached). *)
Definition from_reader_at (p : profile) (file : bytes) (file_len window_start : N)
    (window : bytes) (pos : N) : option (res signing_block) :=
  if pos <? SIZE_UINT64 then None
  else Some (
    let size_slice := takeN 8 (dropN (pos - SIZE_UINT64) window) in
    let block_size := un_le size_slice in
    if MAX_SIGNING_BLOCK_SIZE <? block_size then Err EBlockTooBig
    else if file_len <? block_size then Err EBlockExceedsFile
    else
      let block_end_in_window := pos + MAGIC_LEN in
      if block_end_in_window <? block_size + SIZE_UINT64 then
        (* the block starts before the window: read it from the file *)
        if window_start + block_end_in_window <? block_size + SIZE_UINT64
        then Err EBlockLargerThanData
        else
          let start := window_start + block_end_in_window - (block_size + SIZE_UINT64) in
          do full <- read_exact_at file start (block_size + SIZE_UINT64);
          do sig <- map_err EParsingFullBlock (parse_full_block p full);
          Ok (with_offsets sig start (window_start + block_end_in_window))
      else
        let bs := block_end_in_window - (block_size + SIZE_UINT64) in
        do full <- of_option ECannotExtract (get_range window bs block_end_in_window);
        do sig <- map_err EParsingFullBlock (parse_full_block p full);
        Ok (with_offsets sig (window_start + bs) (window_start + block_end_in_window))).

(** src/signing_block/mod.rs:377-478, the loop [for pos in (0..=search_start).rev()]; recursion
    on [pos + 1]. *)
Fixpoint from_reader_search (p : profile) (file : bytes) (file_len window_start : N)
    (window : bytes) (k : nat) : res signing_block :=
  match k with
  | O => Err EReaderMagicNotFound
  | S k' =>
      let pos := N.of_nat k' in
      match get_range window pos (pos + MAGIC_LEN) with
      | Some m =>
          if beq m MAGIC then
            match from_reader_at p file file_len window_start window pos with
            | Some r => r
            | None => from_reader_search p file file_len window_start window k'
            end
          else from_reader_search p file file_len window_start window k'
      | None => from_reader_search p file file_len window_start window k'
      end
  end.

(** src/signing_block/mod.rs:346-485 [SigningBlock::from_reader]. [file] is what the reader
    yields; [file_len] and [end_offset] are the caller's arguments. *)
Definition from_reader (p : profile) (file : bytes) (file_len end_offset : N)
  : res signing_block :=
  let search_end_pos := file_len - end_offset in
  let window_size := N.min search_end_pos MAX_WINDOW_SIZE in
  if window_size <? MAGIC_LEN + SIZE_UINT64 then Err EFileTooSmall
  else
    let window_start := search_end_pos - window_size in
    do window <- read_exact_at file window_start window_size;
    from_reader_search p file file_len window_start window
      (S (N.to_nat (window_size - MAGIC_LEN))).
