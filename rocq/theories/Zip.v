(** Zip.v - model of /repo/src/file_formats/module/zip.rs *)
From Verif Require Import Base SigningBlock.

(** src/file_formats/module/zip.rs:6-8 [EOCD_SIG_U8] = 0x06054b50, little-endian. *)
Definition EOCD_SIG : bytes := [x50; x4b; x05; x06].

(** src/file_formats/module/zip.rs:54, 57. *)
Definition MAX_COMMENT_LEN : N := 65535.
Definition MIN_EOCD_SIZE : N := 22.

(** src/file_formats/module/zip.rs:12-33 [struct EndOfCentralDirectoryRecord]. *)
Record eocd := mkEocd {
  eo_off : N;           (* file_offset *)
  eo_sig : bytes;       (* signature *)
  eo_disk : N;          (* disk_number *)
  eo_disk_cd : N;       (* disk_with_cd *)
  eo_num : N;           (* num_entries *)
  eo_total : N;         (* total_entries *)
  eo_cd_size : N;       (* cd_size *)
  eo_cd_offset : N;     (* cd_offset *)
  eo_comment_len : N;   (* comment_len *)
  eo_comment : bytes }. (* comment *)

(** src/file_formats/module/zip.rs:37-49 [to_u8]. *)
Definition eocd_to_u8 (e : eocd) : bytes :=
  eo_sig e ++ le 2 (eo_disk e) ++ le 2 (eo_disk_cd e) ++ le 2 (eo_num e) ++ le 2 (eo_total e) ++
  le 4 (eo_cd_size e) ++ le 4 (eo_cd_offset e) ++ le 2 (eo_comment_len e) ++ eo_comment e.

(** Bytes [a..b] of [data]; only used where [b <= data.len()] was tested
    before (src/file_formats/module/zip.rs:131), so the [ok_or_else]s of src/file_formats/module/zip.rs:139-170 do not fire. *)
Definition sub (data : bytes) (a b : N) : bytes := takeN (b - a) (dropN a data).

(** src/file_formats/module/zip.rs:121-210 [parse_eocd_at_offset]. *)
Definition parse_eocd_at_offset (buffer : bytes) (offset buffer_offset file_len : N) : res eocd :=
  if len buffer <? offset then Err EEocdInvalid
  else
    let data := dropN offset buffer in
    if len data <? MIN_EOCD_SIZE then Err EEocdInvalid
    else
      let comment_len := un_le (sub data 20 22) in
      let expected_total_size := MIN_EOCD_SIZE + comment_len in
      let file_offset := buffer_offset + offset in
      if file_len <? file_offset + expected_total_size then Err EEocdInvalid
      else if len data <? expected_total_size then Err EEocdInvalid
      else Ok (mkEocd file_offset (sub data 0 4) (un_le (sub data 4 6)) (un_le (sub data 6 8))
                 (un_le (sub data 8 10)) (un_le (sub data 10 12)) (un_le (sub data 12 16))
                 (un_le (sub data 16 20)) comment_len (sub data 22 (22 + comment_len))).

(** src/file_formats/module/zip.rs:95-115 [find_eocd_in_buffer], the loop
    [for i in (0..=search_end).rev()]; recursion on [i + 1]. *)
Fixpoint find_eocd_loop (buffer : bytes) (buffer_offset file_len : N) (k : nat) : res eocd :=
  match k with
  | O => Err EEocdNotFound
  | S k' =>
      let i := N.of_nat k' in
      match get_range buffer i (i + 4) with
      | Some s =>
          if beq s EOCD_SIG then
            match parse_eocd_at_offset buffer i buffer_offset file_len with
            | Ok e => Ok e
            | _ => find_eocd_loop buffer buffer_offset file_len k'
            end
          else find_eocd_loop buffer buffer_offset file_len k'
      | None => find_eocd_loop buffer buffer_offset file_len k'
      end
  end.

(** src/file_formats/module/zip.rs:66-89 [find_eocd].  [file] is what the reader yields, [file_len]
    the caller's argument. *)
Definition find_eocd (file : bytes) (file_len : N) : res eocd :=
  if file_len <? MIN_EOCD_SIZE then Err EZipTooSmall
  else
    let search_size := N.min (MAX_COMMENT_LEN + MIN_EOCD_SIZE) file_len in
    let read_start := file_len - search_size in
    do buffer <- read_exact_at file read_start search_size;
    find_eocd_loop buffer read_start file_len (S (N.to_nat (len buffer - MIN_EOCD_SIZE))).

(** src/file_formats/module/zip.rs:239-252 [struct FileOffsets]. *)
Record file_offsets := mkOffsets {
  fo_start_content : N; fo_stop_content : N; fo_start_cd : N;
  fo_stop_cd : N; fo_start_eocd : N; fo_stop_eocd : N }.

(** src/file_formats/module/zip.rs:256-270 [FileOffsets::new]. *)
Definition offsets_new (stop_content start_cd stop_cd stop_eocd : N) : file_offsets :=
  mkOffsets 0 stop_content start_cd stop_cd stop_cd stop_eocd.

(** src/file_formats/module/zip.rs:274-276 [without_signature]. *)
Definition offsets_without_signature (stop_content stop_cd stop_eocd : N) : file_offsets :=
  offsets_new stop_content stop_content stop_cd stop_eocd.
