(** Digest.v - model of /repo/src/file_formats/module/digest.rs *)
From Verif Require Import Base Algorithms Zip.

(** src/file_formats/module/digest.rs:11-16. *)
Definition START_BYTE_CHUNK : byte := xa5.
Definition START_BYTE_END_CHUNK : byte := x5a.
Definition CHUNK_SIZE : N := 1048576.

(** src/file_formats/module/digest.rs:19-25 [digest_chunk]. *)
Definition digest_chunk (C : crypto) (a : algorithms) (chunk : bytes) : bytes :=
  hash C a (START_BYTE_CHUNK :: le 4 (len chunk) ++ chunk).

(** src/file_formats/module/digest.rs:42-50, the loop over [BufReader::fill_buf] on a reader that
    yields [data].  [Read::read] may return fewer bytes than asked for: the
    [k]-th [fill_buf] returns [sched k] bytes, but at least one, at most the
    buffer capacity and at most what is left.  [fuel] is the data length: every
    iteration consumes at least one byte ([chunks_concat] in DigestFacts.v
    shows that nothing is lost). *)
Fixpoint chunks (sched : nat -> N) (k : nat) (fuel : nat) (data : bytes) : list bytes :=
  match data with
  | [] => []
  | _ :: _ =>
      match fuel with
      | O => []
      | S fuel' =>
          let n := N.max 1 (N.min (sched k) CHUNK_SIZE) in
          takeN n data :: chunks sched (S k) fuel' (dropN n data)
      end
  end.

(** A reader that always fills the buffer ([Cursor], and files in practice). *)
Definition full_reads : nat -> N := fun _ => CHUNK_SIZE.

Definition read_chunks (sched : nat -> N) (data : bytes) : list bytes :=
  chunks sched 0 (length data) data.

(** [seek(SeekFrom::Start(pos))] on a [File]: lseek rejects offsets that do not
    fit a signed 64-bit integer. *)
Definition I64 : N := 9223372036854775808.
Definition seek (pos : N) : res unit := if pos <? I64 then Ok tt else Err EIoSeek.

(** What [file.take(size)] yields after [seek(start)]: stops at end of file. *)
Definition taken (file : bytes) (start size : N) : bytes := takeN size (dropN start file).

(** src/file_formats/module/digest.rs:30-52 [digest_zip_contents] and 57-78 [digest_central_directory]
    (same body). *)
Definition digest_region (C : crypto) (a : algorithms) (sched : nat -> N) (file : bytes)
    (start size : N) : res (list bytes) :=
  do _ <- seek start;
  Ok (map (digest_chunk C a) (read_chunks sched (taken file start size))).

(** src/file_formats/module/digest.rs:83-123 [digest_end_of_central_directory]: the file is read from
    [start] to its end ([read_to_end] retries short reads), the directory
    offset is replaced, and the result is read back from a [Cursor].
    [Vec::with_capacity(eocd_size)] panics above [isize::MAX]. *)
Definition digest_eocd (C : crypto) (a : algorithms) (file : bytes)
    (start eocd_size cd_offset : N) : res (list bytes) :=
  do _ <- seek start;
  if I64 <=? eocd_size then Panic
  else
    let buff := dropN start file in
    if len buff <? 16 then Err EEocdInvalid
    else if len buff <? 20 then Err EEocdInvalid
    else
      let patched := takeN 16 buff ++ le 4 cd_offset ++ dropN 20 buff in
      Ok (map (digest_chunk C a) (read_chunks full_reads patched)).

(** src/file_formats/module/digest.rs:126-131 [digest_final_digest]. *)
Definition digest_final (C : crypto) (a : algorithms) (ds : list bytes) : bytes :=
  hash C a (START_BYTE_END_CHUNK :: le 4 (len ds) ++ concat ds).

(** src/file_formats/module/digest.rs:136-175 [digest_module].  [sched 0] and [sched 1] are the read
    schedules of the two streamed regions. *)
Definition digest_module (p : profile) (C : crypto) (sched : nat -> nat -> N) (file : bytes)
    (o : file_offsets) (a : algorithms) : res bytes :=
  do n1 <- usub p (fo_stop_content o) (fo_start_content o);
  do d1 <- digest_region C a (sched 0%nat) file (fo_start_content o) n1;
  do n2 <- usub p (fo_stop_cd o) (fo_start_cd o);
  do d2 <- digest_region C a (sched 1%nat) file (fo_start_cd o) n2;
  do n3 <- usub p (fo_stop_eocd o) (fo_start_eocd o);
  do d3 <- digest_eocd C a file (fo_start_eocd o) n3 (fo_stop_content o);
  Ok (digest_final C a (d1 ++ d2 ++ d3)).
