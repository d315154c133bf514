(** DigestRace.v - model of /repo/src/file_formats/module/digest.rs while other
    processes write to the file: every single read may see another content.  [V r k]
    is the content of the file at the [k]-th read of region [r] (0: contents, 1:
    central directory, 2: end of central directory).  See Digest.v for the same
    functions on a file that stands still. *)
From Verif Require Import Base Algorithms Zip Digest Module.
Open Scope N_scope.

(** src/file_formats/module/digest.rs:42-50 (= 65-73), the loop over [fill_buf] of a
    [BufReader] over [take(left)]: the [k]-th read starts at [pos], sees [V k] and
    returns [sched k] bytes, but at least one, at most the buffer's capacity, [left]
    and what the file has there.  A read of 0 bytes ends the loop.  [fuel] is the size
    of the region: every read but the last consumes at least one byte of it. *)
Fixpoint chunks_r (V : nat -> bytes) (sched : nat -> N) (k fuel : nat) (pos left : N) : list bytes :=
  match fuel with
  | O => []
  | S fuel' =>
      match takeN left (dropN pos (V k)) with
      | [] => []
      | avail =>
          let c := takeN (N.max 1 (N.min (sched k) CHUNK_SIZE)) avail in
          c :: chunks_r V sched (S k) fuel' (pos + len c) (left - len c)
      end
  end.

(** src/file_formats/module/digest.rs:30-52 [digest_zip_contents] and 57-78
    [digest_central_directory]. *)
Definition digest_region_r (C : crypto) (a : algorithms) (V : nat -> bytes) (sched : nat -> N) (start size : N) : res (list bytes) :=
  do _ <- seek start;
  Ok (map (digest_chunk C a) (chunks_r V sched 0 (N.to_nat size) start size)).

(** [read_to_end] (src/file_formats/module/digest.rs:93): reads until a read returns
    nothing; [None] if that has not happened after [fuel] reads. *)
Fixpoint read_end (V : nat -> bytes) (sched : nat -> N) (k fuel : nat) (pos : N) : option bytes :=
  match fuel with
  | O => None
  | S fuel' =>
      match dropN pos (V k) with
      | [] => Some []
      | avail =>
          let c := takeN (N.max 1 (sched k)) avail in
          match read_end V sched (S k) fuel' (pos + len c) with Some rest => Some (c ++ rest) | None => None end
      end
  end.

(** src/file_formats/module/digest.rs:83-123 [digest_end_of_central_directory];
    [None]: still reading after [fuel] reads. *)
Definition digest_eocd_r (C : crypto) (a : algorithms) (V : nat -> bytes) (sched : nat -> N) (fuel : nat)
    (start eocd_size cd_offset : N) : option (res (list bytes)) :=
  match seek start with
  | Ok _ =>
      if I64 <=? eocd_size then Some Panic
      else
        match read_end V sched 0 fuel start with
        | None => None
        | Some buff => Some (
            if len buff <? 16 then Err EEocdInvalid
            else if len buff <? 20 then Err EEocdInvalid
            else
              let patched := takeN 16 buff ++ le 4 cd_offset ++ dropN 20 buff in
              Ok (map (digest_chunk C a) (read_chunks full_reads patched)))
        end
  | Err e => Some (Err e)
  | Panic => Some Panic
  end.

(** src/file_formats/module/digest.rs:136-175 [digest_module]. *)
Definition digest_module_r (p : profile) (C : crypto) (sched : nat -> nat -> N) (V : nat -> nat -> bytes) (fuel : nat)
    (o : file_offsets) (a : algorithms) : option (res bytes) :=
  match (do n1 <- usub p (fo_stop_content o) (fo_start_content o);
         do d1 <- digest_region_r C a (V 0%nat) (sched 0%nat) (fo_start_content o) n1;
         do n2 <- usub p (fo_stop_cd o) (fo_start_cd o);
         do d2 <- digest_region_r C a (V 1%nat) (sched 1%nat) (fo_start_cd o) n2;
         do n3 <- usub p (fo_stop_eocd o) (fo_start_eocd o);
         Ok (d1, d2, n3)) with
  | Ok (d1, d2, n3) =>
      match digest_eocd_r C a (V 2%nat) (sched 2%nat) fuel (fo_start_eocd o) n3 (fo_stop_content o) with
      | None => None
      | Some (Ok d3) => Some (Ok (digest_final C a (d1 ++ d2 ++ d3)))
      | Some (Err e) => Some (Err e)
      | Some Panic => Some Panic
      end
  | Err e => Some (Err e)
  | Panic => Some Panic
  end.

(** src/file_formats/module/mod.rs:307-311 [Module::digest].  Simplification: the
    search for the offsets sees one content of the file, [f]. *)
Definition m_digest_r (p : profile) (C : crypto) (sched : nat -> nat -> N) (V : nat -> nat -> bytes) (fuel : nat)
    (m : module) (f : bytes) (a : algorithms) : option (res bytes) :=
  match m_get_offsets p m f with
  | Ok o => digest_module_r p C sched V fuel o a
  | Err e => Some (Err e)
  | Panic => Some Panic
  end.
