(** RaceDigest.v - the digest and info commands (/repo/src/cli/digest.rs,
    /repo/src/cli/info.rs) while other processes change the files.  As in Race.v
    each operation sees a file system of its own; the dump sees one for every
    piece it reads (src/cli/digest.rs:142-151).  Simplification: a piece of at most 64 KiB
    ([read_exact]), one digest and one search for a block see one state. *)
From Verif Require Import Base Utils Algorithms Utf8 SigningBlock Zip Digest Module Signable Signer Verifier Elf Cli Race.
Open Scope N_scope.

(** What the file system is when the digest command
    - looks at the first bytes of the input (src/signable.rs:95, 245-269),
    - opens it (src/signable.rs:97-103; the whole of an ELF file is read here),
    - determines the regions (src/cli/digest.rs:78),
    - computes the digest (105), or
    - opens the input again for a dump (130),
    - creates the output (131),
    - reads the piece number [i] of the input (148). *)
Record dmoments := mkDMoments {
  d_detect : fs; d_open : fs; d_regions : fs; d_digest : fs;
  d_input : fs; d_create : fs; d_piece : nat -> fs }.

(** src/cli/digest.rs:142-151: the pieces of one region, the first of them number [k]: the
    bytes written, the number of the next piece, and the result.  The input stays
    open, so it is the same file [inp], whatever its path denotes meanwhile.  The
    fuel is never used up (RaceDigestFacts.v). *)
Fixpoint race_pieces (fuel : nat) (at_piece : nat -> fs) (inp : N) (pos remaining : N) (k : nat)
  : bytes * nat * res unit :=
  if remaining =? 0 then ([], k, Ok tt)
  else
    match fuel with
    | O => ([], k, Err EFuel)
    | S fuel' =>
        let n := N.min remaining BUFFER_SIZE in
        match read_exact_at (now_content (fs_data (at_piece k) inp)) pos n with
        | Err e => ([], k, Err e)
        | Panic => ([], k, Panic)
        | Ok b =>
            let '(w, k', r) := race_pieces fuel' at_piece inp (pos + n) (remaining - n) (S k) in
            (b ++ w, k', r)
        end
    end.
Definition race_fuel (size : N) : nat := N.to_nat (size / BUFFER_SIZE + 1).

(** src/cli/digest.rs:138-153. *)
Fixpoint race_regions (p : profile) (at_piece : nat -> fs) (inp : N) (l : list region) (total : N) (k : nat)
  : bytes * res unit :=
  match l with
  | [] => ([], Ok tt)
  | g :: l =>
      match seek (rg_offset g) with
      | Ok _ =>
          let '(w, k', r) := race_pieces (race_fuel (rg_size g)) at_piece inp (rg_offset g) (rg_size g) k in
          match (do _ <- r; uadd p total (rg_size g)) with
          | Ok total =>
              let '(w', r') := race_regions p at_piece inp l total k' in
              (w ++ w', r')
          | Err e => (w, Err e)
          | Panic => (w, Panic)
          end
      | Err e => ([], Err e)
      | Panic => ([], Panic)
      end
  end.

(** src/cli/digest.rs:53-164 [execute], [dump_regions]: the file that was created and the
    bytes that were written to it, if it got that far, and the printed digest. *)
Definition cli_digest_race (p : profile) (C : crypto) (rest : bytes -> bool) (base64 : bytes -> bytes)
    (ds : algorithms -> nat -> nat -> N) (H : dmoments) (a : digest_args)
  : option (N * bytes) * res (option bytes) :=
  match (do x <- race_open rest (fs_read (d_detect H) (da_input a)) (fs_read (d_open H) (da_input a));
         do x <- choose_sections x (da_sections a);
         do l <- signable_regions p rest x (fs_read (d_regions H) (da_input a));
         do _ <- total_size p l 0;
         Ok (x, l)) with
  | Err e => (None, Err e)
  | Panic => (None, Panic)
  | Ok (x, l) =>
      match da_dump a with
      | Some out =>
          match fs_read (d_input H) (da_input a) with
          | None => (None, Err (ECli 1))
          | Some _ =>
              if fs_can_create (d_create H) out then
                let '(w, r) := race_regions p (d_piece H) (fs_file (d_input H) (da_input a)) l 0 0 in
                (Some (fs_file (d_create H) out, w), do _ <- r; Ok None)
              else (None, Err (ECli 6))
          end
      | None =>
          let algo := if da_sha512 a then ECDSA_SHA2_512 else ECDSA_SHA2_256 in
          (None, do d <- signable_digest p C rest ds x (fs_read (d_digest H) (da_input a)) algo;
                 Ok (Some (match da_format a with Hex => hex_encode d | Base64 => base64 d end)))
      end
  end.

(** No other process: the file system is [s] until the command itself creates
    the output, which is another file than the input. *)
Definition d_undisturbed (s : fs) (dump : option path) : dmoments :=
  mkDMoments s s s s s s
    (fun _ => match dump with Some out => apply s (Truncate (fs_file s out)) | None => s end).

(** src/cli/info.rs:20-133 [execute]: the length of the file is determined first (24), then
    the block is searched for in the open file (30). *)
Definition cli_info_race (p : profile) (C : crypto) (K : pki) (builtin : bytes) (now : option N)
    (s_len s_read : fs) (file : path) : res info_output :=
  do f <- of_option (ECli 15) (fs_read s_len file);
  do b <- from_reader p (now_content (fs_data s_read (fs_file s_len file))) (len f) 0;
  let roots := roots_with_builtin K builtin in
  Ok (mkInfoOut b (verify_v2_with_digest C K now roots b None)
        (match verify_source_stamp C K now roots b with
         | VOk r => if vr_signature_valid r then Some r else None
         | VErr _ => None
         end)).
