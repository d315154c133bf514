(** Race.v - the sign and verify commands (/repo/src/cli/sign.rs, /repo/src/cli/verify.rs)
    while other processes change the files.

    Every operation of a command opens the files it needs by path, again and
    again, and takes no lock.  Here each of them sees a file system of its own;
    between them the other processes do what they like.  Simplification: an
    operation (one digest, one look for a block, one [fs::read]) sees one
    state of the file; a change in the middle of an operation is not modelled. *)
From Verif Require Import Base Algorithms Common SigningBlock Zip Digest Module Signable Signer Verifier Keystore Elf Cli.
Open Scope N_scope.

(** What the file system is when the sign command
    - loads the credentials (src/cli/sign.rs:74-130),
    - looks at the first bytes of the input (src/signable.rs:95, 245-269),
    - opens it (src/signable.rs:97-103; the whole of an ELF file is read here),
    - determines the regions (src/cli/sign.rs:141),
    - computes the digest number [i] (src/cli/sign.rs:166-171),
    - creates the output (src/cli/sign.rs:203),
    - looks for a block in the input (src/signable.rs:332),
    - reads the input (src/signable.rs:335, 343). *)
Record moments := mkMoments {
  at_keys : fs; at_detect : fs; at_open : fs; at_regions : fs; at_digest : nat -> fs;
  at_create : fs; at_check : fs; at_read : fs }.

(** src/signable.rs:94-105 [SignableFile::open]: two looks at the file. *)
Definition race_open (rest : bytes -> bool) (file1 file2 : option bytes) : res signable :=
  do b1 <- of_option (ECli 1) file1;
  do fmt <- detect_file_format b1;
  do b2 <- of_option (ECli 1) file2;
  match fmt with
  | FModule => Ok (SModule (module_new b2))
  | FElf => do f <- elf_new rest b2; Ok (SElf f)
  end.

(** src/cli/sign.rs:166-171: the digests, the first of them number [i]. *)
Fixpoint race_digests p C rest ds (x : signable) (file : nat -> option bytes) (i : nat) (l : list algorithms)
  : res (list (algorithms * bytes)) :=
  match l with
  | [] => Ok []
  | a :: l =>
      do d <- signable_digest p C rest ds x (file i) a;
      do ds <- race_digests p C rest ds x file (S i) l;
      Ok ((a, d) :: ds)
  end.

(** src/signable.rs:331-356: [file1] is what the look for a block sees, [file2] what is read. *)
Definition race_source (p : profile) (m : module) (file1 file2 : bytes) : res (bytes * eocd) :=
  match m_get_signing_block p m file1 with
  | Ok _ =>
      do raw <- m_get_raw_module p m file2;
      do e <- find_eocd raw (len raw);
      Ok (raw, e)
  | Err x =>
      if maybe_missing_signature x then
        do e <- find_eocd file2 (len file2);
        Ok (file2, e)
      else Err (ECannotSignCorrupted x)
  | Panic => Panic
  end.

(** src/signable.rs:173-184 and 322-385 [write_with_signature]. *)
Definition race_write (p : profile) (rest : bytes -> bool) (x : signable) (file1 file2 : option bytes)
    (b : signing_block) : written :=
  match x with
  | SModule m =>
      match race_source p m (now_content file1) (now_content file2) with
      | Err e => ([], Err e)
      | Panic => ([], Panic)
      | Ok (raw, e) => s_write_raw p raw e (block_to_u8 b)
      end
  | SElf f => signable_write p rest (SElf f) file2 b
  end.

(** src/cli/sign.rs:65-212 [execute]: the file that was created and the bytes
    that were written to it, if it got that far, and the exit status. *)
Definition cli_sign_race (p : profile) (C : crypto) (L : keylib) (rest : bytes -> bool)
    (clk : option N) (ds : algorithms -> nat -> nat -> N) (H : moments) (a : sign_args)
  : option (N * bytes) * res unit :=
  match (do signer <- cli_signer L (at_keys H) a;
         do x <- race_open rest (fs_read (at_detect H) (sa_input a)) (fs_read (at_open H) (sa_input a));
         do x <- choose_sections x (sa_sections a);
         do _ <- signable_regions p rest x (fs_read (at_regions H) (sa_input a));
         do l <- race_digests p C rest ds x (fun i => fs_read (at_digest H i) (sa_input a)) 0 (required_algorithms signer);
         do b <- ms_sign p C clk signer (digests_of_pairs l);
         do b <- cli_add_info rest x b;
         Ok (x, b)) with
  | Err e => (None, Err e)
  | Panic => (None, Panic)
  | Ok (x, b) =>
      if fs_can_create (at_create H) (sa_output a) then
        let '(w, r) := race_write p rest x (fs_read (at_check H) (sa_input a)) (fs_read (at_read H) (sa_input a)) b in
        (Some (fs_file (at_create H) (sa_output a), w), r)
      else (None, Err (ECli 6))
  end.

(** No other process: the file system is [s] until the command itself creates
    the output. *)
Definition undisturbed (s : fs) (output : path) : moments :=
  let s1 := apply s (Truncate (fs_file s output)) in
  mkMoments s s s s (fun _ => s) s s1 s1.
(** The effects of a run, as in Cli.v. *)
Definition steps_of (o : option (N * bytes)) : list step :=
  match o with None => [] | Some (f, w) => [Truncate f; Append f w] end.

(** What the file system is when the verify command opens the module
    (src/cli/verify.rs:33), looks for the block (36-38), reads the root
    certificate (43-56) and computes the two digests (64-91). *)
Record vmoments := mkVMoments {
  v_open : fs; v_block : fs; v_root : fs; v_digest : algorithms -> fs }.

(** src/cli/verify.rs:27-332 [execute]. *)
Definition cli_verify_race (p : profile) (C : crypto) (K : pki) (builtin : bytes) (now : option N)
    (ds : algorithms -> nat -> nat -> N) (V : vmoments) (file : path) (root : option path) : res unit :=
  do f <- of_option (ECli 15) (fs_read (v_open V) file);
  let m := module_new f in
  do b <- map_err (fun _ => ECli 16) (m_get_signing_block p m (now_content (fs_read (v_block V) file)));
  do roots <- cli_roots K builtin (v_root V) root;
  do ctx <- cli_add_digest p C ds m (now_content (fs_read (v_digest V ECDSA_SHA2_256) file)) ECDSA_SHA2_256 ctx_new;
  do ctx <- cli_add_digest p C ds m (now_content (fs_read (v_digest V ECDSA_SHA2_512) file)) ECDSA_SHA2_512 ctx;
  match ctx with
  | [] => Err (ECli 17)
  | _ =>
      cli_conclusion (verify_v2_with_digest C K now roots b (Some ctx))
                     (verify_source_stamp_with_digest C K now roots b (Some ctx))
  end.
