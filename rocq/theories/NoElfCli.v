(** NoElfCli.v - model of the command-line tool in a build without the cargo feature
    [elf]: Cli.v and Main.v once more, over NoElf.v.  [SignableFile] then has one case,
    the module. *)
From Verif Require Import Base Utils Algorithms Common SchemeV2 SourceStamp ElfInfo SigningBlock Zip Digest Module Signable Signer Verifier ModuleVerify
  Utf8 Keystore Elf Cli Main NoElf.
From Coq Require Import Strings.String.
Open Scope N_scope.

(** src/signable.rs:94-105 [open]; [None]: the file cannot be read. *)
Definition signable_open_n (file : option bytes) : res module :=
  do b <- of_option (ECli 1) file; open_n b.

(** src/cli/sign.rs:140-143, src/cli/digest.rs:63-66. *)
Definition refuse_sections (l : list rstring) : res unit :=
  match l with [] => Ok tt | _ => Err (ECli 19) end.

(** src/signable.rs:282-301 [<Module as Signable>::digest_regions]; see Signable.v. *)
Definition m_digest_regions_w (pv : value_parser) (p : profile) (m : module) (file : bytes) : res (list region) :=
  do o <- m_get_offsets_w pv p m file;
  do n1 <- usub p (fo_stop_content o) (fo_start_content o);
  do n2 <- usub p (fo_stop_cd o) (fo_start_cd o);
  do n3 <- usub p (fo_stop_eocd o) (fo_start_eocd o);
  Ok [mkRegion (bstr "zip_entries") (fo_start_content o) n1;
      mkRegion (bstr "central_directory") (fo_start_cd o) n2;
      mkRegion (bstr "eocd") (fo_start_eocd o) n3].

(** src/cli/sign.rs:166-171. *)
Fixpoint cli_digests_n p C (ds : algorithms -> nat -> nat -> N) (m : module) (file : bytes) (l : list algorithms)
  : res (list (algorithms * bytes)) :=
  match l with
  | [] => Ok []
  | a :: l =>
      do d <- m_digest_w value_parse_n p C (ds a) m file a;
      do l <- cli_digests_n p C ds m file l;
      Ok ((a, d) :: l)
  end.

(** src/cli/sign.rs:74-200 without lines 135-138 and 181-194. *)
Definition cli_sign_block_n (p : profile) (C : crypto) (L : keylib)
    (clk : option N) (ds : algorithms -> nat -> nat -> N) (s : fs) (a : sign_args)
  : res (module * signing_block) :=
  do signer <- cli_signer L s a;
  let file := fs_read s (sa_input a) in
  do m <- signable_open_n file;
  do _ <- refuse_sections (sa_sections a);
  do _ <- m_digest_regions_w value_parse_n p m (now_content file);
  do l <- cli_digests_n p C ds m (now_content file) (required_algorithms signer);
  do b <- ms_sign p C clk signer (digests_of_pairs l);
  Ok (m, b).

(** src/cli/sign.rs:65-212 [execute]. *)
Definition cli_sign_n (p : profile) (C : crypto) (L : keylib)
    (clk : option N) (ds : algorithms -> nat -> nat -> N) (s : fs) (a : sign_args)
  : list step * res unit :=
  match cli_sign_block_n p C L clk ds s a with
  | Err e => ([], Err e)
  | Panic => ([], Panic)
  | Ok (m, b) =>
      if fs_can_create s (sa_output a) then
        let out := fs_file s (sa_output a) in
        let s1 := apply s (Truncate out) in
        let '(w, r) := s_write_with_signature_w value_parse_n p m (now_content (fs_read s1 (sa_input a))) b in
        ([Truncate out; Append out w], r)
      else ([], Err (ECli 6))
  end.

(** src/cli/verify.rs:63-76 and 78-91. *)
Definition cli_add_digest_n p C (ds : algorithms -> nat -> nat -> N) (m : module) (file : bytes) (a : algorithms) (ctx : context)
  : res context :=
  match m_digest_w value_parse_n p C (ds a) m file a with
  | Ok d => Ok (add_digest ctx (u32_of_algo a) d)
  | Err _ => Ok ctx
  | Panic => Panic
  end.

(** src/cli/verify.rs:27-332 [execute]. *)
Definition cli_verify_n (p : profile) (C : crypto) (K : pki) (builtin : bytes) (now : option N)
    (ds : algorithms -> nat -> nat -> N) (s : fs) (file : path) (root : option path) : res unit :=
  do f <- of_option (ECli 15) (fs_read s file);
  let m := module_new f in
  do b <- map_err (fun _ => ECli 16) (m_get_signing_block_w value_parse_n p m f);
  do roots <- cli_roots K builtin s root;
  do ctx <- cli_add_digest_n p C ds m f ECDSA_SHA2_256 ctx_new;
  do ctx <- cli_add_digest_n p C ds m f ECDSA_SHA2_512 ctx;
  match ctx with
  | [] => Err (ECli 17)
  | _ =>
      cli_conclusion (verify_v2_with_digest C K now roots b (Some ctx))
                     (verify_source_stamp_with_digest C K now roots b (Some ctx))
  end.

(** src/cli/info.rs:20-133 [execute] without lines 51-54. *)
Definition cli_info_n (p : profile) (C : crypto) (K : pki) (builtin : bytes) (now : option N)
    (s : fs) (file : path) : res info_output :=
  do f <- of_option (ECli 15) (fs_read s file);
  do b <- from_reader_w value_parse_n p f (len f) 0;
  let roots := roots_with_builtin K builtin in
  Ok (mkInfoOut b (verify_v2_with_digest C K now roots b None)
        (match verify_source_stamp C K now roots b with
         | VOk r => if vr_signature_valid r then Some r else None
         | VErr _ => None
         end)).

(** src/cli/digest.rs:53-122 [execute]. *)
Definition cli_digest_n (p : profile) (C : crypto) (base64 : bytes -> bytes)
    (ds : algorithms -> nat -> nat -> N) (s : fs) (a : digest_args)
  : list step * res (option bytes) :=
  let file := fs_read s (da_input a) in
  match (do m <- signable_open_n file;
         do _ <- refuse_sections (da_sections a);
         do l <- m_digest_regions_w value_parse_n p m (now_content file);
         do _ <- total_size p l 0;
         Ok (m, l)) with
  | Err e => ([], Err e)
  | Panic => ([], Panic)
  | Ok (m, l) =>
      match da_dump a with
      | Some out =>
          let '(w, r) := dump_regions p s (da_input a) out l in
          (w, do _ <- r; Ok None)
      | None =>
          let algo := if da_sha512 a then ECDSA_SHA2_512 else ECDSA_SHA2_256 in
          ([], do d <- m_digest_w value_parse_n p C (ds algo) m (now_content file) algo;
               Ok (Some (match da_format a with Hex => hex_encode d | Base64 => base64 d end)))
      end
  end.

(** src/cli/mod.rs:53-61 [Cli::execute] and src/main.rs:5-12. *)
Definition execute_n (W : world) (s : fs) (c : command) : list step * res unit :=
  match c with
  | CSign a => cli_sign_n (w_profile W) (w_crypto W) (w_keys W) (w_clock W) (w_reads W) s a
  | CVerify file root =>
      ([], cli_verify_n (w_profile W) (w_crypto W) (w_pki W) (w_builtin W) (w_clock W) (w_reads W) s file root)
  | CInfo file =>
      ([], do _ <- cli_info_n (w_profile W) (w_crypto W) (w_pki W) (w_builtin W) (w_clock W) s file; Ok tt)
  | CDigest a =>
      let '(l, r) := cli_digest_n (w_profile W) (w_crypto W) (w_base64 W) (w_reads W) s a in
      (l, do _ <- r; Ok tt)
  end.
Definition program_n (W : world) (s : fs) (c : command) : list step * N :=
  let '(l, r) := execute_n W s c in (l, exit_status r).
