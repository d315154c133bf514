(** Cli.v - model of /repo/src/signable.rs:80-185 ([SignableFile]) and of the
    command-line tool: /repo/src/cli/{sign,verify,info,digest}.rs.

    Not modelled: argument parsing (clap), the texts printed (except the digest
    that [digest] prints), /repo/src/cli/cert.rs (formatting of certificates). *)
From Verif Require Import Base Utils Algorithms Common SchemeV2 SourceStamp Utf8 ElfInfo SigningBlock
  Zip Digest Module Signable Signer Verifier Keystore Elf.
From Coq Require Import Strings.String.
Open Scope N_scope.

(** * The file system *)

(** A path denotes a file, given by a number: paths that are the same file (the
    same path written differently, a symbolic or hard link) have the same
    number.  [fs_data] is a file's content, [None] if there is no such file.
    [fs_can_read], [fs_can_create]: whether [File::open] / [File::create] is
    permitted.  No other process is running; for changes by others see Race.v. *)
Definition path := bytes.
Record fs := mkFs {
  fs_file : path -> N; fs_data : N -> option bytes;
  fs_can_read : path -> bool; fs_can_create : path -> bool }.

Definition put (s : fs) (f : N) (b : bytes) : fs :=
  mkFs (fs_file s) (fun g => if g =? f then Some b else fs_data s g) (fs_can_read s) (fs_can_create s).

(** The content of the file at a path, if it can be opened for reading. *)
Definition fs_read (s : fs) (p : path) : option bytes :=
  if fs_can_read s p then fs_data s (fs_file s p) else None.

(** What a command does to the file system, in order: [File::create] (the file
    becomes empty) and [write] at the end of a file. *)
Inductive step := Truncate (f : N) | Append (f : N) (b : bytes).
Definition apply (s : fs) (x : step) : fs :=
  match x with
  | Truncate f => put s f []
  | Append f b => put s f (match fs_data s f with Some c => c ++ b | None => b end)
  end.
Definition run (s : fs) (l : list step) : fs := fold_left apply l s.

(** * src/signable.rs:80-185 [SignableFile] *)

(** src/signable.rs:81-87. *)
Inductive signable := SModule (m : module) | SElf (f : elf_file).

(** src/signable.rs:94-105 [open] on a file with the given content, [None] if it
    cannot be read. *)
Definition signable_open (rest : bytes -> bool) (file : option bytes) : res signable :=
  do b <- of_option (ECli 1) file;
  do fmt <- detect_file_format b;
  match fmt with
  | FModule => Ok (SModule (module_new b))
  | FElf => do f <- elf_new rest b; Ok (SElf f)
  end.

(** src/signable.rs:122-131 [set_elf_sections]. *)
Definition set_elf_sections (x : signable) (l : list rstring) : res signable :=
  match x with
  | SElf f => do f <- set_signed_sections f l; Ok (SElf f)
  | SModule _ => Err EInvalidFormat
  end.

(** src/cli/sign.rs:135-138, src/cli/digest.rs:58-61: only if the list is not empty. *)
Definition choose_sections (x : signable) (l : list rstring) : res signable :=
  match l with [] => Ok x | _ => set_elf_sections x l end.

(** The content of the file that a [Module] reads; a file that has disappeared
    is read as an empty one (both are errors everywhere). *)
Definition now_content (file : option bytes) : bytes := match file with Some b => b | None => [] end.

(** src/signable.rs:137-143 [digest_regions]; [file] is the current content. *)
Definition signable_regions (p : profile) (rest : bytes -> bool) (x : signable) (file : option bytes)
  : res (list region) :=
  match x with
  | SModule m => m_digest_regions p m (now_content file)
  | SElf f => elf_digest_regions rest f
  end.

(** src/signable.rs:149-155 [digest]; [ds] are the read schedules of the file. *)
Definition signable_digest (p : profile) (C : crypto) (rest : bytes -> bool)
    (ds : algorithms -> nat -> nat -> N) (x : signable) (file : option bytes) (a : algorithms)
  : res bytes :=
  match x with
  | SModule m => m_digest p C (ds a) m (now_content file) a
  | SElf f => elf_digest rest C f a
  end.

(** src/signable.rs:173-184 [write_with_signature]: the bytes written and the
    result. *)
Definition signable_write (p : profile) (rest : bytes -> bool) (x : signable) (file : option bytes)
    (b : signing_block) : written :=
  match x with
  | SModule m => s_write_with_signature p m (now_content file) b
  | SElf f =>
      match elf_write_with_signature rest f b with
      | Ok out => (out, Ok tt)
      | Err e => ([], Err e)
      | Panic => ([], Panic)
      end
  end.

(** * sign *)

(** The four options that select credentials (src/cli/sign.rs:27-49). *)
Record key_args := mkKeyArgs {
  ka_p12 : option path; ka_key : option path; ka_cert : option path; ka_password : option bytes }.
(** src/cli/sign.rs:15-62 [SignArgs]. *)
Record sign_args := mkSignArgs {
  sa_input : path; sa_output : path; sa_v2 : key_args; sa_stamp : key_args;
  sa_sections : list rstring }.

(** [to_str()]: the path must be valid UTF-8. *)
Definition path_str (p : path) : res path :=
  match utf8_dec p with Some _ => Ok p | None => Err (ECli 2) end.

(** src/cli/sign.rs:75-90 and 95-116: [None] if neither a keystore nor a key is given. *)
Definition load_credentials (L : keylib) (s : fs) (k : key_args) : res (option credentials) :=
  match ka_p12 k with
  | Some p12 =>
      do pwd <- of_option (ECli 3) (ka_password k);
      do p <- path_str p12;
      do c <- load_p12 L (fs_read s p) pwd;
      Ok (Some c)
  | None =>
      match ka_key k with
      | Some key =>
          do cert <- of_option (ECli 4) (ka_cert k);
          do kp <- path_str key;
          do cp <- path_str cert;
          do c <- load_pem L (fs_read s kp) (fs_read s cp) (ka_password k);
          Ok (Some c)
      | None => Ok None
      end
  end.

(** src/cli/sign.rs:74-130: the signer. *)
Definition cli_signer (L : keylib) (s : fs) (a : sign_args) : res module_signer :=
  do v2 <- load_credentials L s (sa_v2 a);
  do v2 <- of_option (ECli 5) v2;
  do stamp <- load_credentials L s (sa_stamp a);
  match stamp with
  | Some st => Ok (ms_with_stamp (config_from_credentials v2) (config_from_credentials st))
  | None => Ok (ms_v2_only (config_from_credentials v2))
  end.

(** src/cli/sign.rs:166-171: the digests. *)
Fixpoint cli_digests p C rest ds (x : signable) (file : option bytes) (l : list algorithms)
  : res (list (algorithms * bytes)) :=
  match l with
  | [] => Ok []
  | a :: l =>
      do d <- signable_digest p C rest ds x file a;
      do ds <- cli_digests p C rest ds x file l;
      Ok ((a, d) :: ds)
  end.

(** src/cli/sign.rs:181-194: the section list is appended for ELF files. *)
Definition cli_add_info (rest : bytes -> bool) (x : signable) (b : signing_block) : res signing_block :=
  match x with
  | SElf f =>
      do l <- resolved_sections rest f;
      Ok (recalculate_size (content_push b (ElfBlock (info_from_tuples l))))
  | SModule _ => Ok b
  end.

(** src/cli/sign.rs:74-200: everything before the output is touched. *)
Definition cli_sign_block (p : profile) (C : crypto) (L : keylib) (rest : bytes -> bool)
    (clk : option N) (ds : algorithms -> nat -> nat -> N) (s : fs) (a : sign_args)
  : res (signable * signing_block) :=
  do signer <- cli_signer L s a;
  let file := fs_read s (sa_input a) in
  do x <- signable_open rest file;
  do x <- choose_sections x (sa_sections a);
  do _ <- signable_regions p rest x file;
  do l <- cli_digests p C rest ds x file (required_algorithms signer);
  do b <- ms_sign p C clk signer (digests_of_pairs l);
  do b <- cli_add_info rest x b;
  Ok (x, b).

(** src/cli/sign.rs:65-212 [execute].  The output is created before the module is read
    again (src/signable.rs:331-352).  The [BufWriter] hands the bytes on in pieces
    and in order, also when it is dropped after an error; see [reached] in
    CliSpec.v for the states in between. *)
Definition cli_sign (p : profile) (C : crypto) (L : keylib) (rest : bytes -> bool)
    (clk : option N) (ds : algorithms -> nat -> nat -> N) (s : fs) (a : sign_args)
  : list step * res unit :=
  match cli_sign_block p C L rest clk ds s a with
  | Err e => ([], Err e)
  | Panic => ([], Panic)
  | Ok (x, b) =>
      if fs_can_create s (sa_output a) then
        let out := fs_file s (sa_output a) in
        let s1 := apply s (Truncate out) in
        let '(w, r) := signable_write p rest x (fs_read s1 (sa_input a)) b in
        ([Truncate out; Append out w], r)
      else ([], Err (ECli 6))
  end.

(** * verify *)

(** src/cli/verify.rs:42-58: the roots. *)
Definition cli_roots (K : pki) (builtin : bytes) (s : fs) (root : option path) : res trusted_roots :=
  match root with
  | Some r =>
      do pem <- of_option (ECli 7) (fs_read s r);
      of_option (ECli 8) (add_root_pem K roots_new pem)
  | None => Ok (roots_with_builtin K builtin)
  end.

(** src/cli/verify.rs:63-76 and 78-91: a digest that cannot be computed is skipped. *)
Definition cli_add_digest p C ds (m : module) (file : bytes) (a : algorithms) (ctx : context)
  : res context :=
  match m_digest p C (ds a) m file a with
  | Ok d => Ok (add_digest ctx (u32_of_algo a) d)
  | Err _ => Ok ctx
  | Panic => Panic
  end.

(** src/cli/verify.rs:125-331: the exit status, given the two results.  First the V2
    result (99-118, 126-206), then the stamp (211-289), then the conclusion
    (294-331; its other branches cannot be reached). *)
Definition cli_conclusion (v2 stamp : vres) : res unit :=
  match v2 with
  | VErr VNoSignature => Err (ECli 9)
  | VErr _ => Err (ECli 10)
  | VOk r =>
      if negb (vr_signature_valid r) then Err (ECli 10)
      else if negb (vr_digest_valid r) then Err (ECli 11)
      else if negb (vr_chain_valid r) then Err (ECli 12)
      else if negb (vr_trusted r) then Err (ECli 13)
      else
        match stamp with
        | VOk r =>
            if vr_signature_valid r && vr_digest_valid r && vr_chain_valid r && vr_trusted r
            then Ok tt else Err (ECli 14)
        | VErr VNoSignature => Ok tt
        | VErr _ => Err (ECli 14)
        end
  end.

(** src/cli/verify.rs:27-332 [execute]. *)
Definition cli_verify (p : profile) (C : crypto) (K : pki) (builtin : bytes) (now : option N)
    (ds : algorithms -> nat -> nat -> N) (s : fs) (file : path) (root : option path) : res unit :=
  do f <- of_option (ECli 15) (fs_read s file);
  let m := module_new f in
  do b <- map_err (fun _ => ECli 16) (m_get_signing_block p m f);
  do roots <- cli_roots K builtin s root;
  do ctx <- cli_add_digest p C ds m f ECDSA_SHA2_256 ctx_new;
  do ctx <- cli_add_digest p C ds m f ECDSA_SHA2_512 ctx;
  match ctx with
  | [] => Err (ECli 17)
  | _ =>
      cli_conclusion (verify_v2_with_digest C K now roots b (Some ctx))
                     (verify_source_stamp_with_digest C K now roots b (Some ctx))
  end.

(** * info *)

(** src/cli/info.rs:30-131: what is displayed. *)
Record info_output := mkInfoOut {
  io_block : signing_block;      (* location, size and the kinds of the values *)
  io_v2 : vres;                  (* the V2 certificate details *)
  io_stamp : option verify_result (* the stamp certificate details *) }.
(** src/cli/info.rs:20-133 [execute]. *)
Definition cli_info (p : profile) (C : crypto) (K : pki) (builtin : bytes) (now : option N)
    (s : fs) (file : path) : res info_output :=
  do f <- of_option (ECli 15) (fs_read s file);
  do b <- from_reader p f (len f) 0;
  let roots := roots_with_builtin K builtin in
  Ok (mkInfoOut b (verify_v2_with_digest C K now roots b None)
        (match verify_source_stamp C K now roots b with
         | VOk r => if vr_signature_valid r then Some r else None
         | VErr _ => None
         end)).

(** * digest *)

(** src/cli/digest.rs:167-169 [hex_encode] ([{:02x}]), as ASCII bytes. *)
Definition hex_digit (n : N) : byte := b8 (if n <? 10 then 48 + n else 87 + n).
Definition hex_encode (d : bytes) : bytes :=
  flat_map (fun b => [hex_digit (Byte.to_N b / 16); hex_digit (Byte.to_N b mod 16)]) d.

(** src/cli/digest.rs:134. *)
Definition BUFFER_SIZE : N := 65536.

(** src/cli/digest.rs:142-151: copy [remaining] bytes from position [pos] of the file
    [inp] to the end of the file [out].  Every piece is read from the file as it
    is then.  The fuel bounds the number of pieces; it is never used up
    (CliFacts.v). *)
Fixpoint copy_pieces (fuel : nat) (s : fs) (inp out : N) (pos remaining : N)
  : list step * res unit :=
  if remaining =? 0 then ([], Ok tt)
  else
    match fuel with
    | O => ([], Err EFuel)
    | S fuel' =>
        let n := N.min remaining BUFFER_SIZE in
        match read_exact_at (now_content (fs_data s inp)) pos n with
        | Err e => ([], Err e)
        | Panic => ([], Panic)
        | Ok b =>
            let x := Append out b in
            let '(l, r) := copy_pieces fuel' (apply s x) inp out (pos + n) (remaining - n) in
            (x :: l, r)
        end
    end.
Definition copy_fuel (s : fs) (inp : N) (size : N) : nat :=
  N.to_nat (N.min size (len (now_content (fs_data s inp))) / BUFFER_SIZE + 2).

(** src/cli/digest.rs:138-153: the regions, one after the other. *)
Fixpoint copy_regions (p : profile) (s : fs) (inp out : N) (l : list region) (total : N)
  : list step * res unit :=
  match l with
  | [] => ([], Ok tt)
  | g :: l =>
      match seek (rg_offset g) with
      | Ok _ =>
          let '(w, r) := copy_pieces (copy_fuel s inp (rg_size g)) s inp out (rg_offset g) (rg_size g) in
          match (do _ <- r; uadd p total (rg_size g)) with
          | Ok total =>
              let '(w', r') := copy_regions p (run s w) inp out l total in
              (w ++ w', r')
          | Err e => (w, Err e)
          | Panic => (w, Panic)
          end
      | Err e => ([], Err e)
      | Panic => ([], Panic)
      end
  end.

(** src/cli/digest.rs:125-164 [dump_regions]. *)
Definition dump_regions (p : profile) (s : fs) (input output : path) (l : list region)
  : list step * res unit :=
  match fs_read s input with
  | None => ([], Err (ECli 1))
  | Some _ =>
      if fs_can_create s output then
        let out := fs_file s output in
        let s1 := apply s (Truncate out) in
        let '(w, r) := copy_regions p s1 (fs_file s input) out l 0 in
        (Truncate out :: w, r)
      else ([], Err (ECli 6))
  end.

(** src/cli/digest.rs:13-50 [DigestArgs], [OutputFormat]. *)
Inductive output_format := Hex | Base64.
Record digest_args := mkDigestArgs {
  da_input : path; da_sha512 : bool; da_dump : option path; da_sections : list rstring;
  da_format : output_format }.

(** src/cli/digest.rs:80-87 [total_size += region.size]. *)
Fixpoint total_size (p : profile) (l : list region) (acc : N) : res N :=
  match l with
  | [] => Ok acc
  | g :: l => do acc <- uadd p acc (rg_size g); total_size p l acc
  end.

(** src/cli/digest.rs:53-122 [execute]: effects and, if there is one, the printed
    digest.  [base64] is the base64 crate's standard encoding. *)
Definition cli_digest (p : profile) (C : crypto) (rest : bytes -> bool) (base64 : bytes -> bytes)
    (ds : algorithms -> nat -> nat -> N) (s : fs) (a : digest_args)
  : list step * res (option bytes) :=
  let file := fs_read s (da_input a) in
  match (do x <- signable_open rest file;
         do x <- choose_sections x (da_sections a);
         do l <- signable_regions p rest x file;
         do _ <- total_size p l 0;
         Ok (x, l)) with
  | Err e => ([], Err e)
  | Panic => ([], Panic)
  | Ok (x, l) =>
      match da_dump a with
      | Some out =>
          let '(w, r) := dump_regions p s (da_input a) out l in
          (w, do _ <- r; Ok None)
      | None =>
          let algo := if da_sha512 a then ECDSA_SHA2_512 else ECDSA_SHA2_256 in
          ([], do d <- signable_digest p C rest ds x file algo;
               Ok (Some (match da_format a with Hex => hex_encode d | Base64 => base64 d end)))
      end
  end.
