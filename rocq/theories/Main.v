(** Main.v - the program: /repo/src/main.rs and /repo/src/cli/mod.rs.

    Not modelled: the parser of the arguments (clap), which exits with 2 before a
    command starts, and the wording of the line "Error: ..." that is printed with
    exit status 1 (main.rs:9). *)
From Verif Require Import Base Algorithms Verifier Keystore Signable Elf Cli.
Open Scope N_scope.

(** What the program is linked with and finds around it, apart from the file
    system: build profile, the libraries, goblin's further checks, the built-in
    root certificate, the clock and how reads return data. *)
Record world := mkWorld {
  w_profile : profile; w_crypto : crypto; w_keys : keylib; w_pki : pki; w_base64 : bytes -> bytes;
  w_rest : bytes -> bool; w_builtin : bytes; w_clock : option N; w_reads : algorithms -> nat -> nat -> N }.

(** src/cli/mod.rs:27-44 [Commands]; --verbose of verify only concerns the output. *)
Inductive command :=
| CSign (a : sign_args) | CVerify (file : path) (root : option path) | CInfo (file : path) | CDigest (a : digest_args).

(** src/cli/mod.rs:53-61 [Cli::execute]. *)
Definition execute (W : world) (s : fs) (c : command) : list step * res unit :=
  match c with
  | CSign a => cli_sign (w_profile W) (w_crypto W) (w_keys W) (w_rest W) (w_clock W) (w_reads W) s a
  | CVerify file root =>
      ([], cli_verify (w_profile W) (w_crypto W) (w_pki W) (w_builtin W) (w_clock W) (w_reads W) s file root)
  | CInfo file =>
      ([], do _ <- cli_info (w_profile W) (w_crypto W) (w_pki W) (w_builtin W) (w_clock W) s file; Ok tt)
  | CDigest a =>
      let '(l, r) := cli_digest (w_profile W) (w_crypto W) (w_rest W) (w_base64 W) (w_reads W) s a in
      (l, do _ <- r; Ok tt)
  end.

(** src/main.rs:5-12: 1 after an error; Rust's 101 after a panic. *)
Definition exit_status (r : res unit) : N := match r with Ok _ => 0 | Err _ => 1 | Panic => 101 end.
Definition program (W : world) (s : fs) (c : command) : list step * N :=
  let '(l, r) := execute W s c in (l, exit_status r).
