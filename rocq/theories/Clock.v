(** Clock.v - model of verification while the clock runs: src/verifier.rs reads the
    clock anew for every certificate chain (src/verifier.rs:461-466), where Verifier.v
    takes one reading for all.  [clk n] is the reading for the chain of the [n]-th V2
    signer of the block (one per signer, whether or not it is needed), [clk_stamp] the
    one for the stamp. *)
From Verif Require Import Base Utils Algorithms Common SchemeV2 SourceStamp ElfInfo SigningBlock Zip Digest Module Signable Signer Verifier ModuleVerify Keystore Elf Cli.
Open Scope N_scope.

(** [signers_data.iter().enumerate()] (src/verifier.rs:680). *)
Fixpoint verify_v2_signers_t C K (clk : nat -> option N) roots ctx (n : nat) (idx : N) (l : list signer) : list signer_result :=
  match l with
  | [] => []
  | s :: l =>
      verify_v2_signer C K (clk n) roots ctx idx s ::
      verify_v2_signers_t C K clk roots ctx (S n) (idx + 1) l
  end.

(** src/verifier.rs:677-792: all V2 blocks. *)
Fixpoint v2_results_t C K clk roots ctx (n : nat) (content : list value) : list signer_result :=
  match content with
  | [] => []
  | V2Block v2 :: rest =>
      verify_v2_signers_t C K clk roots ctx n 0 (sns_data (v2_signers v2)) ++
      v2_results_t C K clk roots ctx (n + length (sns_data (v2_signers v2))) rest
  | _ :: rest => v2_results_t C K clk roots ctx n rest
  end.

(** src/verifier.rs:670-809 [verify_v2_with_digest]. *)
Definition verify_v2_t C K clk roots (b : signing_block) (ctx : option context) : vres :=
  verdict (v2_results_t C K clk roots ctx 0 (bk_content b)).

(** src/cli/verify.rs:27-332 [execute]; see Cli.v. *)
Definition cli_verify_t (p : profile) (C : crypto) (K : pki) (builtin : bytes) (clk : nat -> option N) (clk_stamp : option N)
    (ds : algorithms -> nat -> nat -> N) (s : fs) (file : path) (root : option path) : res unit :=
  do f <- of_option (ECli 15) (fs_read s file);
  let m := module_new f in
  do b <- map_err (fun _ => ECli 16) (m_get_signing_block p m f);
  do roots <- cli_roots K builtin s root;
  do ctx <- cli_add_digest p C ds m f ECDSA_SHA2_256 ctx_new;
  do ctx <- cli_add_digest p C ds m f ECDSA_SHA2_512 ctx;
  match ctx with
  | [] => Err (ECli 17)
  | _ =>
      cli_conclusion (verify_v2_t C K clk roots b (Some ctx))
                     (verify_source_stamp_with_digest C K clk_stamp roots b (Some ctx))
  end.

(** src/verifier.rs:987-996 [verify_all_with_digest]. *)
Definition verify_all_t C K clk clk_stamp roots (b : signing_block) (ctx : option context) : verify_all :=
  mkAll (verify_v2_t C K clk roots b ctx) (verify_source_stamp_with_digest C K clk_stamp roots b ctx).

(** src/file_formats/module/mod.rs:182-242 [verify_with_roots]; [verify_full]
    (114-171) is this with the built-in roots.  See ModuleVerify.v. *)
Definition m_verify_with_roots_t (p : profile) (C : crypto) (K : pki) (clk : nat -> option N) (clk_stamp : option N)
    (dsched : algorithms -> nat -> nat -> N) (m : module) (file : bytes) (roots : trusted_roots) : res verify_all :=
  match m_get_signing_block p m file with
  | Ok b =>
      do ctx <- fill_context p C dsched m file (digest_algos (bk_content b)) ctx_new;
      Ok (verify_all_t C K clk clk_stamp roots b (Some ctx))
  | Err e => Ok (mkAll (VErr (VInvalidSignature e)) (VErr VNoSignature))
  | Panic => Panic
  end.
