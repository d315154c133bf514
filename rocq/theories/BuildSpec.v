(** BuildSpec.v - vocabulary of C89: the same program in another build, and the
    situations in which "sign" stops. *)
From Verif Require Import Base Algorithms SigningBlock Zip Digest Module Signable Signer Elf Cli Main MainSpec.
Open Scope N_scope.

(** The same world, with the program built with ([Debug]) or without ([Release])
    overflow checks and debug assertions. *)
Definition pick_build (p : profile) (W : world) : world :=
  mkWorld p (w_crypto W) (w_keys W) (w_pki W) (w_base64 W) (w_rest W) (w_builtin W) (w_clock W) (w_reads W).

(** What "sign" has gathered when it builds the block: the signer, the bytes of the
    input, the opened file and the digests. *)
Definition gathered (p : profile) (W : world) (s : fs) (a : sign_args) (signer : module_signer) (f : bytes) (y : signable)
    (pairs : list (algorithms * bytes)) : Prop :=
  cli_signer (w_keys W) s a = Ok signer /\ fs_read s (sa_input a) = Some f /\
  (exists x, signable_open (w_rest W) (Some f) = Ok x /\ choose_sections x (sa_sections a) = Ok y) /\
  (exists l, signable_regions p (w_rest W) y (Some f) = Ok l) /\
  cli_digests p (w_crypto W) (w_rest W) (w_reads W) y (Some f) (required_algorithms signer) = Ok pairs.

(** The input is a module on which a debug build stops (MainSpec.v), and "sign" comes
    to open it. *)
Definition early_stop (W : world) (s : fs) (a : sign_args) : Prop :=
  exists signer f x m, cli_signer (w_keys W) s a = Ok signer /\ fs_read s (sa_input a) = Some f /\
    signable_open (w_rest W) (Some f) = Ok x /\ choose_sections x (sa_sections a) = Ok (SModule m) /\
    (stops_block f \/ stops_signed f \/ stops_unsigned f).
(** "sign" gathers everything, and 1 to 11 bytes are missing to a multiple of 4096:
    too few for a padding entry ([C89_gap]). *)
Definition gap_stop (W : world) (s : fs) (a : sign_args) : Prop :=
  exists signer f y pairs, gathered Release W s a signer f y pairs /\
    ms_sign Release (w_crypto W) (w_clock W) signer (digests_of_pairs pairs) = Err EPaddingGap.

(** The block that "sign" is about to write, with the opened file. *)
Definition sign_block (p : profile) (W : world) (s : fs) (a : sign_args) : res (signable * signing_block) :=
  cli_sign_block p (w_crypto W) (w_keys W) (w_rest W) (w_clock W) (w_reads W) s a.
(** The output is an ELF file, can be created, and the writer runs out of address space (C68). *)
Definition writer_stop (W : world) (s : fs) (a : sign_args) : Prop :=
  exists g b, sign_block (w_profile W) W s a = Ok (SElf g, b) /\ fs_can_create s (sa_output a) = true /\
    elf_write_with_signature (w_rest W) g b = Panic.
