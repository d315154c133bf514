(** HistorySpec.v - vocabulary of C85: an ELF file signed any number of times. *)
From Verif Require Import Base Algorithms Utf8 Common SigningBlock Verifier VerifySpec Keystore Elf ElfSpec Cli CliSpec Wire.
Open Scope N_scope.

(** [history rest e start bs out]: [out] is what writing the blocks [bs] one after
    the other makes of [start], a file parsed as [e].  Every file on the way passes
    the parser's other checks and fits its class; which sections are configured is
    immaterial. *)
Inductive history (rest : bytes -> bool) (e : elf) (start : bytes) : list signing_block -> bytes -> Prop :=
| fresh : history rest e start [] start
| again : forall bs before names b out, history rest e start bs before ->
    elf_write_with_signature rest (mkElfFile before names) b = Ok out ->
    fits_class e (len out) -> rest out = true -> history rest e start (bs ++ [b]) out.

Definition total (bs : list signing_block) : N := fold_right (fun b n => len (block_to_u8 b) + n) 0 bs.

(** [sign] run [n] times on a file in place, successfully: each run may have
    other keys, sections, clock and build; the files made pass the parser's other
    checks and fit the class of the first file. *)
Inductive signed_in_place (rest : bytes -> bool) (e : elf) (file : path) (s0 : fs) : nat -> fs -> Prop :=
| not_yet : signed_in_place rest e file s0 0 s0
| one_more : forall n s p C L clk ds a steps out, signed_in_place rest e file s0 n s ->
    crypto_ok C -> Forall scalars (sa_sections a) -> sa_input a = file -> sa_output a = file ->
    cli_sign p C L rest clk ds s a = (steps, Ok tt) ->
    fs_read (run s steps) file = Some out -> fits_class e (len out) -> rest out = true ->
    signed_in_place rest e file s0 (S n) (run s steps).
