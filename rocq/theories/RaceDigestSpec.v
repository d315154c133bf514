(** RaceDigestSpec.v - what a dump is that was taken while the file changed. *)
From Verif Require Import Base Signable Cli CliSpec.
Open Scope N_scope.

(** The number of pieces of 64 KiB in which [n] bytes are read. *)
Definition pieces_in (n : N) : N := (n + 65535) / 65536.
Definition pieces_before (l : list region) : N := fold_right (fun g n => pieces_in (rg_size g) + n) 0 l.

(** [w] are the regions [l], one after the other, with each piece taken from what
    the file was when this piece was read: piece number [i] from [content i]. *)
Definition torn (content : nat -> bytes) (l : list region) (w : bytes) : Prop :=
  len w = sizes l /\
  forall l1 g l2 j, l = l1 ++ g :: l2 -> j < rg_size g ->
    exists b, nth_error w (N.to_nat (sizes l1 + j)) = Some b /\
      nth_error (content (N.to_nat (pieces_before l1 + j / 65536))) (N.to_nat (rg_offset g + j)) = Some b.
