(** Spec.v - vocabulary of the property statements about the signing block
    (C01-C14).  Only definitions; no model helper is used. *)
From Verif Require Import Base Utils SigningBlock.

(** [u8] is a [k]-byte little-endian count followed by that many bytes. *)
Definition declares (k : nat) (size : N) (u8 : bytes) : Prop :=
  exists body, u8 = le k size ++ body /\ len body = size.

(** [p] reads [x] back from the bytes [u8] wherever they stand in the data and
    stops right after them. *)
Definition reads_back {A} (p : reader -> res (A * reader)) (u8 : bytes) (x : A) : Prop :=
  forall pre post, len (pre ++ u8 ++ post) < U64 ->
  p (mkReader (pre ++ u8 ++ post) (len pre)) =
    Ok (x, mkReader (pre ++ u8 ++ post) (len pre + len u8)).

(** How many bytes are missing to the next multiple of 4096. *)
Definition pad_bytes (n : N) : N := (4096 - n mod 4096) mod 4096.

(** All size fields of a block are consistent: both sizes agree, they count
    everything but the first size field, the value sizes (each with its 8-byte
    length field) add up, everything is within 16 KiB. *)
Definition accounted (b : signing_block) : Prop :=
  bk_size_start b = bk_size_end b /\ bk_magic b = MAGIC /\
  bk_size_start b <= MAX_SIGNING_BLOCK_SIZE /\
  bk_end b = bk_start b + 8 + bk_size_start b /\
  bk_size_start b = bk_content_size b + 24 /\
  bk_content_size b = fold_right (fun v acc => 8 + value_inner_size v + acc) 0 (bk_content b) /\
  Forall (fun v => 4 <= value_inner_size v <= MAX_PAIR_SIZE) (bk_content b).

(** A signing block made with one of the two constructors from well-typed
    values. *)
From Verif Require Import Built.
Definition built_block (b : signing_block) : Prop :=
  exists l, Forall built_value l /\
  (block_new l = Ok b \/ exists p, block_new_with_padding p l = Ok b).
