(** FindSpec.v - which bytes of a file are its signing block (C69), and archives
    with a gap after the block (C70).  Uses the grammar of Wire.v; no parser, no
    search. *)
From Verif Require Import Base SigningBlock Wire ZipSpec.
Open Scope N_scope.

(** [raw] stands in [f] after [pre], ends at or before [lim], and no magic ends
    after it up to [lim]. *)
Definition ends_last (f : bytes) (lim : N) (pre raw post : bytes) : Prop :=
  f = pre ++ raw ++ post /\ len (pre ++ raw) <= lim /\
  forall x y, f = x ++ MAGIC ++ y -> len (x ++ MAGIC) <= lim -> len (x ++ MAGIC) <= len (pre ++ raw).

(** [b] is the block that the bytes [raw] at offset [start] denote; its size
    field is at most 16 KiB. *)
Definition denotes (b : signing_block) (start : N) (raw : bytes) : Prop :=
  W_block (bk_content b) raw /\ len raw <= 16 * 1024 + 8 /\
  bk_start b = start /\ bk_end b = start + len raw /\
  bk_size_start b + 8 = len raw /\ bk_size_end b = bk_size_start b /\
  bk_content_size b + 32 = len raw /\ bk_magic b = MAGIC.

(** No bytes ending at the end of [x] are a signing block. *)
Definition no_block_ends (x : bytes) : Prop :=
  forall l pre raw, x = pre ++ raw -> len raw <= 16 * 1024 + 8 -> ~ W_block l raw.

(** The archive [z] with [gap] appended to what precedes the directory. *)
Definition with_gap (z : zip) (gap : bytes) : zip :=
  mkZip (z_entries z ++ gap) (z_cd z) (z_head z) (z_comment z).
