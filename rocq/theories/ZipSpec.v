(** ZipSpec.v - archives, as lists of bytes.  Vocabulary of the properties
    about modules; independent of the code that searches and rewrites them. *)
From Verif Require Import Base SigningBlock Zip.

(** There is an end record at offset [o], and its comment fits in the file. *)
Definition record_at (file : bytes) (o : N) : Prop :=
  exists pre body comment post,
  file = pre ++ EOCD_SIG ++ body ++ le 2 (len comment) ++ comment ++ post /\
  len pre = o /\ len body = 16 /\ len comment < U16.

(** The record at [o] is within the last 65557 = 22 + 65535 bytes and there is
    no record after it. *)
Definition last_record (file : bytes) (o : N) : Prop :=
  record_at file o /\ len file <= o + 65557 /\ forall o', o < o' -> ~ record_at file o'.

(** An archive: what precedes the central directory, the central directory,
    the 12 bytes of the end record between its signature and the directory
    offset, and the comment. *)
Record zip := mkZip { z_entries : bytes; z_cd : bytes; z_head : bytes; z_comment : bytes }.

Definition end_record (z : zip) (cd_offset : N) : bytes :=
  EOCD_SIG ++ z_head z ++ le 4 cd_offset ++ le 2 (len (z_comment z)) ++ z_comment z.

(** The archive with [block] inserted before the central directory (nothing
    after the end record).  [with_block z []] is the unsigned archive. *)
Definition with_block (z : zip) (block : bytes) : bytes :=
  z_entries z ++ block ++ z_cd z ++ end_record z (len (z_entries z) + len block).
Definition plain (z : zip) : bytes := with_block z [].

(** No end record hides inside the end record. *)
Definition only_record (r : bytes) : Prop := forall o, 0 < o -> ~ record_at r o.

(** [with_block z block] is an archive whose fields have the right sizes and
    whose end record is the last one. *)
Definition zip_ok (z : zip) (block : bytes) : Prop :=
  len (z_head z) = 12 /\ len (z_comment z) < U16 /\
  len (z_entries z) + len block < U32 /\
  only_record (end_record z (len (z_entries z) + len block)).

(** Nothing that looks like the end of a signing block stands before the
    central directory: no magic with at least 8 bytes before it in the last
    16 MiB of [entries]. *)
Definition no_block_magic (entries : bytes) : Prop :=
  forall a b, entries = a ++ MAGIC ++ b ->
  len a < 8 + (len entries - N.min (len entries) (16 * 1024 * 1024)).

(** ** The chunked digest *)
From Verif Require Import Algorithms Digest.

(** The signed archive has a size that file offsets can express. *)
Definition zip_small (z : zip) (blk : bytes) : Prop := len (with_block z blk) < 2 ^ 63.

(** At least one local file header's worth of bytes, and no block. *)
Definition unsigned (z : zip) : Prop := 24 <= len (z_entries z) /\ no_block_magic (z_entries z).

(** Reads that always fill the 1 MiB buffer when there is enough data. *)
Definition fills (sched : nat -> nat -> N) : Prop := forall i k, 1024 * 1024 <= sched i k.

(** [cs] is [data] cut into pieces of exactly 1 MiB, the last one possibly
    shorter but not empty. *)
Inductive splits : bytes -> list bytes -> Prop :=
| splits_nil : splits [] []
| splits_last d : 0 < len d -> len d <= 1024 * 1024 -> splits d [d]
| splits_more c d cs : len c = 1024 * 1024 -> 0 < len d -> splits d cs -> splits (c ++ d) (c :: cs).

(** The two-level digest of a list of chunks. *)
Definition tree_digest (H : bytes -> bytes) (cs : list bytes) : bytes :=
  H ([x5a] ++ le 4 (len cs) ++ concat (map (fun c => H ([xa5] ++ le 4 (len c) ++ c)) cs)).

(** [d] is the digest of a module with the given entries, central directory
    and end record. *)
Definition is_digest (H : bytes -> bytes) (entries cd record d : bytes) : Prop :=
  exists c1 c2 c3, splits entries c1 /\ splits cd c2 /\ splits record c3 /\
  d = tree_digest H (c1 ++ c2 ++ c3).

(** The messages that are hashed to compute [tree_digest H cs]: the list of the
    chunks' hashes, and every chunk. *)
Definition tree_messages (H : bytes -> bytes) (cs : list bytes) : list bytes :=
  ([x5a] ++ le 4 (len cs) ++ concat (map (fun c => H ([xa5] ++ le 4 (len c) ++ c)) cs)) ::
  map (fun c => [xa5] ++ le 4 (len c) ++ c) cs.

(** Two different messages with the same hash, one from each list.  (Among all
    messages there are always such pairs; what matters is that they are found
    among the ones the two computations hash.) *)
Definition clash (H : bytes -> bytes) (m1 m2 : list bytes) : Prop :=
  exists x y, In x m1 /\ In y m2 /\ x <> y /\ H x = H y.

(** [ms] are the messages hashed to compute the digest of a module with the
    given entries, central directory and end record. *)
Definition digest_messages (H : bytes -> bytes) (entries cd record : bytes) (ms : list bytes) : Prop :=
  exists c1 c2 c3, splits entries c1 /\ splits cd c2 /\ splits record c3 /\
  ms = tree_messages H (c1 ++ c2 ++ c3).

(** The archive [z] carrying [block], with [off] as the directory offset of
    its end record. *)
Definition with_offset (z : zip) (block : bytes) (off : N) : bytes :=
  z_entries z ++ block ++ z_cd z ++ end_record z off.
